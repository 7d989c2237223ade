(** C121: config init, descriptor-set and break descriptor-set that are killed, for the whole program. *)
From Verif Require Import Crash_Proofs.
From Verif Require Import GoStrFacts GoPathFacts Settings_Spec File_Spec Exec_Spec Exec_Proofs Exec_Proofs3 Cmd_Spec PackageCmd_Spec PackageCmd_Proofs Main_Model Main_Spec Main_Spec2 Main_Spec3 Main_Spec4
  Main_Proofs Main_Proofs2 Main_Proofs6 Main_Proofs7 Props_Main Props_Main2 Props_Main3 Props_Main4 Props_Main5 Props_Main8 Props_Main10 Props_Main11 Props_Main12 Props_Main13 Props_Main15.
From Verif Require Props_Main19.

(** The file that the command line names, or that is made for it. *)
Definition goes_to (w : world) (disk : string -> result string) (cwd : string) (c : command) (items : list item) (args : list string) (p : string) : Prop :=
  (c_words c = ["config"; "init"] /\ p = config_file cwd args /\ ~ is_at w disk p) \/
  (c_words c = ["break"; "descriptor-set"] /\ p = text items "output-path" /\ p <> "") \/
  (c_words c = ["descriptor-set"] /\ p = text items "output-path" /\ p <> "" /\ on items "tmp" = false) \/
  (c_words c = ["descriptor-set"] /\ text items "output-path" = "" /\ on items "tmp" = true /\ w_temp_file w = Ok p).

(** At most one file is written, and that one is in [P]. *)
Definition one {A} (P : string -> Prop) (c : cmd A) : Prop := forall s, exists es, io_done (fst (c s)) = io_done s ++ es /\
  (written es = [] \/ exists p d, written es = [(p, d)] /\ P p).
Lemma quiet_one {A} P (c : cmd A) : quiet c -> one P c.
Proof. intros Q s. destruct (Q s) as (es & o & -> & W). exists es. split; [reflexivity|now left]. Qed.
Lemma quiet_then_one {A B} P (c : cmd A) (k : A -> cmd B) : quiet c -> (forall a, one P (k a)) -> one P (and_then c k).
Proof.
  intros Q K s. destruct (Q s) as (es & o & E & W). unfold and_then. rewrite E. destruct o as [a|e|e]; [|exists es; split; [reflexivity|now left]..].
  destruct (K a (adds s es)) as (es' & E' & H). exists (es ++ es'). rewrite written_app, W. split; [rewrite E'; cbn [adds io_done]; now rewrite app_assoc|exact H].
Qed.
Lemma one_then_quiet {A B} P (c : cmd A) (k : A -> cmd B) : one P c -> (forall a, quiet (k a)) -> one P (and_then c k).
Proof.
  intros O K s. destruct (O s) as (es & E & H). unfold and_then. destruct (c s) as [s1 o] eqn:C. cbn [fst] in E. destruct o as [a|e|e]; [|exists es; split; [exact E|exact H]..].
  destruct (K a s1) as (es' & o & E' & W). exists (es ++ es'). rewrite written_app, W, app_nil_r, E'. split; [cbn [fst adds io_done]; now rewrite E, app_assoc|exact H].
Qed.
Lemma write_one (P : string -> Prop) e p d : P p -> one P (write_file e p d).
Proof. intros Hp s. exists [Wrote p d]. unfold write_file. split; [destruct (e p d) as [[? ?]|]; reflexivity|]. right. exists p, d. auto. Qed.
Lemma quiet_print t : quiet (print t).
Proof. intros s. exists [Printed t], (Value tt). split; reflexivity. Qed.
Lemma quiet_println t : quiet (println t).
Proof. intros s. rewrite println_adds. eexists. eexists. split; [reflexivity|]. destruct (is_empty t); reflexivity. Qed.
Lemma quiet_meta a b c d : quiet (get_meta a b c d).
Proof. intros s. destruct (Exec_Proofs.get_meta_pure a b c d) as (o & E & _). exists [], o. rewrite E, adds_nil. split; reflexivity. Qed.
Lemma quiet_do_compile cwd f j tj D compiler gen set x m : quiet (do_compile cwd f j tj D compiler gen set x m).
Proof.
  unfold do_compile. apply quiet_then; [intros s; exists [Compiled gen], (Value tt); split; reflexivity|]. intros _. apply quiet_then; [intros s; apply quiet_check|].
  intros y. apply quiet_then; [apply quiet_report|]. intros _. apply quiet_ret.
Qed.
Lemma set_one (P : string -> Prop) wd a f j tj st g comp sh ma tp we tf args ii is out tmp :
  (out <> "" -> tmp = false -> P out) -> (forall p, out = "" -> tmp = true -> tf = Ok p -> P p) ->
  one P (PackageCmd_Model.descriptor_set wd a f j tj st g comp sh ma tp we tf args ii is out tmp).
Proof.
  intros P1 P2. unfold PackageCmd_Model.descriptor_set. destruct (negb (is_empty out) && tmp) eqn:Both; [apply quiet_one; intros s; exists [], (Exit "can only set one of output-path, tmp"); rewrite adds_nil; split; reflexivity|].
  apply quiet_then_one; [apply quiet_meta|]. intros m. apply quiet_then_one; [apply quiet_do_compile|]. intros sets. apply quiet_then_one; [apply quiet_check|]. intros merged. apply quiet_then_one; [apply quiet_check|]. intros data.
  destruct (is_empty out) eqn:Eo; cbn [negb andb] in *.
  - destruct tmp; cbn [negb]; [|apply quiet_one, quiet_print]. destruct tf as [p|e] eqn:Tf; [|apply quiet_one; intros s; exists [], (Fail e); rewrite adds_nil; split; reflexivity].
    assert (X : one P (write_file we p data ;; println p)); [|intros s; exact (X s)]. apply one_then_quiet; [apply write_one; now apply P2; [apply is_empty_true| |]|]. intros _. apply quiet_println.
  - apply write_one. apply is_empty_false in Eo. apply P1; [exact Eo|]. now destruct tmp.
Qed.

(** Whatever the status, and at whatever moment the program is killed: only the file that is
    named can be affected, and it holds what it did, or a beginning of what is written to it. config
    init touches no file that is there. *)
Theorem C121_killed : forall w cwd args l c items s s2 z es now, ordinary w cwd ->
  means (w_read_csv w) l c items args -> In (c_words c) [["config"; "init"]; ["descriptor-set"]; ["break"; "descriptor-set"]] ->
  main w l s = (s2, z) -> io_done s2 = io_done s ++ es -> killed (io_disk s) (written es) now ->
  (forall q, now q = io_disk s q) \/
  exists p whole, goes_to w (io_disk s) cwd c items args p /\ written es = [(p, whole)] /\ (forall q, q <> p -> now q = io_disk s q) /\
    exists part lost, whole = part +++ lost /\ now p = Ok part.
Proof.
  intros w cwd args l c items s s2 z es now (V & G & Wd & Cl & Nm & St) M W E Es K.
  destruct (line_is w l c items args G M) as (k & Ak & L). rewrite L in E. clear L.
  assert (X : exists es0, io_done s2 = io_done s ++ es0 /\ (written es0 = [] \/ exists p d, written es0 = [(p, d)] /\ goes_to w (io_disk s) cwd c items args p)).
  { destruct (the_options w items) as [r|m] eqn:Or.
    2:{ rewrite no_options in E. injection E as <- _. rewrite println_adds. eexists. split; [reflexivity|]. left. now destruct (is_empty m). }
    rewrite with_options in E. pose proof (Props_Main19.options_here w _ items r Wd Or) as Hr.
    assert (Y : forall s' o, method w r k s = (s', o) -> exists es0, io_done s' = io_done s ++ es0 /\ (written es0 = [] \/ exists p d, written es0 = [(p, d)] /\ goes_to w (io_disk s) cwd c items args p)).
    { intros s' o. unfold asked in Ak. destruct W as [W|[W|[W|[]]]]; rewrite <- W in Ak; injection Ak as <-; intros H.
      - change (Init_Model.init (here r) (w_mkdir_all w) (fun p => match w_stat w p with Ok _ => true | Err _ => false end) (w_write_error w) default_protoc_version args (on items "uncomment") (on items "document") s = (s', o)) in H.
        rewrite Hr in H. apply init_run in H. cbv zeta in H. assert (Md : forall made, written (map MadeDir made) = []) by (induction made as [|x made IH]; [reflexivity|exact IH]).
        destruct H as [(made & m & -> & _)|(N & _ & _ & _ & Dn & _)]; [exists (map MadeDir made); split; [reflexivity|left; apply Md]|].
        eexists. split; [exact Dn|]. right. eexists. eexists. split; [rewrite written_app, Md; reflexivity|]. left. split; [now symmetry|]. split; [reflexivity|].
        intros [A|(kd & A)]; apply N; [now left|right; now rewrite A].
      - destruct (set_one (goes_to w (io_disk s) cwd c items args) (here r) (here r) (r_error_format r) (r_json r) Json_Model.failure_json (w_stat w) (provider w r (io_disk s)) (the_compiler w r) (w_sha256 w) (w_marshal w) (w_set_json w) (w_write_error w) (w_temp_file w)
          args (on items "include-imports") (on items "include-source-info") (text items "output-path") (on items "tmp")) with (s := s) as (es0 & E0 & H0).
        + intros No Nt. right. right. left. auto.
        + intros p No Nt Tf. right. right. right. auto.
        + exists es0. split; [|exact H0]. rewrite <- E0. change (PackageCmd_Model.descriptor_set (here r) (here r) (r_error_format r) (r_json r) Json_Model.failure_json (w_stat w) (provider w r (io_disk s)) (the_compiler w r) (w_sha256 w) (w_marshal w) (w_set_json w) (w_write_error w) (w_temp_file w)
          args (on items "include-imports") (on items "include-source-info") (text items "output-path") (on items "tmp") s = (s', o)) in H. now rewrite H.
      - change (PackageCmd_Model.break_descriptor_set (here r) (here r) (r_error_format r) (r_json r) Json_Model.failure_json (w_stat w) (provider w r (io_disk s)) (the_compiler w r) (w_sha256 w) (w_marshal w) (w_set_json w) (w_write_error w) (w_temp_file w)
          args (text items "output-path") s = (s', o)) in H. unfold PackageCmd_Model.break_descriptor_set in H. destruct (is_empty (text items "output-path")) eqn:Eo.
        { injection H as <- _. exists []. rewrite app_nil_r. split; [reflexivity|now left]. }
        apply is_empty_false in Eo.
        destruct (set_one (goes_to w (io_disk s) cwd c items args) (here r) (here r) (r_error_format r) (r_json r) Json_Model.failure_json (w_stat w) (provider w r (io_disk s)) (the_compiler w r) (w_sha256 w) (w_marshal w) (w_set_json w) (w_write_error w) (w_temp_file w)
          args true false (text items "output-path") false) with (s := s) as (es0 & E0 & H0); [right; left; auto|discriminate|].
        exists es0. split; [|exact H0]. rewrite <- E0. now rewrite H. }
    unfold process in E. destruct (method w r k s) as [s' o] eqn:H. destruct (Y s' o eq_refl) as (es0 & E0 & H0).
    assert (Z : forall e, s2 = fst (println e s') -> exists es1, io_done s2 = io_done s ++ es1 /\ (written es1 = [] \/ exists p d, written es1 = [(p, d)] /\ goes_to w (io_disk s) cwd c items args p)).
    { intros e ->. rewrite println_adds. cbn [fst adds io_done]. rewrite E0, <- app_assoc. eexists. split; [reflexivity|]. rewrite written_app.
      match goal with |- context [_ ++ written ?t] => assert (T : written t = []) by now destruct (is_empty e) end. rewrite T, app_nil_r. exact H0. }
    destruct o as [a|e|e]; injection E as <- _; [exists es0; auto|now apply (Z e)..]. }
  destruct X as (es0 & E0 & H0). rewrite Es in E0. apply app_inv_head in E0. subst es0. destruct K as (dn & nx & rs & X & Ln & Kd & Kn & Kq). destruct H0 as [H0|(p & d & H0 & Gt)].
  - left. intros q. apply Kq. rewrite H0 in X. symmetry in X. apply app_eq_nil in X as (-> & X). apply app_eq_nil in X as (-> & _). intros [].
  - rewrite H0 in X. destruct dn as [|x dn].
    + destruct nx as [|x nx]; [left; intros q; apply Kq; intros []|]. right. cbn [app] in X. injection X as <- X. symmetry in X. apply app_eq_nil in X as (-> & _).
      exists p, d. split; [exact Gt|]. split; [exact H0|]. split; [intros q N; apply Kq; intros [Y|[]]; now apply N|]. apply Kn. now left.
    + right. cbn [app] in X. injection X as <- X. symmetry in X. apply app_eq_nil in X as (-> & X). apply app_eq_nil in X as (-> & _).
      exists p, d. split; [exact Gt|]. split; [exact H0|]. split; [intros q N; apply Kq; intros [Y|[]]; now apply N|]. exists d, "". rewrite sapp_nil_r. split; [reflexivity|]. apply Kd. now left.
Qed.
Print Assumptions C121_killed.

(** ** Example: a stored set is made anew, and the program is killed when the file is empty.  Read as
    a set, an empty file is the empty set. *)
Definition exw29_unmarshal (data : string) : result file_set := if String.eqb data "" then Ok [] else Props_PackageCmd.kx_unmarshal data.
Definition exw29 : world := mk_world "linux" "amd64" "go1.13" (fun v => if String.eqb v "HOME" then "/home" else "") (Ok "/w") (fun s => if String.eqb s "3s" then Ok 3%Z else Err "bad time")
  (fun s => Ok [s]) (fun _ => "usage") (fun _ => "help") (fun _ => "") (fun _ => "topic")
  (fun _ A l => l) exw12_stat exw12_node (fun _ => None) (fun _ _ => None) (fun _ => None) (Ok "/tmp/f") (Ok "/tmp/d") (fun _ => Err "not found")
  (fun _ _ => None) (fun _ => Err "no json") (fun _ => Ok exw10_config) (fun _ => Ok "")
  Settings_Proofs2.by_name (fun l => l) (fun l => l) (fun _ _ => Ok []) (fun s => s) (fun _ _ _ => Ok "")
  (fun _ => Ok tt) (fun s => s) (fun _ => NotExist) exw12_temp (fun _ _ => Protoc_Model.Ended "" Protoc_Model.NoError)
  exw12_set (fun n => rev (seq 0 n)) (fun _ n => n) (fun s => s) Props_PackageCmd.kx_marshal Props_PackageCmd.kx_jsonpb exw29_unmarshal
  (fun _ => Ok tt) (fun _ => Ok tt) (fun _ => Ok tt) (fun _ => Ok tt) (fun _ => Ok tt) (fun _ _ => ([], None)).
Lemma exw29_ordinary : ordinary exw29 "/w".
Proof.
  destruct (exw12_ordinary true) as (V & G & Wd & Cl & Nm & St). split; [exact V|]. split; [exact G|]. split; [reflexivity|]. split; [exact Cl|]. split; [exact Nm|intros k; discriminate].
Qed.
Definition exw29_s : io := mk_io (fun p => if String.eqb p "old.bin" then Ok "a set" else io_disk exw8_s p) [].
Definition exw29_line : list string := ["break"; "descriptor-set"; "--output-path"; "old.bin"].
Definition exw29_items : list item := [Given "output-path" LongSpace "old.bin"].
Definition exw29_now : string -> result string := fun p => if String.eqb p "old.bin" then Ok "" else io_disk exw8_s p.
Definition exw29_done : list event := Eval vm_compute in io_done (fst (main exw29 exw29_line exw29_s)).
Lemma exw29_killed : killed (io_disk exw29_s) (written exw29_done) exw29_now.
Proof.
  exists [], [("old.bin", "a set")], []. split; [reflexivity|]. split; [apply le_n|]. split; [intros q data []|]. split.
  - intros q data [[= <- <-]|[]]. exists "", "a set". split; reflexivity.
  - intros q N. unfold exw29_now. cbn [exw29_s io_disk]. destruct (String.eqb_spec q "old.bin"); [|reflexivity]. exfalso. apply N. left. now symmetry.
Qed.
Lemma exw29_means : means (w_read_csv exw29) exw29_line (exw_command ["break"; "descriptor-set"]) exw29_items [].
Proof. exact (proj1 (proj2 C97_ex)). Qed.
Example C121_killed_ex : ordinary exw29 "/w" /\ means (w_read_csv exw29) exw29_line (exw_command ["break"; "descriptor-set"]) exw29_items [] /\
  main exw29 exw29_line exw29_s = (fst (main exw29 exw29_line exw29_s), 0%Z) /\ io_done (fst (main exw29 exw29_line exw29_s)) = io_done exw29_s ++ exw29_done /\
  written exw29_done = [("old.bin", "a set")] /\ killed (io_disk exw29_s) (written exw29_done) exw29_now /\ exw29_now "old.bin" <> io_disk exw29_s "old.bin".
Proof.
  split; [exact exw29_ordinary|]. split; [exact exw29_means|]. split; [vm_compute; reflexivity|]. split; [vm_compute; reflexivity|]. split; [reflexivity|]. split; [exact exw29_killed|vm_compute; discriminate].
Qed.

(** ** What a later break check makes of it *)
Definition holding (disk : string -> result string) (p : string) (x : result string) : io := mk_io (fun q => if String.eqb q p then x else disk q) [].
(** Claimed: after break descriptor-set was killed while it wrote a file, a break check against that file
    passes only if it would with what the file held before, or with what was being written to it. The
    code has no such guard: what is left of the file may be the set of no files at all, against which every
    change is allowed. *)
Theorem C121_baseline_refuted : ~ (forall w cwd args l c items s s2 es now dl d di disk p, ordinary w cwd ->
  means (w_read_csv w) l c items args -> c_words c = ["break"; "descriptor-set"] -> text items "output-path" = p ->
  main w l s = (s2, 0%Z) -> io_done s2 = io_done s ++ es -> killed (io_disk s) (written es) now ->
  means (w_read_csv w) dl d di args -> c_words d = ["break"; "check"] -> text di "descriptor-set-path" = p ->
  snd (main w dl (holding disk p (now p))) = 0%Z ->
  snd (main w dl (holding disk p (io_disk s p))) = 0%Z \/ snd (main w dl (holding disk p (io_disk s2 p))) = 0%Z).
Proof.
  intros H.
  specialize (H exw29 "/w" [] exw29_line (exw_command ["break"; "descriptor-set"]) exw29_items exw29_s (fst (main exw29 exw29_line exw29_s)) exw29_done exw29_now
    ["break"; "check"; "--descriptor-set-path"; "old.bin"] (exw_command ["break"; "check"]) [Given "descriptor-set-path" LongSpace "old.bin"] (io_disk exw12_edited) "old.bin"
    exw29_ordinary exw29_means eq_refl eq_refl ltac:(vm_compute; reflexivity) ltac:(vm_compute; reflexivity) exw29_killed (proj1 C97_ex) eq_refl eq_refl ltac:(vm_compute; reflexivity)).
  vm_compute in H. destruct H as [H|H]; discriminate H.
Qed.
Print Assumptions C121_baseline_refuted.
