(** C122: descriptor-set and break descriptor-set that are killed are made good by running them again, for
    the whole program. *)
From Verif Require Import Crash_Proofs.
From Verif Require Import GoStrFacts GoPathFacts Settings_Spec File_Spec Exec_Spec Exec_Proofs Exec_Proofs3 Cmd_Spec PackageCmd_Spec PackageCmd_Proofs Main_Model Main_Spec Main_Spec2 Main_Spec3 Main_Spec4
  Main_Proofs Main_Proofs2 Main_Proofs6 Main_Proofs7 Props_Main Props_Main2 Props_Main3 Props_Main4 Props_Main5 Props_Main8 Props_Main10 Props_Main11 Props_Main12 Props_Main13 Props_Main15.
From Verif Require Import Props_Main19 Props_Main20 Local_Spec Props_Main22 Props_Main29.

(** What is in a file after something was written to it, possibly with an error. *)
Definition left_by (write_error : string -> string -> option (result string * string)) (p d : string) : result string :=
  match write_error p d with None => Ok d | Some (rest, _) => rest end.
(** At most one file is written, one in [P], and no other is changed. *)
Definition lands (we : string -> string -> option (result string * string)) (P : string -> Prop) (s s' : io) : Prop :=
  exists es, io_done s' = io_done s ++ es /\
  ((written es = [] /\ forall q, io_disk s' q = io_disk s q) \/
   exists p d, written es = [(p, d)] /\ P p /\ forall q, io_disk s' q = if String.eqb q p then left_by we p d else io_disk s q).
Definition landing {A} we P (c : cmd A) : Prop := forall s, lands we P s (fst (c s)).
Lemma lands_quiet we P s es : written es = [] -> lands we P s (adds s es).
Proof. intros W. exists es. split; [reflexivity|]. left. split; [exact W|reflexivity]. Qed.
Lemma lands_after we P s es s' : written es = [] -> lands we P (adds s es) s' -> lands we P s s'.
Proof.
  intros W (es' & D & H). exists (es ++ es'). rewrite written_app, W. split; [rewrite D; cbn [adds io_done]; now rewrite app_assoc|exact H].
Qed.
Lemma lands_before we P s es s' : written es = [] -> lands we P s s' -> lands we P s (adds s' es).
Proof.
  intros W (es' & D & H). exists (es' ++ es). rewrite written_app, W, app_nil_r. split; [cbn [adds io_done]; now rewrite D, app_assoc|exact H].
Qed.
Lemma quiet_landing {A} we P (c : cmd A) : quiet c -> landing we P c.
Proof. intros Q s. destruct (Q s) as (es & o & -> & W). now apply lands_quiet. Qed.
Lemma quiet_then_landing {A B} we P (c : cmd A) (k : A -> cmd B) : quiet c -> (forall a, landing we P (k a)) -> landing we P (and_then c k).
Proof.
  intros Q K s. destruct (Q s) as (es & o & E & W). unfold and_then. rewrite E. destruct o as [a|e|e]; [|now apply lands_quiet..].
  apply (lands_after we P s es); [exact W|apply K].
Qed.
Lemma landing_then_quiet {A B} we P (c : cmd A) (k : A -> cmd B) : landing we P c -> (forall a, quiet (k a)) -> landing we P (and_then c k).
Proof.
  intros O K s. pose proof (O s) as H. unfold and_then. destruct (c s) as [s1 o] eqn:C. cbn [fst] in H. destruct o as [a|e|e]; [|exact H..].
  destruct (K a s1) as (es' & o & E' & W). rewrite E'. now apply lands_before.
Qed.
Lemma write_landing we (P : string -> Prop) p d : P p -> landing we P (write_file we p d).
Proof.
  intros Hp s. exists [Wrote p d]. split; [unfold write_file; destruct (we p d) as [[? ?]|]; reflexivity|]. right. exists p, d. split; [reflexivity|]. split; [exact Hp|].
  intros q. unfold write_file, left_by. destruct (we p d) as [[? ?]|]; reflexivity.
Qed.
Lemma set_landing (P : string -> Prop) wd a f j tj st g comp sh ma tp we tf args ii is out tmp :
  (out <> "" -> tmp = false -> P out) -> (forall p, out = "" -> tmp = true -> tf = Ok p -> P p) ->
  landing we P (PackageCmd_Model.descriptor_set wd a f j tj st g comp sh ma tp we tf args ii is out tmp).
Proof.
  intros P1 P2. unfold PackageCmd_Model.descriptor_set. destruct (negb (is_empty out) && tmp) eqn:Both; [apply quiet_landing; intros s; exists [], (Exit "can only set one of output-path, tmp"); rewrite adds_nil; split; reflexivity|].
  apply quiet_then_landing; [apply quiet_meta|]. intros m. apply quiet_then_landing; [apply quiet_do_compile|]. intros sets. apply quiet_then_landing; [apply quiet_check|]. intros merged. apply quiet_then_landing; [apply quiet_check|]. intros data.
  destruct (is_empty out) eqn:Eo; cbn [negb andb] in *.
  - destruct tmp; cbn [negb]; [|apply quiet_landing, quiet_print]. destruct tf as [p|e] eqn:Tf; [|apply quiet_landing; intros s; exists [], (Fail e); rewrite adds_nil; split; reflexivity].
    assert (X : landing we P (write_file we p data ;; println p)); [|intros s; exact (X s)]. apply landing_then_quiet; [apply write_landing; now apply P2; [apply is_empty_true| |]|]. intros _. apply quiet_println.
  - apply write_landing. apply is_empty_false in Eo. apply P1; [exact Eo|]. now destruct tmp.
Qed.

(** The two commands, when they are not asked for a temporary file. *)
Definition makes_set (c : command) (items : list item) : Prop :=
  c_words c = ["break"; "descriptor-set"] \/ (c_words c = ["descriptor-set"] /\ on items "tmp" = false).
Lemma main_lands w l c items args s s2 z : w_goos w = "darwin" \/ w_goos w = "linux" -> means (w_read_csv w) l c items args -> makes_set c items ->
  main w l s = (s2, z) -> lands (w_write_error w) (fun p => p = text items "output-path" /\ p <> "") s s2.
Proof.
  intros G M W E. destruct (line_is w l c items args G M) as (k & Ak & L). rewrite L in E. clear L.
  destruct (the_options w items) as [r|m] eqn:Or.
  2:{ rewrite no_options in E. injection E as <- _. rewrite println_adds. apply lands_quiet. now destruct (is_empty m). }
  rewrite with_options in E.
  assert (Y : forall s' o, method w r k s = (s', o) -> lands (w_write_error w) (fun p => p = text items "output-path" /\ p <> "") s s').
  { intros s' o. unfold asked in Ak. destruct W as [W|(W & Nt)]; rewrite W in Ak; injection Ak as <-; intros H.
    - change (PackageCmd_Model.break_descriptor_set (here r) (here r) (r_error_format r) (r_json r) Json_Model.failure_json (w_stat w) (provider w r (io_disk s)) (the_compiler w r) (w_sha256 w) (w_marshal w) (w_set_json w) (w_write_error w) (w_temp_file w)
        args (text items "output-path") s = (s', o)) in H. unfold PackageCmd_Model.break_descriptor_set in H. destruct (is_empty (text items "output-path")) eqn:Eo.
      { injection H as <- _. rewrite <- (adds_nil s) at 2. now apply lands_quiet. }
      apply is_empty_false in Eo.
      pose proof (set_landing (fun p => p = text items "output-path" /\ p <> "") (here r) (here r) (r_error_format r) (r_json r) Json_Model.failure_json (w_stat w) (provider w r (io_disk s)) (the_compiler w r) (w_sha256 w) (w_marshal w) (w_set_json w) (w_write_error w) (w_temp_file w)
        args true false (text items "output-path") false (fun N _ => conj eq_refl N) ltac:(discriminate) s) as X. rewrite H in X. exact X.
    - change (PackageCmd_Model.descriptor_set (here r) (here r) (r_error_format r) (r_json r) Json_Model.failure_json (w_stat w) (provider w r (io_disk s)) (the_compiler w r) (w_sha256 w) (w_marshal w) (w_set_json w) (w_write_error w) (w_temp_file w)
        args (on items "include-imports") (on items "include-source-info") (text items "output-path") (on items "tmp") s = (s', o)) in H. rewrite Nt in H.
      pose proof (set_landing (fun p => p = text items "output-path" /\ p <> "") (here r) (here r) (r_error_format r) (r_json r) Json_Model.failure_json (w_stat w) (provider w r (io_disk s)) (the_compiler w r) (w_sha256 w) (w_marshal w) (w_set_json w) (w_write_error w) (w_temp_file w)
        args (on items "include-imports") (on items "include-source-info") (text items "output-path") false (fun N _ => conj eq_refl N) ltac:(discriminate) s) as X. rewrite H in X. exact X. }
  unfold process in E. destruct (method w r k s) as [s' o] eqn:H. pose proof (Y s' o eq_refl) as X.
  assert (Z : forall e, lands (w_write_error w) (fun p => p = text items "output-path" /\ p <> "") s (fst (println e s'))).
  { intros e. rewrite println_adds. cbn [fst]. apply lands_before; [now destruct (is_empty e)|exact X]. }
  destruct o as [a|e|e]; injection E as <- _; [exact X|apply Z..].
Qed.

(** Where the file that is written is none of those that matter, a line that was killed, at whatever
    moment and however it would have ended, is made good by running it again: it ends with the same status
    and does the same, and every file is then what it would be if the line had not been killed. The
    file may be in the tree by then, if it was not before. *)
Theorem C122_again : forall w stat node_at here l c items args s s1 z es now s2 z',
  ordinary w (abs_path here) -> ok_comps here -> (forall p, File_Spec.named (node_at p)) -> makes_set c items -> means (w_read_csv w) l c items args ->
  (forall cs, cs = here \/ on_the_way w here (Exec_Spec.target args) cs -> bare (w_node_at w (abs_path cs)) = bare (node_at (abs_path cs))) ->
  w_stat w (Exec_Spec.target args) = stat (Exec_Spec.target args) -> (text items "config-data" = "" -> forall p, config_name p -> w_stat w p = stat p) ->
  ~ matters w (text items "config-data") (io_disk s) (text items "output-path") -> protoc_looks_at w (matters w (text items "config-data") (io_disk s)) ->
  main w l s = (s1, z) -> io_done s1 = io_done s ++ es -> killed (io_disk s) (written es) now ->
  main (other_files w stat node_at) l (mk_io now (io_done s)) = (s2, z') ->
  z' = z /\ io_done s2 = io_done s1 /\ forall q, io_disk s2 q = io_disk s1 q.
Proof.
  intros w stat node_at here l c items args s s1 z es now s2 z' O Hh Nm W M Bw Et Ec Nx Pl E1 Es (dn & nx & rs & X & Ln & Kd & Kn & Kq) E2. pose proof O as (V & G & _).
  destruct (main_lands w l c items args s s1 z G M W E1) as (es1 & D1 & H1).
  pose proof (main_lands (other_files w stat node_at) l c items args (mk_io now (io_done s)) s2 z' G M W E2) as (es2 & D2 & H2). cbn [io_disk io_done] in D2, H2.
  assert (es1 = es) as -> by (rewrite Es in D1; now apply app_inv_head in D1).
  assert (Kp : forall q, ~ In q (map fst (written es)) -> now q = io_disk s q).
  { intros q N. apply Kq. intros I. apply N. rewrite X, app_assoc, map_app. apply in_or_app. now left. }
  assert (Km : forall p, matters w (text items "config-data") (io_disk s) p -> io_disk s p = now p).
  { intros p Mp. symmetry. apply Kp. destruct H1 as [(-> & _)|(p1 & d1 & -> & (-> & _) & _)]; [intros []|]. intros [Y|[]]. cbn [fst] in Y. subst p. now apply Nx. }
  assert (Lk : looks_for_files c items) by (right; destruct W as [W|(W & _)]; rewrite W; cbn; tauto).
  assert (Nc : c_words c <> ["break"; "check"]) by (destruct W as [W|(W & _)]; rewrite W; discriminate).
  destruct (C111_files w stat node_at here l c items args s (mk_io now (io_done s)) s1 z s2 z' O Hh Nm Lk M Bw Et Ec eq_refl Km (fun Y => False_ind _ (Nc Y)) Pl E1 E2) as (-> & Dd & _).
  split; [reflexivity|]. split; [now symmetry|]. intros q.
  assert (es2 = es) as -> by (rewrite <- Dd, Es in D2; now apply app_inv_head in D2).
  destruct H1 as [(W1 & Q1)|(p1 & d1 & W1 & _ & Q1)]; destruct H2 as [(W2 & Q2)|(p2 & d2 & W2 & _ & Q2)]; rewrite W1 in W2; try discriminate W2.
  - rewrite Q1, Q2. apply Kp. rewrite W1. intros [].
  - injection W2 as <- <-. rewrite Q1, Q2. change (w_write_error (other_files w stat node_at)) with (w_write_error w). destruct (String.eqb_spec q p1) as [|N]; [reflexivity|].
    apply Kp. rewrite W1. intros [Y|[]]. now apply N.
Qed.
Print Assumptions C122_again.

(** ** Example: the set is stored for the first time, in the directory with the files. *)
Definition exw30_stat (p : string) : result file_kind := if String.eqb p "/w/old.bin" then Ok Exec_Model.Regular else exw12_stat p.
Definition exw30_node (p : string) : node :=
  if String.eqb p "/w" then NDir [("a.proto", NFile); ("b", NDir [("bad.proto", NFile)]); ("old.bin", NFile); ("prototool.yaml", NFile)]
  else if String.eqb p "/w/old.bin" then NFile else exw12_node p.
Definition exw30_line : list string := ["break"; "descriptor-set"; "--output-path"; "/w/old.bin"].
Definition exw30_items : list item := [Given "output-path" LongSpace "/w/old.bin"].
Definition exw30_now : string -> result string := fun p => if String.eqb p "/w/old.bin" then Ok "a s" else io_disk exw8_s p.
Definition exw30_done : list event := Eval vm_compute in io_done (fst (main exw29 exw30_line exw8_s)).
Example C122_again_ex : ordinary exw29 (abs_path ["w"]) /\ ok_comps ["w"] /\ (forall p, File_Spec.named (exw30_node p)) /\ makes_set (exw_command ["break"; "descriptor-set"]) exw30_items /\
  means (w_read_csv exw29) exw30_line (exw_command ["break"; "descriptor-set"]) exw30_items [] /\
  (forall cs, cs = ["w"] \/ on_the_way exw29 ["w"] (Exec_Spec.target []) cs -> bare (w_node_at exw29 (abs_path cs)) = bare (exw30_node (abs_path cs))) /\
  w_stat exw29 (Exec_Spec.target []) = exw30_stat (Exec_Spec.target []) /\ (forall p, config_name p -> w_stat exw29 p = exw30_stat p) /\
  ~ matters exw29 "" (io_disk exw8_s) "/w/old.bin" /\ protoc_looks_at exw29 (matters exw29 "" (io_disk exw8_s)) /\
  main exw29 exw30_line exw8_s = (fst (main exw29 exw30_line exw8_s), 0%Z) /\ io_done (fst (main exw29 exw30_line exw8_s)) = io_done exw8_s ++ exw30_done /\
  killed (io_disk exw8_s) (written exw30_done) exw30_now /\ io_disk exw8_s "/w/old.bin" = Err "no such file" /\ exw30_now "/w/old.bin" = Ok "a s" /\
  io_disk (fst (main (other_files exw29 exw30_stat exw30_node) exw30_line (mk_io exw30_now (io_done exw8_s)))) "/w/old.bin" = Ok "a set".
Proof.
  split; [exact exw29_ordinary|]. split; [repeat constructor|]. split.
  { destruct exw29_ordinary as (_ & _ & _ & _ & Nm & _). intros p. unfold exw30_node. destruct (String.eqb p "/w"); [|destruct (String.eqb p "/w/old.bin"); [constructor|apply Nm]].
    constructor; [repeat constructor|repeat constructor; cbn; intuition discriminate|]. intros n c [[= <- <-]|[[= <- <-]|[[= <- <-]|[[= <- <-]|[]]]]]; try constructor; [repeat constructor|repeat constructor; cbn; intuition discriminate|]. intros n c [[= <- <-]|[]]; constructor. }
  split; [left; reflexivity|]. split; [means_now|]. split.
  { intros cs [->|(t & X)]; [reflexivity|]. change (["w"] = cs ++ t) in X. destruct cs as [|a [|b cs]]; cbn in X; try discriminate X; [reflexivity|]; injection X; intros; subst; reflexivity. }
  split; [reflexivity|]. split.
  { intros p [X|X]; unfold exw30_stat; destruct (String.eqb_spec p "/w/old.bin") as [->|]; try reflexivity; vm_compute in X; discriminate X. }
  split.
  { intros M. remember "/w/old.bin" as q eqn:Q. destruct M as [X|M]; [|revert Q; destruct M as [p D X|p text e D X Y Z N|e dir D Z N]; intros Q].
    + subst q. vm_compute in X. discriminate X.
    + subst p. destruct X as [X|X]; vm_compute in X; discriminate X.
    + destruct Z as [Z|Z]; [discriminate Z|]. injection Z as <-. now apply N.
    + now destruct D. }
  split; [intros d d' E; split; [reflexivity|]; intros cs t; change (exw12_set d cs t = exw12_set d' cs t); unfold exw12_set; rewrite (E "/w/a.proto") by (left; reflexivity); reflexivity|].
  split; [vm_compute; reflexivity|]. split; [vm_compute; reflexivity|]. split; [|split; [reflexivity|split; [reflexivity|vm_compute; reflexivity]]].
  exists [], [("/w/old.bin", "a set")], []. split; [reflexivity|]. split; [apply le_n|]. split; [intros q data []|]. split.
  - intros q data [[= <- <-]|[]]. exists "a s", "et". split; reflexivity.
  - intros q N. unfold exw30_now. destruct (String.eqb_spec q "/w/old.bin"); [|reflexivity]. exfalso. apply N. left. now symmetry.
Qed.

(** config init is not made good by running it again: the file, or the beginning of it, is then in the way. *)
Definition exw30_init : list event := Eval vm_compute in io_done (fst (main exw29 ["config"; "init"; "b"] exw8_s)).
Theorem C122_init_refuted : ~ (forall w stat node_at cwd l c items args s s1 es now p, ordinary w cwd -> means (w_read_csv w) l c items args -> c_words c = ["config"; "init"] ->
  main w l s = (s1, 0%Z) -> io_done s1 = io_done s ++ es -> killed (io_disk s) (written es) now ->
  (forall q, stat q = w_stat w q \/ (q = p /\ stat q = Ok Regular /\ In q (map fst (written es)))) -> node_at = w_node_at w ->
  snd (main (other_files w stat node_at) l (mk_io now (io_done s))) = 0%Z).
Proof.
  intros H.
  specialize (H exw29 (fun q => if String.eqb q "b/prototool.yaml" then Ok Regular else w_stat exw29 q) (w_node_at exw29) "/w" ["config"; "init"; "b"] (exw_command ["config"; "init"]) [Plain "b"] ["b"] exw8_s
    (fst (main exw29 ["config"; "init"; "b"] exw8_s)) exw30_init (fun q => if String.eqb q "b/prototool.yaml" then Ok "" else io_disk exw8_s q) "b/prototool.yaml" exw29_ordinary).
  specialize (H ltac:(plain_now) eq_refl ltac:(vm_compute; reflexivity) ltac:(vm_compute; reflexivity)). assert (K : forall x, killed (io_disk exw8_s) [("b/prototool.yaml", x)] (fun q => if String.eqb q "b/prototool.yaml" then Ok "" else io_disk exw8_s q)).
  { intros x. exists [], [("b/prototool.yaml", x)], []. split; [reflexivity|]. split; [apply le_n|]. split; [intros q data []|]. split.
    - intros q data [[= <- <-]|[]]. exists "", x. split; reflexivity.
    - intros q N. destruct (String.eqb_spec q "b/prototool.yaml"); [|reflexivity]. exfalso. apply N. left. now symmetry. }
  specialize (H (K _)). assert (S : forall q, (if String.eqb q "b/prototool.yaml" then Ok Regular else w_stat exw29 q) = w_stat exw29 q \/
    (q = "b/prototool.yaml" /\ (if String.eqb q "b/prototool.yaml" then Ok Regular else w_stat exw29 q) = Ok Regular /\ In q (map fst (written exw30_init)))).
  { intros q. destruct (String.eqb_spec q "b/prototool.yaml") as [->|]; [right; split; [reflexivity|]; split; [reflexivity|left; reflexivity]|now left]. }
  specialize (H S eq_refl). vm_compute in H. discriminate H.
Qed.
Print Assumptions C122_init_refuted.
