(** C123: releases can be checked one after the other, for the whole program. *)
From Verif Require Import GoStrFacts GoPathFacts Settings_Spec File_Spec Reflect_Proofs Breaking_Model Breaking_Spec BreakRun_Proofs Exec_Spec Exec_Proofs Exec_Proofs3 Cmd_Spec PackageCmd_Spec PackageCmd_Proofs PackageCmd_Proofs2 PackageCmd_Proofs3 PackageCmd_Proofs4
  Main_Model Main_Spec Main_Spec2 Main_Spec3 Main_Spec4 Main_Proofs Main_Proofs2 Main_Proofs6 Main_Proofs7 Props_Main Props_Main2 Props_Main3 Props_Main4 Props_Main5 Props_Main8 Props_Main11 Props_Main12.

(** Seen by a command with the options [r], [args] stand for the files [v] on this disk, with the break
    configuration [b]. *)
Definition version (w : world) (r : runner) (disk : string -> result string) (args : list string) (v : list file_desc) (b : break_config) : Prop :=
  exists c, tree (w_stat w) (provider w r disk) (the_compiler w r) disk (here r) args v c /\ cfg_break c = b.
(** The file [p] holds the set of the files [v]. *)
Definition stored (w : world) (disk : string -> result string) (p : string) (v : list file_desc) : Prop :=
  exists data set, disk p = Ok data /\ w_unmarshal w data = Ok set /\ distinct_files [set] v /\ faithful v /\ valid_files v.
(** break check against the set in [p], with nothing wrong in --error-format. *)
Definition checks (w : world) (l : list string) (args : list string) (r : runner) (p : string) : Prop :=
  exists c items, means (w_read_csv w) l c items args /\ c_words c = ["break"; "check"] /\ text items "git-branch" = "" /\ text items "descriptor-set-path" = p /\ p <> "" /\ the_options w items = Ok r /\ (exists fields, Exec_Spec.fields_of (r_error_format r) fields).

Lemma check_run w l args r p s v1 v b : w_goos w = "darwin" \/ w_goos w = "linux" -> checks w l args r p -> stored w (io_disk s) p v1 -> version w r (io_disk s) args v b ->
  exists set fails from to sets data, io_disk s p = Ok data /\ w_unmarshal w data = Ok set /\ distinct_files [set] v1 /\ faithful v1 /\ valid_files v1 /\
    new_package_set_of [set] = Ok from /\ valid_set from /\ distinct_files sets v /\ faithful v /\ valid_files v /\ new_package_set_of sets = Ok to /\ valid_set to /\
    run_break (Reflect_Types.mk_break_config (bc_include_beta b) (bc_allow_beta_deps b)) from to = Ok fails /\
    (fails = [] -> main w l s = (adds s [Compiled false], 0%Z)) /\ (fails <> [] -> snd (main w l s) = 255%Z).
Proof.
  intros G (c & items & M & W & Bn & Pp & Pn & Or & Hf) (data & set & Rd & Un & Da & Fa & Va) (cf & Tr & <-).
  destruct (line_is w l c items args G M) as (k & K & L). unfold asked in K. rewrite W in K. injection K as <-. rewrite Bn, Pp in L.
  destruct (packages_of_files [set] v1 Da Fa Va) as (from & xf & _ & Es & _ & _ & Vf & _).
  destruct (break_check_stored_run (here r) (here r) (r_error_format r) (r_json r) Json_Model.failure_json (w_stat w) (provider w r (io_disk s)) (the_compiler w r) (the_commands w r) (w_unmarshal w) (w_temp_dir w) (w_git w) Hf
    args p data set v1 v cf s Pn Tr Rd Un Da Fa Va) as (fails & es & o & from' & to & B & Op & Ve & An & R & Vt & Ef & Dn & sets & D' & F' & V' & Et).
  assert (from' = from) as -> by congruence.
  exists set, fails, from, to, sets, data. repeat (split; [assumption|]).
  assert (X : main w l s = process (Main_Model.method w r (CallBreakCheck args "" p)) s) by (rewrite L, Or, with_options; reflexivity).
  assert (Y : Main_Model.method w r (CallBreakCheck args "" p) s = (adds s (Compiled false :: es), o)) by exact B.
  rewrite X. unfold process. rewrite Y. destruct An as (Q & _ & ->). destruct fails as [|f fails].
  - split; [|intros N; now destruct N]. intros _. now rewrite (Q eq_refl).
  - split; [discriminate|]. intros _. reflexivity.
Qed.

(** If the second version was checked against the first one and the third one against the second, both
    without findings, then checking the third one against the first one ends with 0 and says
    nothing. *)
Theorem C123_releases : forall w args r l1 p1 l2 p2 s2 s3 v1 v2 v3 b, w_goos w = "darwin" \/ w_goos w = "linux" ->
  checks w l1 args r p1 -> checks w l2 args r p2 ->
  stored w (io_disk s2) p1 v1 -> version w r (io_disk s2) args v2 b ->
  stored w (io_disk s3) p1 v1 -> stored w (io_disk s3) p2 v2 -> version w r (io_disk s3) args v3 b ->
  unique_definitions v1 -> unique_definitions v2 -> unique_definitions v3 ->
  snd (main w l1 s2) = 0%Z -> snd (main w l2 s3) = 0%Z ->
  main w l1 s3 = (adds s3 [Compiled false], 0%Z).
Proof.
  intros w args r l1 p1 l2 p2 s2 s3 v1 v2 v3 b G C1 C2 S12 V2 S13 S23 V3 U1 U2 U3 E12 E23.
  destruct (check_run w l1 args r p1 s2 v1 v2 b G C1 S12 V2) as (a & fa & a1 & a2 & as_ & da & _ & _ & Da & Fa & Va & Ea1 & Wa1 & Da2 & Fa2 & Va2 & Ea2 & Wa2 & Ra & _ & Na).
  destruct (check_run w l2 args r p2 s3 v2 v3 b G C2 S23 V3) as (b2 & fb & b1 & b3 & bs & db & _ & _ & Db & Fb & Vb & Eb1 & Wb1 & Db2 & Fb2 & Vb2 & Eb2 & Wb2 & Rb & _ & Nb).
  destruct (check_run w l1 args r p1 s3 v1 v3 b G C1 S13 V3) as (c2 & fc & c1 & c3 & cs & dc & _ & _ & Dc & Fc & Vc & Ec1 & Wc1 & Dc2 & Fc2 & Vc2 & Ec2 & Wc2 & Rc & Yc & _).
  assert (fa = []) as -> by (destruct fa; [reflexivity|]; rewrite Na in E12 by discriminate; discriminate E12).
  assert (fb = []) as -> by (destruct fb; [reflexivity|]; rewrite Nb in E23 by discriminate; discriminate E23).
  assert (X1 := new_package_set_moves [a] v1 a1 [c2] v1 Da Fa Dc Fc U1 (same_files_same _ _ (Permutation_refl _)) (proj1 (proj2 Vc)) (proj2 (proj2 Vc)) Ea1). rewrite Ec1 in X1. injection X1 as ->.
  assert (X2 := new_package_set_moves as_ v2 a2 [b2] v2 Da2 Fa2 Db Fb U2 (same_files_same _ _ (Permutation_refl _)) (proj1 (proj2 Vb)) (proj2 (proj2 Vb)) Ea2). rewrite Eb1 in X2. injection X2 as ->.
  assert (X3 := new_package_set_moves bs v3 b3 cs v3 Db2 Fb2 Dc2 Fc2 U3 (same_files_same _ _ (Permutation_refl _)) (proj1 (proj2 Vc2)) (proj2 (proj2 Vc2)) Eb2). rewrite Ec2 in X3. injection X3 as ->.
  apply Yc. rewrite (run_break_trans _ a1 a2 b3 (valid_set_named _ Wa1) (valid_set_named _ Wa2) Ra Rb) in Rc. now injection Rc as <-.
Qed.
Print Assumptions C123_releases.

(** ** Example: foo.v1 is added, and then grows. *)
Definition exw31_unmarshal (data : string) : result file_set :=
  if String.eqb data "one" then Ok [Props_Reflect.rx_bar] else if String.eqb data "two" then Ok [Props_Reflect.rx_bar; Props_Reflect.rx_foo1] else Err "unexpected EOF".
Definition exw31 : world := mk_world "linux" "amd64" "go1.13" (fun v => if String.eqb v "HOME" then "/home" else "") (Ok "/w") (fun s => if String.eqb s "3s" then Ok 3%Z else Err "bad time")
  (fun s => Ok [s]) (fun _ => "usage") (fun _ => "help") (fun _ => "") (fun _ => "topic")
  (fun _ A l => l) exw12_stat exw12_node (fun _ => None) (fun _ _ => None) (fun _ => None) (Ok "/tmp/f") (Ok "/tmp/d") (fun _ => Err "not found")
  (fun _ _ => None) (fun _ => Err "no json") (fun _ => Ok Props_Main10.exw10_config) (fun _ => Ok "")
  Settings_Proofs2.by_name (fun l => l) (fun l => l) (fun _ _ => Ok []) (fun s => s) (fun _ _ _ => Ok "")
  (fun _ => Ok tt) (fun s => s) (fun _ => NotExist) exw12_temp (fun _ _ => Protoc_Model.Ended "" Protoc_Model.NoError)
  exw12_set (fun n => rev (seq 0 n)) (fun _ n => n) (fun s => s) Props_PackageCmd.kx_marshal Props_PackageCmd.kx_jsonpb exw31_unmarshal
  (fun _ => Ok tt) (fun _ => Ok tt) (fun _ => Ok tt) (fun _ => Ok tt) (fun _ => Ok tt) (fun _ _ => ([], None)).
Definition exw31_s (now : string) : io := mk_io (fun p => if String.eqb p "/w/a.proto" then Ok now else if String.eqb p "one.bin" then Ok "one" else if String.eqb p "two.bin" then Ok "two" else io_disk exw8_s p) [].
Definition exw31_line (p : string) : list string := ["break"; "check"; "--descriptor-set-path"; p].
Definition exw31_items (p : string) : list item := [Given "descriptor-set-path" LongSpace p].
Definition exw31_r : runner := Eval vm_compute in match the_options exw31 (exw31_items "one.bin") with Ok r => r | Err _ => options (fun _ => "") "" 0%Z [] end.
Definition exw31_version (n : nat) : list file_desc := firstn n Props_Reflect.rx_two.
Lemma exw31_checks p : p = "one.bin" \/ p = "two.bin" -> checks exw31 (exw31_line p) [] exw31_r p.
Proof.
  intros [->| ->]; exists (exw_command ["break"; "check"]); eexists (exw31_items _); (split; [means_now|]); (repeat (split; [first [reflexivity|discriminate]|])); eexists; apply Exec_Proofs.fields_of_ok; reflexivity.
Qed.
Lemma exw31_valid n : 1 <= n -> faithful (exw31_version n) /\ valid_files (exw31_version n) /\ unique_definitions (exw31_version n) /\ NoDup (exw31_version n).
Proof.
  intros Hn. assert (I : incl (exw31_version n) Props_Reflect.rx_two) by (intros f Hf; unfold exw31_version in Hf; rewrite <- (firstn_skipn n); apply in_or_app; now left).
  split; [intros f g Hf Hg; apply Props_Reflect.rx_faithful2; now apply I|]. destruct n as [|[|[|n]]]; [lia| | |].
  - split; [|split; [|repeat constructor; cbn; intuition discriminate]].
    + destruct Props_Reflect.rx_valid2 as (A & _ & C). split; [rewrite Forall_forall in *; auto|]. split; [|intros f g Hf Hg; apply C; now apply I]. intros f d [<-|[]] [].
    + intros pkg. unfold Reflect_Spec.messages_of, Reflect_Spec.enums_of, Reflect_Spec.services_of. destruct (string_dec pkg "foo.v1") as [->|H1]; [|destruct (string_dec pkg "bar.v1") as [->|H2]].
      * simpl. repeat split; repeat constructor; simpl; intuition discriminate.
      * simpl. repeat split; repeat constructor; simpl; intuition discriminate.
      * assert (E : files_of pkg (exw31_version 1) = []) by (apply Props_Reflect.rx_pkgs; repeat constructor; simpl; congruence). rewrite E. cbn. split; [apply NoDup_nil|split; apply NoDup_nil].
  - split; [|split; [|repeat constructor; cbn; intuition discriminate]].
    + destruct Props_Reflect.rx_valid2 as (A & _ & C). split; [rewrite Forall_forall in *; auto|]. split; [|intros f g Hf Hg; apply C; now apply I]. intros f d [<-|[<-|[]]]; [intros []|]. intros [<-|[]]. exists Props_Reflect.rx_bar. split; [now left|reflexivity].
    + intros pkg. unfold Reflect_Spec.messages_of, Reflect_Spec.enums_of, Reflect_Spec.services_of. destruct (string_dec pkg "foo.v1") as [->|H1]; [|destruct (string_dec pkg "bar.v1") as [->|H2]].
      * simpl. repeat split; repeat constructor; simpl; intuition discriminate.
      * simpl. repeat split; repeat constructor; simpl; intuition discriminate.
      * assert (E : files_of pkg (exw31_version 2) = []) by (apply Props_Reflect.rx_pkgs; repeat constructor; simpl; congruence). rewrite E. cbn. split; [apply NoDup_nil|split; apply NoDup_nil].
  - assert (E : exw31_version (S (S (S n))) = Props_Reflect.rx_two) by (apply firstn_all2; cbn; lia). rewrite E. split; [exact Props_Reflect.rx_valid2|]. split; [exact Props_Reflect.rx_unique|apply Props_Reflect.rx_distinct2].
Qed.
Lemma exw31_stored now p n : (p = "one.bin" /\ n = 1) \/ (p = "two.bin" /\ n = 2) -> stored exw31 (io_disk (exw31_s now)) p (exw31_version n).
Proof.
  intros X. assert (Hn : 1 <= n) by (destruct X as [(_ & ->)|(_ & ->)]; lia). destruct (exw31_valid n Hn) as (F & V & U & N).
  destruct X as [(-> & ->)|(-> & ->)]; eexists; eexists; (split; [reflexivity|]); (split; [reflexivity|]); (split; [|auto]); (split; [exact N|]); intros f; (split; [intros Hf; eexists; split; [left; reflexivity|exact Hf]|intros (x & [<-|[]] & Hf); exact Hf]).
Qed.
Lemma exw31_two : version exw31 exw31_r (io_disk (exw31_s "edited")) [] (exw31_version 2) (mk_break_config false false).
Proof.
  destruct (exw31_valid 2 (le_S _ _ (le_n 1))) as (F & V & U & N). eexists. split; [|shelve]. eexists. exists [[Props_Reflect.rx_bar]; [Props_Reflect.rx_bar; Props_Reflect.rx_foo1]].
  split; [apply FoundDirectory; [reflexivity|vm_compute; reflexivity]|]. split; [vm_compute; reflexivity|]. split; [|split; [exact F|split; [exact V|reflexivity]]].
  split; [exact N|]. intros f. cbn. split.
  - intros [<-|[<-|[]]]; eexists; (split; [right; left; reflexivity|cbn; auto]).
  - intros (x & [<-|[<-|[]]] & Hf); cbn in Hf; intuition.
  Unshelve. reflexivity.
Qed.
Lemma exw31_three : version exw31 exw31_r (io_disk (exw31_s "text")) [] (exw31_version 3) (mk_break_config false false).
Proof.
  destruct (exw31_valid 3 ltac:(lia)) as (F & V & U & N). eexists. split; [|shelve]. eexists. exists [[Props_Reflect.rx_foo2; Props_Reflect.rx_bar]; [Props_Reflect.rx_bar; Props_Reflect.rx_foo1]].
  split; [apply FoundDirectory; [reflexivity|vm_compute; reflexivity]|]. split; [vm_compute; reflexivity|]. split; [|split; [exact F|split; [exact V|reflexivity]]].
  exact Props_Reflect.rx_distinct2.
  Unshelve. reflexivity.
Qed.
Example C123_ex : checks exw31 (exw31_line "one.bin") [] exw31_r "one.bin" /\ checks exw31 (exw31_line "two.bin") [] exw31_r "two.bin" /\
  stored exw31 (io_disk (exw31_s "edited")) "one.bin" (exw31_version 1) /\ version exw31 exw31_r (io_disk (exw31_s "edited")) [] (exw31_version 2) (mk_break_config false false) /\
  stored exw31 (io_disk (exw31_s "text")) "one.bin" (exw31_version 1) /\ stored exw31 (io_disk (exw31_s "text")) "two.bin" (exw31_version 2) /\
  version exw31 exw31_r (io_disk (exw31_s "text")) [] (exw31_version 3) (mk_break_config false false) /\
  unique_definitions (exw31_version 1) /\ unique_definitions (exw31_version 2) /\ unique_definitions (exw31_version 3) /\
  snd (main exw31 (exw31_line "one.bin") (exw31_s "edited")) = 0%Z /\ snd (main exw31 (exw31_line "two.bin") (exw31_s "text")) = 0%Z /\
  main exw31 (exw31_line "one.bin") (exw31_s "text") = (adds (exw31_s "text") [Compiled false], 0%Z).
Proof.
  split; [apply exw31_checks; now left|]. split; [apply exw31_checks; now right|]. split; [apply exw31_stored; now left|]. split; [exact exw31_two|].
  split; [apply exw31_stored; now left|]. split; [apply exw31_stored; now right|]. split; [exact exw31_three|].
  split; [apply exw31_valid; lia|]. split; [apply exw31_valid; lia|]. split; [apply exw31_valid; lia|]. split; [vm_compute; reflexivity|]. split; vm_compute; reflexivity.
Qed.
