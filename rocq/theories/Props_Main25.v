(** C114: to name a file of a directory only narrows what is told. *)
From Verif Require Import Exec_Proofs Narrow_Spec Narrow_Proofs.
From Verif Require Import GoStrFacts GoPathFacts Exec_Spec Cmd_Spec Main_Model Main_Spec Props_Main Props_Main2 Props_Main3 Props_Main4 Props_Main5 Props_Main12 Props_Main15 Props_Main19 Props_Main20 Props_Main21.
From Verif Require Place_Proofs.

Lemma narrow_asked csv c items items' args args' k : narrows (c_words c) (text items "descriptor-set-path") -> same_flags items items' -> asked csv c items args = Some k ->
  Place_Proofs.of_args args k /\ not_formatting k /\ exists k', asked csv c items' args' = Some k' /\ Place_Proofs.elsewhere args' k = Some k'.
Proof.
  intros L F. unfold asked. destruct L as [(L & D)|L].
  { rewrite L. intros [= <-]. split; [reflexivity|]. split; [exact I|]. eexists. split; [reflexivity|]. cbn [Place_Proofs.elsewhere]. apply is_empty_false in D. rewrite D. unfold text. rewrite !F. reflexivity. }
  unfold headers, text, on. rewrite !F. cbn [In] in L.
  repeat match type of L with
         | _ \/ _ => destruct L as [L|L]; [rewrite <- L; intros [= <-]; (split; [reflexivity|]); (split; [exact I|]); eexists; (split; reflexivity)|]
         end. destruct L.
Qed.

(** A command that is given a file does what it does when it is given the directory of the file,
    leaves the same files and ends with the same status; only of the failures that it lists it
    leaves out the ones that are about other files. *)
Theorem C114_file : forall w cwd l c items args l' items' args' s s1 z s2 z',
  ordinary w cwd -> narrows (c_words c) (text items "descriptor-set-path") ->
  means (w_read_csv w) l c items args -> means (w_read_csv w) l' c items' args' -> same_flags items items' ->
  w_stat w (Exec_Spec.target args) = Ok Exec_Model.Regular ->
  w_stat w (Exec_Spec.target args') = Ok Exec_Model.Directory -> Exec_Spec.target args' = path_dir (Exec_Spec.target args) ->
  main w l s = (s1, z) -> main w l' s = (s2, z') ->
  z = z' /\ io_disk s1 = io_disk s2 /\
  narrower cwd (Exec_Spec.target args) (text items "error-format") (on items "json") Json_Model.failure_json (io_done s1) (io_done s2) /\
  (z <> 255%Z -> s1 = s2).
Proof.
  intros w cwd l c items args l' items' args' s s1 z s2 z' (V & G & Wd & Cl & Nm & St) Lk M M' F Sf Sd Td.
  destruct (line_is w l c items args G M) as (k & Ak & L). destruct (line_is w l' c items' args' G M') as (k' & Ak' & L').
  destruct (narrow_asked _ _ _ _ _ args' _ Lk F Ak) as (Of & Nt & k2 & Ak2 & El). assert (k' = k2) as -> by congruence. rewrite L, L'. rewrite <- (same_options w _ _ F).
  assert (Nf : Exec_Spec.target args <> "") by (intros X; rewrite X in Sf; now apply St in Sf).
  destruct (the_options w items) as [r|m] eqn:Op.
  - rewrite !with_options. pose proof (options_here w _ items r Wd Op) as Hr.
    assert (Rw : exists walk dir, r = options (w_getenv w) dir walk items).
    { unfold the_options in Op. destruct (if String.eqb _ _ then _ else _) as [wk|]; [|discriminate Op]. cbn [bind] in Op. destruct (w_getwd w) as [d|]; [|discriminate Op]. injection Op as <-. now exists wk, d. }
    pose proof (method_less w r args args' Nf Sf Sd Td k k2 s Of El Nt) as [E|(t & fs & kept & less & more & E & E' & Ne & P & O & O' & Li & Li')]; unfold process.
    + rewrite E. intros X Y. rewrite X in Y. injection Y as -> ->. split; [reflexivity|]. split; [reflexivity|]. split; [constructor|reflexivity].
    + rewrite E, E'. intros [= <- <-] [= <- <-]. split; [reflexivity|]. split; [reflexivity|]. split; [|intros X; now destruct X].
      rewrite Hr in P. destruct Rw as (walk & dir & ->). cbn [r_json r_error_format options] in Li, Li'. eapply NarrowLess; eassumption.
  - rewrite !no_options. intros [= <- <-] [= <- <-]. split; [reflexivity|]. split; [reflexivity|]. split; [constructor|reflexivity].
Qed.
Print Assumptions C114_file.

(** ** Example: the file a.proto of the working directory. *)
Definition exw25_stat (p : string) : result file_kind := if mem p ["notes.txt"; "./notes.txt"] then Ok Exec_Model.Regular else exw20_stat p.
Definition exw25 : world := with_disk exw20 exw25_stat exw15_node.
Lemma exw25_ordinary : ordinary exw25 (abs_path ["w"]).
Proof. destruct exw20_ordinary as (V & G & Wd & Cl & Nm & St). split; [exact V|]. split; [exact G|]. split; [reflexivity|]. split; [exact Cl|]. split; [exact Nm|intros k; discriminate]. Qed.
Example C114_file_ex : ordinary exw25 "/w" /\ narrows ["lint"] "" /\
  means (w_read_csv exw25) ["lint"; "a.proto"] (exw_command ["lint"]) [Plain "a.proto"] ["a.proto"] /\ means (w_read_csv exw25) ["lint"; "."] (exw_command ["lint"]) [Plain "."] ["."] /\
  same_flags [Plain "a.proto"] [Plain "."] /\ w_stat exw25 "a.proto" = Ok Exec_Model.Regular /\ w_stat exw25 "." = Ok Exec_Model.Directory /\ path_dir "a.proto" = "." /\
  snd (main exw25 ["lint"; "a.proto"] exw15_s) = 255%Z /\ snd (main exw25 ["lint"; "."] exw15_s) = 255%Z /\
  io_done (fst (main exw25 ["lint"; "."] exw15_s)) <> io_done (fst (main exw25 ["lint"; "a.proto"] exw15_s)) /\
  main exw25 ["files"; "a.proto"] exw15_s = main exw25 ["files"; "."] exw15_s /\
  io_done (fst (main exw25 ["files"; "a.proto"] exw15_s)) = [Printed (exl "a.proto"); Printed (exl "b/bad.proto")].
Proof.
  split; [exact exw25_ordinary|]. split; [right; cbn; tauto|]. split; [plain_now|]. split; [plain_now|]. split; [intros n; reflexivity|].
  split; [reflexivity|]. split; [reflexivity|]. split; [reflexivity|]. split; [vm_compute; reflexivity|]. split; [vm_compute; reflexivity|]. split; [vm_compute; discriminate|]. split; vm_compute; reflexivity.
Qed.
(** A lint of a file that prints nothing may end with 255: there were failures about other files
    of its directory, or of a directory in it.  The file need not even be a .proto file. *)
Theorem C114_silent_refuted : ~ (forall w cwd l c items args s s1 z, ordinary w cwd -> c_words c = ["lint"] ->
  means (w_read_csv w) l c items args -> w_stat w (Exec_Spec.target args) = Ok Exec_Model.Regular ->
  main w l s = (s1, z) -> (forall t, In (Printed t) (io_done s1) -> In (Printed t) (io_done s)) -> z = 0%Z).
Proof.
  intros H. assert (X : 255%Z = 0%Z); [|discriminate X].
  apply (H exw25 "/w" ["lint"; "notes.txt"] (exw_command ["lint"]) [Plain "notes.txt"] ["notes.txt"] exw15_s (fst (main exw25 ["lint"; "notes.txt"] exw15_s)) 255%Z).
  - exact exw25_ordinary.
  - reflexivity.
  - plain_now.
  - reflexivity.
  - vm_compute. reflexivity.
  - intros t. vm_compute. intros [X|[]]. discriminate X.
Qed.
Print Assumptions C114_silent_refuted.
