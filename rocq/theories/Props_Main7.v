(** C88: what compile rejects is not formatted, linted or generated from. *)
From Verif Require Import GoStrFacts Exec_Spec Cmd_Spec LintCmd_Model Main_Model Main_Spec Main_Proofs Main_Proofs2 Main_Proofs6
  Props_Main Props_Main2 Props_Main3 Props_Main4 Props_Main5.

(** The lines that are to work on files that compile: format in one mode, lint unless it only
    lists, all. *)
Definition works_on_files (c : command) (items : list item) : Prop :=
  c_words c = ["all"] \/
  c_words c = ["format"] /\ one_mode items \/
  c_words c = ["lint"] /\
    (forall name, In name ["list-all-lint-groups"; "list-all-linters"; "list-linters"] -> on items name = false) /\
    text items "list-lint-group" = "" /\ text items "diff-lint-groups" = "".

(** Each of them does what compile does, then something else. *)
Lemma compiles_first w r c items args k : works_on_files c items -> asked (w_read_csv w) c items args = Some k ->
  exists rest, forall s, Main_Model.method w r k s =
    (run m <- get_meta (here r) (w_stat w) (provider w r (io_disk s)) args;
     compile (here r) (r_error_format r) (r_json r) Json_Model.failure_json file_set (the_compiler w r) (the_commands w r) false false false m ;; rest m) s.
Proof.
  intros [W|[(W & M)|(W & H1 & H2 & H3)]]; unfold asked; rewrite W; intros [= <-].
  - eexists. intros s. reflexivity.
  - apply one_mode_set in M. eexists. intros s. unfold Main_Model.method, format_cmd. cbv zeta. rewrite M. reflexivity.
  - rewrite H2, H3, !H1 by (cbn; tauto). destruct (on items "generate-ignores"); eexists; intros s; unfold Main_Model.method, lint_cmd; cbn [more_than_one_set filter length Nat.ltb Nat.leb negb is_empty]; reflexivity.
Qed.

(** With the same arguments and common flags: if compile does not end with 0, they do what it
    does and end with the same status: no file is changed, no code is generated. *)
Theorem C88_rejected : forall w args cl c ci l o items s s1 z,
  visits_all (w_order w) -> (w_goos w = "darwin" \/ w_goos w = "linux") ->
  means (w_read_csv w) cl c ci args -> c_words c = ["compile"] -> on ci "dry-run" = false ->
  means (w_read_csv w) l o items args -> works_on_files o items -> alike ci items ->
  main w cl s = (s1, z) -> z <> 0%Z ->
  main w l s = (s1, z) /\ io_disk s1 = io_disk s /\
  exists es, io_done s1 = io_done s ++ es /\ Forall (fun e => e = Compiled false \/ exists t, e = Printed t) es.
Proof.
  intros w args cl c ci l o items s s1 z V G Mc Wc Dc Ml Wl A E Z.
  split; [|eapply C81_only_reads; [exact V|exact G|exact Mc| |exact E]; left; rewrite Wc; cbn; tauto].
  destruct (line_is w cl c ci args G Mc) as (k & K & L). destruct (line_is w l o items args G Ml) as (k' & K' & L').
  rewrite L in E. rewrite L', <- (alike_options w _ _ A). clear L L'. unfold asked in K. rewrite Wc, Dc in K. injection K as <-.
  destruct (the_options w ci) as [r|m]; [|rewrite no_options in *; exact E]. rewrite !with_options in *.
  destruct (compiles_first w r o items args k' Wl K') as (rest & R).
  unfold process in *. rewrite R. revert E. unfold Main_Model.method, compile_cmd, and_then, ret.
  destruct (get_meta _ _ _ args s) as [s2 [m|e|e]]; [|exact (fun E => E)..].
  destruct (compile _ _ _ _ _ _ _ _ _ _ m s2) as [s3 [u|e|e]]; [|exact (fun E => E)..]. intros [= _ <-]. now destruct Z.
Qed.
Print Assumptions C88_rejected.
(** So if one of them ends with 0, compile ends with 0, having printed nothing. *)
Theorem C88_accepted : forall w args cl c ci l o items s s1,
  visits_all (w_order w) -> (w_goos w = "darwin" \/ w_goos w = "linux") ->
  means (w_read_csv w) cl c ci args -> c_words c = ["compile"] -> on ci "dry-run" = false ->
  means (w_read_csv w) l o items args -> works_on_files o items -> alike ci items ->
  main w l s = (s1, 0%Z) ->
  main w cl s = (mk_io (io_disk s) (io_done s ++ [Compiled false]), 0%Z).
Proof.
  intros w args cl c ci l o items s s1 V G Mc Wc Dc Ml Wl A E.
  assert (C : exists s2, main w cl s = (s2, 0%Z)).
  { destruct (main w cl s) as [s2 z] eqn:F. destruct (Z.eq_dec z 0) as [->|N]; [eauto|].
    destruct (C88_rejected w args cl c ci l o items s s2 z V G Mc Wc Dc Ml Wl A F N) as (X & _). rewrite E in X. injection X as _ <-. now destruct N. }
  destruct C as (s2 & C). rewrite C. destruct (line_is w cl c ci args G Mc) as (k & K & L). rewrite L in C. clear L. unfold asked in K. rewrite Wc, Dc in K. injection K as <-.
  destruct (the_options w ci) as [r|m]; [|discriminate C]. rewrite with_options in C. apply process_value in C as (u & C).
  revert C. unfold Main_Model.method, compile_cmd, and_then, ret.
  destruct (Exec_Proofs.get_meta_pure (here r) (w_stat w) (provider w r (io_disk s)) args) as (x & X & _). rewrite X.
  destruct x as [m|e|e]; [|discriminate..].
  destruct (compile _ _ _ _ _ _ _ _ _ _ m s) as [s3 [v|e|e]] eqn:F; [|discriminate..]. apply compiled_ok in F as ->. now intros [= <- _].
Qed.
Print Assumptions C88_accepted.
(** A world in which protoc does not accept the file. *)
Definition exw7 : world := mk_world "linux" "amd64" "go1.13" (fun v => if String.eqb v "HOME" then "/home" else "") (Ok "/w") (fun s => if String.eqb s "3s" then Ok 3%Z else Err "bad time")
  (fun s => Ok [s]) (fun _ => "usage") (fun _ => "help") (fun _ => "") (fun _ => "topic")
  (fun _ A l => l) exw_stat exw_node (fun _ => None) (fun _ _ => None) (fun _ => None) (Ok "/tmp/f") (Ok "/tmp/d") (fun _ => Err "not found")
  (fun _ _ => None) (fun _ => Err "no json") (fun _ => Err "no yaml") (fun _ => Ok "")
  (fun l => l) (fun l => l) (fun l => l) (fun _ _ => Ok []) (fun s => s) (fun _ _ _ => Ok "")
  (fun _ => Ok tt) (fun s => s) (fun _ => NotExist) (fun _ => Ok "/tmp/p")
  (fun _ _ => Protoc_Model.Ended "a.proto:1:2: Expected something." (Protoc_Model.ExitError "exit status 1"))
  (fun _ _ _ => Ok []) (fun n => seq 0 n) (fun _ n => n) (fun s => s) (fun _ => Ok "") (fun _ => Ok "") (fun _ => Ok [])
  (fun _ => Ok tt) (fun _ => Ok tt) (fun _ => Ok tt) (fun _ => Ok tt) (fun _ => Ok tt) (fun _ _ => ([], None)).
Example C88_rejected_ex :
  means (w_read_csv exw7) ["format"; "-w"] exw_format [Given "overwrite" ShortAlone "true"] [] /\ works_on_files exw_format [Given "overwrite" ShortAlone "true"] /\
  means (w_read_csv exw7) ["compile"] exw_compile [] [] /\ alike [] [Given "overwrite" ShortAlone "true"] /\
  forall l, In l [["compile"]; ["format"; "-w"]; ["lint"]; ["all"]] ->
    exists s1, main exw7 l exw_s = (s1, 255%Z) /\ io_done s1 = [Compiled false; Printed ("a.proto:1:2:Expected something." +++ String newline "")].
Proof.
  split; [apply (exw_mode "overwrite"); cbn; tauto|]. split; [right; left; split; [reflexivity|unfold one_mode; cbn; intuition discriminate]|].
  split; [exists None; split; [cbn; tauto|]; split; [constructor|]; split; [reflexivity|]; split; [split; cbn; auto with arith|reflexivity]|].
  split; [split; [intros n H; repeat (destruct H as [<-|H]; [reflexivity|]); destruct H|reflexivity]|].
  intros l H. repeat (destruct H as [<-|H]; [eexists; split; vm_compute; reflexivity|]). destruct H.
Qed.
Example C88_accepted_ex : exists s1, main exw ["format"; "-w"] exw_s = (s1, 0%Z) /\ io_done s1 <> [Compiled false].
Proof. eexists. split; [vm_compute; reflexivity|vm_compute; discriminate]. Qed.
