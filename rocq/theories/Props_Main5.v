(** C86: the modes of format agree on whether there is something to do. *)
From Verif Require Import GoStrFacts Exec_Spec Exec_Proofs Cmd_Spec Main_Model Main_Spec Main_Proofs Main_Proofs2 Main_Proofs6 Main_Proofs8 Props_Exec Props_Main Props_Main2 Props_Main3.

(** The line ends with 0 and changes and writes no file. *)
Definition nothing_to_do (w : world) (line : list string) (s : io) : Prop :=
  exists s', main w line s = (s', 0%Z) /\ io_disk s' = io_disk s /\ written (io_done s') = written (io_done s).
(** Command lines of format with the same arguments and flags, but maybe in another mode. *)
Definition other_mode (w : world) (args line line' : list string) (items items' : list item) : Prop :=
  (exists c, means (w_read_csv w) line c items args /\ c_words c = ["format"]) /\
  (exists c, means (w_read_csv w) line' c items' args /\ c_words c = ["format"]) /\
  alike items items' /\ on items "fix" = on items' "fix".
(** At most one of the modes is asked for. *)
Definition one_mode (items : list item) : Prop :=
  ~ (on items "overwrite" = true /\ on items "diff" = true) /\ ~ (on items "overwrite" = true /\ on items "lint" = true) /\
  ~ (on items "diff" = true /\ on items "lint" = true).

Lemma one_mode_set o d l : ~ (o = true /\ d = true) /\ ~ (o = true /\ l = true) /\ ~ (d = true /\ l = true) -> more_than_one_set [o; d; l] = false.
Proof. destruct o, d, l; intuition. Qed.
Lemma modes_lines w args line line' items items' : (w_goos w = "darwin" \/ w_goos w = "linux") -> other_mode w args line line' items items' ->
  (exists r, the_options w items = Ok r /\
     (forall s, main w line s = process (method w r (CallFormat args (on items "overwrite") (on items "diff") (on items "lint") (on items "fix"))) s) /\
     (forall s, main w line' s = process (method w r (CallFormat args (on items' "overwrite") (on items' "diff") (on items' "lint") (on items "fix"))) s)) \/
  (forall s, snd (main w line s) = 1%Z).
Proof.
  intros G ((c & M & W) & (c' & M' & W') & A & X).
  destruct (line_is w line c items args G M) as (k & K & ->). destruct (line_is w line' c' items' args G M') as (k' & K' & ->).
  unfold asked in K, K'. rewrite W in K. rewrite W' in K'. injection K as <-. injection K' as <-. rewrite <- (alike_options w _ _ A), <- X.
  destruct (the_options w items) as [r|m].
  - left. exists r. split; [reflexivity|]. split; intros s; reflexivity.
  - right. intros s. now rewrite no_options.
Qed.

(** If there is nothing to do in one mode, there is nothing to do in any other. *)
Theorem C86_modes : forall w args line line' items items' s, (w_goos w = "darwin" \/ w_goos w = "linux") ->
  other_mode w args line line' items items' -> one_mode items' ->
  nothing_to_do w line s -> nothing_to_do w line' s.
Proof.
  intros w args line line' items items' s G O M (s1 & E & D & W). destruct (modes_lines _ _ _ _ _ _ G O) as [(r & _ & L & L')|N].
  2:{ specialize (N s). rewrite E in N. discriminate N. }
  rewrite L in E. apply process_value in E as ([] & E).
  destruct (format_modes (w_order w) (here r) (here r) (r_error_format r) (r_json r) Json_Model.failure_json (w_stat w) (provider w r (io_disk s)) file_set (the_compiler w r) (the_commands w r)
            (the_transform w) (w_diff w) (w_write_error w) (on items "fix") args _ _ _ _ _ _ s s1 E W (one_mode_set _ _ _ M)) as (es & E' & We & _).
  eexists. rewrite L'. split; [apply process_value; exists tt; exact E'|]. split; [reflexivity|]. cbn [io_done]. change (Compiled false :: es) with ([Compiled false] ++ es). rewrite !written_app, We. apply app_nil_r.
Qed.
(** Without --overwrite, a line that ends with 0 had nothing to do; and with a mode, it prints nothing. *)
Theorem C86_zero : forall w args line items s s1, (w_goos w = "darwin" \/ w_goos w = "linux") ->
  other_mode w args line line items items -> on items "overwrite" = false -> main w line s = (s1, 0%Z) -> nothing_to_do w line s.
Proof.
  intros w args line items s s1 G O N E. destruct (modes_lines _ _ _ _ _ _ G O) as [(r & _ & L & _)|X].
  2:{ specialize (X s). rewrite E in X. discriminate X. }
  exists s1. split; [exact E|]. rewrite L, N in E. apply process_value in E as ([] & E).
  exact (C27_reads (w_order w) (here r) (here r) (r_error_format r) (r_json r) Json_Model.failure_json (w_stat w) (provider w r (io_disk s)) file_set (the_compiler w r) (the_commands w r)
            (the_transform w) (w_diff w) (w_write_error w) args _ _ _ s s1 _ E).
Qed.
Theorem C86_silent : forall w args line items s s1, (w_goos w = "darwin" \/ w_goos w = "linux") ->
  other_mode w args line line items items -> on items "overwrite" || on items "diff" || on items "lint" = true ->
  nothing_to_do w line s -> main w line s = (s1, 0%Z) -> s1 = mk_io (io_disk s) (io_done s ++ [Compiled false]).
Proof.
  intros w args line items s s1 G O N (s2 & E & D & W) E2. rewrite E in E2. injection E2 as <-. destruct (modes_lines _ _ _ _ _ _ G O) as [(r & _ & L & _)|X].
  2:{ specialize (X s). rewrite E in X. discriminate X. }
  rewrite L in E. apply process_value in E as ([] & E).
  assert (M : more_than_one_set [on items "overwrite"; on items "diff"; on items "lint"] = false).
  { destruct (more_than_one_set _) eqn:Q; [|reflexivity]. exfalso. revert E. unfold method, format_cmd. cbv zeta. rewrite Q. discriminate. }
  destruct (format_modes (w_order w) (here r) (here r) (r_error_format r) (r_json r) Json_Model.failure_json (w_stat w) (provider w r (io_disk s)) file_set (the_compiler w r) (the_commands w r)
            (the_transform w) (w_diff w) (w_write_error w) (on items "fix") args _ _ _ _ _ _ s s2 E W M) as (es & E' & _ & Q).
  assert (X : (s2, Value tt) = (mk_io (io_disk s) (io_done s ++ Compiled false :: es), @Value unit tt)) by (rewrite <- E, <- E'; reflexivity).
  injection X as ->. now rewrite Q.
Qed.
(** So format --lint, format --diff and format without a mode end with 0 in exactly the same cases. *)
Theorem C86_checks : forall w args line line' items items' s s1, (w_goos w = "darwin" \/ w_goos w = "linux") ->
  other_mode w args line line' items items' -> one_mode items' -> on items "overwrite" = false ->
  main w line s = (s1, 0%Z) -> exists s2, main w line' s = (s2, 0%Z) /\ io_disk s2 = io_disk s.
Proof.
  intros w args line line' items items' s s1 G O M N E.
  assert (O1 : other_mode w args line line items items) by (destruct O as (A & _); split; [exact A|]; split; [exact A|]; split; [split; reflexivity|reflexivity]).
  destruct (C86_modes w args line line' items items' s G O M (C86_zero w args line items s s1 G O1 N E)) as (s2 & E2 & D & _). eauto.
Qed.
Print Assumptions C86_modes.
Print Assumptions C86_zero.
Print Assumptions C86_silent.
Print Assumptions C86_checks.
Definition exw_format : command := mk_command ["format"]
  (compiling ++ [("diff", OnOff); ("error-format", Text); ("fix", OnOff); ("json", OnOff); ("lint", OnOff); ("overwrite", OnOff)])
  [("diff", "d"%char); ("fix", "f"%char); ("lint", "l"%char); ("overwrite", "w"%char)] 0 (Some 1).
Lemma exw_mode : forall name c, In (name, c) [("diff", "d"%char); ("lint", "l"%char); ("overwrite", "w"%char)] ->
  means (w_read_csv exw) ["format"; String "-" (String c "")] exw_format [Given name ShortAlone "true"] [].
Proof.
  intros name c H. exists None. split; [cbn; tauto|]. split.
  - constructor; [|constructor]. split; [|split; [discriminate|exists OnOff; unfold takes; cbn; repeat (destruct H as [[= <- <-]|H]; [tauto|]); destruct H]].
    intros _. cbn. repeat (destruct H as [[= <- <-]|H]; [tauto|]). destruct H.
  - split; [reflexivity|]. split; [split; cbn; auto with arith|]. repeat (destruct H as [[= <- <-]|H]; [reflexivity|]). destruct H.
Qed.
Example C86_modes_ex :
  let s1 := fst (main exw ["format"; "-w"] exw_s) in
  other_mode exw [] ["format"; "-l"] ["format"; "-w"] [Given "lint" ShortAlone "true"] [Given "overwrite" ShortAlone "true"] /\
  one_mode [Given "overwrite" ShortAlone "true"] /\
  ~ nothing_to_do exw ["format"; "-l"] exw_s /\ ~ nothing_to_do exw ["format"; "-w"] exw_s /\
  nothing_to_do exw ["format"; "-l"] s1 /\ nothing_to_do exw ["format"; "-w"] s1.
Proof.
  cbv zeta. split.
  { split; [exists exw_format; split; [apply exw_mode; cbn; tauto|reflexivity]|]. split; [exists exw_format; split; [apply exw_mode; cbn; tauto|reflexivity]|].
    split; [|reflexivity]. split; [|reflexivity]. intros n H. repeat (destruct H as [<-|H]; [reflexivity|]). destruct H. }
  split; [unfold one_mode; cbn; intuition discriminate|].
  split; [intros (s' & E & _); vm_compute in E; discriminate E|].
  split; [intros (s' & E & _ & W); vm_compute in E; injection E as <-; vm_compute in W; discriminate W|].
  split; eexists; (split; [vm_compute; reflexivity|split; vm_compute; reflexivity]).
Qed.
