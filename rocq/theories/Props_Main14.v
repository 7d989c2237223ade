(** C99: the listings of lint, for the whole program. *)
From Coq Require Import Permutation.
From Verif Require Lint_Purpose Props_Purpose Settings_Proofs Settings_Proofs2 LintCmd_Model Props_LintCmd.
From Verif Require Import Lint_Purpose_Spec GoStrFacts GoPathFacts Settings_Spec File_Spec Exec_Spec Exec_Proofs Cmd_Spec Lint_Spec LintRun_Spec LintCmd_Spec Main_Model Main_Spec Main_Spec2
  Main_Spec3 Main_Spec4 Main_Proofs Main_Proofs2 Main_Proofs5 Main_Proofs6 Main_Proofs7 Main_Proofs16 Props_Main Props_Main2 Props_Main3 Props_Main4 Props_Main8 Props_Main10 Props_Main11 Props_Main12 Props_Main13.

(** The six modes of lint; no flag is none of them. *)
Definition modes (items : list item) : list bool :=
  [on items "list-all-linters"; on items "list-linters"; on items "list-all-lint-groups"; negb (String.eqb (text items "list-lint-group") "");
   negb (String.eqb (text items "diff-lint-groups") ""); on items "generate-ignores"].
(** Nothing but a message. *)
Definition only_a_message (s s2 : io) : Prop := io_disk s2 = io_disk s /\ exists es, io_done s2 = io_done s ++ es /\ only_prints es.
(** Nothing but this output. *)
Definition only_output (s s2 : io) (es : list event) : Prop := s2 = mk_io (io_disk s) (io_done s ++ es).

Lemma println_message e s : only_a_message s (fst (println e s)).
Proof. destruct (println_says e s) as (es & -> & O). split; [reflexivity|]. exists es. auto. Qed.
Lemma is_empty_eqb g : is_empty g = String.eqb g "".
Proof. now destruct g. Qed.

Section Lines.
  Variable w : world.
  Variable G : w_goos w = "darwin" \/ w_goos w = "linux".
  Variable V : reorders (w_order w).
  Let cmd_of (r : runner) (s : io) := LintCmd_Model.lint_cmd (w_order w) (here r) (here r) (r_error_format r) (r_json r) Json_Model.failure_json (w_stat w) (provider w r (io_disk s)) file_set (the_compiler w r) (the_commands w r)
    (w_parse w) (w_singularize w) (Lint_Purpose.purpose_of (all_linters (w_order w) (w_singularize w))) (w_encode_ignores w).
  Lemma lint_is r args a b c d e f s : Main_Model.method w r (CallLint args a b c d e f) s = cmd_of r s args a b c d e f s.
  Proof. reflexivity. Qed.
  Lemma process_same (c1 c2 : cmd unit) s : c1 s = c2 s -> process c1 s = process c2 s.
  Proof. unfold process. now intros ->. Qed.
  Lemma lint_line l c items args s s2 z : means (w_read_csv w) l c items args -> c_words c = ["lint"] -> main w l s = (s2, z) ->
    (exists m, the_options w items = Err m /\ z = 1%Z /\ s2 = fst (println m s)) \/
    exists r, the_options w items = Ok r /\
      process (cmd_of r s args (on items "list-all-linters") (on items "list-linters") (on items "list-all-lint-groups") (text items "list-lint-group") (text items "diff-lint-groups") (on items "generate-ignores")) s = (s2, z).
  Proof.
    intros M W E. destruct (line_is w l c items args G M) as (k & K & L). rewrite L in E. unfold asked in K; rewrite W in K; injection K as <-.
    destruct (the_options w items) as [r|m]; [right; exists r; split; [reflexivity|]; rewrite with_options in E; rewrite (process_same _ _ s (lint_is _ _ _ _ _ _ _ _ s)) in E; exact E|].
    left. exists m. rewrite no_options in E. injection E as <- <-. auto.
  Qed.

  (** More than one mode is refused. *)
  Theorem C99_modes : forall l c items args s s2 z, means (w_read_csv w) l c items args -> c_words c = ["lint"] -> two_set (modes items) -> main w l s = (s2, z) ->
    z <> 0%Z /\ only_a_message s s2.
  Proof.
    intros l c items args s s2 z M W T E. destruct (lint_line _ _ _ _ _ _ _ M W E) as [(m & _ & -> & ->)|(r & _ & P)]; [split; [discriminate|apply println_message]|].
    assert (T' : two_set [on items "list-all-linters"; on items "list-linters"; on items "list-all-lint-groups"; negb (is_empty (text items "list-lint-group")); negb (is_empty (text items "diff-lint-groups")); on items "generate-ignores"]).
    { rewrite !is_empty_eqb. exact T. }
    destruct (Props_LintCmd.C70_flags (w_order w) (here r) (here r) (r_error_format r) (r_json r) Json_Model.failure_json (w_stat w) (provider w r (io_disk s)) file_set (the_compiler w r) (the_commands w r)
      (w_parse w) (w_singularize w) (Lint_Purpose.purpose_of (all_linters (w_order w) (w_singularize w))) (w_encode_ignores w) args _ _ _ _ _ _ s T') as (m & X).
    unfold cmd_of in P. rewrite (process_same _ (fun s => (s, Exit m)) s X) in P. injection P as <- <-. split; [discriminate|apply println_message].
  Qed.
  (** The groups, and how two of them differ: whatever the files and their configuration. *)
  Theorem C99_groups : forall l c items args s s2 z, means (w_read_csv w) l c items args -> c_words c = ["lint"] -> modes items = [false; false; true; false; false; false] -> main w l s = (s2, z) ->
    (z = 0%Z /\ only_output s s2 (Main_Spec.shown ["empty"; "google"; "uber1"; "uber2"])) \/ (z = 1%Z /\ only_a_message s s2 /\ forall r, the_options w items <> Ok r).
  Proof.
    intros l c items args s s2 z M W T E. destruct (lint_line _ _ _ _ _ _ _ M W E) as [(m & N & -> & ->)|(r & _ & P)].
    { right. split; [reflexivity|]. split; [apply println_message|]. rewrite N. discriminate. }
    left. injection T as T1 T2 T3 T4 T5 T6. rewrite negb_false_iff in T4, T5. apply String.eqb_eq in T4, T5. rewrite T1, T2, T3, T4, T5, T6 in P.
    unfold cmd_of in P. rewrite (process_same _ (fun s => (mk_io (io_disk s) (io_done s ++ Main_Spec.shown ["empty"; "google"; "uber1"; "uber2"]), Value tt)) s) in P; [injection P as <- <-; split; reflexivity|].
    apply Props_LintCmd.C70_groups. exact V.
  Qed.
  (** diff-lint-groups *)
  Theorem C99_diff : forall l c items args s s2 z, means (w_read_csv w) l c items args -> c_words c = ["lint"] -> modes items = [false; false; false; false; true; false] ->
    (exists r, the_options w items = Ok r) -> main w l s = (s2, z) ->
    (z = 0%Z /\ exists a b lines, text items "diff-lint-groups" = a +++ "," +++ b /\ In (to_lower a) documented_groups /\ In (to_lower b) documented_groups /\
       Increasing lines /\ (forall line, In line lines <-> marked (to_lower a) (to_lower b) line) /\ only_output s s2 (Main_Spec.shown lines)) \/
    (z <> 0%Z /\ only_a_message s s2 /\
       ~ exists a b, text items "diff-lint-groups" = a +++ "," +++ b /\ no_char "," a = true /\ no_char "," b = true /\ In (to_lower a) documented_groups /\ In (to_lower b) documented_groups).
  Proof.
    intros l c items args s s2 z M W T (r0 & Or) E. destruct (lint_line _ _ _ _ _ _ _ M W E) as [(m & N & _)|(r & _ & P)]; [congruence|].
    injection T as T1 T2 T3 T4 T5 T6. rewrite negb_false_iff in T4. rewrite negb_true_iff in T5. apply String.eqb_eq in T4. apply String.eqb_neq in T5. rewrite T1, T2, T3, T4, T6 in P. unfold cmd_of in P.
    set (x := text items "diff-lint-groups") in *.
    assert (D : (exists a b, x = a +++ "," +++ b /\ no_char "," a = true /\ no_char "," b = true /\ In (to_lower a) documented_groups /\ In (to_lower b) documented_groups) \/
      ~ (exists a b, x = a +++ "," +++ b /\ no_char "," a = true /\ no_char "," b = true /\ In (to_lower a) documented_groups /\ In (to_lower b) documented_groups)).
    { pose proof (join_split "," x) as J. pose proof (split_char_parts "," x) as Pa.
      assert (No : split_char "," x <> [] -> forall a b, x = a +++ "," +++ b -> no_char "," a = true -> no_char "," b = true -> split_char "," x = [a; b]).
      { intros _ a b -> Na Nb. exact (split_join "," [a; b] ltac:(discriminate) (Forall_cons _ Na (Forall_cons _ Nb (Forall_nil _)))). }
      destruct (split_char "," x) as [|a [|b [|y l']]] eqn:Sp.
      - right. intros (a & b & Ex & Na & Nb & _). rewrite Ex in Sp. rewrite (split_join "," [a; b] ltac:(discriminate) (Forall_cons _ Na (Forall_cons _ Nb (Forall_nil _))) : split_char "," (a +++ "," +++ b) = [a; b]) in Sp. discriminate Sp.
      - right. intros (a' & b & Ex & Na & Nb & _). specialize (No ltac:(discriminate) _ _ Ex Na Nb). discriminate No.
      - apply Forall_cons_iff in Pa as [Pa Pb]. apply Forall_cons_iff in Pb as [Pb _]. cbn [join] in J.
        destruct (in_dec string_dec (to_lower a) documented_groups) as [Ia|Ia]; [destruct (in_dec string_dec (to_lower b) documented_groups) as [Ib|Ib]|].
        + left. exists a, b. split; [now rewrite <- J|]. auto.
        + right. intros (a' & b' & Ex & Na & Nb & _ & H). specialize (No ltac:(discriminate) _ _ Ex Na Nb). injection No as <- <-. contradiction.
        + right. intros (a' & b' & Ex & Na & Nb & H & _). specialize (No ltac:(discriminate) _ _ Ex Na Nb). injection No as <- <-. contradiction.
      - right. intros (a' & b' & Ex & Na & Nb & _). specialize (No ltac:(discriminate) _ _ Ex Na Nb). discriminate No. }
    destruct D as [(a & b & Ex & Na & Nb & Ha & Hb)|D].
    - left. destruct (Props_LintCmd.C56_diff (w_order w) (here r) (here r) (r_error_format r) (r_json r) Json_Model.failure_json (w_stat w) (provider w r (io_disk s)) file_set (the_compiler w r) (the_commands w r)
        (w_parse w) (w_singularize w) (Lint_Purpose.purpose_of (all_linters (w_order w) (w_singularize w))) (w_encode_ignores w) V args a b s Na Nb Ha Hb) as (lines & I & Mk & X). rewrite Ex in P.
      rewrite (process_same _ (fun s => (mk_io (io_disk s) (io_done s ++ Main_Spec.shown lines), Value tt)) s X) in P. injection P as <- <-. split; [reflexivity|]. exists a, b, lines. repeat (split; [assumption|]). reflexivity.
    - right. destruct (Props_LintCmd.C56_error (w_order w) (here r) (here r) (r_error_format r) (r_json r) Json_Model.failure_json (w_stat w) (provider w r (io_disk s)) file_set (the_compiler w r) (the_commands w r)
        (w_parse w) (w_singularize w) (Lint_Purpose.purpose_of (all_linters (w_order w) (w_singularize w))) (w_encode_ignores w) args x s T5 D) as (m & [X|X]).
      + rewrite (process_same _ (fun s => (s, Fail m)) s X) in P. injection P as <- <-. split; [discriminate|]. split; [apply println_message|exact D].
      + rewrite (process_same _ (fun s => (s, Exit m)) s X) in P. injection P as <- <-. split; [discriminate|]. split; [apply println_message|exact D].
  Qed.
End Lines.
Print Assumptions C99_modes.
Print Assumptions C99_groups.
Print Assumptions C99_diff.

(** The rules, with what they are for: those that the configuration of the listed files
    selects, all of them, or those of a group. *)
Theorem C99_listings : forall w cwd args fl f fi ll l li s s1 s2 z, ordinary w cwd -> sorts (w_sort_plugins w) ->
  means (w_read_csv w) fl f fi args -> c_words f = ["files"] -> main w fl s = (s1, 0%Z) ->
  means (w_read_csv w) ll l li args -> c_words l = ["lint"] -> same_settings fi li -> main w ll s = (s2, z) ->
  exists names c, io_done s1 = io_done s ++ Main_Spec.shown names /\
    (forall n, In n names -> exists p, File_Spec.shown cwd p n /\ in_force w (io_disk s) cwd (text li "config-data") p c) /\
    (modes li = [false; true; false; false; false; false] ->
       (known_names (cfg_lint c) /\ z = 0%Z /\ exists said table, (forall id, documented id -> describes (lc_allow_suppression (cfg_lint c)) id (said id)) /\ table_of said (selected (cfg_lint c)) table /\ only_output s s2 (says table)) \/
       (~ known_names (cfg_lint c) /\ z = 1%Z /\ only_a_message s s2)) /\
    (modes li = [true; false; false; false; false; false] -> z = 0%Z /\ exists said table, (forall id, documented id -> describes (lc_allow_suppression (cfg_lint c)) id (said id)) /\ table_of said documented table /\ only_output s s2 (says table)) /\
    (modes li = [false; false; false; true; false; false] -> let g := to_lower (text li "list-lint-group") in
       (In g documented_groups /\ z = 0%Z /\ exists said table, (forall id, documented id -> describes (lc_allow_suppression (cfg_lint c)) id (said id)) /\ table_of said (in_group g) table /\ only_output s s2 (says table)) \/
       (~ In g documented_groups /\ z = 255%Z /\ only_a_message s s2)).
Proof.
  intros w cwd args fl f fi ll l li s s1 s2 z O So Mf Wf Ef Ml Wl Sm El. pose proof O as (V & G & _).
  destruct (files_see w cwd args fl f fi li s s1 O So Mf Wf Ef Sm) as (names & r & m & E1 & Or & S). exists names, (ps_config (m_set m)).
  split; [exact E1|]. split; [exact (se_config _ _ _ _ _ _ _ _ S)|]. pose proof (se_found _ _ _ _ _ _ _ _ S) as F.
  destruct (lint_line w G _ _ _ _ _ _ _ Ml Wl El) as [(e & N & _)|(r' & Or' & P)]; [congruence|]. rewrite Or in Or'. injection Or' as <-.
  split; [|split]; intros T; injection T as T1 T2 T3 T4 T5 T6; rewrite T1, T2, T3, T6 in P; rewrite negb_false_iff in T5; apply String.eqb_eq in T5; rewrite T5 in P.
  - rewrite negb_false_iff in T4. apply String.eqb_eq in T4. rewrite T4 in P.
    destruct (Props_LintCmd.C70_linters (w_order w) (here r) (here r) (r_error_format r) (r_json r) Json_Model.failure_json (w_stat w) (provider w r (io_disk s)) file_set (the_compiler w r) (the_commands w r)
      (w_parse w) (w_singularize w) (Lint_Purpose.purpose_of (all_linters (w_order w) (w_singularize w))) (w_encode_ignores w) V args m s F) as [(K & table & Ta & X)|(K & e & X)]; [left|right]; split; try exact K.
    + rewrite (process_same _ (fun s => (mk_io (io_disk s) (io_done s ++ says table), Value tt)) s X) in P. injection P as <- <-. split; [reflexivity|]. exists (Lint_Purpose.purpose_of (all_linters (w_order w) (w_singularize w)) (cfg_lint (ps_config (m_set m)))), table. split; [intros id; apply Props_Purpose.C106_described|]. split; [exact Ta|reflexivity].
    + rewrite (process_same _ (fun s => (s, Fail e)) s X) in P. injection P as <- <-. split; [reflexivity|apply println_message].
  - rewrite negb_false_iff in T4. apply String.eqb_eq in T4. rewrite T4 in P.
    destruct (Props_LintCmd.C70_all_linters (w_order w) (here r) (here r) (r_error_format r) (r_json r) Json_Model.failure_json (w_stat w) (provider w r (io_disk s)) file_set (the_compiler w r) (the_commands w r)
      (w_parse w) (w_singularize w) (Lint_Purpose.purpose_of (all_linters (w_order w) (w_singularize w))) (w_encode_ignores w) args m s F) as (table & Ta & X).
    rewrite (process_same _ (fun s => (mk_io (io_disk s) (io_done s ++ says table), Value tt)) s X) in P. injection P as <- <-. split; [reflexivity|]. exists (Lint_Purpose.purpose_of (all_linters (w_order w) (w_singularize w)) (cfg_lint (ps_config (m_set m)))), table. split; [intros id; apply Props_Purpose.C106_described|]. split; [exact Ta|reflexivity].
  - rewrite negb_true_iff in T4. apply String.eqb_neq in T4. cbv zeta.
    destruct (Props_LintCmd.C70_group (w_order w) (here r) (here r) (r_error_format r) (r_json r) Json_Model.failure_json (w_stat w) (provider w r (io_disk s)) file_set (the_compiler w r) (the_commands w r)
      (w_parse w) (w_singularize w) (Lint_Purpose.purpose_of (all_linters (w_order w) (w_singularize w))) (w_encode_ignores w) args m (text li "list-lint-group") s F T4) as [(K & table & Ta & X)|(K & X)]; [left|right]; split; try exact K.
    + rewrite (process_same _ (fun s => (mk_io (io_disk s) (io_done s ++ says table), Value tt)) s X) in P. injection P as <- <-. split; [reflexivity|]. exists (Lint_Purpose.purpose_of (all_linters (w_order w) (w_singularize w)) (cfg_lint (ps_config (m_set m)))), table. split; [intros id; apply Props_Purpose.C106_described|]. split; [exact Ta|reflexivity].
    + set (e := "unknown lint group: " +++ _) in X. clearbody e. rewrite (process_same _ (fun s => (s, Exit e)) s X) in P. injection P as <- <-. split; [reflexivity|apply println_message].
Qed.
Print Assumptions C99_listings.

Example C99_ex : ordinary (exw12 true) "/w" /\ sorts (w_sort_plugins (exw12 true)) /\
  means (w_read_csv (exw12 true)) ["lint"; "--list-lint-group"; "UBER2"] (exw_command ["lint"]) [Given "list-lint-group" LongSpace "UBER2"] [] /\
  same_settings [] [Given "list-lint-group" LongSpace "UBER2"] /\ modes [Given "list-lint-group" LongSpace "UBER2"] = [false; false; false; true; false; false] /\
  two_set (modes [Given "list-lint-group" LongSpace "UBER2"; Given "list-linters" LongAlone "true"]) /\
  snd (exw_seen true ["lint"; "--list-lint-group"; "UBER2"; "--list-linters"] exw8_s) = 255%Z /\
  exw_seen true ["lint"; "--list-lint-group"; "empty"] exw8_s = ([], 0%Z) /\
  exw_seen true ["lint"; "--list-lint-group"; "uber3"] exw8_s = ([Printed (exl "unknown lint group: uber3")], 255%Z) /\
  exw_seen true ["lint"; "--list-all-lint-groups"] exw8_s = (Main_Spec.shown ["empty"; "google"; "uber1"; "uber2"], 0%Z) /\
  snd (exw_seen true ["lint"; "--list-linters"] exw8_s) = 0%Z /\
  modes [Given "diff-lint-groups" LongSpace "google,Empty"] = [false; false; false; false; true; false] /\
  exw_seen true ["lint"; "--diff-lint-groups"; "google,Empty"] exw8_s =
    (Main_Spec.shown (map (fun id => "< " +++ id) ["ENUM_FIELD_NAMES_UPPER_SNAKE_CASE"; "ENUM_NAMES_CAMEL_CASE"; "ENUM_NAMES_CAPITALIZED"; "FILE_HEADER"; "MESSAGE_FIELD_NAMES_LOWER_SNAKE_CASE";
      "MESSAGE_NAMES_CAMEL_CASE"; "MESSAGE_NAMES_CAPITALIZED"; "RPC_NAMES_CAMEL_CASE"; "RPC_NAMES_CAPITALIZED"; "SERVICE_NAMES_CAMEL_CASE"; "SERVICE_NAMES_CAPITALIZED"]), 0%Z).
Proof.
  split; [apply exw12_ordinary|]. split; [exact Settings_Proofs2.by_name_sorts|]. split; [means_now|]. split; [split; reflexivity|]. split; [reflexivity|].
  split; [exists 1, 3; split; [discriminate|split; reflexivity]|]. split; [vm_compute; reflexivity|]. split; [vm_compute; reflexivity|]. split; [vm_compute; reflexivity|]. split; [vm_compute; reflexivity|]. split; [vm_compute; reflexivity|]. split; [reflexivity|]. vm_compute; reflexivity.
Qed.
