(** Properties of the lint command: C55, C56, C70. *)
From Verif Require Import GoStrFacts GoPathFacts GoMapFacts File_Proofs LintRun_Proofs Exec_Proofs LintCmd_Proofs Props_Lint.

(** ** C55: generated ignores *)

(** What generate-ignores prints are the entries for exactly the failures of a run without
    ignores; a configuration with these entries, and otherwise the same, makes lint find
    nothing in the same files.  The names of files are absolute in the first run and as
    shown to the user in the second, and the order of maps may differ. *)
Theorem C55_silent : forall ord ord' cwd parse sing marshal ps single s s',
  reorders ord -> reorders ord' -> NoDup (map fst (ps_files ps)) -> clean_abs cwd -> clean_abs (cfg_dir (ps_config ps)) ->
  (forall d files f, In (d, files) (ps_files ps) -> has_prefix d (ps_dir ps) = true -> In f files -> listed cwd (cfg_dir (ps_config ps)) f) ->
  generate_ignores ord cwd parse sing marshal (mk_meta ps single) s = (s', Value tt) ->
  exists ps0 fs is text,
    ignoring [] ps ps0 /\ run_lint ord cwd parse sing (io_disk s) ps0 true = Ok fs /\
    entries_of (cfg_dir (ps_config ps)) fs is /\
    (fs = [] /\ text = "" \/ fs <> [] /\ exists data, marshal is = Ok data /\ text = trim_space data) /\
    s' = mk_io (io_disk s) (io_done s ++ says (if String.eqb text "" then "" else text +++ String newline "")) /\
    forall m ps1, Settings_Spec.ignores_of (cfg_dir (ps_config ps)) is m -> ignoring m ps ps1 ->
      run_lint ord' cwd parse sing (io_disk s) ps1 false = Ok [].
Proof. exact ignores_silence. Qed.
Print Assumptions C55_silent.
(** It succeeds whenever the files can be linted; so C55_silent speaks about every run. *)
Theorem C55_succeeds : forall ord cwd parse sing marshal ps single s,
  reorders ord -> NoDup (map fst (ps_files ps)) -> clean_abs (cfg_dir (ps_config ps)) ->
  (forall d files f, In (d, files) (ps_files ps) -> In f files -> clean_abs (pf_path f)) ->
  (forall ps0, ignoring [] ps ps0 -> exists fs, run_lint ord cwd parse sing (io_disk s) ps0 true = Ok fs) ->
  (forall is, exists data, marshal is = Ok data) ->
  exists s', generate_ignores ord cwd parse sing marshal (mk_meta ps single) s = (s', Value tt).
Proof. exact ignores_succeed. Qed.
Print Assumptions C55_succeeds.

Section Command.
  Variable ord : map_order.
  Variable cwd work_dir error_format : string.
  Variable json : bool.
  Variable to_json : failure -> string.
  Variable stat : string -> result file_kind.
  Variable get_for_dir : string -> string -> result proto_set.
  Variable D : Type.
  Variable compiler : bool -> bool -> option (bool * bool) -> (string -> result string) -> proto_set -> result (list failure * list D).
  Variable commands : bool -> proto_set -> result (list string).
  Variable parse : string -> string -> result (list element).
  Variable sing : string -> string.
  Variable purpose : lint_config -> string -> string.
  Variable marshal : list ext_ignore -> result string.
  Hypothesis Hord : reorders ord.
  Notation lint_cmd := (lint_cmd ord cwd work_dir error_format json to_json stat get_for_dir D compiler commands parse sing purpose marshal).
  Notation found := (found work_dir stat get_for_dir).
  Notation compiles m s := (exists ds, compiler false false None (io_disk s) (m_set m) = Ok ([], ds)).
  Let after (s : io) (text : string) : io := mk_io (io_disk s) (io_done s ++ says text).
  Let compiled (s : io) : io := mk_io (io_disk s) (io_done s ++ [Compiled false]).

  Lemma compile_silent m s : compiles m s -> (exists fields, fields_of error_format fields) ->
    exists ds, compile cwd error_format json to_json D compiler commands false false false m s = (compiled s, Value ds).
  Proof.
    intros (ds & E) (fields & F). apply fields_of_ok in F. exists ds. unfold compile, do_compile, and_then, emit.
    cbn [io_disk io_done]. rewrite E. cbn [check ret fst snd]. unfold report, print_failures, print_failures_for, and_then.
    rewrite F. reflexivity.
  Qed.
  (** The whole command, before and after: lint --generate-ignores succeeds; with its
      entries in the configuration lint prints nothing and succeeds. *)
  Theorem C55_command : forall ord' args m s s' fields,
    reorders ord' -> found args m -> NoDup (map fst (ps_files (m_set m))) -> clean_abs cwd ->
    clean_abs (cfg_dir (ps_config (m_set m))) ->
    (forall d files f, In (d, files) (ps_files (m_set m)) -> has_prefix d (ps_dir (m_set m)) = true -> In f files -> listed cwd (cfg_dir (ps_config (m_set m))) f) ->
    fields_of error_format fields -> compiles m s ->
    lint_cmd args false false false "" "" true s = (s', Value tt) ->
    exists is fs ps0, ignoring [] (m_set m) ps0 /\ run_lint ord cwd parse sing (io_disk s) ps0 true = Ok fs /\
      entries_of (cfg_dir (ps_config (m_set m))) fs is /\
      forall get_for_dir' args' m' s1, LintCmd_Spec.ignoring (lc_ignores (cfg_lint (ps_config (m_set m')))) (m_set m) (m_set m') ->
        Settings_Spec.ignores_of (cfg_dir (ps_config (m_set m))) is (lc_ignores (cfg_lint (ps_config (m_set m')))) ->
        Exec_Spec.found work_dir stat get_for_dir' args' m' -> io_disk s1 = io_disk s -> compiles m' s1 ->
        LintCmd_Model.lint_cmd ord' cwd work_dir error_format json to_json stat get_for_dir' D compiler commands parse sing purpose marshal
          args' false false false "" "" false s1 = (compiled s1, Value tt).
  Proof.
    intros ord' args m s s' fields Ho' F N Hc Hd Hf Hfl Cm G. unfold LintCmd_Model.lint_cmd in G.
    change (more_than_one_set [false; false; false; negb (is_empty ""); negb (is_empty ""); true]) with false in G. cbn iota in G.
    change (negb (is_empty "")) with false in G. cbn iota in G.
    unfold and_then at 1 in G. rewrite (get_meta_found _ _ _ _ _ _ F) in G.
    destruct (compile_silent m s Cm (ex_intro _ fields Hfl)) as (ds & Ec). unfold and_then in G. rewrite Ec in G.
    destruct m as [ps single]. cbn [m_set] in *.
    destruct (ignores_silence ord ord' cwd parse sing marshal ps single (compiled s) s' Hord Ho' N Hc Hd Hf G)
      as (ps0 & fs & is & text & H1 & H2 & H3 & _ & _ & H6). unfold compiled in H2, H6. cbn [io_disk] in H2, H6.
    exists is, fs, ps0. split; [exact H1|]. split; [exact H2|]. split; [exact H3|].
    intros gfd args' m' s1 Hi Hm F' Es Cm'. unfold LintCmd_Model.lint_cmd.
    change (more_than_one_set [false; false; false; negb (is_empty ""); negb (is_empty ""); false]) with false. cbn iota.
    change (negb (is_empty "")) with false. cbn iota.
    unfold and_then at 1. rewrite (get_meta_found _ _ _ _ _ _ F').
    destruct (compile_silent m' s1 Cm' (ex_intro _ fields Hfl)) as (ds' & Ec'). unfold and_then. rewrite Ec'.
    unfold lint, and_then, compiled. cbn [io_disk]. rewrite Es, (H6 _ _ Hm Hi). cbn [check ret].
    apply fields_of_ok in Hfl. unfold report, print_failures, print_failures_for, and_then. rewrite Hfl. reflexivity.
  Qed.

  (** ** C56: the difference of two groups *)
  Lemma ids_of_group g s : In (to_lower g) documented_groups ->
    exists m, get_linter_ids ord g s = (s, Value m) /\ NoDup (map fst m) /\ forall id, In id (map fst m) <-> in_group (to_lower g) id.
  Proof.
    intros H. unfold get_linter_ids. pose proof (groups_good ord sing (to_lower g)) as G.
    destruct (gget (to_lower g) (group_to_linters ord)) as [ls|]; [|contradiction]. destruct G as (_ & _ & _ & G).
    eexists. split; [reflexivity|]. split; [apply build_NoDup|]. intros id. rewrite <- G.
    rewrite <- gget_Some_key. split.
    - intros (v & Hv). rewrite gget_build in Hv. apply gget_In, in_rev, in_map_iff in Hv as (l & [= <- _] & Hl). now apply in_map.
    - intros Hid. apply gget_Some_key. apply in_map_iff in Hid as (l & <- & Hl).
      assert (X : In (ln_id l) (map fst (rev (map (fun l => (ln_id l, tt)) ls)))).
      { rewrite map_rev, map_map. cbn [fst]. apply -> in_rev. now apply (in_map ln_id). }
      apply gget_Some_key in X as (v & Hv). rewrite <- gget_build in Hv. apply gget_Some_key. eauto.
  Qed.
  Lemma diff_ok one two a b : NoDup (map fst one) -> NoDup (map fst two) ->
    (forall id, In id (map fst one) <-> in_group a id) -> (forall id, In id (map fst two) <-> in_group b id) ->
    Increasing (diff_maps ord one two) /\ forall line, In line (diff_maps ord one two) <-> marked a b line.
  Proof.
    intros N1 N2 H1 H2. unfold diff_maps.
    set (la := filter _ (ord "diffMaps one" _ one)). set (lb := filter _ (ord "diffMaps two" _ two)).
    assert (A : forall k u, In (k, u) la <-> In (k, u) one /\ ~ In k (map fst two)).
    { intros k u. unfold la. rewrite filter_In. cbn [fst]. rewrite negb_true_iff, has_false, gget_None.
      split; intros [X Y]; (split; [|exact Y]); [eapply Permutation_in; [apply Permutation_sym, Hord|exact X]|eapply Permutation_in; [apply Hord|exact X]]. }
    assert (B : forall k u, In (k, u) lb <-> In (k, u) two /\ ~ In k (map fst one)).
    { intros k u. unfold lb. rewrite filter_In. cbn [fst]. rewrite negb_true_iff, has_false, gget_None.
      split; intros [X Y]; (split; [|exact Y]); [eapply Permutation_in; [apply Permutation_sym, Hord|exact X]|eapply Permutation_in; [apply Hord|exact X]]. }
    assert (Nf : forall (l : list (string * unit)) P, NoDup (map fst l) -> NoDup (map fst (filter P l))).
    { intros l P. induction l as [|x l IH]; cbn [map filter]; [auto|]. intros X. inversion X as [|? ? X1 X2]; subst.
      destruct (P x); [|auto]. cbn [map]. constructor; [|auto]. intros Hx. apply X1. apply in_map_iff in Hx as (y & Ey & Hy).
      apply filter_In in Hy as [Hy _]. rewrite <- Ey. now apply in_map. }
    assert (Nm : forall p (l : list (string * unit)), NoDup (map fst l) -> NoDup (map (fun k => p +++ fst k) l)).
    { intros p l X. rewrite <- (map_map fst (fun k => p +++ k)). apply FinFun.Injective_map_NoDup; [|exact X].
      intros x y E. clear -E. induction p as [|c p IH]; [exact E|]. injection E as E. auto. }
    split.
    - apply increasing_sort. apply File_Proofs.nodup_app.
      + apply Nm, Nf. eapply Permutation_NoDup; [apply Permutation_map, Hord|exact N1].
      + apply Nm, Nf. eapply Permutation_NoDup; [apply Permutation_map, Hord|exact N2].
      + intros x X Y. apply in_map_iff in X as (k1 & <- & _). apply in_map_iff in Y as (k2 & E & _). discriminate E.
    - intros line. rewrite sort_strings_In, in_app_iff, !in_map_iff. unfold marked. split.
      + intros [([k u] & <- & X)|([k u] & <- & X)]; exists k; cbn [fst].
        * left. apply A in X as [X Y]. split; [reflexivity|]. rewrite <- H1, <- H2. split; [|exact Y]. now apply (in_map fst) in X.
        * right. apply B in X as [X Y]. split; [reflexivity|]. rewrite <- H1, <- H2. split; [|exact Y]. now apply (in_map fst) in X.
      + intros (id & [(-> & X & Y)|(-> & X & Y)]); rewrite <- H1, <- H2 in *.
        * left. apply in_map_iff in X as ([k u] & <- & X). exists (k, u). split; [reflexivity|]. apply A. auto.
        * right. apply in_map_iff in X as ([k u] & <- & X). exists (k, u). split; [reflexivity|]. apply B. auto.
  Qed.
  Lemma marked_not_empty a b line : marked a b line -> is_empty line = false.
  Proof. intros (id & [(-> & _)|(-> & _)]); reflexivity. Qed.
  Lemma full_lines ls : (forall l, In l ls -> is_empty l = false) -> Exec_Proofs.lines_of ls = map (fun l => Printed (l +++ String newline "")) ls.
  Proof.
    unfold Exec_Proofs.lines_of. induction ls as [|l ls IH]; [reflexivity|]. intros X. cbn [map concat]. rewrite X by now left. cbn [app].
    now rewrite IH by (intros; apply X; now right).
  Qed.
  Lemma split_two a b : no_char "," a = true -> no_char "," b = true -> split_char "," (a +++ "," +++ b) = [a; b].
  Proof. intros A B. exact (split_join "," [a; b] ltac:(discriminate) (Forall_cons _ A (Forall_cons _ B (Forall_nil _)))). Qed.
  Lemma diff_flags args x s : x <> "" -> lint_cmd args false false false "" x false s = diff_lint_groups ord x s.
  Proof. intros H. unfold LintCmd_Model.lint_cmd. destruct x; [contradiction|]. reflexivity. Qed.

  (** Two known groups, in any case of letters: exactly the marked differences, in order,
      a line each.  Nothing is looked up or compiled. *)
  Theorem C56_diff : forall args a b s,
    no_char "," a = true -> no_char "," b = true -> In (to_lower a) documented_groups -> In (to_lower b) documented_groups ->
    exists lines, Increasing lines /\ (forall line, In line lines <-> marked (to_lower a) (to_lower b) line) /\
      lint_cmd args false false false "" (a +++ "," +++ b) false s
      = (mk_io (io_disk s) (io_done s ++ map (fun l => Printed (l +++ String newline "")) lines), Value tt).
  Proof.
    intros args a b s Na Nb Ha Hb. rewrite diff_flags by (destruct a; discriminate).
    destruct (ids_of_group a s Ha) as (one & E1 & N1 & G1). destruct (ids_of_group b s Hb) as (two & E2 & N2 & G2).
    destruct (diff_ok one two (to_lower a) (to_lower b) N1 N2 G1 G2) as [I M].
    exists (diff_maps ord one two). split; [exact I|]. split; [exact M|].
    unfold diff_lint_groups. rewrite split_two by assumption. unfold and_then at 1. rewrite E1. unfold and_then. rewrite E2, each_println.
    rewrite full_lines; [reflexivity|]. intros l Hl. eapply marked_not_empty, M, Hl.
  Qed.
  (** Swapping the arguments swaps the marks. *)
  Theorem C56_swap : forall args a b s la lb,
    no_char "," a = true -> no_char "," b = true -> In (to_lower a) documented_groups -> In (to_lower b) documented_groups ->
    lint_cmd args false false false "" (a +++ "," +++ b) false s
      = (mk_io (io_disk s) (io_done s ++ map (fun l => Printed (l +++ String newline "")) la), Value tt) ->
    lint_cmd args false false false "" (b +++ "," +++ a) false s
      = (mk_io (io_disk s) (io_done s ++ map (fun l => Printed (l +++ String newline "")) lb), Value tt) ->
    forall id, (In ("< " +++ id) la <-> In ("> " +++ id) lb) /\ (In ("> " +++ id) la <-> In ("< " +++ id) lb).
  Proof.
    intros args a b s la lb Na Nb Ha Hb Ea Eb id.
    destruct (C56_diff args a b s Na Nb Ha Hb) as (l1 & _ & M1 & E1). destruct (C56_diff args b a s Nb Na Hb Ha) as (l2 & _ & M2 & E2).
    assert (Inj : forall x y, map (fun l => Printed (l +++ String newline "")) x = map (fun l => Printed (l +++ String newline "")) y -> x = y).
    { induction x as [|u x IH]; intros [|v y] E; try discriminate E; [reflexivity|]. injection E as E E'. f_equal; [|auto].
      revert v E. clear. induction u as [|c u IH]; intros [|d v] E; try discriminate E; try reflexivity.
      - injection E as _ E. destruct v; discriminate E.
      - injection E as _ E. destruct u; discriminate E.
      - injection E as -> E. f_equal. auto. }
    rewrite E1 in Ea. rewrite E2 in Eb. injection Ea as Ea. injection Eb as Eb. apply app_inv_head, Inj in Ea, Eb. subst la lb.
    rewrite !M1, !M2. unfold marked.
    assert (L : forall x y, "< " +++ x = "< " +++ y -> x = y) by (intros x y [= E]; exact E).
    assert (G : forall x y, "> " +++ x = "> " +++ y -> x = y) by (intros x y [= E]; exact E).
    split; split; intros (i & [(E & H)|(E & H)]); try discriminate E; (apply L in E || apply G in E); subst i; exists id; tauto.
  Qed.
  (** Anything else is an error, and nothing is printed. *)
  Theorem C56_error : forall args x s, x <> "" ->
    ~ (exists a b, x = a +++ "," +++ b /\ no_char "," a = true /\ no_char "," b = true /\
         In (to_lower a) documented_groups /\ In (to_lower b) documented_groups) ->
    exists m, lint_cmd args false false false "" x false s = (s, Fail m) \/ lint_cmd args false false false "" x false s = (s, Exit m).
  Proof.
    intros args x s Hx N. rewrite diff_flags by assumption. unfold diff_lint_groups.
    pose proof (join_split "," x) as J. pose proof (split_char_parts "," x) as P.
    destruct (split_char "," x) as [|a [|b [|c r]]]; try (eexists; left; reflexivity).
    apply Forall_cons_iff in P as [Pa P]. apply Forall_cons_iff in P as [Pb _]. cbn [join] in J.
    unfold and_then, get_linter_ids. pose proof (groups_good ord sing (to_lower a)) as Ga.
    destruct (gget (to_lower a) (group_to_linters ord)) as [la|]; [|eexists; right; reflexivity].
    unfold ret at 1. pose proof (groups_good ord sing (to_lower b)) as Gb.
    destruct (gget (to_lower b) (group_to_linters ord)) as [lb|]; [|eexists; right; reflexivity].
    exfalso. apply N. exists a, b. split; [now rewrite <- J|]. repeat split; tauto.
  Qed.

  (** ** C70: listings *)
  (** At most one of the six modes. *)
  Theorem C70_flags : forall args f1 f2 f3 group diff_groups f6 s,
    two_set [f1; f2; f3; negb (is_empty group); negb (is_empty diff_groups); f6] ->
    exists m, lint_cmd args f1 f2 f3 group diff_groups f6 s = (s, Exit m).
  Proof. intros args f1 f2 f3 g dg f6 s H. apply more_than_one_iff in H. unfold LintCmd_Model.lint_cmd. rewrite H. eexists. reflexivity. Qed.
  (** list-linters: the rules that the configuration selects, or an error if it names a rule
      or group that does not exist. *)
  Theorem C70_linters : forall args m s, found args m ->
    (known_names (cfg_lint (ps_config (m_set m))) /\ exists text,
       table_of (purpose (cfg_lint (ps_config (m_set m)))) (selected (cfg_lint (ps_config (m_set m)))) text /\
       lint_cmd args false true false "" "" false s = (after s text, Value tt))
    \/ (~ known_names (cfg_lint (ps_config (m_set m))) /\ exists e, lint_cmd args false true false "" "" false s = (s, Fail e)).
  Proof.
    intros args m s F. unfold LintCmd_Model.lint_cmd.
    change (more_than_one_set [false; true; false; negb (is_empty ""); negb (is_empty ""); false]) with false. cbn iota.
    change (negb (is_empty "")) with false. cbn iota. unfold and_then. rewrite !(get_meta_found _ _ _ _ _ _ F).
    unfold list_linters, and_then. pose proof (selection ord sing Hord (cfg_lint (ps_config (m_set m)))) as S.
    destruct (get_linters _ _ _ _ _) as [ls|e]; cbn [check].
    - left. destruct S as [K G]. split; [exact K|]. unfold ret. exact (print_table ord sing purpose _ ls _ s G).
    - right. split; [exact S|]. eexists. reflexivity.
  Qed.
  (** list-all-linters: every documented rule. *)
  Theorem C70_all_linters : forall args m s, found args m -> exists text,
    table_of (purpose (cfg_lint (ps_config (m_set m)))) documented text /\
    lint_cmd args true false false "" "" false s = (after s text, Value tt).
  Proof.
    intros args m s F. unfold LintCmd_Model.lint_cmd.
    change (more_than_one_set [true; false; false; negb (is_empty ""); negb (is_empty ""); false]) with false. cbn iota.
    change (negb (is_empty "")) with false. cbn iota. unfold and_then at 1. rewrite (get_meta_found _ _ _ _ _ _ F).
    apply (print_table ord sing). split; [rewrite all_ids_eq; exact all_ids_nodup|]. split; [apply incl_refl|].
    intros id. symmetry. apply documented_iff.
  Qed.
  (** list-lint-group: the rules of the group, in any case of letters. *)
  Theorem C70_group : forall args m g s, found args m -> g <> "" ->
    (In (to_lower g) documented_groups /\ exists text,
       table_of (purpose (cfg_lint (ps_config (m_set m)))) (in_group (to_lower g)) text /\
       lint_cmd args false false false g "" false s = (after s text, Value tt))
    \/ (~ In (to_lower g) documented_groups /\
        lint_cmd args false false false g "" false s = (s, Exit ("unknown lint group: " +++ to_lower g))).
  Proof.
    intros args m g s F Hg. unfold LintCmd_Model.lint_cmd.
    assert (E : is_empty g = false) by now destruct g. rewrite E.
    change (more_than_one_set [false; false; false; negb false; negb (is_empty ""); false]) with false. cbn iota.
    change (negb (is_empty "")) with false. cbn [negb]. cbn iota. unfold and_then. rewrite !(get_meta_found _ _ _ _ _ _ F).
    unfold list_lint_group.
    pose proof (groups_good ord sing (to_lower g)) as G.
    destruct (gget (to_lower g) (group_to_linters ord)) as [ls|].
    - left. destruct G as [K G]. split; [exact K|]. exact (print_table ord sing purpose _ ls _ s G).
    - right. split; [exact G|]. reflexivity.
  Qed.
  (** list-all-lint-groups: the four groups, whatever the argument. *)
  Theorem C70_groups : forall args s,
    lint_cmd args false false true "" "" false s
    = (mk_io (io_disk s) (io_done s ++ map (fun g => Printed (g +++ String newline "")) ["empty"; "google"; "uber1"; "uber2"]), Value tt).
  Proof.
    intros args s. unfold LintCmd_Model.lint_cmd.
    change (more_than_one_set [false; false; true; negb (is_empty ""); negb (is_empty ""); false]) with false. cbn iota.
    unfold list_all_lint_groups. rewrite each_println.
    rewrite <- (sort_strings_unique (map fst (group_to_linters ord)) (ord "GroupToLinters" _ (map fst (group_to_linters ord))) (Hord _ _ _)).
    reflexivity.
  Qed.
End Command.
Print Assumptions C55_command.
Print Assumptions C56_diff.
Print Assumptions C56_swap.
Print Assumptions C56_error.
Print Assumptions C70_flags.
Print Assumptions C70_linters.
Print Assumptions C70_all_linters.
Print Assumptions C70_group.
Print Assumptions C70_groups.

(** ** Examples *)
(** A directory with one file, which the rules of google and one more reject. *)
Definition ex_ps : proto_set := a_set "/work/a" (mk_lint_config "google" false ["COMMENTS_NO_C_STYLE"] [] [] "" "com" true)
  [("/work/a", [mk_proto_file "/work/a/foo.proto" "a/foo.proto"])].
Definition ex_stat (p : string) : result file_kind := if String.eqb p "a" then Ok Directory else Err "no such file".
Definition ex_get_for_dir (ps : proto_set) (work dir : string) : result proto_set := if String.eqb dir "a" then Ok ps else Err "no files".
Definition ex_compiler (gen set : bool) (full : option (bool * bool)) (disk : string -> result string) (ps : proto_set) : result (list failure * list nat) := Ok ([], []).
Definition ex_parse (path data : string) : result (list element) := Ok ex_elements.
Definition ex_marshal (is : list ext_ignore) : result string :=
  Ok (join "" (map (fun i => ei_id i +++ ":" +++ join "," (ei_files i) +++ ";") is) +++ String newline "").
Definition ex_disk (p : string) : result string := Ok "".
Notation ex_lint_cmd ord ps := (lint_cmd ord "/work" "/work" "" false (fun _ => "") ex_stat (ex_get_for_dir ps) nat ex_compiler
  (fun _ _ => Ok []) ex_parse (fun s => s) (fun _ id => "for " +++ id) ex_marshal).
Example ex_found ps : found "/work" ex_stat (ex_get_for_dir ps) ["a"] (mk_meta ps "").
Proof. apply FoundDirectory; reflexivity. Qed.
Lemma ex_clean : clean_abs "/work" /\ clean_abs "/work/a/foo.proto".
Proof.
  assert (H : forall p, path_clean p = p -> is_abs p = true -> clean_abs p) by (intros p E A; rewrite <- E; now apply path_clean_clean_abs).
  split; apply H; reflexivity.
Qed.
Example C55_ex_hypotheses :
  NoDup (map fst (ps_files ex_ps)) /\ clean_abs (cfg_dir (ps_config ex_ps)) /\
  (forall d files f, In (d, files) (ps_files ex_ps) -> In f files -> listed "/work" (cfg_dir (ps_config ex_ps)) f).
Proof.
  split; [repeat constructor; cbn; tauto|]. split; [exact (proj1 ex_clean)|].
  intros d files f [[= <- <-]|[]] [ <- |[]]. split; [exact (proj2 ex_clean)|].
  repeat split; discriminate.
Qed.
(** Lint finds failures, generate-ignores prints entries for them, and with these in the
    configuration lint finds none. *)
Definition ex_entries : list (string * list string) := [("MESSAGE_FIELD_NAMES_LOWER_SNAKE_CASE", ["/work/a/foo.proto"]);
  ("MESSAGE_NAMES_CAMEL_CASE", ["/work/a/foo.proto"]); ("MESSAGE_NAMES_CAPITALIZED", ["/work/a/foo.proto"])].
Definition seen {A} (r : io * Exec_Model.outcome A) : string * Exec_Model.outcome A := (printed (io_done (fst r)), snd r).
Example C55_ex :
  seen (ex_lint_cmd in_order ex_ps ["a"] false false false "" "" true (mk_io ex_disk []))
  = ("MESSAGE_FIELD_NAMES_LOWER_SNAKE_CASE:a/foo.proto;MESSAGE_NAMES_CAMEL_CASE:a/foo.proto;MESSAGE_NAMES_CAPITALIZED:a/foo.proto;" +++ String newline "", Value tt) /\
  snd (ex_lint_cmd in_order ex_ps ["a"] false false false "" "" false (mk_io ex_disk [])) = Exit "" /\
  seen (ex_lint_cmd reversed (with_ignores ex_entries ex_ps) ["a"] false false false "" "" false (mk_io ex_disk [])) = ("", Value tt) /\
  seen (ex_lint_cmd in_order (with_ignores (tl ex_entries) ex_ps) ["a"] false false false "" "" false (mk_io ex_disk []))
  = ("a/foo.proto:6:1:Field name ""fooBar"" must be lower_snake_case." +++ String newline "", Exit "").
Proof. vm_compute. repeat split. Qed.
(** The entries that were printed are the ones of the second configuration. *)
Example C55_ex_entries : exists is, ignoring (lc_ignores (cfg_lint (ps_config (with_ignores ex_entries ex_ps)))) ex_ps (with_ignores ex_entries ex_ps) /\
  ex_marshal is = Ok ("MESSAGE_FIELD_NAMES_LOWER_SNAKE_CASE:a/foo.proto;MESSAGE_NAMES_CAMEL_CASE:a/foo.proto;MESSAGE_NAMES_CAPITALIZED:a/foo.proto;" +++ String newline "") /\
  Settings_Spec.ignores_of "/work" is ex_entries.
Proof.
  exists [mk_ext_ignore "MESSAGE_FIELD_NAMES_LOWER_SNAKE_CASE" ["a/foo.proto"]; mk_ext_ignore "MESSAGE_NAMES_CAMEL_CASE" ["a/foo.proto"];
    mk_ext_ignore "MESSAGE_NAMES_CAPITALIZED" ["a/foo.proto"]].
  split; [split; reflexivity|]. split; [reflexivity|]. split; [repeat constructor; cbn; intuition discriminate|].
  intros id files. unfold files_for. cbn [filter ei_id ei_files map concat ex_entries In app]. split.
  - intros [[= <- <-]|[[= <- <-]|[[= <- <-]|[]]]]; (split; [discriminate|reflexivity]).
  - intros [N ->].
    destruct (String.eqb_spec (to_upper "MESSAGE_FIELD_NAMES_LOWER_SNAKE_CASE") id) as [E|N1]; [subst id; now left|].
    destruct (String.eqb_spec (to_upper "MESSAGE_NAMES_CAMEL_CASE") id) as [E|N2]; [subst id; right; now left|].
    destruct (String.eqb_spec (to_upper "MESSAGE_NAMES_CAPITALIZED") id) as [E|N3]; [subst id; right; right; now left|].
    now destruct N.
Qed.
Definition google_ids : list string := ["ENUM_FIELD_NAMES_UPPER_SNAKE_CASE"; "ENUM_NAMES_CAMEL_CASE"; "ENUM_NAMES_CAPITALIZED"; "FILE_HEADER"; "MESSAGE_FIELD_NAMES_LOWER_SNAKE_CASE"; "MESSAGE_NAMES_CAMEL_CASE"; "MESSAGE_NAMES_CAPITALIZED"; "RPC_NAMES_CAMEL_CASE"; "RPC_NAMES_CAPITALIZED"; "SERVICE_NAMES_CAMEL_CASE"; "SERVICE_NAMES_CAPITALIZED"].
Definition text_lines (ls : list string) : string := join "" (map (fun l => l +++ String newline "") ls).
Example C56_ex :
  seen (ex_lint_cmd reversed ex_ps [] false false false "" "Empty,GOOGLE" false (mk_io ex_disk [])) = (text_lines (map (fun id => "> " +++ id) google_ids), Value tt) /\
  seen (ex_lint_cmd in_order ex_ps [] false false false "" "google,empty" false (mk_io ex_disk [])) = (text_lines (map (fun id => "< " +++ id) google_ids), Value tt) /\
  seen (ex_lint_cmd in_order ex_ps [] false false false "" "google,google" false (mk_io ex_disk [])) = ("", Value tt) /\
  seen (ex_lint_cmd in_order ex_ps [] false false false "" "google,uber3" false (mk_io ex_disk [])) = ("", Exit "unknown lint group: uber3") /\
  no_char "," "Empty" = true /\ In (to_lower "Empty") documented_groups /\ In (to_lower "GOOGLE") documented_groups.
Proof. vm_compute. intuition. Qed.
Example C70_ex :
  seen (ex_lint_cmd reversed ex_ps ["a"] false true false "" "" false (mk_io ex_disk []))
  = (text_lines (map (fun id => id +++ srepeat " " (38 - String.length id) +++ "for " +++ id) ("COMMENTS_NO_C_STYLE" :: google_ids)), Value tt) /\
  seen (ex_lint_cmd reversed ex_ps ["a"] false false false "Google" "" false (mk_io ex_disk []))
  = (text_lines (map (fun id => id +++ srepeat " " (38 - String.length id) +++ "for " +++ id) google_ids), Value tt) /\
  seen (ex_lint_cmd reversed ex_ps ["a"] false false false "uber3" "" false (mk_io ex_disk [])) = ("", Exit "unknown lint group: uber3") /\
  seen (ex_lint_cmd reversed ex_ps ["a"] false false true "" "" false (mk_io ex_disk [])) = (text_lines ["empty"; "google"; "uber1"; "uber2"], Value tt) /\
  two_set [false; true; false; false; false; true].
Proof. split; [vm_compute; reflexivity|]. split; [vm_compute; reflexivity|]. split; [vm_compute; reflexivity|]. split; [vm_compute; reflexivity|]. exists 1, 5. now repeat split. Qed.
