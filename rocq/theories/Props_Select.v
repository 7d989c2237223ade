(** C116: which other rules are selected makes no difference to what a rule reports. *)
From Verif Require Import Exec_Spec LintRun_Spec LintRun_Proofs LintRun_Proofs2 Select_Proofs Props_Lint GoStrFacts.

(** The same files with settings that only differ in the lint rules that are selected, by
    the group, no_default, and the rules added and removed. *)
Definition reselected (ps ps' : proto_set) : Prop :=
  ps_files ps' = ps_files ps /\ ps_dir ps' = ps_dir ps /\ cfg_dir (ps_config ps') = cfg_dir (ps_config ps)
  /\ let c := cfg_lint (ps_config ps) in let c' := cfg_lint (ps_config ps') in
     lc_ignores c' = lc_ignores c /\ lc_file_header c' = lc_file_header c
     /\ lc_java_package_prefix c' = lc_java_package_prefix c /\ lc_allow_suppression c' = lc_allow_suppression c.

(** If fewer rules are selected, the run reports, in the same order, what it reported
    before for the rules that are left.  In particular it does not fail. *)
Theorem C116_fewer : forall ord sing cwd read ps ps' absolute fs,
  reorders ord -> NoDup (map fst (ps_files ps)) -> reselected ps ps' ->
  known_names (cfg_lint (ps_config ps')) ->
  (forall id, selected (cfg_lint (ps_config ps')) id -> selected (cfg_lint (ps_config ps)) id) ->
  lint_run ord cwd read (all_linters ord sing) (default_linters ord) (group_to_linters ord) ps absolute = Ok (map Some fs) ->
  exists fs', lint_run ord cwd read (all_linters ord sing) (default_linters ord) (group_to_linters ord) ps' absolute = Ok (map Some fs')
    /\ picks (fun f => selected (cfg_lint (ps_config ps')) (f_lint_id f)) fs fs'.
Proof.
  intros ord sing cwd read ps ps' absolute fs Ho Nd (A & B & C & D & E & F & G). apply fewer_rules; auto. repeat split; auto.
Qed.
Print Assumptions C116_fewer.

(** The settings [ps] with only the rule [id]. *)
Definition only (ps : proto_set) (id : string) : proto_set :=
  let g := ps_config ps in let c := cfg_lint g in
  mk_proto_set (ps_work_dir ps) (ps_dir ps) (ps_files ps)
    (mk_config (cfg_dir g) (cfg_exclude_prefixes g) (cfg_compile g) (cfg_create g)
       (mk_lint_config "" true [id] [] (lc_ignores c) (lc_file_header c) (lc_java_package_prefix c) (lc_allow_suppression c)) (cfg_break g) (cfg_gen g)).
Lemma only_selects ps id x : selected (cfg_lint (ps_config (only ps id))) x <-> x = id.
Proof.
  split.
  - intros [[[[H _]|(_ & H & _)]|[H|[]]] _]; [now destruct (H eq_refl)|discriminate H|now symmetry].
  - intros ->. split; [right; now left|easy].
Qed.
Lemma only_reselects ps ps' id : reselected ps ps' -> reselected ps' (only ps id).
Proof. intros (A & B & C & D & E & F & G). repeat split; cbn; auto. Qed.
Lemma only_known c id : known_names c -> selected c id -> documented id.
Proof.
  intros [_ K] [[[[_ H]|(_ & _ & H)]|H] _].
  - destruct H as (gs & H & _). now exists gs.
  - destruct H as (gs & H & _). now exists gs.
  - apply K. now left.
Qed.
Lemma lint_run_known ord sing cwd read ps absolute r : reorders ord -> NoDup (map fst (ps_files ps)) ->
  lint_run ord cwd read (all_linters ord sing) (default_linters ord) (group_to_linters ord) ps absolute = Ok r -> known_names (cfg_lint (ps_config ps)).
Proof. intros Ho Nd E. pose proof (run_exact ord sing cwd read ps absolute Ho Nd) as R. rewrite E in R. now destruct R as (fs & _ & K & _). Qed.

(** A rule that is selected both times reports the same, in the same order, whatever else
    is selected. *)
Theorem C116_same : forall ord sing cwd read ps ps' absolute fs fs' id,
  reorders ord -> NoDup (map fst (ps_files ps)) -> reselected ps ps' ->
  lint_run ord cwd read (all_linters ord sing) (default_linters ord) (group_to_linters ord) ps absolute = Ok (map Some fs) ->
  lint_run ord cwd read (all_linters ord sing) (default_linters ord) (group_to_linters ord) ps' absolute = Ok (map Some fs') ->
  selected (cfg_lint (ps_config ps)) id -> selected (cfg_lint (ps_config ps')) id ->
  exists found, picks (fun f => f_lint_id f = id) fs found /\ picks (fun f => f_lint_id f = id) fs' found.
Proof.
  intros ord sing cwd read ps ps' absolute fs fs' id Ho Nd R E E' S S'.
  pose proof (lint_run_known _ _ _ _ _ _ _ Ho Nd E) as K.
  assert (KN : known_names (cfg_lint (ps_config (only ps id)))).
  { split; [now left|]. intros x [[<-|[]]|[[]|H]]; [exact (only_known _ _ K S)|]. destruct K as [_ K]. apply K. right. right. exact H. }
  assert (Rs : reselected ps ps) by (repeat split).
  assert (Nd' : NoDup (map fst (ps_files ps'))) by (destruct R as (-> & _); exact Nd).
  destruct (C116_fewer ord sing cwd read ps (only ps id) absolute fs Ho Nd (only_reselects _ _ id Rs) KN) as (a & Ea & (b & Hb & ->)); [intros x ->%only_selects; exact S|exact E|].
  destruct (C116_fewer ord sing cwd read ps' (only ps id) absolute fs' Ho Nd' (only_reselects _ _ id R) KN) as (a' & Ea' & (b' & Hb' & ->)); [intros x ->%only_selects; exact S'|exact E'|].
  rewrite Ea in Ea'. injection Ea' as Q. apply map_Some_inj in Q. exists (filter b fs). split.
  - exists b. split; [|reflexivity]. intros f Hf. rewrite (Hb f Hf). apply only_selects.
  - exists b'. split; [|exact Q]. intros f Hf. rewrite (Hb' f Hf). apply only_selects.
Qed.
Print Assumptions C116_same.

Definition fewer_lint := mk_lint_config "google" false ["SYNTAX_PROTO3"] ["FILE_HEADER"; "RPC_NAMES_CAMEL_CASE"; "MESSAGE_NAMES_CAMEL_CASE"] [] "" "com" false.
Definition ex_full := a_set "/work/a" ex_lint [("/work/a", [mk_proto_file "/work/a/foo.proto" "a/foo.proto"])].
Definition ex_fewer := a_set "/work/a" fewer_lint [("/work/a", [mk_proto_file "/work/a/foo.proto" "a/foo.proto"])].
Definition ex_read (p : string) : result (list element * string) := if String.eqb p "/work/a/foo.proto" then Ok (ex_elements, "") else Err "not found".
Example C116_ex : reorders reversed /\ NoDup (map fst (ps_files ex_full)) /\ reselected ex_full ex_fewer /\ known_names (cfg_lint (ps_config ex_fewer))
  /\ (forall id, selected (cfg_lint (ps_config ex_fewer)) id -> selected (cfg_lint (ps_config ex_full)) id)
  /\ exists fs fs',
    lint_run reversed "/work" ex_read (all_linters reversed (fun s => s)) (default_linters reversed) (group_to_linters reversed) ex_full false = Ok (map Some fs)
    /\ map f_lint_id fs = ["MESSAGE_NAMES_CAMEL_CASE"; "MESSAGE_NAMES_CAPITALIZED"; "MESSAGE_FIELD_NAMES_LOWER_SNAKE_CASE"]
    /\ lint_run reversed "/work" ex_read (all_linters reversed (fun s => s)) (default_linters reversed) (group_to_linters reversed) ex_fewer false = Ok (map Some fs')
    /\ map f_lint_id fs' = ["MESSAGE_NAMES_CAPITALIZED"; "MESSAGE_FIELD_NAMES_LOWER_SNAKE_CASE"]
    /\ selected (cfg_lint (ps_config ex_full)) "MESSAGE_NAMES_CAPITALIZED" /\ selected (cfg_lint (ps_config ex_fewer)) "MESSAGE_NAMES_CAPITALIZED".
Proof.
  assert (Ho : reorders reversed) by (intros k A l; apply Permutation.Permutation_rev).
  assert (Nd : NoDup (map fst (ps_files ex_full))) by (cbn; repeat constructor; easy).
  assert (R : reselected ex_full ex_fewer) by (repeat split).
  assert (Sel : forall id, selected (cfg_lint (ps_config ex_fewer)) id -> selected (cfg_lint (ps_config ex_full)) id).
  { intros id [H N]. split; [exact H|]. intros X. apply N. cbn in X |- *. intuition. }
  destruct C12_run_ex as (fs & E & I). pose proof (lint_run_known _ _ _ _ _ _ _ Ho Nd E) as K.
  assert (K' : known_names (cfg_lint (ps_config ex_fewer))).
  { destruct K as [Kg K]. split; [exact Kg|]. intros id [H|[H|H]].
    - apply K. left. exact H.
    - cbn in H. destruct H as [<-|[<-|[<-|[]]]]; [apply K; right; left; now left|apply K; right; left; right; now left|].
      apply (documented_iff reversed (fun s => s)). apply GoStrFacts.mem_In. vm_compute. reflexivity.
    - destruct H. }
  split; [exact Ho|]. split; [exact Nd|]. split; [exact R|]. split; [exact K'|]. split; [exact Sel|].
  exists fs, [mk_failure "a/foo.proto" 3 1 "MESSAGE_NAMES_CAPITALIZED" "Message name ""inner_bad"" must be capitalized.";
          mk_failure "a/foo.proto" 6 1 "MESSAGE_FIELD_NAMES_LOWER_SNAKE_CASE" "Field name ""fooBar"" must be lower_snake_case."].
  split; [exact E|]. split; [exact I|]. split; [vm_compute; reflexivity|]. split; [reflexivity|].
  assert (S : selected (cfg_lint (ps_config ex_fewer)) "MESSAGE_NAMES_CAPITALIZED"); [|split; [now apply Sel|exact S]].
  split; [left; left; split; [discriminate|]|].
  - apply in_group_iff. apply GoStrFacts.mem_In. vm_compute. reflexivity.
  - cbn. intuition discriminate.
Qed.
