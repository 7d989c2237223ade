(** What maps, schedules and slices cannot change: the files found, and what protoc is run with
    and says. *)
From Coq Require Import Permutation Sorted.
From Verif Require Import GoStrFacts GoMapFacts Lint_Spec File_Model File_Spec File_Proofs2 File_Proofs3 File_Proofs4.
From Verif Require Import Protoc_Model Protoc_Spec Protoc_Proofs Protoc_Proofs2 Protoc_Proofs3 Protoc_Proofs7.

Section Sorted.
  Context {V : Type}.
  Notation le := (fun a b : string * V => str_leb (fst a) (fst b) = true).
  Lemma sorted_same (a b : list (string * V)) : StronglySorted le a -> StronglySorted le b -> Permutation a b -> NoDup (map fst a) -> a = b.
  Proof.
    intros A. revert b. induction A as [|x a A IH Fa]; intros b B P N; [now apply Permutation_nil in P|].
    destruct B as [|y b B Fb]; [symmetry in P; now apply Permutation_nil in P|].
    assert (E : x = y).
    { assert (Ix : In x (y :: b)) by (apply (Permutation_in _ P); now left). assert (Iy : In y (x :: a)) by (apply (Permutation_in _ (Permutation_sym P)); now left).
      destruct Ix as [->|Ix]; [reflexivity|]. destruct Iy as [->|Iy]; [reflexivity|]. rewrite Forall_forall in Fa, Fb.
      pose proof (str_leb_antisym _ _ (Fa y Iy) (Fb x Ix)) as K. exfalso. cbn [map] in N. inversion N as [|? ? N1 _]; subst. apply N1. rewrite K. now apply in_map. }
    subst y. f_equal. inversion N; subst. apply IH; auto. now apply Permutation_cons_inv in P.
  Qed.
End Sorted.

Lemma by_dir_sorted m : StronglySorted (fun a b : string * list proto_file => str_leb (fst a) (fst b) = true) (by_dir m).
Proof.
  apply (isort_sorted (fun a b : string * list proto_file => str_leb (fst a) (fst b))).
  - intros a b. apply str_leb_total.
  - intros a b c. apply str_leb_trans.
Qed.
Lemma provide_by_dir ord cwd node_at ex read dj dy look sort devel data work dir s :
  provider_get_for_dir ord cwd node_at ex read dj dy look sort devel data work dir = Ok s -> exists m, ps_files s = by_dir m.
Proof.
  unfold provider_get_for_dir, get_multiple_for_dir. set (W := abs_clean cwd work).
  destruct (if is_empty data then _ else _) as [root|]; [|discriminate]. cbn [bind].
  destruct (walk_and_get_all_proto_files node_at ex read dj dy data W root) as [fs|] eqn:E; [|discriminate]. cbn [bind].
  destruct (base_proto_sets ord ex read dj dy look sort devel data W (dir_path_to_proto_files fs)) as [sets|] eqn:B; [|discriminate]. cbn [bind].
  destruct (mapM _ _); [|discriminate]. cbn [bind].
  destruct sets as [|x [|y sets]]; [discriminate| |discriminate]. cbn [map]. intros [= <-]. cbn [ps_files]. eauto.
Qed.
Lemma provide_same ord ord' cwd node_at ex read dj dy look sort devel data work dir s : reorders ord -> reorders ord' ->
  provider_get_for_dir ord cwd node_at ex read dj dy look sort devel data work dir = Ok s ->
  provider_get_for_dir ord' cwd node_at ex read dj dy look sort devel data work dir = Ok s.
Proof.
  intros O O' H. destruct (provide_order ord ord' _ _ _ _ _ _ _ _ _ _ _ _ _ O O' H) as (s' & H' & A & B & C & P). rewrite H'. f_equal.
  pose proof (provide_by_dir _ _ _ _ _ _ _ _ _ _ _ _ _ _ H) as (m & M). pose proof (provide_by_dir _ _ _ _ _ _ _ _ _ _ _ _ _ _ H') as (m' & M').
  assert (N : NoDup (map fst (ps_files s))).
  { apply provide_ok in H; [|assumption]. destruct H as (_ & _ & root & fs & _ & _ & G & _). exact (proj1 G). }
  assert (E : ps_files s = ps_files s').
  { apply sorted_same; [rewrite M; apply by_dir_sorted|rewrite M'; apply by_dir_sorted|assumption..]. }
  destruct s, s'; cbn in *; congruence.
Qed.

(** ** What protoc is run with when nothing is generated and no descriptor set is asked for *)
Section Plain.
  Variable wkt_path protoc_path : result string.
  Variable set : proto_set.
  Definition plain_command (d : string * list proto_file) : result cmd_meta :=
    do is <- get_includes wkt_path (ps_config set) (fst d) (base_dir set);
    do p <- protoc_path;
    Ok (command_for p is ["-o"; "/dev/null"] d "").
  Variable temp_file : nat -> result string.
  Hypothesis temp_named : forall n f, temp_file n = Ok f -> f <> "".

  Lemma plain_dir ord grow s acc d :
    match plain_command d with
    | Ok m => exists s', dir_cmds ord grow wkt_path protoc_path temp_file false false false false false set s acc (fst d) (snd d) = (s', acc ++ [m], None)
    | Err _ => exists s' acc' e, dir_cmds ord grow wkt_path protoc_path temp_file false false false false false set s acc (fst d) (snd d) = (s', acc', Some e)
    end.
  Proof.
    destruct (dir_cmds ord grow wkt_path protoc_path temp_file false false false false false set s acc (fst d) (snd d)) as [[s' acc'] [e|]] eqn:E.
    - assert (X : exists m, plain_command d = Err m).
      { unfold plain_command, dir_cmds in *. fold (base_dir set) in E. destruct (get_includes wkt_path (ps_config set) (fst d) (base_dir set)) as [is|m]; [|cbn; eauto]. cbn [bind].
        destruct protoc_path as [p|m]; [|cbn; eauto]. exfalso. destruct (append_includes grow s nil_slice is) as [s1 a1].
        cbn [get_descriptor_set_file_path andb is_empty get_plugin_flag_sets negb plugin_cmds] in E.
        destruct (st_append grow s1 a1 ["-o"; "/dev/null"]) as [s2 a2]. destruct (append_files grow s2 a2 (snd d)) as [s3 a3]. discriminate E. }
      destruct X as (m & ->). eauto.
    - apply dir_cmds_ok in E as (is & p & made & sets & flags & Hi & Hp & Hs & Hf & -> & _); [|exact temp_named].
      cbn [andb] in *. subst flags. destruct Hs as [_ ->]. unfold plain_command. unfold base_dir. rewrite Hi. rewrite Hp. cbn [bind map]. rewrite app_nil_r. eauto.
  Qed.
  Lemma plain_dirs ord grow dirs : forall s acc,
    match mapM plain_command (filter (requested set) dirs) with
    | Ok ms => exists s', dirs_cmds ord grow wkt_path protoc_path temp_file false false false false false set s acc dirs = (s', acc ++ ms, None)
    | Err _ => exists s' acc' e, dirs_cmds ord grow wkt_path protoc_path temp_file false false false false false set s acc dirs = (s', acc', Some e)
    end.
  Proof.
    induction dirs as [|[d l] dirs IH]; intros s acc; cbn [filter mapM dirs_cmds].
    - rewrite app_nil_r. eauto.
    - unfold requested at 1. cbn [fst]. destruct (has_prefix d (ps_dir set)); cbn [negb]; [|apply IH]. cbn [mapM].
      pose proof (plain_dir ord grow s acc (d, l)) as X. cbn [fst snd] in X. destruct (plain_command (d, l)) as [m|m]; cbn [bind].
      + destruct X as (s' & ->). pose proof (IH s' (acc ++ [m])) as Y. destruct (mapM plain_command (filter (requested set) dirs)) as [ms|e]; cbn [bind].
        * destruct Y as (s2 & ->). exists s2. now rewrite <- app_assoc.
        * exact Y.
      + destruct X as (s' & acc' & e & ->). eauto.
  Qed.
End Plain.

Lemma mapM_perm {A B} (f : A -> result B) a b : Permutation a b ->
  match mapM f a, mapM f b with Ok x, Ok y => Permutation x y | Err _, Err _ => True | _, _ => False end.
Proof.
  induction 1 as [|x a b P IH|x y a|a b c P IH P' IH']; cbn [mapM].
  - constructor.
  - destruct (f x) as [z|]; cbn [bind]; [|exact I]. destruct (mapM f a), (mapM f b); cbn [bind]; try exact I; try contradiction. now constructor.
  - destruct (f y), (f x); cbn [bind]; try exact I; destruct (mapM f a); cbn [bind]; try exact I. constructor.
  - destruct (mapM f a) as [u|], (mapM f b) as [v|], (mapM f c) as [t|]; try exact I; try contradiction. exact (Permutation_trans IH IH').
Qed.

(** Two orders, two ways to grow: the same commands, in some order. *)
Lemma plain_metas ord ord' grow grow' nd dl wkt protoc temp set s s' : reorders ord -> reorders ord' -> (forall n f, temp n = Ok f -> f <> "") ->
  match snd (get_cmd_metas ord grow nd dl wkt protoc temp false false false false false set s), snd (get_cmd_metas ord' grow' nd dl wkt protoc temp false false false false false set s') with
  | Ok a, Ok b => Permutation a b /\ Forall (fun m => cm_temp m = "") a
  | Err _, Err _ => True
  | _, _ => False
  end.
Proof.
  intros O O' T. unfold get_cmd_metas. destruct nd; [|exact I]. destruct dl; [|exact I].
  pose proof (plain_dirs wkt protoc set temp T ord grow (ord "getCmdMetas" _ (ps_files set)) s []) as X.
  pose proof (plain_dirs wkt protoc set temp T ord' grow' (ord' "getCmdMetas" _ (ps_files set)) s' []) as Y.
  assert (P : Permutation (filter (requested set) (ord "getCmdMetas" _ (ps_files set))) (filter (requested set) (ord' "getCmdMetas" _ (ps_files set)))).
  { apply keep_perm. now rewrite <- (O "getCmdMetas" _ (ps_files set)), <- (O' "getCmdMetas" _ (ps_files set)). }
  pose proof (mapM_perm (plain_command wkt protoc set) _ _ P) as Q.
  destruct (mapM (plain_command wkt protoc set) (filter (requested set) (ord "getCmdMetas" _ (ps_files set)))) as [ms|e] eqn:E1, (mapM (plain_command wkt protoc set) (filter (requested set) (ord' "getCmdMetas" _ (ps_files set)))) as [ms'|e'] eqn:E2; try contradiction.
  - destruct X as (s1 & ->), Y as (s2 & ->). cbn [snd app]. split; [exact Q|].
    apply mapM_ok_F2 in E1. clear - E1. induction E1 as [|x y l l' H F IH]; constructor; [|exact IH]. unfold plain_command in H.
    destruct (get_includes _ _ _ _); [|discriminate]. cbn [bind] in H. destruct protoc; [|discriminate]. cbn [bind] in H. injection H as <-. reflexivity.
  - destruct X as (s1 & a1 & e1 & ->), Y as (s2 & a2 & e2 & ->). exact I.
Qed.

Lemma map_nth_seq {A} (d : A) l : map (fun i => nth i l d) (List.seq 0 (length l)) = l.
Proof.
  induction l as [|x l IH]; [reflexivity|]. cbn [length List.seq map nth]. f_equal. rewrite <- seq_shift, map_map. exact IH.
Qed.
Lemma no_sets_read (fds : Type) read ms s : Forall (fun m => cm_temp m = "") ms -> get_sets fds read s ms = (s, Ok []).
Proof. induction 1 as [|m ms H F IH]; cbn [get_sets]; [reflexivity|]. rewrite H. cbn [is_empty]. exact IH. Qed.

(** The answers of protoc depend on the command only. *)
Lemma plain_compile ord ord' grow grow' nd dl wkt protoc temp set mk mk' (fds : Type) read read' (answer : list string -> outcome) e e' s :
  reorders ord -> reorders ord' -> (forall n f, temp n = Ok f -> f <> "") ->
  (forall n, Permutation (e n) (List.seq 0 n)) -> (forall n, Permutation (e' n) (List.seq 0 n)) ->
  let commands o g := match snd (get_cmd_metas o g nd dl wkt protoc temp false false false false false set s) with Ok ms => map cm_args ms | Err _ => [] end in
  let go o g mk read e := snd (compile o g nd dl wkt protoc temp false false false false false set mk fds read (fun i => answer (nth i (commands o g) [])) (e (length (commands o g))) s) in
  match go ord grow mk read e, go ord' grow' mk' read' e' with
  | Sets _ a, Sets _ b => a = [] /\ b = []
  | Failures _ a, Failures _ b => a = b
  | Error _ _, Error _ _ => True
  | Crash _, Crash _ => True
  | _, _ => False
  end.
Proof.
  intros O O' T E E' commands go. subst go commands. cbv beta.
  pose proof (plain_metas ord ord' grow grow' nd dl wkt protoc temp set s s O O' T) as X. unfold compile.
  destruct (get_cmd_metas ord grow nd dl wkt protoc temp false false false false false set s) as [s1 [ms|m]], (get_cmd_metas ord' grow' nd dl wkt protoc temp false false false false false set s) as [s2 [ms'|m']];
    cbn [snd] in *; try contradiction; [|exact I]. destruct X as (P & F).
  assert (F' : Forall (fun m => cm_temp m = "") ms') by (now rewrite <- P).
  set (R := fun m : cmd_meta => run_cmd_meta set m (answer (cm_args m))).
  assert (W : forall l f, (forall n, Permutation (f n) (List.seq 0 n)) -> Permutation (map (worker_result set (fun i => answer (nth i (map cm_args l) [])) l) (f (length (map cm_args l)))) (map R l)).
  { intros l f Hf. rewrite map_length, Hf. apply Permutation_refl'.
    transitivity (map R (map (fun i => nth i l (mk_cmd_meta [] "" [] "")) (List.seq 0 (length l)))); [|now rewrite map_nth_seq].
    rewrite map_map. apply map_ext_in. intros i Hi. apply in_seq in Hi as [_ Hi]. cbn in Hi.
    unfold worker_result, R. rewrite (nth_error_nth' l (mk_cmd_meta [] "" [] "") Hi). rewrite (map_nth cm_args l (mk_cmd_meta [] "" [] "")). reflexivity. }
  assert (Q : Permutation (map (worker_result set (fun i => answer (nth i (map cm_args ms) [])) ms) (e (length (map cm_args ms))))
    (map (worker_result set (fun i => answer (nth i (map cm_args ms') [])) ms') (e' (length (map cm_args ms'))))).
  { rewrite (W ms e E), (W ms' e' E'). now apply Permutation_map. }
  revert Q. generalize (map (worker_result set (fun i => answer (nth i (map cm_args ms) [])) ms) (e (length (map cm_args ms)))).
  generalize (map (worker_result set (fun i => answer (nth i (map cm_args ms') [])) ms') (e' (length (map cm_args ms')))). intros l' l Q.
  rewrite (existsb_perm panics l l' Q). destruct (existsb panics l'); [exact I|].
  pose proof (concat_perm returned_failures _ _ Q) as Qf. pose proof (concat_perm returned_errors _ _ Q) as Qe.
  unfold finish. rewrite !no_sets_read by assumption.
  destruct (concat (map returned_errors l)) as [|x xs], (concat (map returned_errors l')) as [|y ys]; [|now apply Permutation_nil in Qe|symmetry in Qe; now apply Permutation_nil in Qe|exact I].
  destruct (concat (map returned_failures l)) as [|u us], (concat (map returned_failures l')) as [|v vs]; [|now apply Permutation_nil in Qf|symmetry in Qf; now apply Permutation_nil in Qf|].
  - cbn [snd]. auto.
  - cbn [snd]. now apply fresh_perm.
Qed.
