(** What maps, schedules and slices cannot change: formatting, linting and the listings. *)
From Coq Require Import Permutation Sorted Lia.
From Verif Require Import GoStrFacts GoMapFacts Lint_Spec Exec_Model Exec_Spec Exec_Proofs Exec_Proofs2 Exec_Proofs3.
From Verif Require Import LintRun_Spec LintRun_Proofs LintCmd_Model LintCmd_Proofs Lint_Purpose.

(** The same files, and the same things done, in some order. *)
Definition eqv (s s' : io) : Prop := (forall q, io_disk s q = io_disk s' q) /\ Permutation (io_done s) (io_done s').
Lemma eqv_refl s : eqv s s.
Proof. split; auto. Qed.
Lemma eqv_trans a b c : eqv a b -> eqv b c -> eqv a c.
Proof. intros [A B] [C D]. split; [intros q; now rewrite A|now transitivity (io_done b)]. Qed.
Lemma eqv_put s s' p w es : eqv s s' -> eqv (put s p w es) (put s' p w es).
Proof.
  intros [A B]. split; unfold put; cbn [io_disk io_done].
  - intros q. destruct w; [destruct (String.eqb q p)|]; auto.
  - now apply Permutation_app.
Qed.
Lemma put_swap s p w es q v fs : p <> q -> eqv (put (put s p w es) q v fs) (put (put s q v fs) p w es).
Proof.
  intros N. split; unfold put; cbn [io_disk io_done].
  - intros x. destruct w, v; try reflexivity. destruct (String.eqb x q) eqn:E1, (String.eqb x p) eqn:E2; try reflexivity.
    apply String.eqb_eq in E1, E2. congruence.
  - rewrite <- !app_assoc. apply Permutation_app_head, Permutation_app_comm.
Qed.

(** Two ends of a command that are the same but for what is said of an error. *)
Definition ends_same {A} (E : io -> io -> Prop) (x y : io * outcome A) : Prop :=
  match snd x, snd y with
  | Value a, Value b => a = b /\ E (fst x) (fst y)
  | Exit e, Exit e' => e = e' /\ E (fst x) (fst y)
  | Fail _, Fail _ => True
  | _, _ => False
  end.
Lemma ends_same_weak {A} (E F : io -> io -> Prop) (x y : io * outcome A) : (forall a b, E a b -> F a b) -> ends_same E x y -> ends_same F x y.
Proof. unfold ends_same. destruct (snd x), (snd y); intuition. Qed.
Lemma ends_then {A B} (E : io -> io -> Prop) (c c' : cmd A) (k k' : A -> cmd B) s s' :
  ends_same E (c s) (c' s') -> (forall a s s', E s s' -> ends_same E (k a s) (k' a s')) ->
  ends_same E (and_then c k s) (and_then c' k' s').
Proof.
  unfold ends_same at 1, and_then. destruct (c s) as [s1 [a|e|e]], (c' s') as [s2 [b|e'|e']]; cbn [fst snd]; try contradiction.
  - intros (-> & H) K. now apply K.
  - intros H _. exact H.
  - intros _ _. exact I.
Qed.
Lemma process_ends_same {A} (E : io -> io -> Prop) (c c' : cmd A) s s' s1 z s2 z' : (forall a b m, E a b -> E (fst (println m a)) (fst (println m b))) ->
  ends_same E (c s) (c' s') -> process c s = (s1, z) -> process c' s' = (s2, z') -> z = z' /\ (z <> 1%Z -> E s1 s2).
Proof.
  intros P. unfold ends_same, process. destruct (c s) as [x [a|e|e]], (c' s') as [y [b|e'|e']]; cbn [fst snd]; try contradiction.
  - intros (_ & H) [= <- <-] [= <- <-]. auto.
  - intros (-> & H) [= <- <-] [= <- <-]. split; [reflexivity|]. intros _. now apply P.
  - intros _ [= <- <-] [= <- <-]. split; [reflexivity|]. intros N. now destruct N.
Qed.

Section Format.
  Variable cwd error_format : string.
  Variable json : bool.
  Variable to_json : failure -> string.
  Variable transform : Z -> string -> string -> string -> string -> result (string * list failure).
  Variable diff : string -> string -> string -> result string.
  Variable write_error : string -> string -> option (result string * string).
  Variable o d l x : bool.
  Variable m : meta.
  Notation format_file := (format_file cwd error_format json to_json transform diff write_error o d l x m).
  Notation format_files := (format_files cwd error_format json to_json transform diff write_error o d l x m).

  Lemma print_no_exit f n mm fs s s' e : print_failures_for cwd json to_json f n mm fs s <> (s', Exit e).
  Proof.
    unfold print_failures_for, and_then, check, ret, fail. destruct (parse_colon_separated_failure_fields f); [|discriminate].
    destruct (mapM _ _) as [[|? ?]|]; discriminate.
  Qed.
  Lemma handled_pure f c : exists w es r, (forall s, io_disk s (pf_path f) = c -> format_file f s = (put s (pf_path f) w es, r)) /\ forall e, r <> Exit e.
  Proof.
    destruct (file_handled cwd error_format json to_json transform diff write_error o d l x m f c) as (w & es & r & _ & E). exists w, es, r. split; [exact E|].
    intros e ->. specialize (E (mk_io (fun _ => c) []) eq_refl). revert E. unfold Exec_Model.format_file. destruct (_ && _); [discriminate|].
    unfold and_then at 1, read_file. cbn [io_disk]. destruct c as [input|]; [|discriminate]. unfold and_then at 1.
    destruct (transform _ _ _ _ _) as [[data fs]|]; [|discriminate]. cbn [check ret]. unfold ret at 1. destruct fs as [|f0 fs].
    - destruct (negb _).
      + destruct o; [|destruct l; [|destruct d]].
        * unfold and_then, write_file. destruct (write_error _ _) as [[]|]; discriminate.
        * unfold and_then, print_failures. match goal with |- context [print_failures_for ?a ?b ?c ?d ?e ?f ?g ?h] => destruct (print_failures_for a b c d e f g h) as [s1 [v|t|t]] eqn:P end; try discriminate.
          exfalso. exact (print_no_exit _ _ _ _ _ _ _ P).
        * unfold and_then. destruct (diff _ _ _); cbn; discriminate.
        * discriminate.
      + destruct (_ && _ && _); discriminate.
    - unfold and_then, print_failures. match goal with |- context [print_failures_for ?a ?b ?c ?d ?e ?f ?g ?h] => destruct (print_failures_for a b c d e f g h) as [s1 [v|t|t]] eqn:P end; try discriminate.
      exfalso. exact (print_no_exit _ _ _ _ _ _ _ P).
  Qed.
  Lemma file_eqv f s s' : eqv s s' -> ends_same eqv (format_file f s) (format_file f s').
  Proof.
    intros H. destruct (handled_pure f (io_disk s (pf_path f))) as (w & es & r & E & N). rewrite (E s eq_refl), (E s') by (symmetry; apply H).
    unfold ends_same. cbn [fst snd]. destruct r; [|now destruct (N m0)|exact I]. split; [reflexivity|]. now apply eqv_put.
  Qed.
  Lemma files_eqv fs : forall b s s', eqv s s' -> ends_same eqv (format_files b fs s) (format_files b fs s').
  Proof.
    induction fs as [|f fs IH]; intros b s s' H; cbn [Exec_Model.format_files]; [split; auto|].
    apply ends_then; [now apply file_eqv|]. intros a t t' Ht. now apply IH.
  Qed.
  Lemma ends_trans {A} (X Y Z : io * outcome A) : ends_same eqv X Y -> ends_same eqv Y Z -> ends_same eqv X Z.
  Proof.
    unfold ends_same. destruct X as [s1 [a|a|a]], Y as [s2 [b|b|b]], Z as [s3 [c|c|c]]; cbn [fst snd]; try contradiction; auto.
    - intros (-> & H) (-> & K). split; [reflexivity|]. eapply eqv_trans; eassumption.
    - intros (-> & H) (-> & K). split; [reflexivity|]. eapply eqv_trans; eassumption.
  Qed.
  Lemma files_perm fs fs' : Permutation fs fs' -> NoDup (map pf_path fs) -> forall b s s', eqv s s' -> ends_same eqv (format_files b fs s) (format_files b fs' s').
  Proof.
    induction 1 as [|f fs fs' P IH|f g fs|a b c P IH P' IH']; intros N bb s s' H.
    - split; auto.
    - cbn [Exec_Model.format_files map] in *. inversion N; subst. apply ends_then; [now apply file_eqv|]. intros v t t' Ht. now apply IH.
    - cbn [map] in N. inversion N as [|? ? N1 N2]; subst. assert (Ne : pf_path g <> pf_path f) by (intros E; apply N1; left; now symmetry).
      apply (ends_trans _ (format_files bb (f :: g :: fs) s)); [|now apply files_eqv].
      cbn [Exec_Model.format_files]. unfold and_then.
      destruct (handled_pure g (io_disk s (pf_path g))) as (wg & eg & rg & Eg & Ng). destruct (handled_pure f (io_disk s (pf_path f))) as (wf & ef & rf & Ef & Nf).
      rewrite (Eg s eq_refl), (Ef s eq_refl). destruct rg as [vg|t|t]; [|now destruct (Ng t)|].
      + rewrite Ef by (apply put_other; congruence). destruct rf as [vf|t|t]; [|now destruct (Nf t)|exact I].
        rewrite Eg by (apply put_other; congruence). rewrite <- !andb_assoc, (andb_comm vg vf). apply files_eqv. now apply put_swap.
      + destruct rf as [vf|u|u]; [|now destruct (Nf u)|exact I]. rewrite Eg by (apply put_other; congruence). exact I.
    - apply (ends_trans _ (format_files bb b s)); [apply IH; [exact N|apply eqv_refl]|]. apply IH'; [|exact H].
      eapply Permutation_NoDup; [apply Permutation_map; exact P|exact N].
  Qed.
  Lemma format_same ord ord' s : visits_all ord -> visits_all ord' -> distinct_paths (m_set m) ->
    ends_same eqv (format ord cwd error_format json to_json transform diff write_error o d l x m s)
                  (format ord' cwd error_format json to_json transform diff write_error o d l x m s).
  Proof.
    intros V V' N. unfold format. apply ends_then.
    - apply files_perm; [|apply (visited_distinct ord "format" _ V N)|apply eqv_refl].
      apply concat_map_perm. apply LintRun_Proofs.filter_perm. now rewrite <- (V "format" _ (ps_files (m_set m))), <- (V' "format" _ (ps_files (m_set m))).
    - intros [|] t t' Ht; split; auto.
  Qed.
End Format.

(** ** Linting *)
Lemma run_lint_same o1 o2 cwd parse sing disk ps absolute : reorders o1 -> reorders o2 -> NoDup (map fst (ps_files ps)) ->
  match run_lint o1 cwd parse sing disk ps absolute, run_lint o2 cwd parse sing disk ps absolute with
  | Ok a, Ok b => a = b | Err _, Err _ => True | _, _ => False end.
Proof.
  intros H1 H2 N. unfold run_lint. pose proof (run_deterministic cwd (read_proto parse disk) sing o1 o2 ps absolute H1 H2 N) as D. cbv zeta in D.
  destruct (lint_run o1 _ _ _ _ _ _ _), (lint_run o2 _ _ _ _ _ _ _); cbn [bind]; auto. now rewrite D.
Qed.
Lemma check_same {A} (r1 r2 : result A) s : match r1, r2 with Ok a, Ok b => a = b | Err _, Err _ => True | _, _ => False end ->
  ends_same eq (check r1 s) (check r2 s).
Proof. destruct r1, r2; cbn; auto. Qed.
Lemma same_cmd {A} (c : cmd A) s : ends_same eq (c s) (c s).
Proof. unfold ends_same. destruct (snd (c s)); auto. Qed.
Lemma same_then {A B} (c : cmd A) (k k' : A -> cmd B) s : (forall a s, ends_same eq (k a s) (k' a s)) -> ends_same eq (and_then c k s) (and_then c k' s).
Proof. intros H. apply ends_then; [apply same_cmd|]. intros a t t' <-. apply H. Qed.

Lemma insert_ids x ls : map ln_id (insert (fun a b => str_leb (ln_id a) (ln_id b)) x ls) = insert str_leb (ln_id x) (map ln_id ls).
Proof. induction ls as [|y ls IH]; [reflexivity|]. cbn [insert map]. destruct (str_leb (ln_id x) (ln_id y)); cbn [map]; [reflexivity|]. now rewrite IH. Qed.
Lemma isort_ids ls : map ln_id (isort (fun a b => str_leb (ln_id a) (ln_id b)) ls) = sort_strings (map ln_id ls).
Proof. induction ls as [|x ls IH]; [reflexivity|]. unfold sort_strings in *. cbn [isort map]. now rewrite insert_ids, IH. Qed.
Lemma print_linters_ids purpose c ls : print_linters purpose c ls =
  (let ids := sort_strings (map ln_id ls) in
   match ids with
   | [] => ret tt
   | _ => print (join "" (map (fun id => pad (2 + list_max (map String.length ids)) id +++ purpose c id +++ String newline "") ids))
   end).
Proof.
  unfold print_linters. rewrite <- isort_ids. generalize (isort (fun a b : linter => str_leb (ln_id a) (ln_id b)) ls). intros l. cbv zeta. rewrite !map_map. destruct l; reflexivity.
Qed.
Lemma purpose_same ls ls' c id : map (fun l => (ln_id l, ln_annotation l)) ls = map (fun l => (ln_id l, ln_annotation l)) ls' -> purpose_of ls c id = purpose_of ls' c id.
Proof.
  unfold purpose_of. revert ls'. induction ls as [|x ls IH]; intros [|y ls'] E; try discriminate E; [reflexivity|]. cbn [map] in E. injection E as E1 E2 E3. cbn [find].
  rewrite E1. destruct (String.eqb (ln_id y) id); [|now apply IH]. unfold linter_purpose. now rewrite E1, E2.
Qed.

Section Lint.
  Variable o1 o2 : map_order.
  Hypothesis H1 : reorders o1.
  Hypothesis H2 : reorders o2.
  Variable cwd : string.
  Variable parse : string -> string -> result (list element).
  Variable sing : string -> string.
  Variable marshal : list ext_ignore -> result string.

  Lemma sorts_same place l l' : Permutation l l' -> sort_strings (o1 place _ l) = sort_strings (o2 place _ l').
  Proof. intros P. apply sort_strings_unique. now rewrite <- (H1 place _ l), <- (H2 place _ l'). Qed.
  Lemma entries_same m : ignore_entries o1 m = ignore_entries o2 m.
  Proof.
    unfold ignore_entries. rewrite (sorts_same "idToFiles" _ _ (Permutation_refl _)). apply map_ext. intros id. f_equal. now apply sorts_same.
  Qed.
  Lemma generate_same m s : NoDup (map fst (ps_files (m_set m))) ->
    ends_same eq (generate_ignores o1 cwd parse sing marshal m s) (generate_ignores o2 cwd parse sing marshal m s).
  Proof.
    intros N. unfold generate_ignores. apply ends_then.
    - apply check_same. now apply run_lint_same.
    - intros [|f fs] t t' <-; [apply same_cmd|]. apply same_then. intros ids u. rewrite entries_same. apply same_cmd.
  Qed.
  (** The listings. *)
  Lemma ids_same : map ln_id (all_linters o1 sing) = map ln_id (all_linters o2 sing).
  Proof. reflexivity. Qed.
  Lemma purposes_same c id : purpose_of (all_linters o1 sing) c id = purpose_of (all_linters o2 sing) c id.
  Proof. apply purpose_same. reflexivity. Qed.
  Lemma prints_same c ls ls' s : Permutation (map ln_id ls) (map ln_id ls') ->
    ends_same eq (print_linters (purpose_of (all_linters o1 sing)) c ls s) (print_linters (purpose_of (all_linters o2 sing)) c ls' s).
  Proof.
    intros P. rewrite !print_linters_ids, (sort_strings_unique _ _ P). cbv zeta. destruct (sort_strings (map ln_id ls')) as [|x l]; [apply same_cmd|].
    erewrite map_ext; [apply same_cmd|]. intros id. cbv beta. now rewrite purposes_same.
  Qed.
  Lemma groups_same group : match gget group (group_to_linters o1), gget group (group_to_linters o2) with
    | Some a, Some b => map ln_id a = map ln_id b | None, None => True | _, _ => False end.
  Proof.
    assert (E : map (fun g => (fst g, map ln_id (snd g))) (group_to_linters o1) = map (fun g => (fst g, map ln_id (snd g))) (group_to_linters o2)) by reflexivity.
    revert E. generalize (group_to_linters o1), (group_to_linters o2). induction l as [|[k a] l IH]; intros [|[k' b] l'] E; try discriminate E; [exact I|].
    cbn [map fst snd] in E. injection E as <- Ea E. cbn [gget]. destruct (keqb group k); [exact Ea|]. now apply IH.
  Qed.
  Lemma list_all_same m s : ends_same eq (list_all_linters o1 sing (purpose_of (all_linters o1 sing)) m s) (list_all_linters o2 sing (purpose_of (all_linters o2 sing)) m s).
  Proof. apply prints_same. rewrite ids_same. reflexivity. Qed.
  Lemma list_linters_same m s : ends_same eq (list_linters o1 sing (purpose_of (all_linters o1 sing)) m s) (list_linters o2 sing (purpose_of (all_linters o2 sing)) m s).
  Proof.
    unfold list_linters, and_then. pose proof (selection o1 sing H1 (cfg_lint (ps_config (m_set m)))) as S1. pose proof (selection o2 sing H2 (cfg_lint (ps_config (m_set m)))) as S2.
    destruct (get_linters o1 _ _ _ _) as [ls1|], (get_linters o2 _ _ _ _) as [ls2|]; cbn [check ret fail]; try tauto; [|exact I].
    destruct S1 as (_ & N1 & I1 & S1), S2 as (_ & N2 & I2 & S2). apply prints_same. apply NoDup_Permutation; [assumption..|]. intros id. now rewrite S1, S2.
  Qed.
  Lemma list_group_same m group s : ends_same eq (list_lint_group o1 (purpose_of (all_linters o1 sing)) m group s) (list_lint_group o2 (purpose_of (all_linters o2 sing)) m group s).
  Proof.
    unfold list_lint_group. pose proof (groups_same (to_lower group)) as G. destruct (gget _ _), (gget _ _); try contradiction; [|apply same_cmd]. apply prints_same. rewrite G. reflexivity.
  Qed.
  Lemma list_groups_same s : ends_same eq (list_all_lint_groups o1 s) (list_all_lint_groups o2 s).
  Proof.
    unfold list_all_lint_groups. change (map fst (group_to_linters o1)) with (map fst (group_to_linters o2)).
    rewrite (sorts_same "GroupToLinters" _ _ (Permutation_refl _)). apply same_cmd.
  Qed.
  Lemma linter_ids_same group : get_linter_ids o1 group = get_linter_ids o2 group.
  Proof.
    unfold get_linter_ids. pose proof (groups_same (to_lower group)) as G. destruct (gget _ (group_to_linters o1)) as [a|], (gget _ (group_to_linters o2)) as [b|]; try contradiction; [|reflexivity].
    rewrite <- (map_map ln_id (fun i => (i, tt)) a), <- (map_map ln_id (fun i => (i, tt)) b), G. reflexivity.
  Qed.
  Lemma diff_maps_same a b : diff_maps o1 a b = diff_maps o2 a b.
  Proof.
    unfold diff_maps. apply sort_strings_unique. apply Permutation_app; apply Permutation_map, LintRun_Proofs.filter_perm.
    - now rewrite <- (H1 "diffMaps one" _ a), <- (H2 "diffMaps one" _ a).
    - now rewrite <- (H1 "diffMaps two" _ b), <- (H2 "diffMaps two" _ b).
  Qed.
  Lemma diff_groups_same groups s : ends_same eq (diff_lint_groups o1 groups s) (diff_lint_groups o2 groups s).
  Proof.
    unfold diff_lint_groups. destruct (split_char _ _) as [|a [|b [|]]]; try apply same_cmd. rewrite !linter_ids_same. apply same_then. intros x t. apply same_then. intros y u.
    rewrite diff_maps_same. apply same_cmd.
  Qed.
End Lint.
