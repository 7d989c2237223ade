(** Facts that hold for every linter: each failure is about one of the files, all but
    the rules that compare the files of a directory look at one file at a time, none
    crashes, and none depends on map order. *)
From Verif Require Import LintRun_Spec GoStrFacts GoMapFacts Lint_RuleFacts Lint_RuleProofs Lint_RuleProofs2 Lint_FileProofs.
From Coq Require Import Lia.

Definition about (d : descriptor) (r : raw) : Prop := f_filename (raw_failure r) = d_filename d.
Record file_linter (l : linter) : Prop := {
  fl_split : forall ds, ln_check l ds = concatM (fun d => ln_check l [d]) ds;
  fl_about : forall d rs, ln_check l [d] = Ok rs -> Forall (about d) rs
}.

Lemma split_ok {A} (check : A -> list raw) ds :
  Ok (flat_map check ds) = concatM (fun d => Ok (flat_map check [d])) ds.
Proof.
  induction ds as [|d ds IH]; [reflexivity|]. rewrite concatM_cons, <- IH. cbn [bind flat_map].
  now rewrite app_nil_r.
Qed.
Lemma split_concatM {A} (check : A -> result (list raw)) ds :
  concatM check ds = concatM (fun d => concatM check [d]) ds.
Proof.
  apply concatM_ext. intros d _. rewrite concatM_cons. destruct (check d); cbn; [now rewrite app_nil_r|reflexivity].
Qed.
Lemma file_visiting id ann ks hook : (forall d ctx e, Forall (about d) (hook d ctx e)) ->
  file_linter (new_suppressable_linter id ann (visiting ks hook)).
Proof.
  intros H. split.
  - intros ds. apply (split_ok (fun d => flat_map (fun ce => hook d (fst ce) (snd ce)) (visited ks d))).
  - intros d rs E. injection E as <-. simpl. rewrite app_nil_r. apply Forall_flat_map, Forall_forall. intros; apply H.
Qed.
Lemma file_per_file_ok id ann check : (forall d, Forall (about d) (check d)) ->
  file_linter (new_suppressable_linter id ann (per_file_ok check)).
Proof.
  intros H. split.
  - intros ds. apply (split_ok check).
  - intros d rs E. injection E as <-. simpl. rewrite app_nil_r. apply H.
Qed.
Lemma file_per_file id ann check : (forall d rs, check d = Ok rs -> Forall (about d) rs) ->
  file_linter (new_suppressable_linter id ann (per_file check)).
Proof.
  intros H. split.
  - intros ds. apply (split_concatM check).
  - intros d rs E. cbn [ln_check new_suppressable_linter] in E. unfold per_file in E. rewrite concatM_cons in E.
    destruct (check d) as [a|] eqn:Ea; cbn in E; [|discriminate]. injection E as <-. rewrite app_nil_r. eauto.
Qed.

Lemma concatM_Forall {A B} (f : A -> result (list B)) (P : B -> Prop) l rs :
  (forall x a, In x l -> f x = Ok a -> Forall P a) -> concatM f l = Ok rs -> Forall P rs.
Proof.
  intros H E. apply Forall_forall. intros b Hb. apply concatM_Ok in E as [_ E]. apply E in Hb as (x & a & Hx & Ea & Hb).
  specialize (H x a Hx Ea). rewrite Forall_forall in H. auto.
Qed.
Lemma Forall_all {A} (P : A -> Prop) l : (forall x, P x) -> Forall P l.
Proof. intros H. apply Forall_forall. auto. Qed.
Lemma about_unique d uses : forall seen, Forall (about d) (unique_loop d seen uses).
Proof.
  induction uses as [|[r s] uses IH]; intros seen; cbn [unique_loop]; [constructor|]. apply Forall_app. split; [|apply IH].
  unfold if_. destruct (mem s seen); repeat constructor.
Qed.
Ltac about_tac :=
  repeat first
    [ match goal with |- Forall _ (map _ _) => apply Forall_map, Forall_all end
    | apply Forall_nil
    | apply Forall_cons; [reflexivity|]
    | apply about_unique
    | progress (intros; cbv beta zeta)
    | exact (eq_refl _)
    | match goal with
      | |- Forall _ (_ ++ _) => apply Forall_app; split
      | |- Forall _ (flat_map _ _) => apply Forall_flat_map, Forall_all
      | |- Forall _ (map _ _) => apply Forall_map, Forall_all
      | |- Forall _ (if_ _ _) => unfold if_
      | |- Forall _ (if_not _ _) => unfold if_not
      | |- Forall _ (duplicate_packages _) => unfold duplicate_packages
      | |- Forall _ (duplicates _ _ _ _) => unfold duplicates
      | |- Forall _ (same_file_failure _ _ _ _ _) => unfold same_file_failure
      | |- Forall _ (match ?x with _ => _ end) => destruct x
      end ].
Ltac file_tac :=
  first [ apply file_visiting | apply file_per_file_ok ];
  about_tac.
Lemma file_prefixes_except : file_linter l_enum_field_prefixes_except_message.
Proof.
  apply file_per_file. intros d rs. apply concatM_Forall. intros [ctx e] a _ E. cbn [snd fst] in E.
  destruct e; try (injection E as <-; constructor).
  destruct (enclosing_enum ctx); cbn in E; [|discriminate]. injection E as <-. about_tac.
Qed.
Lemma file_zero_except : file_linter l_enum_zero_values_invalid_except_message.
Proof.
  apply file_per_file. intros d rs. apply concatM_Forall. intros [ctx e] a _ E. cbn [snd fst] in E.
  destruct e; try (injection E as <-; constructor).
  match type of E with context [if ?b then _ else _] => destruct b end; [|injection E as <-; constructor].
  destruct (enclosing_enum ctx); cbn in E; [|discriminate]. injection E as <-. about_tac.
Qed.
Lemma file_http : file_linter l_rpc_options_no_google_api_http.
Proof.
  apply file_per_file. intros d rs. apply concatM_Forall. intros [ctx e] a _ E. cbn [snd fst] in E.
  destruct e; try (injection E as <-; constructor).
  match type of E with context [if ?b then _ else _] => destruct b end; [|injection E as <-; constructor].
  destruct ctx as [|[] ctx]; try discriminate. injection E as <-. about_tac.
Qed.
Lemma file_equal id name expected : file_linter (new_linter id (check_file_options_equal name expected)).
Proof.
  apply file_per_file. intros d rs E.
  destruct (last_opt (packages d)); [|injection E as <-; constructor].
  destruct (last_opt (file_options name d)); [|injection E as <-; constructor].
  destruct (is_empty (d_filename d)); [discriminate|]. injection E as <-. about_tac.
Qed.

Ltac table tac := cbv delta [all_linters]; cbv beta; repeat (apply Forall_cons; [tac|]); apply Forall_nil.
Lemma file_linters ord sing : Forall (fun l => ~ In (ln_id l) directory_rules -> file_linter l) (all_linters ord sing).
Proof.
  table ltac:(first
    [ intros _; apply file_prefixes_except | intros _; apply file_zero_except | intros _; apply file_http
    | intros _; apply file_equal
    | intros _; file_tac; fail
    | let H := fresh in intros H; exfalso; apply H; vm_compute; tauto ]).
Qed.

(** Directory rules too report only the files they are given. *)
Lemma file_covers l ds rs r : file_linter l -> ln_check l ds = Ok rs -> In r rs -> exists d, In d ds /\ about d r.
Proof.
  intros [H1 H2] E Hr. rewrite H1 in E. apply concatM_Ok in E as [_ E]. apply E in Hr as (d & a & Hd & Ea & Hr).
  exists d. split; [assumption|]. apply H2 in Ea. rewrite Forall_forall in Ea. auto.
Qed.
Lemma dup_covers {A} (pos : A -> position) msg (f : descriptor -> list A) ds r :
  In r (flat_map (fun d => duplicates pos msg d (f d)) ds) -> exists d, In d ds /\ about d r.
Proof.
  intros H. apply in_flat_map in H as (d & Hd & H). exists d. split; [assumption|].
  unfold duplicates in H. apply in_map_iff in H as (x & <- & _). reflexivity.
Qed.
Lemma map_covers p msg ds r : In r (map (fun d => add_failure d p msg) ds) -> exists d, In d ds /\ about d r.
Proof. intros H. apply in_map_iff in H as (d & <- & H). exists d. split; [assumption|reflexivity]. Qed.
Lemma covers ord sing l ds rs r : In l (all_linters ord sing) -> ln_check l ds = Ok rs -> In r rs ->
  exists d, In d ds /\ about d r.
Proof.
  intros Hl. pose proof (file_linters ord sing) as F. rewrite Forall_forall in F. specialize (F l Hl).
  destruct (in_dec string_dec (ln_id l) directory_rules) as [D|D]; [|intros; eapply file_covers; eauto].
  clear F. revert D. cut (Forall (fun l => In (ln_id l) directory_rules -> ln_check l ds = Ok rs -> In r rs ->
    exists d, In d ds /\ about d r) (all_linters ord sing)); [rewrite Forall_forall; intros H D; now apply H|]. clear l Hl.
  table ltac:(first
    [ let H := fresh in intros H; exfalso; apply mem_In in H; vm_compute in H; discriminate
    | intros _ E Hr; cbn [ln_check new_linter new_suppressable_linter] in E; injection E as <-;
      apply in_app_iff in Hr as [Hr|Hr]; [now apply dup_covers in Hr|];
      repeat match type of Hr with In _ (if ?b then _ else _) => destruct b end;
      [apply map_covers in Hr; exact Hr..|destruct Hr]; fail
    | idtac ]).
Qed.

(** ** No crash *)
Definition safe (l : linter) : Prop :=
  forall ds, (forall d, In d ds -> well_formed (d_elements d) /\ named d /\ no_stray_http_option d) ->
  exists rs, ln_check l ds = Ok rs.
Lemma checked_safe l ds fs : linter_check l ds = Ok fs -> exists rs, ln_check l ds = Ok rs.
Proof. unfold linter_check. destruct (ln_check l ds) as [rs|]; [eauto|discriminate]. Qed.
Lemma unique_linter ord sing l l' : In l (all_linters ord sing) -> In l' (all_linters ord sing) -> ln_id l = ln_id l' -> l = l'.
Proof.
  assert (N : NoDup (map ln_id (all_linters ord sing))).
  { change (NoDup (map ln_id (all_linters (fun _ _ l => l) (fun s => s)))).
    assert (F : forall l, (fix nd l := match l with [] => true | x :: l' => negb (mem x l') && nd l' end) l = true -> NoDup l).
    { induction l0 as [|x l0 IH]; intros H; [constructor|]. apply andb_true_iff in H as [H1 H2].
      constructor; [apply mem_false, negb_true_iff, H1|auto]. }
    apply F. vm_compute. reflexivity. }
  revert N. generalize (all_linters ord sing). intros ls. induction ls as [|x ls IH]; [easy|]. simpl.
  intros N. inversion N as [|? ? Hn Hr]; subst. intros [->|H1] [->|H2] E; auto.
  - exfalso. apply Hn. rewrite E. now apply in_map.
  - exfalso. apply Hn. rewrite <- E. now apply in_map.
Qed.
Lemma reports_safe ord sing (assume : descriptor -> Prop) id V l :
  (forall d, named d -> no_stray_http_option d -> assume d) ->
  Reports_exactly ord sing assume id V -> In l (all_linters ord sing) -> ln_id l = id -> safe l.
Proof.
  intros HA (l' & Hl' & E' & H) Hl E ds Hds.
  assert (l = l') as -> by (eapply unique_linter; eauto; congruence).
  destruct (H ds) as (fs & Hfs & _); [|eapply checked_safe; eauto].
  intros d Hd. destruct (Hds d Hd) as (A & B & C). auto.
Qed.
Lemma files_safe ord sing (assume : descriptor -> Prop) id V l :
  (forall d, named d -> no_stray_http_option d -> assume d) ->
  Files_reported_exactly ord sing assume id V -> In l (all_linters ord sing) -> ln_id l = id -> safe l.
Proof.
  intros HA (l' & Hl' & E' & H) Hl E ds Hds.
  assert (l = l') as -> by (eapply unique_linter; eauto; congruence).
  destruct (H ds) as (fs & Hfs & _); [|eapply checked_safe; eauto].
  intros d Hd. destruct (Hds d Hd) as (A & B & C). auto.
Qed.
Definition error_ids : list string :=
  "ENUM_FIELD_PREFIXES_EXCEPT_MESSAGE" :: "ENUM_ZERO_VALUES_INVALID_EXCEPT_MESSAGE" :: "RPC_OPTIONS_NO_GOOGLE_API_HTTP" :: map fst equal_rules.
Lemma mostly_safe ord sing : Forall (fun l => ~ In (ln_id l) error_ids -> safe l) (all_linters ord sing).
Proof.
  table ltac:(first
    [ intros _ ds _; eexists; reflexivity
    | let H := fresh in intros H; exfalso; apply H, mem_In; vm_compute; reflexivity ]).
Qed.
Theorem all_safe ord sing l : In l (all_linters ord sing) -> safe l.
Proof.
  intros Hl. destruct (in_dec string_dec (ln_id l) error_ids) as [D|D].
  2:{ pose proof (mostly_safe ord sing) as F. rewrite Forall_forall in F. now apply F. }
  destruct D as [D|[D|[D|D]]].
  - eapply reports_safe; [|apply (naming_rules_exact ord sing)| |]; [reflexivity| |exact Hl|symmetry; exact D].
    simpl. do 5 right. left. reflexivity.
  - eapply reports_safe; [|apply (naming_rules_exact ord sing)| |]; [reflexivity| |exact Hl|symmetry; exact D].
    simpl. do 7 right. left. reflexivity.
  - eapply reports_safe; [|apply (http_rule_exact ord sing)|exact Hl|symmetry; exact D]. auto.
  - apply in_map_iff in D as ([id V] & E & D). simpl in E.
    eapply files_safe; [|apply (equal_rules_exact ord sing _ _ D)|exact Hl|symmetry; exact E]. auto.
Qed.

(** ** Map order *)

(** The same failures in some order, or an error both times. *)
Inductive same_result {A} (R : list A -> list A -> Prop) : result (list A) -> result (list A) -> Prop :=
| same_ok : forall a b, R a b -> same_result R (Ok a) (Ok b)
| same_err : forall e e', same_result R (Err e) (Err e').
Definition like (l1 l2 : linter) : Prop :=
  ln_id l1 = ln_id l2 /\ ln_annotation l1 = ln_annotation l2 /\
  forall ds, same_result (@Permutation raw) (ln_check l1 ds) (ln_check l2 ds).
Lemma like_refl l : like l l.
Proof. split; [reflexivity|]. split; [reflexivity|]. intros ds. destruct (ln_check l ds); constructor; reflexivity. Qed.
Lemma like_ok id ann c1 c2 : (forall ds, Permutation (c1 ds) (c2 ds)) ->
  like (new_suppressable_linter id ann (fun ds => Ok (c1 ds))) (new_suppressable_linter id ann (fun ds => Ok (c2 ds))).
Proof. intros H. split; [reflexivity|]. split; [reflexivity|]. intros ds. now constructor. Qed.
Lemma flat_map_perm {A B} (f g : A -> list B) l : (forall x, Permutation (f x) (g x)) -> Permutation (flat_map f l) (flat_map g l).
Proof. intros H. induction l as [|x l IH]; simpl; [reflexivity|]. now apply Permutation_app. Qed.

Section Orders.
  Variables (o1 o2 : order) (sing : string -> string).
  Hypothesis H1 : reorders o1.
  Hypothesis H2 : reorders o2.
  Lemma orders k A (l : list A) : Permutation (o1 k A l) (o2 k A l).
  Proof. rewrite <- (H1 k A l). apply H2. Qed.
  Lemma orders_flat_map k A B (f : A -> list B) l : Permutation (flat_map f (o1 k A l)) (flat_map f (o2 k A l)).
  Proof. apply Permutation_flat_map, orders. Qed.
  Lemma orders_map k A B (f : A -> B) l : Permutation (map f (o1 k A l)) (map f (o2 k A l)).
  Proof. apply Permutation_map, orders. Qed.
  Lemma orders_sort k l : sort_strings (o1 k _ l) = sort_strings (o2 k _ l).
  Proof. apply sort_strings_unique, orders. Qed.
  Lemma like_same_in_dir id name :
    like (new_linter id (check_file_options_same_in_dir o1 name)) (new_linter id (check_file_options_same_in_dir o2 name)).
  Proof.
    apply like_ok. intros ds. apply Permutation_app_head.
    rewrite (orders_sort ("fileOptionValues " +++ name)). reflexivity.
  Qed.
  Lemma like_packages : like (l_packages_same_in_dir o1) (l_packages_same_in_dir o2).
  Proof. apply like_ok. intros ds. apply Permutation_app_head. rewrite (orders_sort "pkgs"). reflexivity. Qed.
  Lemma like_wkt : like (l_wkt_directly_imported o1) (l_wkt_directly_imported o2).
  Proof.
    apply like_ok. intros ds. apply flat_map_perm. intros d. apply flat_map_perm. intros [ctx e]. cbn [fst snd].
    destruct e; try reflexivity. apply orders_flat_map.
  Qed.
  Lemma like_except1 : like (l_messages_have_comments_except_request_response_types o1) (l_messages_have_comments_except_request_response_types o2).
  Proof. apply like_ok. intros ds. apply flat_map_perm. intros d. apply orders_flat_map. Qed.
  Lemma like_except2 : like (l_messages_have_sentence_comments_except_request_response_types o1) (l_messages_have_sentence_comments_except_request_response_types o2).
  Proof. apply like_ok. intros ds. apply flat_map_perm. intros d. apply orders_flat_map. Qed.
  Lemma like_empty : like (l_messages_not_empty_except_request_response_types o1) (l_messages_not_empty_except_request_response_types o2).
  Proof. apply like_ok. intros ds. apply flat_map_perm. intros d. apply orders_flat_map. Qed.
  Lemma like_only : like (l_request_response_types_only_in_file o1) (l_request_response_types_only_in_file o2).
  Proof.
    apply like_ok. intros ds. apply flat_map_perm. intros d. destruct (rpcs_of d); [reflexivity|].
    apply Permutation_app; apply orders_map.
  Qed.
  Ltac like_tac := repeat (apply Forall2_cons; [first
      [ apply like_refl | apply like_packages | apply like_wkt | apply like_except1 | apply like_except2 | apply like_empty
      | apply like_only | apply like_same_in_dir ]|]); apply Forall2_nil.
  Lemma like_all : Forall2 like (all_linters o1 sing) (all_linters o2 sing).
  Proof. cbv delta [all_linters]; cbv beta. like_tac. Qed.
  Lemma like_groups : Forall2 (fun a b => fst a = fst b /\ Forall2 like (snd a) (snd b)) (group_to_linters o1) (group_to_linters o2).
  Proof.
    cbv delta [group_to_linters google_linters uber1_linters uber2_linters empty_linters]; cbv beta.
    repeat (apply Forall2_cons; [split; [reflexivity|]; cbn [snd]; like_tac|]). apply Forall2_nil.
  Qed.
  Lemma like_default : Forall2 like (default_linters o1) (default_linters o2).
  Proof. cbv delta [default_linters uber1_linters]; cbv beta. like_tac. Qed.
End Orders.
