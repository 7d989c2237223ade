(** A rule finds the same things in a file whatever path the file is read under, and
    whatever the configuration says elsewhere: two descriptors that agree in what the
    rules look at are reported alike.  Used for C55, where the same files are checked
    under absolute names first and under display names later. *)
From Verif Require Import LintRun_Spec GoStrFacts GoMapFacts Lint_RuleFacts Lint_Table LintRun_Proofs LintRun_Proofs2.
From Coq Require Import Lia Permutation.

Definition same_order : order := fun _ _ l => l.

(** What a rule looks at, other than the name under which failures are reported. *)
Definition alike (d d' : descriptor) : Prop :=
  d_elements d' = d_elements d /\ d_data d' = d_data d
  /\ path_base (d_filename d') = path_base (d_filename d)
  /\ d_filename d <> EmptyString /\ d_filename d' <> EmptyString
  /\ lc_file_header (cfg_lint (ps_config (d_set d'))) = lc_file_header (cfg_lint (ps_config (d_set d)))
  /\ lc_java_package_prefix (cfg_lint (ps_config (d_set d'))) = lc_java_package_prefix (cfg_lint (ps_config (d_set d)))
  /\ lc_allow_suppression (cfg_lint (ps_config (d_set d'))) = lc_allow_suppression (cfg_lint (ps_config (d_set d))).

Definition suppresses (s : option proto_set) : bool :=
  match s with Some s => lc_allow_suppression (cfg_lint (ps_config s)) | None => false end.
(** Two reports that differ in the file name at most. *)
Definition sim (r r' : raw) : Prop :=
  raw_comment r' = raw_comment r /\ suppresses (raw_set r') = suppresses (raw_set r).
Definition sims (x y : result (list raw)) : Prop :=
  match x, y with Ok a, Ok b => Forall2 sim a b | Err _, Err _ => True | _, _ => False end.

Lemma allow_is l s : allow_suppression l s = negb (is_empty (ln_annotation l)) && suppresses s.
Proof. destruct s; [reflexivity|]. cbn. now rewrite andb_false_r. Qed.
Lemma sim_finish l r r' : sim r r' -> finish l r = [] -> finish l r' = [].
Proof.
  intros [A B]. unfold finish, is_suppressed. rewrite !allow_is, A, B.
  match goal with |- context [if ?b then _ else _] => destruct b end; [reflexivity|discriminate].
Qed.
Lemma sims_finish l a b : Forall2 sim a b -> flat_map (finish l) a = [] -> flat_map (finish l) b = [].
Proof.
  induction 1 as [|r r' a b H F IH]; [reflexivity|]. simpl. intros E. apply app_eq_nil in E as [E1 E2].
  rewrite (sim_finish l r r' H E1). cbn. auto.
Qed.

(** ** Closure *)
Lemma F2_app {A B} (R : A -> B -> Prop) a b a' b' : Forall2 R a b -> Forall2 R a' b' -> Forall2 R (a ++ a') (b ++ b').
Proof. apply Forall2_app. Qed.
Lemma F2_flat_map {X A B} (R : A -> B -> Prop) (f : X -> list A) (g : X -> list B) l :
  (forall x, Forall2 R (f x) (g x)) -> Forall2 R (flat_map f l) (flat_map g l).
Proof. intros H. induction l; simpl; [constructor|]. apply Forall2_app; auto. Qed.
Lemma F2_map {X A B} (R : A -> B -> Prop) (f : X -> A) (g : X -> B) l :
  (forall x, R (f x) (g x)) -> Forall2 R (map f l) (map g l).
Proof. intros H. induction l; simpl; constructor; auto. Qed.
Lemma sim_unique d d' uses : lc_allow_suppression (cfg_lint (ps_config (d_set d'))) = lc_allow_suppression (cfg_lint (ps_config (d_set d))) ->
  forall seen, Forall2 sim (unique_loop d seen uses) (unique_loop d' seen uses).
Proof.
  intros H. induction uses as [|[r s] uses IH]; intros seen; cbn [unique_loop]; [constructor|]. apply Forall2_app; [|apply IH].
  unfold if_. destruct (mem s seen); repeat constructor.
Qed.
Lemma sims_concatM {X} (f g : X -> result (list raw)) l : (forall x, sims (f x) (g x)) -> sims (concatM f l) (concatM g l).
Proof.
  intros H. induction l as [|x l IH]; [constructor|]. rewrite !concatM_cons. specialize (H x).
  destruct (f x), (g x); cbn in *; try contradiction; [|exact I].
  destruct (concatM f l), (concatM g l); cbn in *; try contradiction; [|exact I]. now apply Forall2_app.
Qed.

Definition renames (l : linter) : Prop := forall d d', alike d d' -> sims (ln_check l [d]) (ln_check l [d']).

Lemma rn_visiting id ann ks hook :
  (forall d d' ctx e, alike d d' -> Forall2 sim (hook d ctx e) (hook d' ctx e)) ->
  renames (new_suppressable_linter id ann (visiting ks hook)).
Proof.
  intros H d d' A. cbn [ln_check new_suppressable_linter visiting sims flat_map]. rewrite !app_nil_r.
  unfold visited. destruct A as (E & A). rewrite E. apply F2_flat_map. intros [ctx e]. apply H. now split.
Qed.
Lemma rn_per_file_ok id ann check :
  (forall d d', alike d d' -> Forall2 sim (check d) (check d')) ->
  renames (new_suppressable_linter id ann (per_file_ok check)).
Proof.
  intros H d d' A. cbn [ln_check new_suppressable_linter per_file_ok sims flat_map]. rewrite !app_nil_r. now apply H.
Qed.
Lemma rn_per_file id ann check :
  (forall d d', alike d d' -> sims (check d) (check d')) ->
  renames (new_suppressable_linter id ann (per_file check)).
Proof.
  intros H d d' A. cbn [ln_check new_suppressable_linter]. unfold per_file. rewrite !concatM_cons. specialize (H d d' A).
  destruct (check d), (check d'); cbn in *; try contradiction; [|exact I]. now rewrite !app_nil_r.
Qed.

Ltac prep :=
  let n := fresh "n" in let s := fresh "s" in let n' := fresh "n" in let s' := fresh "s" in
  let els := fresh "els" in let data := fresh "data" in let els' := fresh "els" in let data' := fresh "data" in
  intros [n els s data] [n' els' s' data'];
  let A := fresh "A" in let E1 := fresh "E" in let E2 := fresh "E" in
  let Hb := fresh "Hb" in let Hn := fresh "Hn" in let Hn' := fresh "Hn'" in
  let Hh := fresh "Hh" in let Hj := fresh "Hj" in let Hs := fresh "Hs" in
  intros;
  match goal with H : alike _ _ |- _ => destruct H as (E1 & E2 & Hb & Hn & Hn' & Hh & Hj & Hs) end;
  cbn [d_filename d_set d_elements d_data] in E1, E2, Hb, Hn, Hn', Hh, Hj, Hs |- *; subst els' data'.
Ltac sim_leaf := split; [reflexivity|first [reflexivity|assumption]].
Ltac sim_tac :=
  repeat first
    [ match goal with |- Forall2 _ (map _ ?x) (map _ ?y) => change y with x; apply F2_map end
    | apply Forall2_nil
    | apply Forall2_cons; [sim_leaf|]
    | apply sim_unique; assumption
    | sim_leaf
    | progress (intros; cbv beta zeta)
    | match goal with
      | |- Forall2 _ (_ ++ _) (_ ++ _) => apply Forall2_app
      | |- Forall2 _ (flat_map _ ?x) (flat_map _ ?y) => change y with x; apply F2_flat_map
      | |- Forall2 _ (map _ ?x) (map _ ?y) => change y with x; apply F2_map
      | |- Forall2 _ (if_ _ _) _ => unfold if_
      | |- Forall2 _ (if_not _ _) _ => unfold if_not
      | |- Forall2 _ (duplicate_packages _) _ => unfold duplicate_packages
      | |- Forall2 _ (duplicates _ _ _ _) _ => unfold duplicates
      | |- Forall2 _ (same_file_failure _ _ _ _ _) _ => unfold same_file_failure
      | |- Forall2 _ (match ?x with _ => _ end) (match ?y with _ => _ end) =>
          first [ change y with x | replace y with x by congruence ]; destruct x
      end ].
Ltac rn_tac := first [ apply rn_visiting | apply rn_per_file_ok ]; prep; sim_tac.

Lemma rn_header : renames l_file_header.
Proof.
  apply rn_per_file_ok. prep. rewrite Hh. sim_tac.
Qed.
Lemma rn_names : renames l_file_names_lower_snake_case.
Proof. apply rn_per_file_ok. prep. rewrite Hb. sim_tac. Qed.
Lemma rn_service_names : renames l_service_names_match_file_name.
Proof. apply rn_per_file_ok. prep. rewrite Hb. sim_tac. Qed.
Lemma rn_prefixes_except : renames l_enum_field_prefixes_except_message.
Proof.
  apply rn_per_file. prep. apply sims_concatM. intros [ctx e]. cbn [fst snd]. destruct e; try (constructor; fail).
  destruct (enclosing_enum ctx); cbn; [|exact I]. sim_tac.
Qed.
Lemma rn_zero_except : renames l_enum_zero_values_invalid_except_message.
Proof.
  apply rn_per_file. prep. apply sims_concatM. intros [ctx e]. cbn [fst snd]. destruct e; try (constructor; fail).
  match goal with |- context [if ?b then _ else _] => destruct b end; [|constructor].
  destruct (enclosing_enum ctx); cbn; [|exact I]. sim_tac.
Qed.
Lemma rn_http : renames l_rpc_options_no_google_api_http.
Proof.
  apply rn_per_file. prep. apply sims_concatM. intros [ctx e]. cbn [fst snd]. destruct e; try (constructor; fail).
  match goal with |- context [if ?b then _ else _] => destruct b end; [|constructor].
  destruct ctx as [|[] ctx]; cbn; try exact I. repeat constructor; assumption.
Qed.
Lemma rn_equal id name expected : (forall d d' p, alike d d' -> expected d' p = expected d p) ->
  renames (new_linter id (check_file_options_equal name expected)).
Proof.
  intros HE. apply rn_per_file. intros d d' A. pose proof (fun p => HE d d' p A) as X. destruct A as (E & _ & _ & A & A' & _).
  unfold packages, file_options. rewrite E.
  destruct (last_opt (flat_map _ (d_elements d))) as [p|]; [|constructor].
  destruct (last_opt (flat_map _ (d_elements d))) as [o|]; [|constructor].
  destruct (is_empty (d_filename d)) eqn:E1; [apply is_empty_true in E1; contradiction|].
  destruct (is_empty (d_filename d')) eqn:E2; [apply is_empty_true in E2; contradiction|].
  rewrite X. cbn [sims]. unfold if_not. destruct (String.eqb _ _); repeat constructor.
Qed.
Lemma classname_alike d d' : alike d d' -> java_outer_classname (d_filename d') = java_outer_classname (d_filename d).
Proof.
  intros (_ & _ & B & N & N' & _). unfold java_outer_classname. rewrite B.
  destruct (is_empty (d_filename d)) eqn:E1; [apply is_empty_true in E1; contradiction|].
  destruct (is_empty (d_filename d')) eqn:E2; [apply is_empty_true in E2; contradiction|]. reflexivity.
Qed.
Lemma prefix_alike d d' : alike d d' ->
  lc_java_package_prefix (cfg_lint (ps_config (d_set d'))) = lc_java_package_prefix (cfg_lint (ps_config (d_set d))).
Proof. intros (_ & _ & _ & _ & _ & _ & H & _). exact H. Qed.
Ltac equal_tac :=
  apply rn_equal; intros ? ? ? A;
  first [ reflexivity | rewrite (prefix_alike _ _ A); reflexivity | exact (classname_alike _ _ A) ].
Lemma all_rename sing : Forall (fun l => ~ In (ln_id l) directory_rules -> renames l) (all_linters same_order sing).
Proof.
  table ltac:(first
    [ intros _; apply rn_header | intros _; apply rn_names | intros _; apply rn_service_names
    | intros _; apply rn_prefixes_except | intros _; apply rn_zero_except | intros _; apply rn_http
    | intros _; equal_tac; fail
    | intros _; rn_tac; fail
    | let H := fresh in intros H; exfalso; apply H; vm_compute; tauto
    | idtac ]).
Qed.
