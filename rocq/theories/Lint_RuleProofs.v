(** Each rule of the tables of Lint_Spec reports exactly what it forbids. *)
From Verif Require Import GoStrFacts GoMapFacts Strs_Proofs Protostrs_Proofs.
From Verif Require Export Lint_RuleFacts.

Definition enumb e := match e with EEnum _ _ => true | _ => false end.
Definition enum_valueb e := match e with EEnumField _ _ => true | _ => false end.
Definition zero_valueb e := match e with EEnumField f _ => (ef_integer f =? 0)%Z | _ => false end.
Definition messageb e := match e with EMessage _ x _ => negb x | _ => false end.
Definition fieldb e := match e with EField _ _ => true | _ => false end.
Definition plain_fieldb e := match e with EField (InMap _) _ => false | EField _ _ => true | _ => false end.
Definition oneofb e := match e with EOneof _ _ => true | _ => false end.
Definition serviceb e := match e with EService _ _ => true | _ => false end.
Definition rpcb e := match e with ERPC _ _ => true | _ => false end.
Definition importb e := match e with EImport _ => true | _ => false end.
Definition reservedb e := match e with EReserved _ => true | _ => false end.
Definition optionb e := match e with EOption _ => true | _ => false end.
Definition packageb e := match e with EPackage _ => true | _ => false end.
Ltac kind_tac := intros e; split; [destruct e; try discriminate; intros; red; eauto|
  intros H; red in H; repeat match goal with H : exists _, _ |- _ => destruct H end; subst; try reflexivity].
Lemma enumb_iff : forall e, enumb e = true <-> is_enum e. Proof. kind_tac. Qed.
Lemma enum_valueb_iff : forall e, enum_valueb e = true <-> is_enum_value e. Proof. kind_tac. Qed.
Lemma oneofb_iff : forall e, oneofb e = true <-> is_oneof e. Proof. kind_tac. Qed.
Lemma fieldb_iff : forall e, fieldb e = true <-> is_field e. Proof. kind_tac. Qed.
Lemma serviceb_iff : forall e, serviceb e = true <-> is_service e. Proof. kind_tac. Qed.
Lemma rpcb_iff : forall e, rpcb e = true <-> is_rpc e. Proof. kind_tac. Qed.
Lemma importb_iff : forall e, importb e = true <-> is_import e. Proof. kind_tac. Qed.
Lemma reservedb_iff : forall e, reservedb e = true <-> is_reserved e. Proof. kind_tac. Qed.
Lemma optionb_iff : forall e, optionb e = true <-> is_option e. Proof. kind_tac. Qed.
Lemma packageb_iff : forall e, packageb e = true <-> is_package e. Proof. kind_tac. Qed.
Lemma messageb_iff : forall e, messageb e = true <-> is_message e.
Proof.
  intros e. split; [|intros (h & es & ->); reflexivity].
  destruct e; try discriminate. destruct extend; [discriminate|]. intros. red. eauto.
Qed.
Lemma plain_fieldb_iff : forall e, plain_fieldb e = true <-> is_plain_field e.
Proof.
  intros e. split.
  - destruct e; try discriminate. intros H. exists k, f. split; [reflexivity|]. intros t ->. discriminate.
  - intros (k & f & -> & H). destruct k; try reflexivity. exfalso. now apply (H key_type).
Qed.
Lemma zero_valueb_iff : forall e, zero_valueb e = true <-> is_zero_value e.
Proof.
  intros e. split.
  - destruct e; try discriminate. simpl. intros H. exists f, es. split; [reflexivity|]. now apply Z.eqb_eq.
  - intros (f & es & -> & H). simpl. rewrite H. reflexivity.
Qed.

Ltac linter n := apply (nth_error_In _ n); reflexivity.
(** Where the visitors go. *)
Ltac go_ctx := intros d ctx e HWF Hloc HO He;
  first
  [ apply (ctx_plain _ d ctx e); [reflexivity|exact HWF|exact Hloc|exact HO|];
    solve [tauto | destruct He as (h & es & ->); right; left; red; eauto]
  | apply (ctx_enum_value _ d ctx e); [reflexivity|reflexivity|exact HWF|exact Hloc|exact HO|];
    solve [assumption | destruct He as (f & es & -> & _); red; eauto]
  | apply (ctx_field _ d ctx e); [reflexivity|reflexivity|exact HWF|exact Hloc|exact HO|];
    solve [assumption | destruct He as (k & f & -> & _); red; eauto]
  | apply (ctx_rpc _ d ctx e); [reflexivity|exact HWF|exact Hloc|exact He]
  | apply (ctx_reserved _ d ctx e); [reflexivity|reflexivity|exact HWF|exact Hloc|exact HO|exact He]
  | apply (ctx_top _ d ctx e HWF Hloc);
    solve [destruct He as (h & es & ->); reflexivity | destruct He as (h & ->); reflexivity] ].
(** The check in terms of a boolean on the kind. *)
Ltac go_hook badness := intros d ctx e; destruct e; try (exists EmptyString; reflexivity);
  cbv beta iota zeta delta [if_ if_not name_of position_of type_of enumb enum_valueb zero_valueb messageb fieldb plain_fieldb oneofb serviceb rpcb importb reservedb optionb packageb];
  eexists; badness; try reflexivity.

Lemma not_good b (Q P : Prop) : (b = true <-> Q) -> (P <-> ~ Q) -> (negb b = true <-> P).
Proof. intros H1 H2. destruct b; simpl; intuition congruence. Qed.
Lemma lowercase_bad s : negb (is_lowercase s) = true <-> (s = EmptyString \/ ~ no_upper_case s).
Proof.
  apply (not_good _ _ _ (lowercase_iff s)). destruct (string_dec_eqb s EmptyString); tauto.
Qed.
Lemma uppercase_bad s : negb (is_uppercase s) = true <-> (s = EmptyString \/ ~ no_lower_case s).
Proof.
  apply (not_good _ _ _ (uppercase_iff s)). destruct (string_dec_eqb s EmptyString); tauto.
Qed.
Lemma seqb_iff a b : String.eqb a b = true <-> a = b.
Proof. apply String.eqb_eq. Qed.
Lemma seqb_not a b : negb (String.eqb a b) = true <-> a <> b.
Proof. rewrite negb_true_iff. apply seqb_neq. Qed.

(** The prefix of enum values. *)
Definition scoped (e : element) : bool := match e with EMessage _ _ _ | EEnum _ _ => true | _ => false end.
Lemma nested_names_map ctx : Forall (fun e => scoped e = true) ctx ->
  nested_names ctx = rev (map (fun e => to_upper_snake_case (name_of e)) ctx).
Proof.
  intros H. unfold nested_names. f_equal. induction H as [|e ctx He H IH]; [reflexivity|].
  simpl. rewrite IH. destruct e; try discriminate; reflexivity.
Qed.
Lemma scope_prefix_join ctx : ctx <> [] -> Forall (fun e => scoped e = true) ctx ->
  join "_" (nested_names ctx) +++ "_" = scope_prefix ctx.
Proof.
  intros Hne H. rewrite nested_names_map by assumption. clear H. induction ctx as [|e ctx IH]; [congruence|].
  destruct ctx as [|e' ctx]; [reflexivity|].
  cbn [scope_prefix]. cbn [scope_prefix] in IH. rewrite <- IH by discriminate.
  cbn [map rev]. rewrite join_snoc.
  - now rewrite !sapp_assoc.
  - cbn [map rev]. intros E. apply app_eq_nil in E as [_ E]. discriminate.
Qed.
Lemma enum_ctx_scoped file ctx e : well_formed file -> located file ctx e -> outside_groups ctx -> is_enum_value e ->
  ctx <> [] /\ Forall (fun x => scoped x = true) ctx.
Proof.
  intros HWF Hl HO He. destruct (enum_value_ctx _ HWF _ _ Hl HO He) as (h & es & outer & -> & HF).
  split; [discriminate|]. constructor; [reflexivity|].
  eapply Forall_impl; [|exact HF]. intros x (a & b & c & ->). reflexivity.
Qed.

(** Visitors that can fail. *)
Lemma per_file_visiting ks f (hook : descriptor -> list element -> element -> list raw) ds :
  (forall d ce, In d ds -> In ce (visited ks d) -> f d ce = Ok (hook d (fst ce) (snd ce))) ->
  per_file (fun d => concatM (f d) (visited ks d)) ds = visiting ks hook ds.
Proof.
  intros H. unfold visiting, per_file. induction ds as [|d ds IH]; [reflexivity|].
  rewrite concatM_cons, IH by (intros; apply H; [now right|assumption]).
  assert (A : concatM (f d) (visited ks d) = Ok (flat_map (fun ce => hook d (fst ce) (snd ce)) (visited ks d))).
  { specialize (H d). assert (H' : forall ce, In ce (visited ks d) -> f d ce = Ok (hook d (fst ce) (snd ce)))
      by (intros; apply H; [now left|assumption]). clear H IH.
    induction (visited ks d) as [|ce l IH]; [reflexivity|].
    rewrite concatM_cons, H', IH; [reflexivity| |now left]. intros. apply H'. now right. }
  rewrite A. reflexivity.
Qed.

(** Suppression. *)
Lemma is_suppressed_iff l ann d c m p : ln_annotation l = ann -> ann <> EmptyString ->
  is_suppressed l (raw_set (add_suppressable d c p m)) (raw_comment (add_suppressable d c p m)) = true
  <-> silenced ann d c.
Proof.
  intros <- Hne. unfold is_suppressed, silenced, allow_suppression. simpl.
  assert (E : is_empty (ln_annotation l) = false) by now apply is_empty_false. rewrite E. simpl.
  destruct (lc_allow_suppression (cfg_lint (ps_config (d_set d)))); simpl.
  - destruct c as [c|].
    + rewrite existsb_exists. split.
      * intros (x & Hx & Hc). apply contains_spec in Hc. split; [reflexivity|]. exists c, x. auto.
      * intros (_ & c' & x & Ec & Hx & Hs). injection Ec as <-. exists x. split; [assumption|]. now apply contains_spec.
    + split; [discriminate|]. intros (_ & c' & x & Ec & _). discriminate.
  - split; [discriminate|]. intros (E' & _). discriminate.
Qed.
Lemma is_suppressed_false l ann d c m p : ln_annotation l = ann -> ann <> EmptyString ->
  is_suppressed l (raw_set (add_suppressable d c p m)) (raw_comment (add_suppressable d c p m)) = false
  <-> ~ silenced ann d c.
Proof.
  intros H1 H2. rewrite <- (is_suppressed_iff l ann d c m p H1 H2).
  destruct (is_suppressed _ _ _); intuition congruence.
Qed.

(** A rule proved by [simple_rule]. *)
Ltac gen n kindb kind_iff badb hook_tac last_tac :=
  eapply (simple_rule _ _ _ _ _ _ kindb _ badb);
  [ linter n | reflexivity | intros; reflexivity | reflexivity
  | go_hook hook_tac | exact kind_iff | go_ctx | last_tac ].
Ltac split_bool good := match goal with |- context [good ?x] => destruct (good x) end.
Ltac names n kindb kind_iff good iff :=
  gen n kindb kind_iff (fun (_ : descriptor) (_ : list element) e => negb (good (name_of e)))
    ltac:(idtac; split_bool good; try match goal with x : bool |- _ => destruct x end)
    ltac:(idtac; intros d ctx e _ _ _ _ _; unfold bad_name; apply iff).
Section Tables.
  Variables (ord : order) (sing : string -> string).

  Lemma suppressable_rule l id ann ks (scope : list element -> Prop) (kind : element -> Prop) (bad : descriptor -> list element -> element -> Prop) hook :
    In l (all_linters ord sing) -> ln_id l = id -> ln_annotation l = ann -> ann <> EmptyString ->
    (forall ds, ln_check l ds = visiting ks hook ds) ->
    (forall d ctx e r, In r (hook d ctx e) -> exists m, r = add_suppressable d (comment_of e) (position_of e) m) ->
    (forall d ctx e, (exists r, In r (hook d ctx e)) <-> kind e /\ bad d ctx e) ->
    (forall ctx, Forall (fun x => entered ks x = true) ctx -> scope ctx) ->
    (forall d ctx e, well_formed (d_elements d) -> located (d_elements d) ctx e -> scope ctx -> kind e ->
       Forall (fun x => entered ks x = true) ctx) ->
    Reports_exactly ord sing anything id
      (fun d ctx e p => scope ctx /\ kind e /\ unless_silenced ann bad d ctx e /\ p = position_of e).
  Proof.
    intros Hl Hid Ha Hne Hck Hr Hb Hs Hctx. apply (visiting_core ord sing l id anything ks hook); auto.
    intros d ctx e file p HWF _ Hloc. split.
    - intros (HF & r & Hin & Hsup & Hp). destruct (Hr _ _ _ _ Hin) as (m & ->).
      apply (is_suppressed_false l ann _ _ _ _ Ha Hne) in Hsup.
      apply at_place_failure in Hp as [E1 E2]. split; [assumption|].
      destruct (proj1 (Hb d ctx e)) as [Hk Hbad]; [eauto|].
      repeat split; auto.
    - intros (E1 & Hsc & Hk & (Hbad & Hns) & ->). split; [now apply (Hctx d ctx e)|].
      destruct (proj2 (Hb d ctx e) (conj Hk Hbad)) as (r & Hin). exists r. split; [assumption|].
      destruct (Hr _ _ _ _ Hin) as (m & ->).
      split; [now apply (is_suppressed_false l ann)|]. now apply at_place_failure.
  Qed.

  Lemma camel_bad s : negb (is_camel_case s) = true <-> ~ camel_shape s.
  Proof. apply negb_iff, is_camel_shape. Qed.
  Lemma capital_bad s : negb (is_capitalized s) = true <-> ~ starts_upper s.
  Proof. apply negb_iff, starts_upper_iff. Qed.
  Lemma lower_snake_bad s : negb (is_lower_snake_case s) = true <-> ~ snake_shape is_lower s.
  Proof. apply negb_iff, is_lower_snake_shape. Qed.
  Lemma upper_snake_bad s : negb (is_upper_snake_case s) = true <-> ~ snake_shape is_upper s.
  Proof. apply negb_iff, is_upper_snake_shape. Qed.

  Definition prefix_bad (d : descriptor) (ctx : list element) (e : element) : bool :=
    negb (has_prefix (name_of e) (join "_" (nested_names ctx) +++ "_")).
  Definition zero_bad (d : descriptor) (ctx : list element) (e : element) : bool :=
    negb (String.eqb (name_of e) (join "_" (nested_names ctx) +++ "_INVALID")).
  Definition enum_of (ctx : list element) : string := to_upper_snake_case (name_of (hd (EComment (mk_comment no_pos [] false)) ctx)).
  Definition prefix_except_hook (d : descriptor) (ctx : list element) (e : element) : list raw :=
    match e with
    | EEnumField f _ => if_not (has_prefix (ef_name f) (enum_of ctx +++ "_"))
        [add_failure d (ef_pos f) ("Enum field " +++ q (ef_name f) +++ " is expected to have the prefix " +++ q (enum_of ctx +++ "_") +++ ".")]
    | _ => [] end.
  Definition zero_except_hook (d : descriptor) (ctx : list element) (e : element) : list raw :=
    match e with
    | EEnumField f _ => if (ef_integer f =? 0)%Z then if_not (String.eqb (ef_name f) (enum_of ctx +++ "_INVALID"))
        [add_failure d (ef_pos f) ("Zero value enum field " +++ q (ef_name f) +++ " is expected to have the name " +++ q (enum_of ctx +++ "_INVALID") +++ ".")]
        else []
    | _ => [] end.
  Lemma enclosing_enum_ok d ctx e : well_formed (d_elements d) -> In (ctx, e) (visited [KMessage; KEnum] d) ->
    is_enum_value e -> exists h es outer, ctx = EEnum h es :: outer /\ enclosing_enum ctx = Ok h /\ enum_of ctx = to_upper_snake_case (h_name h).
  Proof.
    intros HWF Hv He. apply visited_iff in Hv as [Hloc HF].
    pose proof (entered_no_group _ _ (eq_refl : into [KMessage; KEnum] KGroup = false) HF) as HO.
    destruct (enum_value_ctx _ HWF _ _ Hloc HO He) as (h & es & outer & -> & _).
    exists h, es, outer. repeat split.
  Qed.

  Theorem naming_rules_exact id V : In (id, V) naming_rules -> Reports_exactly ord sing anything id V.
  Proof.
    intros H. unfold naming_rules in H.
    repeat (destruct H as [E|H]; [injection E as <- <-|]); [..|contradiction].
    - names 8 enumb enumb_iff is_camel_case camel_bad.
    - names 9 enumb enumb_iff is_capitalized capital_bad.
    - names 2 enum_valueb enum_valueb_iff is_uppercase uppercase_bad.
    - names 3 enum_valueb enum_valueb_iff is_upper_snake_case upper_snake_bad.
    - gen 4 enum_valueb enum_valueb_iff prefix_bad
        ltac:(unfold prefix_bad; cbv beta iota zeta delta [name_of]; match goal with |- context [has_prefix ?a ?b] => destruct (has_prefix a b) end)
        ltac:(intros d ctx e HWF _ Hloc HO He).
      unfold prefix_bad. destruct (enum_ctx_scoped _ _ _ HWF Hloc HO He) as [Hne HF].
      rewrite (scope_prefix_join ctx Hne HF). apply negb_iff, starts_with_iff.
    - eapply (simple_rule ord sing _ _ _ [KMessage; KEnum] enum_valueb _ (fun _ ctx e => negb (has_prefix (name_of e) (enum_of ctx +++ "_"))) _ prefix_except_hook);
      [ linter 5 | reflexivity | | reflexivity
      | unfold prefix_except_hook; go_hook ltac:(idtac; match goal with |- context [has_prefix ?a ?b] => destruct (has_prefix a b) end)
      | exact enum_valueb_iff | go_ctx | ].
      + intros ds Hds. apply per_file_visiting. intros d [ctx e] Hd Hv. simpl.
        destruct e; try reflexivity.
        destruct (enclosing_enum_ok d ctx (EEnumField f es)) as (h & es' & outer & E1 & E2 & E3);
          [apply Hds; assumption|assumption|red; eauto|].
        rewrite E2. simpl. unfold prefix_except_hook. rewrite E3. reflexivity.
      + intros d ctx e HWF _ Hloc HO He. apply negb_iff.
        destruct (enum_value_ctx _ HWF _ _ Hloc HO He) as (h & es & outer & -> & _). apply starts_with_iff.
    - gen 10 zero_valueb zero_valueb_iff zero_bad
        ltac:(unfold zero_bad; cbv beta iota zeta delta [name_of];
              match goal with |- context [(ef_integer ?a =? 0)%Z] => destruct (ef_integer a =? 0)%Z end;
              match goal with |- context [String.eqb ?a ?b] => destruct (String.eqb a b) end)
        ltac:(intros d ctx e HWF _ Hloc HO He).
      unfold zero_bad. destruct (enum_ctx_scoped _ ctx e HWF Hloc HO) as [Hne HF];
        [destruct He as (f & es & -> & _); red; eauto|].
      rewrite <- (scope_prefix_join ctx Hne HF). rewrite seqb_not, sapp_assoc. reflexivity.
    - eapply (simple_rule ord sing _ _ _ [KMessage; KEnum] zero_valueb _ (fun _ ctx e => negb (String.eqb (name_of e) (enum_of ctx +++ "_INVALID"))) _ zero_except_hook);
      [ linter 11 | reflexivity | | reflexivity
      | unfold zero_except_hook; go_hook ltac:(idtac; match goal with |- context [(ef_integer ?a =? 0)%Z] => destruct (ef_integer a =? 0)%Z end;
              try match goal with |- context [String.eqb ?a ?b] => destruct (String.eqb a b) end)
      | exact zero_valueb_iff | go_ctx | ].
      + intros ds Hds. apply per_file_visiting. intros d [ctx e] Hd Hv. simpl.
        destruct e; try reflexivity.
        destruct (enclosing_enum_ok d ctx (EEnumField f es)) as (h & es' & outer & E1 & E2 & E3);
          [apply Hds; assumption|assumption|red; eauto|].
        unfold zero_except_hook. rewrite E3. destruct (ef_integer f =? 0)%Z; [|reflexivity].
        rewrite E2. reflexivity.
      + intros d ctx e HWF _ Hloc HO He. rewrite seqb_not.
        destruct (enum_value_ctx _ HWF ctx e Hloc HO) as (h & es & outer & -> & _);
          [destruct He as (f & es & -> & _); red; eauto|].
        unfold enum_of. simpl. rewrite sapp_assoc. reflexivity.
    - names 58 messageb messageb_iff is_camel_case camel_bad.
    - names 59 messageb messageb_iff is_capitalized capital_bad.
    - names 55 fieldb fieldb_iff is_lower_snake_case lower_snake_bad.
    - names 56 fieldb fieldb_iff is_lowercase lowercase_bad.
    - gen 53 fieldb fieldb_iff (fun (_ : descriptor) (_ : list element) e => contains (name_of e) "file_name")
        ltac:(idtac; match goal with |- context [contains ?a ?b] => destruct (contains a b) end)
        ltac:(intros; apply has_substring_iff).
    - gen 54 fieldb fieldb_iff (fun (_ : descriptor) (_ : list element) e => contains (name_of e) "file_path")
        ltac:(idtac; match goal with |- context [contains ?a ?b] => destruct (contains a b) end)
        ltac:(intros; apply has_substring_iff).
    - gen 57 fieldb fieldb_iff (fun (_ : descriptor) (_ : list element) e =>
          String.eqb (trim_right is_underscore (trim_left is_underscore (to_lower (name_of e)))) "descriptor")
        ltac:(idtac; match goal with |- context [String.eqb ?a ?b] => destruct (String.eqb a b) end)
        ltac:(intros; apply descriptor_iff).
    - names 67 oneofb oneofb_iff is_lower_snake_case lower_snake_bad.
    - names 88 serviceb serviceb_iff is_camel_case camel_bad.
    - names 89 serviceb serviceb_iff is_capitalized capital_bad.
    - gen 87 serviceb serviceb_iff (fun (_ : descriptor) (_ : list element) e => negb (has_suffix (name_of e) "API"))
        ltac:(idtac; match goal with |- context [has_suffix ?a "API"] => destruct (has_suffix a "API") end)
        ltac:(intros; apply negb_iff, ends_with_iff).
    - names 77 rpcb rpcb_iff is_camel_case camel_bad.
    - names 78 rpcb rpcb_iff is_capitalized capital_bad.
  Qed.
End Tables.
