(** Comment rules, other rules about elements, and suppression. *)
From Verif Require Import GoStrFacts GoMapFacts Strs_Proofs Protostrs_Proofs.
From Verif Require Export Lint_RuleProofs.

Lemma sentence_iff file ctx e : well_formed file -> located file ctx e ->
  (forall c l, comment_of e = Some c -> In l (c_lines c) -> all_chars (fun x => nat_of_ascii x < 128) l) ->
  has_complete_sentence_comment (comment_of e) = true <-> sentence e.
Proof.
  intros _ _ HA. unfold has_complete_sentence_comment, sentence.
  destruct (comment_of e) as [c|] eqn:Ec.
  2:{ split; [discriminate|]. intros (c & l & ls & b & x & r & E & _). discriminate. }
  unfold comment_starts_with_uppercase_letter, comment_contains_period.
  rewrite andb_true_iff, existsb_exists. specialize (HA c).
  destruct (c_lines c) as [|l ls] eqn:El.
  { split; [intros [E _]; discriminate|]. intros (c' & l & ls & b & x & r & E & E2 & _).
    injection E as <-. congruence. }
  assert (Hp : (exists x, In x (l :: ls) /\ contains x "." = true) <-> (exists x, In x (l :: ls) /\ has_substring x ".")).
  { split; intros (x & Hx & H); exists x; (split; [assumption|]); now apply has_substring_iff. }
  rewrite Hp. split.
  - intros [Hs Hd]. destruct (trim_space l) as [|x r] eqn:Et; [discriminate|].
    destruct (trim_space_char l x r Et) as (blanks & r' & E & Hb & _).
    exists c, l, ls, blanks, x, r'. repeat split; auto.
    + rewrite ascii_upper in Hs; [now apply orb_true_iff|].
      apply (HA l eq_refl (or_introl eq_refl) blanks x r' E).
    + now rewrite El.
  - intros (c' & l' & ls' & b & x & r & E & E2 & -> & Hb & Hx & Hd). injection E as <-. rewrite El in E2, Hd.
    injection E2 as E2 <-. split; [|assumption].
    assert (Hsp : is_space x = false).
    { destruct x as [b0 b1 b2 b3 b4 b5 b6 b7].
      destruct b0, b1, b2, b3, b4, b5, b6, b7; vm_compute in Hx |- *; intuition congruence. }
    assert (Et : exists r', trim_space l = String x r').
    { unfold trim_space. rewrite E2. rewrite trim_left_app by (apply (all_chars_sforall is_space (fun c => is_space c = true)); [intros; reflexivity|assumption]).
      cbn [trim_left]. rewrite Hsp. destruct (trim_right is_space (String x r)) as [|y r'] eqn:Etr.
      - destruct (trim_right_spec is_space (String x r)) as (p & Ep & Hp2). rewrite Etr in Ep. simpl in Ep. subst p.
        simpl in Hp2. rewrite Hsp in Hp2. discriminate.
      - pose proof (trim_right_first is_space (String x r) y) as F. rewrite Etr in F. specialize (F eq_refl).
        simpl in F. injection F as <-. eauto. }
    destruct Et as (r' & ->). apply orb_true_iff.
    destruct Hx as [Hx|Hx]; [left|right; assumption]. unfold latin1_is_upper. now rewrite Hx.
Qed.
Lemma sentence_bad d ctx e : well_formed (d_elements d) -> ascii_comments d -> located (d_elements d) ctx e -> takes_sentences e ->
  negb (has_complete_sentence_comment (comment_of e)) = true <-> ~ sentence e.
Proof.
  intros HWF HA Hl Hk. apply negb_iff. apply (sentence_iff (d_elements d) ctx e HWF Hl).
  intros c l Hc Hin. exact (HA ctx e c l Hl Hk Hc Hin).
Qed.
Lemma golang_bad e : negb (has_golang_style_comment (comment_of e) (name_of e)) = true <-> ~ golang_style e.
Proof. apply negb_iff, golang_iff. Qed.

Ltac comments n kindb kind_iff :=
  gen n kindb kind_iff (fun (_ : descriptor) (_ : list element) e => negb (has_golang_style_comment (comment_of e) (name_of e)))
    ltac:(idtac; cbv beta iota zeta delta [comment_of];
          match goal with |- context [has_golang_style_comment ?a ?b] => destruct (has_golang_style_comment a b) end;
          try match goal with x : bool |- _ => destruct x end)
    ltac:(intros; apply golang_bad).
Ltac sentences n kindb kind_iff :=
  gen n kindb kind_iff (fun (_ : descriptor) (_ : list element) e => negb (has_complete_sentence_comment (comment_of e)))
    ltac:(idtac; cbv beta iota zeta delta [comment_of];
          match goal with |- context [has_complete_sentence_comment ?a] => destruct (has_complete_sentence_comment a) end;
          try match goal with x : bool |- _ => destruct x end)
    ltac:(intros d ctx e HWF HA Hloc ? ?; apply (sentence_bad d ctx e HWF HA Hloc); unfold takes_sentences; tauto).
Ltac bool_tac := match goal with |- context [if ?b then _ else _] => destruct b end.

Lemma in_if_ b r (x : raw) : In r (if_ b [x]) <-> b = true /\ r = x.
Proof. destruct b; simpl; intuition congruence. Qed.
Lemma orb_iff a b (P Q : Prop) : (a = true <-> P) -> (b = true <-> Q) -> (a || b = true <-> P \/ Q).
Proof. rewrite orb_true_iff. tauto. Qed.
Lemma andb_iff a b (P Q : Prop) : (a = true <-> P) -> (b = true <-> Q) -> (a && b = true <-> P /\ Q).
Proof. rewrite andb_true_iff. tauto. Qed.

Section Tables2.
  Variables (ord : order) (sing : string -> string).

  Theorem golang_comment_rules_exact id V : In (id, V) golang_comment_rules -> Reports_exactly ord sing anything id V.
  Proof.
    intros H. unfold golang_comment_rules in H.
    repeat (destruct H as [E|H]; [injection E as <- <-|]); [..|contradiction].
    - comments 6 enum_valueb enum_valueb_iff.
    - comments 12 enumb enumb_iff.
    - comments 48 fieldb fieldb_iff.
    - comments 60 messageb messageb_iff.
    - comments 74 rpcb rpcb_iff.
    - comments 85 serviceb serviceb_iff.
    - eapply (visiting_core ord sing _ _ _ everywhere); [linter 0|reflexivity|intros; reflexivity|].
      intros d ctx e file p HWF _ Hloc. unfold Breaks_anywhere. split.
      + intros (_ & r & Hr & _ & Hp). destruct (all_comments e) as [pos cs] eqn:E.
        apply in_flat_map in Hr as (c & Hc & Hr). destruct c as [c|]; [|contradiction].
        apply in_if_ in Hr as [Hst ->]. apply at_place_failure in Hp as [Ef ->].
        assert (Hpos : pos = position_of e) by (destruct e; simpl in *; congruence).
        split; [assumption|]. split; [exact I|]. split; [|assumption].
        exists c. split; [|assumption]. destruct e; simpl in E; injection E as _ <-; simpl in Hc; intuition.
      + intros (Ef & _ & (c & Hc & Hst) & ->). split; [eapply everywhere_entered; eassumption|].
        destruct (all_comments e) as [pos cs] eqn:E.
        assert (Hpos : pos = position_of e) by (destruct e; simpl in *; congruence).
        eexists. split.
        * apply in_flat_map. exists (Some c). split.
          -- destruct e; simpl in E; injection E as _ <-; simpl in Hc |- *; intuition discriminate.
          -- rewrite Hst. simpl. left. reflexivity.
        * split; [reflexivity|]. apply at_place_failure. auto.
    - eapply (visiting_core ord sing _ _ _ everywhere); [linter 1|reflexivity|intros; reflexivity|].
      intros d ctx e file p HWF _ Hloc. split.
      + intros (_ & r & Hr & _ & Hp). destruct (inline_comment e) as [[t [c|]]|] eqn:E; try contradiction.
        destruct Hr as [<-|[]]. apply at_place_failure in Hp as [Ef ->]. split; [assumption|].
        exists c. split; [|reflexivity]. destruct e; simpl in E; try discriminate; try (injection E as _ E; exact E).
        destruct k; injection E as _ E; exact E.
      + intros (Ef & c & Hc & ->). split; [eapply everywhere_entered; eassumption|].
        assert (E : exists t, inline_comment e = Some (t, Some c)).
        { destruct e; simpl in Hc |- *; try discriminate; try (rewrite Hc; eauto). destruct k; eauto. }
        destruct E as (t & ->). eexists. split; [left; reflexivity|]. split; [reflexivity|]. now apply at_place_failure.
  Qed.
  Theorem sentence_comment_rules_exact id V : In (id, V) sentence_comment_rules -> Reports_exactly ord sing ascii_comments id V.
  Proof.
    intros H. unfold sentence_comment_rules in H.
    repeat (destruct H as [E|H]; [injection E as <- <-|]); [..|contradiction].
    - sentences 7 enum_valueb enum_valueb_iff.
    - sentences 13 enumb enumb_iff.
    - sentences 49 fieldb fieldb_iff.
    - sentences 75 rpcb rpcb_iff.
    - sentences 86 serviceb serviceb_iff.
  Qed.

  (** ** Other elements *)
  Definition typed (e : element) (t : string) : bool := String.eqb (type_of e) t.
  Ltac plain n badb last_tac :=
    gen n plain_fieldb plain_fieldb_iff badb ltac:(idtac; try match goal with k : field_kind |- _ => destruct k end; try bool_tac) last_tac.
  Lemma alias_ctx d ctx e h es outer : well_formed (d_elements d) -> located (d_elements d) ctx e -> outside_groups ctx ->
    ctx = EEnum h es :: outer -> Forall (fun x => entered [KMessage; KEnum] x = true) ctx.
  Proof.
    intros HWF Hloc HO ->. constructor; [reflexivity|].
    pose proof (located_tail _ _ _ _ Hloc) as Hl. pose proof (outside_tail _ _ HO) as HO'.
    apply (ctx_plain _ d outer (EEnum h es)); auto. left. red. eauto.
  Qed.
  Lemma wkt_iff i : (exists w, In w wkt_filenames /\ has_suffix (im_filename i) w && negb (String.eqb (im_filename i) w) = true)
    <-> (exists w, In w well_known_files /\ ends_with (im_filename i) w /\ im_filename i <> w).
  Proof.
    change well_known_files with wkt_filenames.
    split; intros (w & Hw & H); exists w; (split; [assumption|]); revert H; apply andb_iff;
      first [apply ends_with_iff | apply seqb_not | idtac].
  Qed.

  Theorem element_rules_exact id V : reorders ord -> In (id, V) element_rules -> Reports_exactly ord sing anything id V.
  Proof.
    intros Hord H. unfold element_rules in H.
    repeat (destruct H as [E|H]; [injection E as <- <-|]); [..|contradiction].
    - eapply (visiting_core ord sing _ _ _ [KMessage; KEnum]); [linter 14|reflexivity|intros; reflexivity|].
      intros d ctx e file p HWF _ Hloc. unfold Breaks. split.
      + intros (HF & r & Hr & _ & Hp). destruct e; try contradiction. destruct ctx as [|x outer]; [contradiction|].
        destruct x; try contradiction. apply in_if_ in Hr as [Hn ->]. apply at_place_failure in Hp as [Ef ->].
        split; [assumption|]. split; [eapply entered_no_group; [|exact HF]; reflexivity|].
        split; [red; eauto|]. split; [|reflexivity]. split; [now apply String.eqb_eq|eauto].
      + intros (Ef & HO & (o & ->) & (Hn & h & es & outer & ->) & ->). simpl in Hn.
        split; [eapply alias_ctx; try eassumption; reflexivity|].
        eexists. split; [apply in_if_; split; [now apply String.eqb_eq|reflexivity]|].
        split; [reflexivity|]. now apply at_place_failure.
    - gen 15 reservedb reservedb_iff (fun (_ : descriptor) (_ : list element) (_ : element) => true) ltac:(idtac) ltac:(intros; tauto).
    - eapply (visiting_core ord sing _ _ _ [KMessage; KOneof]); [linter 51|reflexivity|intros; reflexivity|].
      intros d ctx e file p HWF _ Hloc. unfold Breaks. split.
      + intros (HF & r & Hr & _ & Hp). destruct e; try contradiction.
        apply in_flat_map in Hr as (o & Ho & Hr). apply in_if_ in Hr as [Hn ->]. apply at_place_failure in Hp as [Ef ->].
        split; [assumption|]. split; [eapply entered_no_group; [|exact HF]; reflexivity|].
        split; [red; eauto|]. split; [|reflexivity]. exists k, f, o. repeat split; auto. now apply String.eqb_eq.
      + intros (Ef & HO & He & (k & f & o & -> & Ho & Hn) & ->).
        split; [apply (ctx_field _ d ctx (EField k f)); auto|].
        eexists. split; [apply in_flat_map; exists o; split; [assumption|]; apply in_if_; split; [now apply String.eqb_eq|reflexivity]|].
        split; [reflexivity|]. now apply at_place_failure.
    - plain 47 (fun (_ : descriptor) (_ : list element) e => contains (name_of e) "duration" && negb (String.eqb (type_of e) "google.protobuf.Duration"))
        ltac:(intros; apply andb_iff; [apply has_substring_iff|apply seqb_not]).
    - plain 52 (fun (_ : descriptor) (_ : list element) e => contains (name_of e) "time" && negb (String.eqb (type_of e) "google.protobuf.Timestamp"))
        ltac:(intros; apply andb_iff; [apply has_substring_iff|apply seqb_not]).
    - plain 94 (fun (_ : descriptor) (_ : list element) e => String.eqb (type_of e) "google.protobuf.Duration"
        && negb (String.eqb (name_of e) "duration" || has_suffix (name_of e) "_duration"))
        ltac:(intros; apply andb_iff; [apply seqb_iff|]; rewrite negb_orb; apply andb_iff; [apply seqb_not|apply negb_iff, ends_with_iff]).
    - plain 95 (fun (_ : descriptor) (_ : list element) e => String.eqb (type_of e) "google.protobuf.Timestamp"
        && negb (String.eqb (name_of e) "time" || has_suffix (name_of e) "_time"))
        ltac:(intros; apply andb_iff; [apply seqb_iff|]; rewrite negb_orb; apply andb_iff; [apply seqb_not|apply negb_iff, ends_with_iff]).
    - gen 76 rpcb rpcb_iff (fun (_ : descriptor) (_ : list element) e => match e with ERPC r _ => r_streams_request r || r_streams_returns r | _ => false end)
        ltac:(idtac; bool_tac) ltac:(intros d ctx e _ _ _ _ (r & es & ->)).
      rewrite orb_true_iff. split; [intros H; exists r, es; auto|intros (r' & es' & E & H)].
      injection E as <- <-. assumption.
    - gen 44 importb importb_iff (fun (_ : descriptor) (_ : list element) e => match e with EImport i => has_suffix (im_filename i) "gogo.proto" | _ => false end)
        ltac:(idtac; bool_tac) ltac:(intros d ctx e _ _ _ _ (i & ->)).
      rewrite ends_with_iff. split; [intros H; exists i; auto|intros (i' & E & H)]. injection E as <-. assumption.
    - gen 45 importb importb_iff (fun (_ : descriptor) (_ : list element) e => match e with EImport i => String.eqb (im_kind i) "public" | _ => false end)
        ltac:(idtac; bool_tac) ltac:(intros d ctx e _ _ _ _ (i & ->)).
      rewrite seqb_iff. split; [intros H; exists i; auto|intros (i' & E & H)]. injection E as <-. assumption.
    - gen 46 importb importb_iff (fun (_ : descriptor) (_ : list element) e => match e with EImport i => String.eqb (im_kind i) "weak" | _ => false end)
        ltac:(idtac; bool_tac) ltac:(intros d ctx e _ _ _ _ (i & ->)).
      rewrite seqb_iff. split; [intros H; exists i; auto|intros (i' & E & H)]. injection E as <-. assumption.
    - eapply (visiting_core ord sing _ _ _ []); [linter 93|reflexivity|intros; reflexivity|].
      intros d ctx e file p HWF _ Hloc. unfold Breaks. split.
      + intros (HF & r & Hr & _ & Hp). destruct e; try contradiction.
        apply in_flat_map in Hr as (w & Hw & Hr). apply in_if_ in Hr as [Hn ->]. apply at_place_failure in Hp as [Ef ->].
        split; [assumption|]. split; [eapply entered_no_group; [|exact HF]; reflexivity|].
        split; [red; eauto|]. split; [|reflexivity]. exists i. split; [reflexivity|].
        apply wkt_iff. exists w. split; [|assumption].
        eapply Permutation_in; [apply Permutation_sym, Hord|exact Hw].
      + intros (Ef & HO & He & (i & -> & Hw) & ->).
        split; [eapply ctx_top; eauto|]. apply wkt_iff in Hw as (w & Hw & Hb).
        eexists. split; [apply in_flat_map; exists w; split; [|apply in_if_; split; [exact Hb|reflexivity]]|].
        * eapply Permutation_in; [apply Hord|exact Hw].
        * split; [reflexivity|]. now apply at_place_failure.
  Qed.

  (** ** Suppression *)
  Lemma out_scope ks ctx : into ks KGroup = false -> Forall (fun x => entered ks x = true) ctx -> outside_groups ctx.
  Proof. apply entered_no_group. Qed.
  Lemma names_hook_exact word help id l : In l (all_linters ord sing) -> ln_id l = id -> ln_annotation l = "naming" ->
    (forall ds, ln_check l ds = check_names word help ds) ->
    Reports_exactly ord sing anything id (outlaws word).
  Proof.
    intros Hl Hid Ha Hck.
    pose (kind := fun e => match e with EComment _ | ESyntax _ | EImport _ | EExtensions _ => False | _ => True end).
    assert (A : Reports_exactly ord sing anything id (fun d ctx e p => True /\ kind e /\
      unless_silenced "naming" (fun _ _ e => exists n, has_name e n /\ has_substring (to_lower n) word) d ctx e /\ p = position_of e)).
    { eapply (suppressable_rule ord sing l id "naming" everywhere (fun _ => True) kind); auto.
      - discriminate.
      - exact Hck.
      - intros d ctx e r Hr. cbv beta in Hr.
        destruct e; cbn -[if_ add_suppressable] in Hr; try contradiction;
          try (rewrite app_nil_r in Hr; apply in_if_ in Hr as [_ ->]; eauto).
        apply in_flat_map in Hr as (n & _ & Hr). apply in_if_ in Hr as [_ ->]. eauto.
      - intros d ctx e. cbv beta. split.
        + intros (r & Hr). destruct e; cbn -[if_ add_suppressable] in Hr; try contradiction;
            try (rewrite app_nil_r in Hr; apply in_if_ in Hr as [Hc _]; split; [exact I|]; eexists; split; [reflexivity|]; now apply has_substring_iff).
          apply in_flat_map in Hr as (n & Hn & Hr). apply in_if_ in Hr as [Hc _].
          split; [exact I|]. exists n. split; [exact Hn|]. now apply has_substring_iff.
        + intros (Hk & n & Hn & Hs). apply has_substring_iff in Hs.
          destruct e; try contradiction; simpl in Hn; cbn -[if_ add_suppressable];
            try (subst n; rewrite Hs; eexists; rewrite app_nil_r; apply in_if_; split; reflexivity).
          eexists. apply in_flat_map. exists n. split; [exact Hn|]. rewrite Hs. left. reflexivity.
      - intros d ctx e _ Hloc _ _. eapply everywhere_entered; exact Hloc. }
    destruct A as (l' & Hl' & Hid' & A). exists l'. split; [assumption|]. split; [assumption|].
    intros ds Hds. destruct (A ds Hds) as (fs & E & Hi & A2). exists fs. split; [assumption|]. split; [assumption|].
    intros file p. rewrite A2. unfold outlaws, Breaks_anywhere. split.
    - intros (d & ctx & e & H1 & H2 & H3 & _ & H4 & H5 & H6). exists d, ctx, e. auto 10.
    - intros (d & ctx & e & H1 & H2 & H3 & _ & H4 & H5). exists d, ctx, e. repeat split; auto.
      + destruct H4 as [(n & Hn & _) _]. destruct e; simpl in Hn; try contradiction; exact I.
      + apply H4.
      + apply H4.
  Qed.
  Theorem suppressable_rules_exact id V : In (id, V) (suppressable_rules sing) -> Reports_exactly ord sing anything id V.
  Proof.
    intros H. unfold suppressable_rules in H.
    repeat (destruct H as [E|H]; [injection E as <- <-|]); [..|contradiction].
    - eapply (suppressable_rule ord sing _ _ "floats" [KMessage; KOneof] outside_groups is_field);
        [linter 50|reflexivity|reflexivity|discriminate|intros; reflexivity|..].
      + intros d ctx e r Hr. cbv beta in Hr. destruct e; try contradiction. apply in_if_ in Hr as [_ ->]. eauto.
      + intros d ctx e. cbv beta. split.
        * intros (r & Hr). destruct e; try contradiction. apply in_if_ in Hr as [Hc _]. split; [red; eauto|]. now apply String.eqb_eq.
        * intros ((k & f & ->) & E). simpl in E. rewrite E. eexists. left. reflexivity.
      + intros ctx. now apply out_scope.
      + intros d ctx e HWF Hloc HO He. now apply (ctx_field _ d ctx e).
    - eapply names_hook_exact; [linter 64|reflexivity..|intros; reflexivity].
    - eapply names_hook_exact; [linter 65|reflexivity..|intros; reflexivity].
    - eapply names_hook_exact; [linter 66|reflexivity..|intros; reflexivity].
    - eapply (suppressable_rule ord sing _ _ "keywords" [] outside_groups is_package);
        [linter 72|reflexivity|reflexivity|discriminate|intros; reflexivity|..].
      + intros d ctx e r Hr. cbv beta in Hr. destruct e; try contradiction.
        apply in_flat_map in Hr as (s & _ & Hr). apply in_if_ in Hr as [_ ->]. eauto.
      + intros d ctx e. cbv beta. split.
        * intros (r & Hr). destruct e; try contradiction. apply in_flat_map in Hr as (s & Hs & Hr).
          apply in_if_ in Hr as [Hc _]. split; [red; eauto|]. exists s. split; [exact Hs|]. now apply mem_In in Hc.
        * intros ((k & ->) & (s & Hs & Hk)). eexists. apply in_flat_map. exists s. split; [exact Hs|].
          apply in_if_. split; [now apply mem_In|reflexivity].
      + intros ctx. now apply out_scope.
      + intros d ctx e HWF Hloc HO (k & ->). eapply ctx_top; eauto.
    - eapply (suppressable_rule ord sing _ _ "plurals" [] outside_groups is_service);
        [linter 91|reflexivity|reflexivity|discriminate|intros; reflexivity|..].
      + intros d ctx e r Hr. cbv beta in Hr. destruct e; try contradiction.
        apply in_flat_map in Hr as (s & _ & Hr). apply in_if_ in Hr as [_ ->]. eauto.
      + assert (P : forall w, negb (String.eqb (sing (to_lower w)) (to_lower w)) && negb (is_allowed_service_name_plural w) = true
                      <-> plural sing w).
        { intros w. unfold plural, is_allowed_service_name_plural. rewrite negb_orb.
          apply andb_iff; [apply seqb_not|]. apply andb_iff; apply seqb_not. }
        intros d ctx e. cbv beta zeta. split.
        * intros (r & Hr). destruct e; try contradiction. apply in_flat_map in Hr as (s & Hs & Hr).
          apply in_if_ in Hr as [Hc _]. split; [red; eauto|]. exists s. split; [exact Hs|]. now apply P.
        * intros ((h & es & ->) & (s & Hs & Hk)). eexists. apply in_flat_map. exists s. split; [exact Hs|].
          apply in_if_. split; [now apply P|reflexivity].
      + intros ctx. now apply out_scope.
      + intros d ctx e HWF Hloc HO (h & es & ->). eapply ctx_top; eauto.
  Qed.

  Definition http_hook (d : descriptor) (ctx : list element) (e : element) : list raw :=
    match e, ctx with
    | EOption o, ERPC r _ :: _ =>
        if_ (has_prefix (o_name o) "(google.api.http)" || has_prefix (o_name o) "(.google.api.http)")
          [add_suppressable d (r_comment r) (o_pos o)
             ("Option " +++ q "google.api.http" +++ " is not allowed. This option signifies HTTP/REST usage, use the RPC framework instead.")]
    | _, _ => []
    end.
  Theorem http_rule_exact : Reports_exactly ord sing no_stray_http_option "RPC_OPTIONS_NO_GOOGLE_API_HTTP" http_rule.
  Proof.
    eapply (visiting_core ord sing _ _ _ [KService; KRPC] http_hook); [linter 79|reflexivity| |].
    - intros ds Hds. apply per_file_visiting. intros d [ctx e] Hd Hv. cbv beta iota zeta delta [fst snd]. destruct e; try reflexivity.
      apply visited_iff in Hv as [Hloc HF]. destruct (Hds d Hd) as [HWF Ha].
      destruct (has_prefix (o_name o) "(.google.api.http)") eqn:Ep.
      + destruct (Ha ctx (EOption o) Hloc) as [Hne Hns]; [red; eauto|now apply starts_with_iff|].
        destruct ctx as [|x outer]; [congruence|]. inversion HF; subst.
        destruct x; try discriminate.
        * exfalso. pose proof (located_tail _ _ _ _ Hloc) as Hl. apply (top_ctx _ HWF) in Hl; [|reflexivity].
          subst outer. now apply (Hns h es).
        * unfold http_hook, if_. rewrite Ep, !orb_true_r. cbv beta iota. reflexivity.
      + destruct ctx as [|x outer]; [reflexivity|]. destruct x; try reflexivity.
        unfold http_hook, if_. rewrite Ep, !orb_false_r. cbn [andb].
        destruct (has_prefix (o_name o) "(google.api.http)"); reflexivity.
    - intros d ctx e file p HWF _ Hloc. unfold http_rule. split.
      + intros (HF & r & Hr & Hsup & Hp). unfold http_hook in Hr. destruct e; try contradiction.
        destruct ctx as [|x outer]; [contradiction|]. destruct x; try contradiction.
        apply in_if_ in Hr as [Hn ->].
        apply (is_suppressed_false _ "google-api-http") in Hsup; [|reflexivity|discriminate].
        apply at_place_failure in Hp as [Ef ->]. split; [assumption|]. exists r0, es, outer.
        split; [reflexivity|]. split; [red; eauto|]. split; [|auto].
        revert Hn. apply orb_iff; apply starts_with_iff.
      + intros (Ef & r & es & outer & -> & (o & ->) & Hn & Hs & ->). split.
        * pose proof (located_tail _ _ _ _ Hloc) as Hl. constructor; [reflexivity|].
          apply (ctx_rpc _ d outer (ERPC r es)); auto. red. eauto.
        * eexists. split; [apply in_if_; split; [|reflexivity]|].
          -- revert Hn. apply orb_iff; apply starts_with_iff.
          -- split; [|now apply at_place_failure].
             apply (is_suppressed_false _ "google-api-http"); [reflexivity|discriminate|assumption].
  Qed.
End Tables2.
