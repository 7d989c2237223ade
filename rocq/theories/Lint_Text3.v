(** Rule by rule, continued: the texts that are computed, and the rules that look at a whole file. *)
From Verif Require Import GoStrFacts GoMapFacts Strs_Proofs Protostrs_Proofs.
From Verif Require Import Lint_RuleFacts Lint_RuleProofs Lint_RuleProofs2 Lint_FileProofs Lint_MapProofs LintRun_Proofs.
From Verif Require Export Lint_Text2.

(** ** Replacing *)
Lemma replace_all_skip old new a b : replace_all old new (String.length a) (a +++ b) = replace_all old new 0 b.
Proof. induction a as [|c a IH]; [reflexivity|]. exact IH. Qed.
Lemma replaced_cons old new c s t : has_prefix (String c s) old = false -> replaced old new s t ->
  replaced old new (String c s) (String c t).
Proof.
  intros Hp H. inversion H as [s' Hn E1 E2|a b t' Hf Hr E1 E2]; subst.
  - apply replaced_none. intros ([|c' a] & b & E).
    + assert (K : has_prefix (String c t) old = true) by (apply has_prefix_spec; exists b; exact E). congruence.
    + simpl in E. injection E as <- E. apply Hn. exists a, b. exact E.
  - apply (replaced_one old new (String c a) b t'); [|assumption]. intros [|c' x] y E.
    + exfalso. assert (K : has_prefix (String c (a +++ old +++ b)) old = true); [|congruence].
      apply has_prefix_spec. exists (y +++ b). change (String c (a +++ old +++ b)) with (String c a +++ (old +++ b)).
      rewrite <- (sapp_assoc (String c a) old b), E. exact (sapp_assoc old y b).
    + simpl in E. injection E as <- E. exact (Hf x y E).
Qed.
Lemma replace_all_replaced old new : old <> EmptyString -> forall s, replaced old new s (replace_all old new 0 s).
Proof.
  intros Ho. enough (H : forall n s, String.length s <= n -> replaced old new s (replace_all old new 0 s)) by (intros s; exact (H _ s (le_n _))).
  induction n as [|n IH]; intros s Hn.
  - destruct s; [|simpl in Hn; lia]. apply replaced_none. intros ([|] & b & E); [|discriminate]. destruct old; [now apply Ho|discriminate].
  - destruct s as [|c s]; [apply replaced_none; intros ([|] & b & E); [|discriminate]; destruct old; [now apply Ho|discriminate]|].
    cbn [replace_all]. destruct (has_prefix (String c s) old) eqn:Hp.
    + apply has_prefix_spec in Hp as [b Hb]. destruct old as [|o old']; [now destruct Ho|].
      simpl in Hb. injection Hb as -> ->. cbn [String.length]. rewrite Nat.sub_succ, Nat.sub_0_r, replace_all_skip.
      apply (replaced_one (String o old') new EmptyString b).
      * intros x y E. apply (f_equal String.length) in E. rewrite !slength_app in E. simpl in E. destruct y; [reflexivity|simpl in E; lia].
      * apply IH. simpl in Hn. rewrite slength_app in Hn. lia.
    + apply replaced_cons; [assumption|]. apply IH. simpl in Hn. lia.
Qed.

(** ** Lists of values *)
Lemma strict_sorted l : Sorted.StronglySorted (fun a b => str_leb a b = true) l -> NoDup l ->
  Sorted.StronglySorted (fun a b => str_leb a b = true /\ a <> b) l.
Proof.
  induction 1 as [|a l Hs IH Hf]; intros N; [constructor|]. inversion N as [|? ? Hn N']; subst. constructor; [auto|].
  apply Forall_forall. intros x Hx. split; [now apply (proj1 (Forall_forall _ _) Hf)|]. intros ->. contradiction.
Qed.

Lemma options_first name d o r : file_options name d = o :: r -> first_option d name o.
Proof.
  intros H. apply (pick_first (pick_option name) (single_option name)) in H as (a & e & b & E & Ha & He & _).
  apply pick_option_iff in He as [-> Hn]. exists a, b. split; [assumption|]. split; [assumption|].
  intros o' Ho. specialize (Ha _ Ho). apply (proj1 (pick_option_nil name _) Ha). reflexivity.
Qed.
Lemma option_value_eq name d v : option_value name d v <->
  v = match file_options name d with [] => EmptyString | o :: _ => l_source (o_const o) end.
Proof.
  destruct (file_options name d) as [|o r] eqn:E.
  - apply options_nil in E. split; [|intros ->; right; auto].
    intros [(o & (a & b & Ed & Hn & _) & _)|[_ ->]]; [|reflexivity]. exfalso. apply E. exists o. split; [|assumption]. rewrite Ed. apply in_elt.
  - pose proof (options_first _ _ _ _ E) as Hf. split; [|intros ->; left; eauto]. intros [(o' & Hf' & ->)|[Hn _]].
    + f_equal. f_equal. destruct Hf' as (a & b & Ed & Hn & Ha).
      assert (E' : file_options name d = o' :: flat_map (pick_option name) b).
      { apply (pick_first (pick_option name) (single_option name)). exists a, (EOption o'), b. split; [assumption|]. split.
        - intros e He. apply pick_option_nil. intros o'' ->. now apply Ha.
        - split; [|reflexivity]. now apply pick_option_iff. }
      rewrite E in E'. now injection E'.
    + apply options_nil in Hn. congruence.
Qed.

Section T.
  Variables (ord : order) (sing : string -> string).
  Hypothesis Hord : reorders ord.

  Lemma sorted_listing {V} k (l : list (string * V)) (P : string -> Prop) : (forall v, In v (map fst l) <-> P v) ->
    listing P (sort_strings (ord k _ (map fst (build l)))).
  Proof.
    intros H. split.
    - apply strict_sorted; [apply sort_strings_sorted|].
      apply (Permutation_NoDup (l := map fst (build l))); [|apply build_NoDup].
      etransitivity; [apply Hord|apply sort_strings_perm].
    - intros v. rewrite sort_strings_In, (ord_in ord Hord), <- H. split.
      + intros Hv. apply in_map_iff in Hv as ([x y] & <- & Hx). apply build_sub in Hx. apply in_map_iff. eauto.
      + intros Hv. apply in_map_iff in Hv as ([x y] & <- & Hx). apply build_key in Hx as [y' Hx]. apply in_map_iff. exists (x, y'). auto.
  Qed.

  Lemma renamed_said n old new l : In l (all_linters ord sing) -> ln_id l = n -> ~ In n (map fst annotations) -> old <> EmptyString ->
    (forall ds, ln_check l ds = fields_of (fun d f => if_ (contains (fd_name f) old)
       [add_failure d (fd_pos f) ("Field name " +++ q (fd_name f) +++ " should be " +++ q (replace_all old new 0 (fd_name f)) +++ ".")]) ds) ->
    Says ord sing n (renamed_text old new).
  Proof.
    intros Hl Hid Ha Ho Hck. eapply visiting_says; [exact Hl|exact Hid|exact Ha|exact Hck|].
    intros ds d ctx e r W Hd Hloc HF Hr. cbv beta in Hr. destruct e; try contradiction. in_raw Hr.
    do 2 eexists. split; [reflexivity|]. exists ctx, (EField k f), (replace_all old new 0 (fd_name f)).
    split; [exact Hloc|]. split; [red; eauto|]. split; [reflexivity|]. split; [|reflexivity]. now apply replace_all_replaced.
  Qed.
  Lemma filename_said : Says ord sing "MESSAGE_FIELD_NAMES_FILENAME" (renamed_text "file_name" "filename").
  Proof. eapply renamed_said; [linter 53|reflexivity|not_annotated|discriminate|intros; reflexivity]. Qed.
  Lemma filepath_said : Says ord sing "MESSAGE_FIELD_NAMES_FILEPATH" (renamed_text "file_path" "filepath").
  Proof. eapply renamed_said; [linter 54|reflexivity|not_annotated|discriminate|intros; reflexivity]. Qed.

  (** ** Files *)
  Ltac whole n := eapply file_ok_says; [linter n|reflexivity|not_annotated|intros; reflexivity|];
    let Hr := fresh "Hr" in intros ds d r W Hd Hr; cbv beta zeta in Hr;
    try match type of Hr with In _ (match ?l with _ => _ end) => destruct l; [|contradiction] end;
    in_raw Hr; do 2 eexists; (split; [reflexivity|]); split; reflexivity.
  Lemma header_said : Says ord sing "FILE_HEADER" (of_file "File is expected to begin with the file header specified from the configuration file.").
  Proof. whole 16. Qed.
  Lemma file_case_said : Says ord sing "FILE_NAMES_LOWER_SNAKE_CASE" (of_file "File name should be lower_snake_case.proto.").
  Proof. whole 17. Qed.
  Lemma equal_said l id name (expected : descriptor -> string -> string) :
    In l (all_linters ord sing) -> ln_id l = id -> ~ In id (map fst annotations) ->
    ln_check l = check_file_options_equal name (fun d p => expected d (pk_name p)) ->
    Says ord sing id (equal_text name expected).
  Proof.
    intros Hl Hid Ha Hck. eapply (file_says ord sing l id); [exact Hl|exact Hid|exact Ha|intros ds; rewrite Hck; reflexivity|].
    intros ds d rs r W Hd E Hr. cbv beta in E.
    destruct (last_opt (packages d)) as [k|] eqn:Ek; [|injection E as <-; contradiction].
    destruct (last_opt (file_options name d)) as [o|] eqn:Eo; [|injection E as <-; contradiction].
    destruct (is_empty (d_filename d)); [discriminate|]. injection E as <-. in_raw Hr.
    apply packages_last in Ek. apply options_last in Eo. do 2 eexists. split; [reflexivity|]. exists o, k.
    repeat (split; [assumption||reflexivity|]). destruct Eo as (a & b & _ & -> & _). reflexivity.
  Qed.
  Lemma require_said l id name : In l (all_linters ord sing) -> ln_id l = id -> ~ In id (map fst annotations) ->
    ln_check l = check_file_options_require name -> Says ord sing id (of_file ("File option " +++ q name +++ " is required.")).
  Proof.
    intros Hl Hid Ha Hck. eapply (file_ok_says ord sing l id); [exact Hl|exact Hid|exact Ha|intros ds; rewrite Hck; reflexivity|].
    intros ds d r W Hd Hr. cbv beta in Hr. destruct (file_options name d); [|contradiction]. in_raw Hr.
    do 2 eexists. split; [reflexivity|]. split; reflexivity.
  Qed.
  Lemma unset_said l id name : In l (all_linters ord sing) -> ln_id l = id -> ~ In id (map fst annotations) ->
    ln_check l = check_file_options_unset name -> Says ord sing id (unset_text name).
  Proof.
    intros Hl Hid Ha Hck. eapply (file_ok_says ord sing l id); [exact Hl|exact Hid|exact Ha|intros ds; rewrite Hck; reflexivity|].
    intros ds d r W Hd Hr. cbv beta in Hr. destruct (last_opt (file_options name d)) as [o|] eqn:Eo; [|contradiction]. in_raw Hr.
    apply options_last in Eo. do 2 eexists. split; [reflexivity|]. split; [exists o; auto|reflexivity].
  Qed.
  Lemma long_form_said : Says ord sing "FILE_OPTIONS_GO_PACKAGE_NOT_LONG_FORM" long_form_text.
  Proof.
    eapply file_ok_says; [linter 28|reflexivity|not_annotated|intros; reflexivity|].
    intros ds d r W Hd Hr. cbv beta zeta in Hr. destruct (last_opt (file_options "go_package" d)) as [o|] eqn:Eo; [|contradiction].
    in_raw Hr. apply options_last in Eo. do 2 eexists. split; [reflexivity|]. exists o. split; [assumption|]. split; reflexivity.
  Qed.
  Lemma starts_app a b : starts_with (a +++ b) a.
  Proof. exists b. reflexivity. Qed.
  Lemma duplicate_packages_say d r : In r (duplicate_packages d) -> exists p t, r = add_failure d p t
    /\ extra_package d p /\ starts_with t "multiple package declarations, first was ".
  Proof.
    intros H. apply in_map_iff in H as (k & <- & Hk). do 2 eexists. split; [reflexivity|]. split.
    - apply packages_tl. eauto.
    - exact (starts_app "multiple package declarations, first was " "...").
  Qed.
  Lemma package_says l id (S : saying) check : In l (all_linters ord sing) -> ln_id l = id -> ~ In id (map fst annotations) ->
    (forall ds, ln_check l ds = per_file_ok (fun d => duplicate_packages d ++ check d) ds) ->
    (forall ds d r, In r (check d) -> exists p t, r = add_failure d p t /\ S ds d p t) ->
    Says ord sing id (either extra_package_text S).
  Proof.
    intros Hl Hid Ha Hck H. eapply (file_ok_says ord sing l id); [exact Hl|exact Hid|exact Ha|exact Hck|].
    intros ds d r W Hd Hr. cbv beta in Hr. apply in_app_or in Hr as [Hr|Hr].
    - destruct (duplicate_packages_say d r Hr) as (p & t & E & HS). exists p, t. split; [assumption|]. left. exact HS.
    - destruct (H ds d r Hr) as (p & t & E & HS). exists p, t. split; [assumption|]. right. exact HS.
  Qed.
  Lemma declared_said : Says ord sing "PACKAGE_IS_DECLARED" (either extra_package_text undeclared).
  Proof.
    eapply package_says; [linter 68|reflexivity|not_annotated|intros; reflexivity|].
    intros ds d r Hr. cbv beta in Hr. destruct (packages d); [|contradiction]. in_raw Hr. do 2 eexists. split; [reflexivity|]. split; reflexivity.
  Qed.
  Ltac package n := eapply package_says; [linter n|reflexivity|not_annotated|intros; reflexivity|];
    let Hr := fresh "Hr" in intros ds d r Hr; cbv beta in Hr;
    let E := fresh "E" in destruct (packages d) as [|k ks] eqn:E; [contradiction|]; apply packages_first in E;
    in_raw Hr; do 2 eexists; (split; [reflexivity|]); exists k; (split; [exact E|]); split; reflexivity.
  Lemma lower_said : Says ord sing "PACKAGE_LOWER_CASE" (either extra_package_text (package_text (fun n =>
     "Packages should only contain characters in the range a-z0-9 and periods but was " +++ quote n +++ "."))).
  Proof. package 69. Qed.
  Lemma lower_snake_said : Says ord sing "PACKAGE_LOWER_SNAKE_CASE" (either extra_package_text (package_text (fun n =>
     "Package should be lower_snake.case but was " +++ quote n +++ "."))).
  Proof. package 70. Qed.
  Lemma versioned_said : Says ord sing "PACKAGE_MAJOR_BETA_VERSIONED" (either extra_package_text (either undeclared (package_text (fun n =>
     "Package should be of the form ""package.vMAJORVERSION"" or ""packagevMAJORVERSIONbetaBETAVERSION"" with versions >=1 but was " +++ quote n +++ ".")))).
  Proof.
    eapply package_says; [linter 71|reflexivity|not_annotated|intros; reflexivity|].
    intros ds d r Hr. cbv beta in Hr. destruct (packages d) as [|k ks] eqn:E.
    - in_raw Hr. do 2 eexists. split; [reflexivity|]. left. split; reflexivity.
    - apply packages_first in E. destruct (major_beta_version (pk_name k)); [contradiction|]. in_raw Hr.
      do 2 eexists. split; [reflexivity|]. right. exists k. split; [exact E|]. split; reflexivity.
  Qed.
  Lemma syntax_said : Says ord sing "SYNTAX_PROTO3" syntax_text.
  Proof.
    eapply file_ok_says; [linter 92|reflexivity|not_annotated|intros; reflexivity|].
    intros ds d r W Hd Hr. cbv beta in Hr. apply in_app_or in Hr as [Hr|Hr].
    - apply in_map_iff in Hr as (k & <- & Hk). do 2 eexists. split; [reflexivity|]. left. split.
      + apply syntaxes_tl. eauto.
      + exact (starts_app "multiple syntax declarations, first was " "...").
    - destruct (syntaxes d) as [|s ss] eqn:E.
      + apply syntaxes_nil in E. in_raw Hr. do 2 eexists. split; [reflexivity|]. right. left. auto.
      + apply syntaxes_first in E. in_raw Hr. do 2 eexists. split; [reflexivity|]. right. right. exists s. auto.
  Qed.
  Lemma same_packages_said : Says ord sing "PACKAGES_SAME_IN_DIR" (either extra_package_text same_package_text).
  Proof.
    eapply plain_says; [linter 73|reflexivity|not_annotated|]. intros ds raws r Hwf E Hr. injection E as <-.
    apply in_app_or in Hr as [Hr|Hr].
    - apply in_flat_map in Hr as (d & Hd & Hr). destruct (duplicate_packages_say d r Hr) as (p & t & E & HS).
      exists d, p, t. split; [assumption|]. split; [assumption|]. left. exact HS.
    - match type of Hr with In _ (if ?b then _ else _) => destruct b end; [|contradiction].
      apply in_map_iff in Hr as (d & <- & Hd). do 3 eexists. split; [exact Hd|]. split; [reflexivity|]. right. split; [reflexivity|].
      eexists. split; [|reflexivity]. apply sorted_listing. intros v. split.
      + intros Hv. apply in_map_iff in Hv as ([x y] & <- & Hx). apply in_flat_map in Hx as (d' & Hd' & Hx).
        destruct (packages d') as [|k ks] eqn:E; [contradiction|]. destruct Hx as [Hx|[]]. injection Hx as <- _.
        apply packages_first in E. exists d', k. auto.
      + intros (d' & k & Hd' & Hk & ->). apply first_packages in Hk as [ks Hk]. apply in_map_iff. exists (pk_name k, tt). split; [reflexivity|].
        apply in_flat_map. exists d'. split; [assumption|]. rewrite Hk. now left.
  Qed.
  Lemma same_option_said l id name : In l (all_linters ord sing) -> ln_id l = id -> ~ In id (map fst annotations) ->
    ln_check l = check_file_options_same_in_dir ord name -> Says ord sing id (same_option_text name).
  Proof.
    intros Hl Hid Ha Hck. eapply plain_says; [exact Hl|exact Hid|exact Ha|]. intros ds raws r Hwf E Hr. rewrite Hck in E. injection E as <-.
    apply in_app_or in Hr as [Hr|Hr].
    - apply in_flat_map in Hr as (d & Hd & Hr). apply in_map_iff in Hr as (o & <- & Ho). do 3 eexists. split; [exact Hd|]. split; [reflexivity|].
      left. apply (pick_tl (pick_option name) (single_option name)) in Ho as (a & e & b & e' & c & E & _ & He).
      apply pick_option_iff in He as [-> Hn]. exists o. split; [rewrite E; apply in_or_app; right; right; apply in_elt|].
      split; [assumption|]. split; [reflexivity|].
      exists "...". rewrite !sapp_assoc. reflexivity.
    - set (vs := map (fun d => (match file_options name d with [] => EmptyString | o :: _ => l_source (o_const o) end, tt)) ds) in Hr.
      assert (Hvs : forall v, In v (map fst vs) <-> exists d', In d' ds /\ option_value name d' v).
      { intros v. unfold vs. rewrite map_map. cbn [fst]. rewrite in_map_iff. split.
        - intros (d' & <- & Hd'). exists d'. split; [assumption|]. now apply option_value_eq.
        - intros (d' & Hd' & Hv). exists d'. split; [|assumption]. now apply option_value_eq in Hv. }
      match type of Hr with In _ (if ?b then _ else _) => destruct b end; [|contradiction].
      destruct (has EmptyString (build vs)) eqn:Eh; apply in_map_iff in Hr as (d & <- & Hd);
        do 3 eexists; (split; [exact Hd|]); (split; [reflexivity|]); right; (split; [reflexivity|]).
      + left. split; [|reflexivity]. apply Hvs. apply has_true in Eh as [y Hx]. apply gget_In in Hx.
        apply build_sub in Hx. apply in_map_iff. exists (EmptyString, y). auto.
      + right. split.
        * intros d' Hd' Hv. assert (K : In EmptyString (map fst vs)) by (apply Hvs; eauto).
          apply in_map_iff in K as ([x y] & E & Hx). simpl in E. subst x. apply build_key in Hx as [y' Hx].
          assert (K : has EmptyString (build vs) = true); [|congruence]. unfold has.
          destruct (gget EmptyString (build vs)) eqn:Eg; [reflexivity|]. exfalso. apply (proj1 (gget_None _ _) Eg). apply in_map_iff. exists (EmptyString, y'). auto.
        * eexists. split; [|reflexivity]. apply sorted_listing. exact Hvs.
  Qed.
  Lemma file_name_said : Says ord sing "SERVICE_NAMES_MATCH_FILE_NAME" file_name_text.
  Proof.
    eapply file_ok_says; [linter 90|reflexivity|not_annotated|intros; reflexivity|].
    intros ds d r W Hd Hr. cbv beta in Hr.
    assert (Hin : forall h, In h (services_of d) <-> exists es, In (EService h es) (d_elements d)).
    { intros h. unfold services_of. rewrite in_flat_map. split.
      - intros (e & He & Hx). destruct e; try contradiction. destruct Hx as [<-|[]]. eauto.
      - intros [es He]. exists (EService h es). split; [assumption|now left]. }
    destruct (services_of d) as [|h [|h2 hs]] eqn:E; [contradiction| |].
    - cbv zeta in Hr. in_raw Hr. destruct (proj1 (Hin h) (or_introl eq_refl)) as [es He]. do 2 eexists. split; [reflexivity|].
      exists h, es. split; [assumption|]. split; [reflexivity|]. right. split; [|reflexivity].
      intros h' es' H'. destruct (proj2 (Hin h') (ex_intro _ es' H')) as [<-|[]]. reflexivity.
    - apply in_map_iff in Hr as (h' & <- & Hh). destruct (proj1 (Hin h') Hh) as [es He]. do 2 eexists. split; [reflexivity|].
      exists h', es. split; [assumption|]. split; [reflexivity|]. left. split; [|reflexivity].
      apply (pick_first pick_service single_service) in E as (a & e1 & b & Ed & _ & H1 & E).
      apply (pick_first pick_service single_service) in E as (b1 & e2 & c & Eb & _ & H2 & _).
      apply pick_service_iff in H1 as [es1 ->]. apply pick_service_iff in H2 as [es2 ->]. subst b. eauto 10.
  Qed.
  Lemma only_said : Says ord sing "REQUEST_RESPONSE_TYPES_ONLY_IN_FILE" only_text.
  Proof.
    eapply file_ok_says; [linter 82|reflexivity|not_annotated|intros; reflexivity|].
    intros ds d r W Hd Hr. cbv beta in Hr. destruct (rpcs_of d) as [|r0 rs]; [contradiction|]. cbv zeta in Hr.
    apply in_app_or in Hr as [Hr|Hr]; apply in_map_iff in Hr as ([n h] & <- & Hx); apply (ord_in ord Hord) in Hx; cbn [snd].
    - apply build_sub in Hx. apply in_flat_map in Hx as (e & He & Hx). destruct e; try contradiction. destruct Hx as [Hx|[]].
      injection Hx as <- <-. do 2 eexists. split; [reflexivity|]. eexists. split; [exact He|]. split; [reflexivity|]. left. split; [red; eauto|reflexivity].
    - apply (deletes_In sing) in Hx as [Hx _]. apply build_sub in Hx. apply in_flat_map in Hx as (e & He & Hx). destruct e; try contradiction.
      destruct Hx as [Hx|[]]. injection Hx as <- <-. do 2 eexists. split; [reflexivity|]. eexists. split; [exact He|]. split; [reflexivity|].
      right. split; [red; eauto|reflexivity].
  Qed.
  (** ** Rules about messages by name *)
  Lemma map_says l id (S : saying) ks key hook : In l (all_linters ord sing) -> ln_id l = id -> ~ In id (map fst annotations) ->
    (forall ds, ln_check l ds = per_file_ok (fun d => flat_map (hook d) (ord (key d) _ (build (message_entries ks d)))) ds) ->
    into ks KGroup = false -> into ks KMessage = true ->
    (forall ds d ctx e r, located (d_elements d) ctx e -> is_message_or_extend e -> In r (hook d (qualified_name ctx (name_of e), e)) ->
       exists p t, r = add_failure d p t /\ S ds d p t) ->
    Says ord sing id S.
  Proof.
    intros Hl Hid Ha Hck K1 K2 H. eapply (file_ok_says ord sing l id); [exact Hl|exact Hid|exact Ha|exact Hck|].
    intros ds d r W Hd Hr. cbv beta in Hr. apply in_flat_map in Hr as ([k e] & Hk & Hr). apply (ord_in ord Hord) in Hk. apply build_sub in Hk.
    apply (message_entries_iff ks d k e K1 K2 W) in Hk as (ctx & Hloc & _ & He & ->). eauto.
  Qed.
  Lemma except_comment_said : Says ord sing "MESSAGES_HAVE_COMMENTS_EXCEPT_REQUEST_RESPONSE_TYPES" (of_name is_message (wants_comment "Message")).
  Proof.
    eapply (map_says _ _ _ [KMessage; KService] (fun d => "messageNameToMessage 1 " +++ d_filename d) (fun d km => match snd km with
        | EMessage h extend _ =>
            if_not (extend || mem (fst km) (request_response_types d) || has_golang_style_comment (h_comment h) (h_name h))
              [add_failure d (h_pos h) (needs_golang_comment "Message" (h_name h))]
        | _ => [] end)); [linter 61|reflexivity|not_annotated|intros; reflexivity|reflexivity|reflexivity|].
    intros ds d ctx e r Hloc (h & x & es & ->) Hr. cbn [fst snd] in Hr. destruct x; [contradiction|]. in_raw Hr.
    do 2 eexists. split; [reflexivity|]. exists ctx; eexists. split; [exact Hloc|]. split; [red; eauto|]. split; reflexivity.
  Qed.
  Lemma except_sentence_said : Says ord sing "MESSAGES_HAVE_SENTENCE_COMMENTS_EXCEPT_REQUEST_RESPONSE_TYPES" (of_name is_message (wants_sentence "Message")).
  Proof.
    eapply (map_says _ _ _ [KMessage; KService] (fun d => "messageNameToMessage 2 " +++ d_filename d) (fun d km => match snd km with
        | EMessage h extend _ =>
            if_not (extend || mem (fst km) (request_response_types d) || has_complete_sentence_comment (h_comment h))
              [add_failure d (h_pos h) (needs_sentence "Message" (h_name h))]
        | _ => [] end)); [linter 62|reflexivity|not_annotated|intros; reflexivity|reflexivity|reflexivity|].
    intros ds d ctx e r Hloc (h & x & es & ->) Hr. cbn [fst snd] in Hr. destruct x; [contradiction|]. in_raw Hr.
    do 2 eexists. split; [reflexivity|]. exists ctx; eexists. split; [exact Hloc|]. split; [red; eauto|]. split; reflexivity.
  Qed.
  Lemma empty_said : Says ord sing "MESSAGES_NOT_EMPTY_EXCEPT_REQUEST_RESPONSE_TYPES" (of_each is_message_or_extend (fun ctx e =>
     "Message " +++ quote (qualified_name ctx (name_of e)) +++ " should not be empty. Only request and response types are allowed to be empty.")).
  Proof.
    eapply (map_says _ _ _ [KMessage; KOneof; KService] (fun d => "messageNameToWrapper " +++ d_filename d) (fun d km => match snd km with
        | EMessage h _ es =>
            if_ (negb (mem (fst km) (request_response_types d)) && (list_sum (map field_count es) =? 0))
              [add_failure d (h_pos h) ("Message " +++ q (fst km) +++ " should not be empty. Only request and response types are allowed to be empty.")]
        | _ => [] end)); [linter 63|reflexivity|not_annotated|intros; reflexivity|reflexivity|reflexivity|].
    intros ds d ctx e r Hloc (h & x & es & ->) Hr. cbn [fst snd] in Hr. in_raw Hr.
    do 2 eexists. split; [reflexivity|]. exists ctx; eexists. split; [exact Hloc|]. split; [red; eauto|]. split; reflexivity.
  Qed.
End T.
