(** Proofs about the string helpers. *)
From Verif Require Import GoStrFacts GoPathFacts Strs_Model Strs_Spec.

(** ** Bridges between boolean and propositional character predicates *)
Lemma all_chars_cons f c s : all_chars f (String c s) <-> f c /\ all_chars f s.
Proof.
  split.
  - intros H. split; [apply (H EmptyString c s eq_refl)|].
    intros a x b E. apply (H (String c a) x b). simpl. now rewrite E.
  - intros [Hc Hs] a x b E. destruct a as [|y a]; simpl in E; injection E as <- E; [assumption|].
    now apply (Hs a x b).
Qed.
Lemma all_chars_nil f : all_chars f EmptyString.
Proof. intros a c b E. symmetry in E. apply sapp_eq_nil in E as [_ E]. discriminate. Qed.
Lemma all_chars_sforall f (P : ascii -> Prop) s :
  (forall c, f c = true <-> P c) -> sforall f s = true <-> all_chars P s.
Proof.
  intros H. induction s as [|c s IH]; simpl.
  - split; [intros _; apply all_chars_nil|reflexivity].
  - rewrite andb_true_iff, all_chars_cons, IH, H. reflexivity.
Qed.
Lemma lacks_no_char c s : lacks c s <-> no_char c s = true.
Proof.
  induction s as [|a s IH]; simpl; [easy|]. unfold no_char in *; simpl.
  rewrite andb_true_iff, negb_true_iff, Ascii.eqb_neq, IH. reflexivity.
Qed.
Lemma head_is_underscore s : head_is is_underscore s = true <-> exists r, s = "_" +++ r.
Proof.
  destruct s as [|c s]; simpl; [split; [discriminate|intros [r Hr]; discriminate]|].
  unfold is_underscore. rewrite Ascii.eqb_eq. split.
  - intros ->. now exists s.
  - intros [r Hr]. now injection Hr.
Qed.
Lemma last_is_underscore s : last_is is_underscore s = true <-> exists r, s = r +++ "_".
Proof.
  unfold last_is. rewrite head_is_underscore. split; intros [r Hr].
  - exists (srev r). rewrite <- (srev_involutive s), Hr, srev_sapp. reflexivity.
  - exists (srev r). now rewrite Hr, srev_sapp.
Qed.
Lemma snake_shape_iff letter s :
  negb (is_empty s || head_is is_underscore s || last_is is_underscore s)
  && sforall (fun c => letter c || is_digit c || is_underscore c) s = true
  <-> snake_shape letter s.
Proof.
  unfold snake_shape. rewrite andb_true_iff, negb_true_iff, !orb_false_iff.
  rewrite (all_chars_sforall _ (fun c => letter c = true \/ is_digit c = true \/ c = "_"%char)).
  2:{ intros c. rewrite !orb_true_iff. unfold is_underscore. rewrite Ascii.eqb_eq. unfold underscore. tauto. }
  rewrite is_empty_false.
  assert (head_is is_underscore s = false <-> forall r, s <> "_" +++ r) as ->.
  { rewrite <- not_true_iff_false, head_is_underscore. split.
    - intros H r Hr. apply H. now exists r.
    - intros H [r Hr]. now apply H in Hr. }
  assert (last_is is_underscore s = false <-> forall r, s <> r +++ "_") as ->.
  { rewrite <- not_true_iff_false, last_is_underscore. split.
    - intros H r Hr. apply H. now exists r.
    - intros H [r Hr]. now apply H in Hr. }
  tauto.
Qed.
Lemma is_lower_snake_shape s : is_lower_snake_case s = true <-> snake_shape is_lower s.
Proof. apply snake_shape_iff. Qed.
Lemma is_upper_snake_shape s : is_upper_snake_case s = true <-> snake_shape is_upper s.
Proof. apply snake_shape_iff. Qed.
Lemma is_camel_shape s : is_camel_case s = true <-> camel_shape s.
Proof.
  unfold is_camel_case, camel_shape. rewrite andb_true_iff, negb_true_iff, is_empty_false.
  rewrite (all_chars_sforall _ (fun c => is_letter c = true \/ is_digit c = true)); [easy|].
  intros c. apply orb_true_iff.
Qed.

(** ** Snake case *)
Lemma alnum_not_space c : is_letter c || is_digit c = true -> is_space c = false.
Proof. all_ascii c; vm_compute; congruence. Qed.
Lemma alnum_not_underscore c : is_letter c || is_digit c = true -> is_underscore c = false.
Proof. all_ascii c; vm_compute; congruence. Qed.
Lemma sforall_last f s c : sforall f s = true -> last_char s = Some c -> f c = true.
Proof.
  induction s as [|a s IH]; [discriminate|]. simpl. rewrite andb_true_iff. intros [Ha Hs] Hl.
  destruct s as [|b s]; [vm_compute in Hl; congruence|]. rewrite last_char_cons in Hl. auto.
Qed.
Lemma trim_space_no_space s : sforall (fun c => negb (is_space c)) s = true -> trim_space s = s.
Proof.
  intros H. unfold trim_space. rewrite trim_left_id.
  - apply trim_right_id. intros c Hc. apply negb_true_iff. now apply (sforall_last _ _ _ H).
  - intros c Hc. destruct s as [|a s]; [discriminate|]. simpl in *. injection Hc as <-.
    apply andb_true_iff in H as [H _]. now apply negb_true_iff.
Qed.
Lemma trim_space_camel s : is_camel_case s = true -> trim_space s = s.
Proof.
  unfold is_camel_case. rewrite andb_true_iff. intros [_ H]. apply trim_space_no_space.
  revert H. apply sforall_impl. intros c Hc. apply alnum_not_space in Hc. now rewrite Hc.
Qed.
Lemma without_underscores_app a b :
  without_underscores (a +++ b) = without_underscores a +++ without_underscores b.
Proof. induction a as [|c a IH]; simpl; [reflexivity|]. rewrite IH. now destruct (Ascii.eqb c "_"). Qed.
Lemma without_underscores_snake_loop prev s :
  without_underscores (snake_loop prev s) = without_underscores s.
Proof.
  revert prev; induction s as [|c s IH]; intros prev; [reflexivity|]. cbn [snake_loop].
  destruct (is_upper c && _ && _); cbn [without_underscores]; rewrite ?IH; reflexivity.
Qed.
Lemma to_snake_letters s : without_underscores (to_snake s) = without_underscores (trim_space s).
Proof.
  unfold to_snake. destruct (trim_space s) as [|c r]; [reflexivity|].
  cbn [without_underscores]. now rewrite without_underscores_snake_loop.
Qed.
Lemma without_underscores_camel s : is_camel_case s = true -> without_underscores s = s.
Proof.
  unfold is_camel_case. rewrite andb_true_iff. intros [_ H].
  induction s as [|c s IH]; [reflexivity|]. simpl in *. apply andb_true_iff in H as [Hc Hs].
  apply alnum_not_underscore in Hc. unfold is_underscore, underscore in Hc. now rewrite Hc, IH.
Qed.

(** Whatever holds of the letters and of the underscore holds of the output. *)
Lemma snake_loop_forall f prev s :
  f underscore = true -> sforall f s = true -> sforall f (snake_loop prev s) = true.
Proof.
  intros Hu. revert prev; induction s as [|c s IH]; intros prev H; [reflexivity|].
  simpl in H. apply andb_true_iff in H as [Hc Hs]. cbn [snake_loop].
  destruct (is_upper c && _ && _); cbn [sforall]; rewrite ?Hu, Hc, IH by assumption; reflexivity.
Qed.
Lemma snake_loop_nil prev s : snake_loop prev s = EmptyString -> s = EmptyString.
Proof. destruct s as [|c s]; [easy|]. cbn [snake_loop]. destruct (is_upper c && _ && _); discriminate. Qed.
Lemma snake_loop_last prev s : last_char (snake_loop prev s) = last_char s.
Proof.
  revert prev; induction s as [|c s IH]; intros prev; [reflexivity|]. cbn [snake_loop].
  assert (last_char (String c (snake_loop c s)) = last_char (String c s)) as E.
  { destruct s as [|d s]; [reflexivity|]. rewrite last_char_cons.
    destruct (snake_loop c (String d s)) as [|x r] eqn:Es; [now apply snake_loop_nil in Es|].
    rewrite last_char_cons, <- Es. apply IH. }
  destruct (is_upper c && _ && _); [|exact E]. now rewrite last_char_cons.
Qed.
Lemma last_is_last_char f s : last_is f s = match last_char s with Some c => f c | None => false end.
Proof. unfold last_is, last_char, head_is. now destruct (srev s). Qed.

(** Snake-casing any camel case identifier, then mapping characters. *)
Lemma last_char_smap g s : last_char (smap g s) = option_map g (last_char s).
Proof.
  induction s as [|c s IH]; [reflexivity|]. destruct s as [|d s]; [reflexivity|].
  change (smap g (String c (String d s))) with (String (g c) (String (g d) (smap g s))).
  rewrite !last_char_cons. exact IH.
Qed.
Lemma to_snake_shape s (g : ascii -> ascii) (letter : ascii -> bool) :
  is_camel_case s = true ->
  (forall c, is_letter c || is_digit c = true -> letter (g c) || is_digit (g c) = true) ->
  g underscore = underscore -> letter underscore = false ->
  negb (is_empty (smap g (to_snake s)) || head_is is_underscore (smap g (to_snake s))
        || last_is is_underscore (smap g (to_snake s)))
  && sforall (fun c => letter c || is_digit c || is_underscore c) (smap g (to_snake s)) = true.
Proof.
  intros Hs Hg Hu Hl. unfold to_snake. rewrite trim_space_camel by assumption.
  destruct s as [|c s]; [discriminate|].
  unfold is_camel_case in Hs. cbn [is_empty negb andb] in Hs.
  assert (forall d, is_letter d || is_digit d = true -> is_underscore (g d) = false) as Hgu.
  { intros d Hd. destruct (is_underscore (g d)) eqn:E; [|reflexivity].
    apply Ascii.eqb_eq in E. apply Hg in Hd. rewrite E, Hl in Hd. vm_compute in Hd. discriminate. }
  apply andb_true_iff. split.
  - rewrite negb_true_iff, !orb_false_iff. repeat split.
    + simpl. apply Hgu. simpl in Hs. now apply andb_true_iff in Hs.
    + rewrite last_is_last_char, last_char_smap.
      assert (last_char (String c (snake_loop c s)) = last_char (String c s)) as ->.
      { destruct s as [|d s]; [reflexivity|]. rewrite last_char_cons.
        destruct (snake_loop c (String d s)) as [|x r] eqn:Es; [now apply snake_loop_nil in Es|].
        rewrite last_char_cons, <- Es. apply snake_loop_last. }
      destruct (last_char (String c s)) as [x|] eqn:Ex; [|reflexivity]. simpl. apply Hgu.
      now apply (sforall_last _ _ _ Hs Ex).
  - rewrite sforall_smap.
    assert (forall d, is_letter d || is_digit d || is_underscore d = true ->
              letter (g d) || is_digit (g d) || is_underscore (g d) = true) as Hall.
    { intros d Hd. apply orb_true_iff in Hd as [Hd|Hd].
      - rewrite Hg by assumption. reflexivity.
      - apply Ascii.eqb_eq in Hd as ->. rewrite Hu. apply orb_true_r. }
    eapply sforall_impl; [exact Hall|].
    change (String c (snake_loop c s)) with (String c EmptyString +++ snake_loop c s).
    rewrite sforall_app. apply andb_true_iff. split.
    + simpl in *. apply andb_true_iff in Hs as [Hc _]. now rewrite Hc.
    + apply snake_loop_forall; [reflexivity|].
      simpl in Hs. apply andb_true_iff in Hs as [_ Hs]. revert Hs. apply sforall_impl.
      intros d Hd. now rewrite Hd.
Qed.
Lemma lower_snake_of_camel s : camel_shape s -> snake_shape is_lower (to_lower_snake_case s).
Proof.
  intros H. apply is_camel_shape in H. apply is_lower_snake_shape.
  unfold is_lower_snake_case, to_lower_snake_case, to_lower. apply to_snake_shape; auto.
  intros c. all_ascii c; vm_compute; congruence.
Qed.
Lemma upper_snake_of_camel s : camel_shape s -> snake_shape is_upper (to_upper_snake_case s).
Proof.
  intros H. apply is_camel_shape in H. apply is_upper_snake_shape.
  unfold is_upper_snake_case, to_upper_snake_case, to_upper. apply to_snake_shape; auto.
  intros c. all_ascii c; vm_compute; congruence.
Qed.
Lemma without_underscores_smap g s :
  (forall c, Ascii.eqb (g c) "_" = Ascii.eqb c "_") ->
  without_underscores (smap g s) = smap g (without_underscores s).
Proof.
  intros H. induction s as [|c s IH]; [reflexivity|]. simpl. rewrite H, IH.
  now destruct (Ascii.eqb c "_").
Qed.
Lemma lower_snake_letters s : camel_shape s ->
  without_underscores (to_lower_snake_case s) = to_lower s.
Proof.
  intros H. apply is_camel_shape in H. unfold to_lower_snake_case, to_lower.
  rewrite without_underscores_smap by (intros c; all_ascii c; reflexivity).
  rewrite to_snake_letters, trim_space_camel by assumption. now rewrite without_underscores_camel.
Qed.
Lemma upper_snake_letters s : camel_shape s ->
  without_underscores (to_upper_snake_case s) = to_upper s.
Proof.
  intros H. apply is_camel_shape in H. unfold to_upper_snake_case, to_upper.
  rewrite without_underscores_smap by (intros c; all_ascii c; reflexivity).
  rewrite to_snake_letters, trim_space_camel by assumption. now rewrite without_underscores_camel.
Qed.

(** Lower snake case is a fixed point of lower snake casing: no capital letter
    is left, so nothing is inserted. *)
Lemma snake_loop_id prev s : sforall (fun c => negb (is_upper c)) s = true -> snake_loop prev s = s.
Proof.
  revert prev; induction s as [|c s IH]; intros prev H; [reflexivity|]. simpl in H.
  apply andb_true_iff in H as [Hc Hs]. apply negb_true_iff in Hc. cbn [snake_loop]. rewrite Hc.
  cbn [andb]. now rewrite IH.
Qed.
Lemma to_snake_id s : sforall (fun c => negb (is_upper c)) s = true -> to_snake s = trim_space s.
Proof.
  intros H. unfold to_snake. destruct (trim_space s) as [|c r] eqn:E; [reflexivity|].
  f_equal. apply snake_loop_id.
  destruct (trim_left_spec is_space s) as [p [Hp _]].
  destruct (trim_right_spec is_space (trim_left is_space s)) as [q [Hq _]].
  unfold trim_space in E. rewrite E in Hq. rewrite Hp, Hq, !sforall_app in H.
  apply andb_true_iff in H as [_ H]. apply andb_true_iff in H as [H _].
  simpl in H. now apply andb_true_iff in H as [_ H].
Qed.
Lemma to_lower_no_upper s : sforall (fun c => negb (is_upper c)) (to_lower s) = true.
Proof.
  unfold to_lower. rewrite sforall_smap. induction s as [|c s IH]; [reflexivity|]. simpl.
  rewrite lower_char_not_upper. exact IH.
Qed.
Lemma is_space_lower c : is_space (lower_char c) = is_space c.
Proof. all_ascii c; reflexivity. Qed.
Lemma to_snake_no_outer_space s :
  (forall c, first_char (to_snake s) = Some c -> is_space c = false) /\
  (forall c, last_char (to_snake s) = Some c -> is_space c = false).
Proof.
  unfold to_snake. destruct (trim_space s) as [|c r] eqn:E; [split; discriminate|]. split.
  - intros d Hd. apply (trim_space_first s). rewrite E. exact Hd.
  - intros d Hd. apply (trim_space_last s). rewrite E.
    destruct r as [|x r]; [exact Hd|]. rewrite last_char_cons in *.
    destruct (snake_loop c (String x r)) as [|y t] eqn:Es; [now apply snake_loop_nil in Es|].
    rewrite last_char_cons, <- Es, snake_loop_last in Hd. exact Hd.
Qed.
Lemma to_lower_snake_case_idem s :
  to_lower_snake_case (to_lower_snake_case s) = to_lower_snake_case s.
Proof.
  unfold to_lower_snake_case at 1. rewrite to_snake_id by apply to_lower_no_upper.
  destruct (to_snake_no_outer_space s) as [H1 H2].
  assert (trim_space (to_lower_snake_case s) = to_lower_snake_case s) as ->.
  { unfold trim_space, to_lower_snake_case. rewrite trim_left_id.
    - apply trim_right_id. intros c. unfold to_lower. rewrite last_char_smap.
      destruct (last_char (to_snake s)) as [d|] eqn:E; [|discriminate].
      intros Hc. injection Hc as <-. rewrite is_space_lower. now apply H2.
    - intros c. unfold to_lower. destruct (to_snake s) as [|d r]; [discriminate|].
      simpl. intros Hc. injection Hc as <-. rewrite is_space_lower. now apply H1. }
  unfold to_lower_snake_case. apply to_lower_idem.
Qed.

(** ** Upper camel case *)
Lemma camel_loop_spec start s :
  sforall (fun c => is_letter c || is_digit c || is_delimiter c) s = true ->
  sforall (fun c => is_letter c || is_digit c) (camel_loop start s) = true.
Proof.
  revert start; induction s as [|c s IH]; intros start H; [reflexivity|]. simpl in H.
  apply andb_true_iff in H as [Hc Hs]. cbn [camel_loop].
  destruct (is_delimiter c) eqn:Ed; [now apply IH|]. cbn [sforall]. rewrite IH by assumption.
  rewrite orb_false_r in Hc. rewrite andb_true_r.
  destruct (start || is_upper c); clear -Hc; revert Hc; all_ascii c; vm_compute; congruence.
Qed.
Lemma upper_camel_of_snake s : snake_shape is_lower s -> camel_shape (to_upper_camel_case s).
Proof.
  intros H. pose proof H as H'. apply is_lower_snake_shape in H. apply is_camel_shape.
  unfold is_lower_snake_case in H. apply andb_true_iff in H as [_ H].
  unfold to_upper_camel_case. rewrite trim_space_no_space.
  2:{ revert H. apply sforall_impl. intros c. all_ascii c; vm_compute; congruence. }
  destruct H' as (Hn & _ & Hu & _). destruct s as [|c s]; [easy|].
  unfold is_camel_case. apply andb_true_iff. split.
  - cbn [camel_loop]. assert (is_delimiter c = false) as Hd.
    { simpl in H. apply andb_true_iff in H as [Hc _].
      assert (c <> "_"%char) as Hcu by (intros ->; now apply (Hu s)).
      apply Ascii.eqb_neq in Hcu. revert Hc Hcu. clear. all_ascii c; vm_compute; congruence. }
    rewrite Hd. reflexivity.
  - apply camel_loop_spec. revert H. apply sforall_impl.
    intros d. unfold is_delimiter, is_letter. rewrite !orb_true_iff. tauto.
Qed.

(** ** Splitting into words *)
Lemma words_loop_concat prev cur s :
  join EmptyString (words_loop prev cur s) = cur +++ without_underscores s.
Proof.
  revert prev cur; induction s as [|c s IH]; intros prev cur; cbn [words_loop without_underscores].
  - rewrite sapp_nil_r. destruct cur; reflexivity.
  - change (Ascii.eqb c "_") with (is_underscore c). destruct (is_underscore c); [apply IH|].
    destruct prev.
    + assert (forall x l, join EmptyString (x :: l) = x +++ join EmptyString l) as J.
      { intros x l. destruct l; simpl; [now rewrite sapp_nil_r|reflexivity]. }
      destruct cur as [|a cur]; cbn [is_empty app].
      * now rewrite IH.
      * rewrite J, IH. reflexivity.
    + rewrite IH, sapp_assoc. reflexivity.
Qed.
Lemma words_loop_words prev cur s :
  no_char underscore cur = true ->
  Forall (fun w => w <> EmptyString /\ no_char underscore w = true) (words_loop prev cur s).
Proof.
  revert prev cur; induction s as [|c s IH]; intros prev cur Hc; cbn [words_loop].
  - destruct cur; [constructor|]. repeat constructor; [discriminate|assumption].
  - destruct (is_underscore c) eqn:E; [now apply IH|].
    assert (no_char underscore (String c EmptyString) = true) as H1.
    { unfold no_char; simpl. unfold is_underscore in E. now rewrite E. }
    destruct prev.
    + apply Forall_app. split; [|now apply IH].
      destruct cur; [constructor|]. repeat constructor; [discriminate|assumption].
    + apply IH. rewrite no_char_app, Hc, H1. reflexivity.
Qed.
Lemma split_camel_words s : camel_shape s ->
  join EmptyString (split_camel_case_word s) = s /\
  Forall (fun w => w <> EmptyString /\ lacks "_" w) (split_camel_case_word s).
Proof.
  intros H. pose proof H as H'. apply is_camel_shape in H. unfold split_camel_case_word.
  rewrite trim_space_camel, H by assumption.
  assert (is_snake (to_snake s) = true) as Hsn.
  { pose proof (to_snake_shape s (fun c => c) is_letter H) as P.
    assert (forall x, smap (fun c => c) x = x) as Hid
      by (induction x as [|c x IHx]; simpl; congruence).
    rewrite Hid in P. apply P; auto. }
  unfold split_snake_case_word.
  assert (trim_space (to_snake s) = to_snake s) as ->.
  { destruct (to_snake_no_outer_space s) as [H1 H2]. unfold trim_space.
    rewrite trim_left_id by assumption. now apply trim_right_id. }
  rewrite Hsn. split.
  - rewrite words_loop_concat. rewrite to_snake_letters, trim_space_camel by assumption.
    now apply without_underscores_camel.
  - eapply Forall_impl; [|apply words_loop_words; reflexivity].
    intros w [Hw1 Hw2]. split; [assumption|]. now apply lacks_no_char.
Qed.

(** ** SortUniq, Intersection *)
Lemma str_leb_neq_ltb a b : str_leb a b = true -> a <> b -> str_ltb a b = true.
Proof.
  intros H Hn. unfold str_ltb. apply negb_true_iff.
  destruct (str_leb b a) eqn:E; [|reflexivity]. exfalso. apply Hn. now apply str_leb_antisym.
Qed.
Lemma sorted_nodup_increasing l :
  StronglySorted (fun a b => str_leb a b = true) l -> NoDup l -> Increasing l.
Proof.
  induction l as [|x l IH]; intros S N; [constructor|].
  inversion S as [|? ? S' F]; subst. inversion N as [|? ? Nx N']; subst.
  constructor; [|auto]. intros y Hy. rewrite Forall_forall in F. apply str_leb_neq_ltb; [auto|].
  intros ->. contradiction.
Qed.
Lemma sort_uniq_modify_spec f l :
  Increasing (sort_uniq_modify f l) /\
  forall x, In x (sort_uniq_modify f l) <-> x <> EmptyString /\ exists y, In y l /\ x = f y.
Proof.
  unfold sort_uniq_modify, map_to_sorted_slice. split.
  - apply sorted_nodup_increasing; [apply sort_strings_sorted|].
    eapply Permutation_NoDup; [apply sort_strings_perm|apply dedup_NoDup].
  - intros x. rewrite sort_strings_In, dedup_In, filter_In, negb_true_iff, is_empty_false, in_map_iff.
    split; [intros [(y & H1 & H2) H3]; eauto|intros [H3 (y & H1 & H2)]; eauto].
Qed.
Lemma intersection_spec a b :
  Increasing (intersection a b) /\
  forall x, In x (intersection a b) <-> x <> EmptyString /\ In x a /\ In x b.
Proof.
  unfold intersection. split.
  - apply sorted_nodup_increasing; [apply sort_strings_sorted|].
    eapply Permutation_NoDup; [apply sort_strings_perm|]. apply NoDup_filter, dedup_NoDup.
  - intros x. rewrite sort_strings_In, filter_In, mem_In, !dedup_In, !filter_In, negb_true_iff, is_empty_false.
    tauto.
Qed.
Lemma map_to_sorted_slice_perm m1 m2 : Permutation m1 m2 -> map_to_sorted_slice m1 = map_to_sorted_slice m2.
Proof. apply sort_strings_unique. Qed.

(** ** The words of a camel case name *)
Definition word_startsb (p c : ascii) (rest : string) : bool :=
  is_upper c && (match rest with EmptyString => false | String n _ => negb (is_upper n) end || is_lower p).
Lemma word_startsb_iff p c r : word_startsb p c r = true <-> word_starts p c r.
Proof.
  unfold word_startsb, word_starts. rewrite andb_true_iff, orb_true_iff. apply and_iff_compat_l. split.
  - intros [H|H]; [right|now left]. destruct r as [|n r]; [discriminate|]. exists n, r. split; [reflexivity|now apply negb_true_iff].
  - intros [H|(n & r' & -> & H)]; [now right|left]. now apply negb_true_iff.
Qed.
Fixpoint words (p : ascii) (s : string) : list string :=
  match s with
  | EmptyString => [String p EmptyString]
  | String c s' =>
      if word_startsb p c s' then String p EmptyString :: words c s'
      else match words c s' with w :: ws => String p w :: ws | [] => [] end
  end.
Lemma words_nil p s : words p s <> [].
Proof.
  revert p. induction s as [|c s IH]; intros p; cbn [words]; [discriminate|]. destruct (word_startsb p c s); [discriminate|].
  specialize (IH c). destruct (words c s); [easy|discriminate].
Qed.
Lemma words_nonempty p s : Forall (fun w => w <> EmptyString) (words p s).
Proof.
  revert p. induction s as [|c s IH]; intros p; cbn [words]; [constructor; [discriminate|constructor]|].
  specialize (IH c). destruct (word_startsb p c s); [constructor; [discriminate|assumption]|].
  destruct (words c s) as [|w ws]; [constructor|]. inversion IH. constructor; [discriminate|assumption].
Qed.
Lemma join_nil_cons x l : join EmptyString (x :: l) = x +++ join EmptyString l.
Proof. destruct l; [now rewrite sapp_nil_r|reflexivity]. Qed.
Lemma join_nil_app a b : join EmptyString (a ++ b) = join EmptyString a +++ join EmptyString b.
Proof. induction a as [|x a IH]; [reflexivity|]. cbn [app]. now rewrite !join_nil_cons, IH, sapp_assoc. Qed.
Lemma words_join p s : join EmptyString (words p s) = String p s.
Proof.
  revert p. induction s as [|c s IH]; intros p; cbn [words]; [reflexivity|]. specialize (IH c). destruct (word_startsb p c s).
  - now rewrite join_nil_cons, IH.
  - pose proof (words_nil c s). destruct (words c s) as [|w ws]; [easy|]. now rewrite join_cons_char, IH.
Qed.
Lemma words_snake p s : is_underscore p = false -> sforall (fun c => negb (is_underscore c)) s = true ->
  join "_" (words p s) = String p (snake_loop p s).
Proof.
  revert p. induction s as [|c s IH]; intros p Hp Hs; cbn [words snake_loop]; [reflexivity|].
  cbn [sforall] in Hs. apply andb_true_iff in Hs as [Hc Hs]. apply negb_true_iff in Hc. specialize (IH c Hc Hs).
  rewrite Hp. cbn [negb]. rewrite andb_true_r. fold (word_startsb p c s).
  pose proof (words_nil c s). destruct (word_startsb p c s).
  - rewrite join_cons by assumption. now rewrite IH.
  - destruct (words c s) as [|w ws]; [easy|]. now rewrite join_cons_char, IH.
Qed.
Lemma join_nil_nonempty ws : Forall (fun w => w <> EmptyString) ws -> join EmptyString ws = EmptyString -> ws = [].
Proof. intros H E. destruct H as [|w ws Hw _]; [reflexivity|]. rewrite join_nil_cons in E. now apply sapp_eq_nil in E as [? _]. Qed.
Lemma words_boundary s : forall p a x y r, String p s = a +++ String x (String y r) ->
  (word_starts x y r <-> exists w1 w2, words p s = w1 ++ w2 /\ join EmptyString w1 = a +++ String x EmptyString /\ join EmptyString w2 = String y r).
Proof.
  induction s as [|c s IH]; intros p a x y r E.
  { apply (f_equal String.length) in E. rewrite slength_app in E. simpl in E. lia. }
  pose proof (words_nonempty c s) as NE. pose proof (words_nil c s) as NN. pose proof (words_join c s) as J.
  destruct a as [|a0 a].
  - cbn [append] in E. injection E as <- <- <-. rewrite <- word_startsb_iff. cbn [words]. destruct (word_startsb p c s).
    + split; [intros _|reflexivity]. exists [String p EmptyString], (words c s). repeat split. exact J.
    + split; [discriminate|]. intros (w1 & w2 & E & E1 & E2). exfalso.
      destruct (words c s) as [|w ws]; [easy|]. inversion NE as [|? ? Hw _]; subst.
      destruct w1 as [|v w1]; [discriminate E1|]. injection E as <- E. rewrite join_nil_cons in E1. cbn in E1. injection E1 as E1.
      now apply sapp_eq_nil in E1 as [? _].
  - cbn [append] in E. injection E as <- E. specialize (IH c a x y r E). rewrite IH. cbn [words].
    destruct (word_startsb p c s).
    + split.
      * intros (w1 & w2 & -> & E1 & E2). exists (String p EmptyString :: w1), w2. repeat split; [|assumption].
        now rewrite join_nil_cons, E1.
      * intros (w1 & w2 & E0 & E1 & E2). destruct w1 as [|v w1]; [destruct a; discriminate E1|]. injection E0 as <- E0.
        rewrite join_nil_cons in E1. cbn in E1. injection E1 as E1. exists w1, w2. auto.
    + destruct (words c s) as [|w ws]; [easy|]. split.
      * intros (w1 & w2 & E0 & E1 & E2). destruct w1 as [|v w1]; [destruct a; discriminate E1|]. injection E0 as <- E0.
        exists (String p w :: w1), w2. split; [now rewrite E0|]. split; [|assumption]. now rewrite join_cons_char, E1.
      * intros (w1 & w2 & E0 & E1 & E2). destruct w1 as [|v w1]; [destruct a; discriminate E1|]. injection E0 as <- E0.
        exists (w :: w1), w2. split; [now rewrite E0|]. split; [|assumption]. rewrite join_cons_char in E1. cbn in E1. now injection E1.
Qed.
Lemma smap_join g sep ws : smap g (join sep ws) = join (smap g sep) (map (smap g) ws).
Proof.
  induction ws as [|x [|y ws] IH]; [reflexivity|reflexivity|]. cbn [map]. rewrite !join_cons2, !smap_app, IH. reflexivity.
Qed.
Lemma snake_words s : camel_shape s ->
  exists ws, words_of s ws
    /\ to_lower_snake_case s = join "_" (map to_lower ws) /\ to_upper_snake_case s = join "_" (map to_upper ws).
Proof.
  intros H. apply is_camel_shape in H. pose proof (trim_space_camel s H) as T.
  unfold is_camel_case in H. apply andb_true_iff in H as [H0 H].
  destruct s as [|p s]; [discriminate|]. exists (words p s).
  assert (F : sforall (fun c => negb (is_underscore c)) (String p s) = true).
  { revert H. apply sforall_impl. intros c. all_ascii c; vm_compute; congruence. }
  cbn [sforall] in F. apply andb_true_iff in F as [F0 F]. apply negb_true_iff in F0.
  assert (E : to_snake (String p s) = join "_" (words p s)).
  { unfold to_snake. rewrite T. now rewrite words_snake. }
  split; [|split].
  - split; [apply words_nonempty|]. split; [symmetry; apply words_join|]. apply words_boundary.
  - unfold to_lower_snake_case. rewrite E. unfold to_lower. now rewrite smap_join.
  - unfold to_upper_snake_case. rewrite E. unfold to_upper. now rewrite smap_join.
Qed.
Lemma camel_loop_words s : sforall (fun c => is_lower c || is_digit c || is_underscore c) s = true -> forall start,
  camel_loop start s = match split_char "_" s with
                       | [] => EmptyString
                       | w :: ws => (if start then capitalize w else w) +++ join EmptyString (map capitalize ws)
                       end.
Proof.
  induction s as [|c s IH]; intros H start; [destruct start; reflexivity|].
  cbn [sforall] in H. apply andb_true_iff in H as [Hc Hs]. specialize (IH Hs). cbn [camel_loop split_char].
  change (Ascii.eqb c "_") with (is_underscore c). destruct (is_underscore c) eqn:Eu.
  - replace (is_delimiter c) with true by (revert Eu; clear; all_ascii c; vm_compute; congruence). rewrite IH.
    pose proof (split_char_nonnil "_" s). destruct (split_char "_" s) as [|w ws]; [easy|].
    cbn [map]. rewrite join_nil_cons. destruct start; reflexivity.
  - replace (is_delimiter c) with false by (revert Hc Eu; clear; all_ascii c; vm_compute; congruence). rewrite IH.
    pose proof (split_char_nonnil "_" s). destruct (split_char "_" s) as [|w ws]; [easy|].
    replace (is_upper c) with false by (revert Hc; clear; all_ascii c; vm_compute; congruence). rewrite orb_false_r.
    destruct start; cbn [append capitalize]; [reflexivity|]. f_equal.
    revert Hc; clear; all_ascii c; vm_compute; congruence.
Qed.
Lemma upper_camel_words s : snake_shape is_lower s -> to_upper_camel_case s = join EmptyString (map capitalize (split_char "_" s)).
Proof.
  intros H. apply is_lower_snake_shape in H. unfold is_lower_snake_case in H. apply andb_true_iff in H as [_ H].
  unfold to_upper_camel_case. rewrite trim_space_no_space.
  2:{ revert H. apply sforall_impl. intros c. all_ascii c; vm_compute; congruence. }
  rewrite camel_loop_words by assumption. pose proof (split_char_nonnil "_" s). destruct (split_char "_" s) as [|w ws]; [easy|].
  cbn [map]. now rewrite join_nil_cons.
Qed.
