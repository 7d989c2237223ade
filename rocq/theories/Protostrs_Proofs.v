(** Proofs about package-derived option values and version parsing. *)
From Verif Require Import GoStrFacts GoPathFacts Strs_Model Strs_Spec Strs_Proofs.

Lemma string_rev_ind (P : string -> Prop) :
  P EmptyString -> (forall s c, P s -> P (s +++ String c EmptyString)) -> forall s, P s.
Proof.
  intros H0 H1 s. rewrite <- (srev_involutive s). induction (srev s) as [|c r IH]; [exact H0|].
  rewrite srev_cons. now apply H1.
Qed.

(** ** Decimal numerals *)
Lemma digits_value_app acc a b :
  digits_value acc (a +++ b) = match digits_value acc a with Some n => digits_value n b | None => None end.
Proof.
  revert acc; induction a as [|c a IH]; intros acc; [reflexivity|]. cbn [append digits_value].
  destruct (is_digit c); [apply IH|reflexivity].
Qed.
Lemma Decimal_digits_value s n : Decimal s n -> digits_value 0 s = Some n.
Proof.
  induction 1 as [c Hc|s n c H IH Hc].
  - simpl. rewrite Hc. reflexivity.
  - rewrite digits_value_app, IH. cbn [digits_value]. rewrite Hc. f_equal.
    unfold digit_value, code. now rewrite N.mul_comm.
Qed.
Lemma digits_value_Decimal s n : s <> EmptyString -> digits_value 0 s = Some n -> Decimal s n.
Proof.
  revert n; induction s as [|s c IH] using string_rev_ind; intros n Hs; [easy|].
  rewrite digits_value_app. destruct (digits_value 0 s) as [m|] eqn:E; [|discriminate].
  cbn [digits_value]. destruct (is_digit c) eqn:Ec; [|discriminate]. intros H; injection H as <-.
  destruct s as [|x s].
  - simpl in E. injection E as <-. now apply (Decimal_one c).
  - rewrite N.mul_comm. apply Decimal_more; [|assumption]. now apply IH.
Qed.
Lemma Decimal_nonempty s n : Decimal s n -> s <> EmptyString.
Proof. induction 1; [discriminate|]. intros E. apply sapp_eq_nil in E. easy. Qed.
Lemma Decimal_digits s n : Decimal s n -> sforall is_digit s = true.
Proof.
  induction 1 as [c Hc|s n c H IH Hc]; [simpl; now rewrite Hc|].
  rewrite sforall_app, IH. simpl. now rewrite Hc.
Qed.
Lemma Decimal_fun s n m : Decimal s n -> Decimal s m -> n = m.
Proof. intros H1 H2. apply Decimal_digits_value in H1, H2. congruence. Qed.
Lemma parse_uint_spec s n : parse_uint s = Some n <-> Decimal s n /\ (n < two_64)%N.
Proof.
  unfold parse_uint. split.
  - destruct (is_empty s) eqn:E; [discriminate|]. apply is_empty_false in E.
    destruct (digits_value 0 s) as [m|] eqn:Ed; [|discriminate].
    destruct (m <? two_64)%N eqn:El; [|discriminate]. intros H; injection H as <-.
    split; [now apply digits_value_Decimal|now apply N.ltb_lt].
  - intros [H Hl]. pose proof (Decimal_nonempty _ _ H) as Hn. apply is_empty_false in Hn.
    rewrite Hn, (Decimal_digits_value _ _ H). apply N.ltb_lt in Hl. now rewrite Hl.
Qed.

(** Decimal rendering. *)
Lemma digits_fuel_app f n acc : digits_fuel f n acc = digits_fuel f n EmptyString +++ acc.
Proof.
  revert n acc; induction f as [|f IH]; intros n acc; [reflexivity|]. cbn [digits_fuel].
  destruct (n <? 10)%N; [reflexivity|].
  rewrite IH. rewrite (IH _ (String _ EmptyString)), sapp_assoc. reflexivity.
Qed.
Lemma digit_char_digit n : (n < 10)%N -> is_digit (digit_char n) = true /\ digit_value (digit_char n) = n.
Proof.
  intros H.
  assert (n = 0 \/ n = 1 \/ n = 2 \/ n = 3 \/ n = 4 \/ n = 5 \/ n = 6 \/ n = 7 \/ n = 8 \/ n = 9)%N as C by lia.
  decompose [or] C; subst; split; reflexivity.
Qed.
Lemma digits_fuel_Decimal f n : (n < 10 ^ N.of_nat (S f))%N -> Decimal (digits_fuel (S f) n EmptyString) n.
Proof.
  revert n; induction f as [|f IH]; intros n H.
  - cbn [digits_fuel]. change (10 ^ N.of_nat 1)%N with 10%N in H. assert (H' := H).
    apply N.ltb_lt in H'. rewrite H'. rewrite N.mod_small by assumption.
    destruct (digit_char_digit n H) as [H1 H2]. rewrite <- H2 at 2. now constructor.
  - remember (S f) as f' eqn:Ef. cbn [digits_fuel].
    assert (n mod 10 < 10)%N as Hm by (apply N.mod_lt; lia).
    destruct (digit_char_digit _ Hm) as [H1 H2].
    destruct (n <? 10)%N eqn:E.
    + apply N.ltb_lt in E. rewrite N.mod_small in * by assumption. rewrite <- H2 at 2. now constructor.
    + rewrite digits_fuel_app. 
      assert (n = 10 * (n / 10) + digit_value (digit_char (n mod 10)))%N as En
        by (rewrite H2; apply N.div_mod; lia).
      refine (eq_ind _ (Decimal _) _ _ (eq_sym En)).
      apply Decimal_more; [|assumption]. subst f'. apply IH.
      apply N.div_lt_upper_bound; [lia|].
      rewrite (Nat2N.inj_succ (S f)) in H. rewrite N.pow_succ_r in H by lia. exact H.
Qed.
Lemma itoa_N_Decimal n : Decimal (itoa_N n) n.
Proof.
  unfold itoa_N. apply digits_fuel_Decimal. rewrite Nat2N.inj_succ, N2Nat.id.
  apply N.lt_le_trans with (2 ^ N.size n)%N; [apply N.size_gt|].
  apply N.le_trans with (10 ^ N.size n)%N.
  - apply N.pow_le_mono_l. lia.
  - apply N.pow_le_mono_r; lia.
Qed.
Lemma itoa_N_inj n m : itoa_N n = itoa_N m -> n = m.
Proof.
  intros H. pose proof (itoa_N_Decimal n) as H1. rewrite H in H1.
  now apply (Decimal_fun _ _ _ H1), itoa_N_Decimal.
Qed.

(** ** Splitting on "beta" *)
Lemma cut_str_spec sub s a b : cut_str sub s = Some (a, b) -> s = a +++ sub +++ b.
Proof.
  revert a b; induction s as [|c s IH]; intros a b; cbn [cut_str].
  - destruct (has_prefix EmptyString sub) eqn:E; [|discriminate].
    apply has_prefix_spec in E as [r Hr]. intros H; injection H as <- <-. simpl.
    destruct sub as [|x sub]; [reflexivity|discriminate].
  - destruct (has_prefix (String c s) sub) eqn:E.
    + apply has_prefix_spec in E as [r Hr]. rewrite Hr. rewrite sdrop_app_exact.
      intros H; injection H as <- <-. reflexivity.
    + destruct (cut_str sub s) as [[a' b']|]; [|discriminate].
      intros H; injection H as <- <-. simpl. now rewrite <- (IH a' b' eq_refl).
Qed.
Lemma digit_no_beta c r : is_digit c = true -> has_prefix (String c r) "beta" = false.
Proof.
  intros Hc. cbn [has_prefix]. destruct (Ascii.eqb "b" c) eqn:E; [|reflexivity].
  apply Ascii.eqb_eq in E. subst c. discriminate.
Qed.
Lemma cut_beta_digits s : sforall is_digit s = true -> cut_str "beta" s = None.
Proof.
  induction s as [|c s IH]; [reflexivity|]. cbn [sforall cut_str]. rewrite andb_true_iff. intros [Hc Hs].
  now rewrite (IH Hs), (digit_no_beta c s Hc).
Qed.
Lemma cut_beta d e : sforall is_digit d = true -> cut_str "beta" (d +++ "beta" +++ e) = Some (d, e).
Proof.
  induction d as [|c d IH]; [reflexivity|]. intros H. simpl in H. apply andb_true_iff in H as [Hc Hd].
  change (String c d +++ "beta" +++ e) with (String c (d +++ "beta" +++ e)). cbn [cut_str].
  rewrite (digit_no_beta c _ Hc).
  rewrite (IH Hd). reflexivity.
Qed.
Lemma split_str_two sub s x y : split_str sub s = [x; y] -> s = x +++ sub +++ y.
Proof.
  unfold split_str. cbn [split_str_fuel].
  destruct (cut_str sub s) as [[a b]|] eqn:E; [|discriminate].
  destruct (String.length s) as [|f]; cbn [split_str_fuel]; intros H.
  - injection H as <- <-. now apply cut_str_spec.
  - destruct (cut_str sub b) as [[a' b']|].
    + injection H as _ _ H. destruct f; cbn [split_str_fuel] in H; [discriminate|].
      destruct (cut_str sub b') as [[? ?]|]; discriminate.
    + injection H as <- <-. now apply cut_str_spec.
Qed.

(** ** C32 *)
Lemma last_component_split pkg base part :
  last_component pkg base part ->
  split_char dot pkg = split_char dot base ++ [part].
Proof.
  intros [-> H]. apply lacks_no_char in H.
  change (base +++ "." +++ part) with (base +++ String dot part).
  induction base as [|c base IH]; simpl.
  - now rewrite (split_char_no dot part).
  - rewrite IH. destruct (Ascii.eqb c dot); [reflexivity|].
    destruct (split_char dot base) as [|h t] eqn:Es; [now apply split_char_nonnil in Es|reflexivity].
Qed.
Lemma split_last_component pkg :
  2 <= length (split_char dot pkg) ->
  last_component pkg (join "." (removelast (split_char dot pkg))) (last (split_char dot pkg) EmptyString).
Proof.
  intros H. set (l := split_char dot pkg) in *.
  assert (l <> []) as Hl by apply split_char_nonnil.
  pose proof (app_removelast_last EmptyString Hl) as E. split.
  - rewrite <- (join_split dot pkg) at 1. fold l. rewrite E at 1. rewrite join_snoc; [reflexivity|].
    intros E2. rewrite E2 in E. apply (f_equal (@length string)) in E. simpl in E. lia.
  - apply lacks_no_char. pose proof (split_char_parts dot pkg) as F. fold l in F.
    rewrite E in F. apply Forall_app in F as [_ F]. now inversion F.
Qed.
Lemma version_bounds n : version_number n <-> (n < two_64)%N /\ n <> 0%N.
Proof. unfold version_number, two_64. lia. Qed.
Theorem major_beta_version_spec pkg major beta :
  major_beta_version pkg = Some (major, beta) <->
  exists base part, last_component pkg base part /\ VersionPart part major beta.
Proof.
  split.
  - unfold major_beta_version. destruct (is_empty pkg); [discriminate|].
    destruct (length (split_char dot pkg) <? 2) eqn:E1; [discriminate|].
    apply Nat.ltb_ge in E1. pose proof (split_last_component pkg E1) as HL.
    destruct (String.length _ <? 2) eqn:E2; [discriminate|].
    set (part := last (split_char dot pkg) EmptyString) in *.
    destruct part as [|v vs] eqn:Ep; [discriminate|].
    destruct (Ascii.eqb v "v") eqn:Ev; [|discriminate]. apply Ascii.eqb_eq in Ev as ->. cbn [negb].
    intros H. eexists. eexists. split; [exact HL|].
    destruct (split_str "beta" vs) as [|x [|y [|z l]]] eqn:Es; try discriminate.
    + destruct (parse_uint vs) as [n|] eqn:En; [|discriminate].
      destruct (n =? 0)%N eqn:E0; [discriminate|]. injection H as <- <-.
      apply parse_uint_spec in En as [En1 En2]. apply N.eqb_neq in E0.
      apply (Stable vs n En1). now apply version_bounds.
    + apply split_str_two in Es. destruct (is_empty x || is_empty y); [discriminate|].
      destruct (parse_uint x) as [n|] eqn:En; [|discriminate].
      destruct (parse_uint y) as [m|] eqn:Em; [|discriminate].
      destruct (n =? 0)%N eqn:E0; [discriminate|]. destruct (m =? 0)%N eqn:E0'; [discriminate|].
      injection H as <- <-. apply parse_uint_spec in En as [En1 En2], Em as [Em1 Em2].
      apply N.eqb_neq in E0, E0'. rewrite Es. apply (Beta x n y m); auto; now apply version_bounds.
  - intros (base & part & HL & HV). unfold major_beta_version.
    rewrite (last_component_split _ _ _ HL), app_length.
    assert (is_empty pkg = false) as ->.
    { destruct HL as [-> _]. apply is_empty_false. intros E. apply sapp_eq_nil in E as [_ E]. discriminate. }
    replace (length (split_char dot base) + length [part] <? 2) with false.
    2:{ symmetry. apply Nat.ltb_ge. simpl. pose proof (split_char_nonnil dot base).
        destruct (split_char dot base); [easy|simpl; lia]. }
    rewrite last_last.
    destruct HV as [d n Hd Hn|d n e m Hd Hn He Hm].
    + pose proof (Decimal_nonempty _ _ Hd) as Hne.
      replace (String.length ("v" +++ d) <? 2) with false
        by (symmetry; apply Nat.ltb_ge; destruct d; [easy|simpl; lia]).
      cbn [append]. rewrite Ascii.eqb_refl. cbn [negb].
      assert (split_str "beta" d = [d]) as ->.
      { unfold split_str. cbn [split_str_fuel].
        now rewrite (cut_beta_digits d (Decimal_digits _ _ Hd)). }
      apply version_bounds in Hn as [Hn1 Hn2].
      rewrite (proj2 (parse_uint_spec d n)) by auto. apply N.eqb_neq in Hn2. now rewrite Hn2.
    + pose proof (Decimal_nonempty _ _ Hd) as Hne. pose proof (Decimal_nonempty _ _ He) as Hne'.
      replace (String.length ("v" +++ d +++ "beta" +++ e) <? 2) with false.
      2:{ symmetry. apply Nat.ltb_ge. destruct d; [easy|simpl; lia]. }
      change ("v" +++ d +++ "beta" +++ e) with (String "v" (d +++ "beta" +++ e)).
      cbv beta iota. change (Ascii.eqb "v" "v") with true. cbn [negb].
      assert (split_str "beta" (d +++ "beta" +++ e) = [d; e]) as ->.
      { unfold split_str. cbn [split_str_fuel]. rewrite (cut_beta d e (Decimal_digits _ _ Hd)).
        rewrite slength_app. destruct d as [|x d]; [easy|]. cbn [String.length plus split_str_fuel].
        now rewrite (cut_beta_digits e (Decimal_digits _ _ He)). }
      apply is_empty_false in Hne, Hne'. rewrite Hne, Hne'. cbn [orb].
      apply version_bounds in Hn as [Hn1 Hn2], Hm as [Hm1 Hm2].
      rewrite (proj2 (parse_uint_spec d n)) by auto. rewrite (proj2 (parse_uint_spec e m)) by auto.
      apply N.eqb_neq in Hn2, Hm2. now rewrite Hn2, Hm2.
Qed.
(** Writing the numbers in decimal and parsing them back. *)
Lemma Decimal_lacks_dot s n : Decimal s n -> lacks "." s.
Proof.
  intros H. apply Decimal_digits in H. apply lacks_no_char. unfold no_char. revert H.
  apply sforall_impl. intros c. all_ascii c; vm_compute; congruence.
Qed.
Lemma lacks_app c a b : lacks c (a +++ b) <-> lacks c a /\ lacks c b.
Proof. rewrite !lacks_no_char, no_char_app. apply andb_true_iff. Qed.
Theorem major_beta_version_roundtrip base n m :
  version_number n -> version_number m ->
  major_beta_version (base +++ ".v" +++ itoa_N n) = Some (n, 0%N) /\
  major_beta_version (base +++ ".v" +++ itoa_N n +++ "beta" +++ itoa_N m) = Some (n, m).
Proof.
  intros Hn Hm. pose proof (itoa_N_Decimal n) as Dn. pose proof (itoa_N_Decimal m) as Dm.
  pose proof (Decimal_lacks_dot _ _ Dn) as Ln. pose proof (Decimal_lacks_dot _ _ Dm) as Lm.
  split; apply major_beta_version_spec; exists base.
  - exists ("v" +++ itoa_N n). split.
    + split; [reflexivity|]. simpl. split; [discriminate|assumption].
    + now constructor.
  - exists ("v" +++ itoa_N n +++ "beta" +++ itoa_N m). split.
    + split; [reflexivity|]. simpl. split; [discriminate|]. apply lacks_app. split; [assumption|].
      simpl. repeat (split; [discriminate|]). assumption.
    + now constructor.
Qed.

(** ** C31: values derived from the package *)
Lemma ident_nonempty s : ident s -> s <> EmptyString.
Proof. intros (c & r & -> & _). discriminate. Qed.
Definition ident_char (c : ascii) : bool := is_letter c || is_digit c || is_underscore c.
Definition identb (s : string) : bool :=
  match s with
  | EmptyString => false
  | String c r => (is_letter c || is_underscore c) && sforall ident_char r
  end.
Lemma identb_ident s : identb s = true -> ident s.
Proof.
  destruct s as [|c r]; [discriminate|]. cbn [identb]. rewrite andb_true_iff. intros [Hc Hr].
  exists c, r. split; [reflexivity|]. split.
  - apply orb_true_iff in Hc as [Hc|Hc]; [now left|right]. now apply Ascii.eqb_eq in Hc.
  - eapply (all_chars_sforall ident_char); [|exact Hr].
    intros d. unfold ident_char, is_underscore, underscore.
    rewrite !orb_true_iff, Ascii.eqb_eq. tauto.
Qed.
Lemma first_letters_initials parts : first_letters parts = join EmptyString (map initial parts).
Proof.
  assert (forall x l, join EmptyString (x :: l) = x +++ join EmptyString l) as J.
  { intros x l. destruct l; simpl; [now rewrite sapp_nil_r|reflexivity]. }
  induction parts as [|p parts IH]; [reflexivity|]. cbn [map]. rewrite J, <- IH.
  destruct p; reflexivity.
Qed.
Lemma ident_chars s : ident s -> sforall ident_char s = true.
Proof.
  intros (c & r & -> & Hc & Hr). simpl. apply andb_true_iff. split.
  - unfold ident_char. destruct Hc as [Hc| ->]; [now rewrite Hc|reflexivity].
  - eapply (all_chars_sforall ident_char); [|exact Hr].
    intros d. unfold ident_char, is_underscore, underscore.
    rewrite !orb_true_iff, Ascii.eqb_eq. tauto.
Qed.
Lemma ident_no_dot s : ident s -> no_char dot s = true.
Proof.
  intros H. apply ident_chars in H. unfold no_char. revert H. apply sforall_impl.
  intros c. all_ascii c; vm_compute; congruence.
Qed.
Lemma title_loop_ident s rest : sforall ident_char s = true ->
  title_loop false (s +++ rest) = s +++ title_loop false rest.
Proof.
  induction s as [|c s IH]; [reflexivity|]. simpl. rewrite andb_true_iff. intros [Hc Hs].
  unfold ident_char in Hc. rewrite Hc. cbn [negb]. now rewrite IH.
Qed.
Lemma title_loop_true_cons c r : title_loop true (String c r) =
  String (upper_char c) (title_loop (negb (ident_char c)) r).
Proof. reflexivity. Qed.
Lemma title_join comps : comps <> [] -> Forall ident comps ->
  title (join "." comps) = join "." (map capitalize comps).
Proof.
  unfold title. induction comps as [|x comps IH]; [easy|]. intros _ H.
  inversion H as [|? ? Hx Hc]; subst. pose proof (ident_chars _ Hx) as Hxc.
  destruct Hx as (c & r & -> & _). simpl in Hxc. apply andb_true_iff in Hxc as [Hc0 Hr].
  destruct comps as [|y comps].
  - cbn [join map capitalize]. rewrite title_loop_true_cons, Hc0. cbn [negb].
    rewrite <- (sapp_nil_r r) at 1. rewrite title_loop_ident by assumption. simpl. now rewrite sapp_nil_r.
  - rewrite join_cons2. cbn [map]. rewrite join_cons2. cbn [append capitalize].
    rewrite title_loop_true_cons, Hc0. cbn [negb]. rewrite title_loop_ident by assumption.
    cbn [append title_loop]. change (negb (is_letter "." || is_digit "." || is_underscore ".")) with true.
    rewrite IH by (discriminate || assumption). reflexivity.
Qed.
Lemma Forall_ident_no_dot comps : Forall ident comps -> Forall (fun x => no_char dot x = true) comps.
Proof. apply Forall_impl. apply ident_no_dot. Qed.
Lemma split_join_ident comps : comps <> [] -> Forall ident comps -> split_char dot (join "." comps) = comps.
Proof. intros Hn H. now apply (split_join dot), Forall_ident_no_dot. Qed.
Lemma join_ident_nonempty comps : comps <> [] -> Forall ident comps -> is_empty (join "." comps) = false.
Proof.
  intros Hn H. destruct comps as [|x comps]; [easy|]. inversion H as [|? ? Hx ?]; subst.
  destruct Hx as (c & r & -> & _). destruct comps; reflexivity.
Qed.
(** The beta version of a package given by its components, if it has one. *)
Lemma int_of_uint64_small n : (n < two_63)%N -> itoa (int_of_uint64 n) = itoa_N n.
Proof.
  intros H. unfold int_of_uint64. apply N.ltb_lt in H. rewrite H.
  destruct n; reflexivity.
Qed.
Theorem csharp_namespace_plain comps :
  comps <> [] -> Forall ident comps ->
  (forall n m, VersionPart (last comps EmptyString) n m -> m = 0%N) ->
  csharp_namespace (join "." comps) = join "." (map capitalize comps).
Proof.
  intros Hn H Hv. unfold csharp_namespace. rewrite join_ident_nonempty by assumption.
  destruct (major_beta_version (join "." comps)) as [[n m]|] eqn:E; [|now apply title_join].
  apply major_beta_version_spec in E as (base & part & HL & HV).
  apply last_component_split in HL. rewrite split_join_ident in HL by assumption.
  rewrite HL, last_last in Hv. apply Hv in HV as ->. rewrite orb_true_r. now apply title_join.
Qed.
Theorem csharp_namespace_beta comps part n m :
  comps <> [] -> Forall ident comps -> ident part ->
  VersionPart part n m -> m <> 0%N -> (n < two_63)%N -> (m < two_63)%N ->
  csharp_namespace (join "." (comps ++ [part])) =
  join "." (map capitalize comps ++ ["V" +++ itoa_N n +++ "Beta" +++ itoa_N m]).
Proof.
  intros Hn H Hp HV Hm Hn' Hm'. unfold csharp_namespace.
  assert (comps ++ [part] <> []) as Hne by (now destruct comps).
  assert (Forall ident (comps ++ [part])) as Hid by (apply Forall_app; split; [assumption|now repeat constructor]).
  rewrite join_ident_nonempty by assumption.
  rewrite (proj2 (major_beta_version_spec _ n m)).
  2:{ exists (join "." comps), part. split; [|assumption]. split.
      - now apply join_snoc.
      - apply lacks_no_char. now apply ident_no_dot. }
  assert (n <> 0%N) as Hn0 by (destruct HV as [d n Hd Hv|d n e m' Hd Hv]; apply version_bounds in Hv; tauto).
  apply N.eqb_neq in Hn0, Hm. rewrite Hn0, Hm. cbn [orb].
  rewrite split_join_ident by assumption. rewrite removelast_last, title_join by assumption.
  rewrite !int_of_uint64_small by assumption.
  rewrite join_snoc; [reflexivity|]. now destruct comps.
Qed.
(** Overflowing version numbers give a negative number. *)
Lemma replace_char_no c r s : no_char c s = true -> replace_char c r s = s.
Proof.
  unfold no_char. induction s as [|a s IH]; [reflexivity|]. simpl. rewrite andb_true_iff, negb_true_iff.
  intros [H1 H2]. now rewrite H1, IH.
Qed.
Lemma replace_char_app c r a b : replace_char c r (a +++ b) = replace_char c r a +++ replace_char c r b.
Proof.
  induction a as [|x a IH]; [reflexivity|]. cbn [append replace_char]. rewrite IH.
  destruct (Ascii.eqb x c); [now rewrite sapp_assoc|reflexivity].
Qed.
Lemma replace_join c r l : l <> [] -> Forall (fun x => no_char c x = true) l ->
  replace_char c r (join (String c EmptyString) l) = join r l.
Proof.
  induction l as [|x l IH]; [easy|]. intros _ H. inversion H as [|? ? Hx Hl]; subst.
  destruct l as [|y l].
  - now apply replace_char_no.
  - rewrite !join_cons2, !replace_char_app, (replace_char_no c r x) by assumption.
    rewrite IH by (discriminate || assumption). f_equal. f_equal. simpl.
    now rewrite Ascii.eqb_refl, sapp_nil_r.
Qed.
Theorem php_namespace_spec pkg :
  php_namespace pkg = join two_backslashes (split_char dot (csharp_namespace pkg)).
Proof.
  unfold php_namespace. rewrite <- (join_split dot (csharp_namespace pkg)) at 1.
  apply replace_join; [apply split_char_nonnil|apply split_char_parts].
Qed.
Theorem go_package_spec comps c : Forall ident comps -> ident c ->
  go_package (join "." (comps ++ [c])) = c +++ "pb".
Proof.
  intros H Hc. assert (comps ++ [c] <> []) as Hne by (now destruct comps).
  assert (Forall ident (comps ++ [c])) as Hid by (apply Forall_app; split; [assumption|now repeat constructor]).
  unfold go_package. rewrite join_ident_nonempty, split_join_ident by assumption. now rewrite last_last.
Qed.
Theorem go_package_v2_versioned comps c v n m : Forall ident comps -> ident c -> ident v ->
  VersionPart v n m -> go_package_v2 (join "." (comps ++ [c; v])) = c +++ v.
Proof.
  intros H Hc Hv HV. assert (comps ++ [c; v] <> []) as Hne by (now destruct comps).
  assert (Forall ident (comps ++ [c; v])) as Hid by (apply Forall_app; split; [assumption|now repeat constructor]).
  unfold go_package_v2. rewrite join_ident_nonempty by assumption.
  rewrite (proj2 (major_beta_version_spec _ n m)).
  2:{ exists (join "." (comps ++ [c])), v. split; [|assumption]. split.
      - replace (comps ++ [c; v]) with ((comps ++ [c]) ++ [v]) by (now rewrite <- app_assoc).
        apply join_snoc. now destruct comps.
      - apply lacks_no_char. now apply ident_no_dot. }
  rewrite split_join_ident by assumption.
  replace (comps ++ [c; v]) with ((comps ++ [c]) ++ [v]) by (now rewrite <- app_assoc).
  now rewrite removelast_last, !last_last.
Qed.
Theorem go_package_v2_unversioned pkg :
  (forall base part n m, last_component pkg base part -> ~ VersionPart part n m) ->
  go_package_v2 pkg = go_package pkg.
Proof.
  intros H. unfold go_package_v2, go_package. destruct (is_empty pkg); [reflexivity|].
  destruct (major_beta_version pkg) as [[n m]|] eqn:E; [|reflexivity].
  apply major_beta_version_spec in E as (base & part & HL & HV). exfalso. exact (H _ _ _ _ HL HV).
Qed.

(** Objective-C prefixes: the parts before any version part, one capital letter
    each, padded with X. *)
Lemma first_letters_length parts : Forall (fun p => p <> EmptyString) parts ->
  String.length (first_letters parts) = length parts.
Proof.
  induction parts as [|p parts IH]; intros H; [reflexivity|]. inversion H as [|? ? Hp Hps]; subst.
  destruct p as [|c p]; [easy|]. simpl. now rewrite IH.
Qed.
Lemma first_letters_upper parts :
  Forall (fun p => exists c r, p = String c r /\ is_letter c = true) parts ->
  sforall is_upper (first_letters parts) = true.
Proof.
  induction parts as [|p parts IH]; intros H; [reflexivity|]. inversion H as [|? ? Hp Hps]; subst.
  destruct Hp as (c & r & -> & Hc). cbn [first_letters sforall]. rewrite IH by assumption.
  rewrite andb_true_r. revert Hc. all_ascii c; vm_compute; congruence.
Qed.
Lemma objc_cases s : s <> EmptyString ->
  (match String.length s with
   | 0 => EmptyString | 1 => s +++ "XX" | 2 => s +++ "X"
   | 3 => if String.eqb s "GPB" then "GPX" else s | _ => s end)
  = (if String.eqb s "GPB" then "GPX" else s +++ srepeat "X" (3 - String.length s)).
Proof.
  destruct s as [|a [|b [|c [|d s]]]]; intros Hs; [easy| | | |];
  cbn [String.length Nat.sub srepeat]; rewrite ?sapp_nil_r.
  - destruct (String.eqb _ _) eqn:E; [apply String.eqb_eq in E; discriminate|reflexivity].
  - destruct (String.eqb _ _) eqn:E; [apply String.eqb_eq in E; discriminate|reflexivity].
  - reflexivity.
  - destruct (String.eqb _ _) eqn:E; [apply String.eqb_eq in E; discriminate|reflexivity].
Qed.
Theorem objc_class_prefix_spec pkg parts :
  parts <> [] -> Forall (fun p => exists c r, p = String c r /\ is_letter c = true /\ ident p) parts ->
  (pkg = join "." parts /\ (forall base part n m, last_component pkg base part -> ~ VersionPart part n m)
   \/ exists v n m, VersionPart v n m /\ ident v /\ pkg = join "." (parts ++ [v])) ->
  let initials := join EmptyString (map initial parts) in
  String.length initials = length parts /\
  objc_class_prefix pkg =
    (if String.eqb initials "GPB" then "GPX" else initials +++ srepeat "X" (3 - length parts)) /\
  3 <= String.length (objc_class_prefix pkg) /\
  all_chars (fun c => is_upper c = true) (objc_class_prefix pkg) /\
  objc_class_prefix pkg <> "GPB".
Proof.
  intros Hn H Hp. cbv zeta. rewrite <- first_letters_initials. set (initials := first_letters parts).
  assert (Forall ident parts) as Hid.
  { eapply Forall_impl; [|exact H]. intros a (c & r & _ & _ & Ha). exact Ha. }
  assert (String.length initials = length parts) as HL.
  { apply first_letters_length. eapply Forall_impl; [|exact Hid]. apply ident_nonempty. }
  assert (initials <> EmptyString) as Hne.
  { intros E. rewrite E in HL. destruct parts; [easy|discriminate]. }
  assert (sforall is_upper initials = true) as HU.
  { apply first_letters_upper. eapply Forall_impl; [|exact H]. intros a (c & r & E & Hc & _). now exists c, r. }
  assert (objc_class_prefix pkg =
    (if String.eqb initials "GPB" then "GPX" else initials +++ srepeat "X" (3 - length parts))) as HE.
  { rewrite <- HL, <- (objc_cases initials Hne). unfold objc_class_prefix.
    destruct Hp as [[-> Hnv]|(v & n & m & HV & Hv & ->)].
    - rewrite join_ident_nonempty by assumption.
      destruct (major_beta_version (join "." parts)) as [[n m]|] eqn:E.
      + apply major_beta_version_spec in E as (base & part & HLc & HV). exfalso; exact (Hnv _ _ _ _ HLc HV).
      + now rewrite split_join_ident.
    - assert (parts ++ [v] <> []) as Hne2 by (now destruct parts).
      assert (Forall ident (parts ++ [v])) as Hid2 by (apply Forall_app; split; [assumption|now repeat constructor]).
      rewrite join_ident_nonempty by assumption.
      rewrite (proj2 (major_beta_version_spec _ n m)).
      2:{ exists (join "." parts), v. split; [|assumption]. split; [now apply join_snoc|].
          apply lacks_no_char. now apply ident_no_dot. }
      now rewrite split_join_ident, removelast_last. }
  split; [exact HL|]. split; [exact HE|]. rewrite HE, <- HL.
  destruct (String.eqb initials "GPB") eqn:EG.
  - repeat split; [simpl; lia| |discriminate].
    eapply (all_chars_sforall is_upper); [|reflexivity]. intros c; reflexivity.
  - assert (forall k, sforall is_upper (srepeat "X" k) = true) as HX
      by (induction k; simpl; auto).
    assert (forall k, String.length (srepeat "X" k) = k) as HXl by (induction k; simpl; auto).
    repeat split.
    + rewrite slength_app, HXl. lia.
    + eapply (all_chars_sforall is_upper); [intros c; reflexivity|]. rewrite sforall_app, HU. apply HX.
    + clear -EG Hne. apply String.eqb_neq in EG. intros E. apply EG.
      destruct initials as [|a [|b [|c i]]]; [easy| | |].
      * cbn in E. injection E. discriminate.
      * cbn in E. injection E. discriminate.
      * replace (3 - String.length (String a (String b (String c i)))) with 0 in E by (simpl; lia).
        simpl srepeat in E. now rewrite sapp_nil_r in E.
Qed.

(** Java outer class names: the file name without directories and extension. *)
Theorem java_outer_classname_spec dirs name :
  ok_comps dirs -> snake_shape is_lower name ->
  java_outer_classname (abs_path (dirs ++ [name +++ ".proto"])) = to_upper_camel_case name +++ "Proto" /\
  camel_shape (java_outer_classname (abs_path (dirs ++ [name +++ ".proto"]))).
Proof.
  intros Hd Hs.
  assert (sforall (fun c => is_lower c || is_digit c || is_underscore c) name = true) as Hch.
  { apply is_lower_snake_shape in Hs. unfold is_lower_snake_case in Hs. now apply andb_true_iff in Hs. }
  assert (no_char slash name = true) as Hslash.
  { unfold no_char. revert Hch. apply sforall_impl. intros c. all_ascii c; vm_compute; congruence. }
  assert (no_char dot name = true) as Hdot.
  { unfold no_char. revert Hch. apply sforall_impl. intros c. all_ascii c; vm_compute; congruence. }
  assert (ok_comp (name +++ ".proto") = true) as Hok.
  { destruct Hs as (Hn & _). apply ok_comp_intro.
    - now destruct name.
    - destruct name as [|a [|b name]]; try easy.
    - destruct name as [|a [|b [|c name]]]; easy.
    - rewrite no_char_app, Hslash. reflexivity. }
  assert (java_outer_classname (abs_path (dirs ++ [name +++ ".proto"])) = to_upper_camel_case name +++ "Proto") as E.
  { unfold java_outer_classname.
    replace (is_empty (abs_path (dirs ++ [name +++ ".proto"]))) with false by reflexivity.
    rewrite path_base_abs by assumption. f_equal. f_equal.
    assert (path_ext (name +++ ".proto") = ".proto") as ->.
    { unfold path_ext. rewrite after_last_slash_no by (rewrite no_char_app, Hslash; reflexivity).
      rewrite sexists_app. cbn [sexists]. rewrite orb_true_r.
      change ".proto" with (String dot "proto"). rewrite split_char_app by assumption. reflexivity. }
    apply trim_suffix_app. }
  split; [exact E|]. rewrite E. pose proof (upper_camel_of_snake name Hs) as HC.
  apply is_camel_shape in HC. apply is_camel_shape. unfold is_camel_case in *.
  apply andb_true_iff in HC as [H1 H2]. rewrite sforall_app, H2. cbn [andb].
  rewrite andb_true_iff. split; [|reflexivity].
  destruct (to_upper_camel_case name); reflexivity.
Qed.
