(** Proofs about printing and ordering failures. *)
From Verif Require Import GoStrFacts Strs_Model Strs_Spec Strs_Proofs Protostrs_Proofs Text_Model Text_Spec.

(** ** Ordering *)
Lemma str_ltb_total a b : str_ltb a b = true \/ a = b \/ str_ltb b a = true.
Proof.
  unfold str_ltb. rewrite !negb_true_iff.
  destruct (str_leb a b) eqn:E1; destruct (str_leb b a) eqn:E2; auto.
  - right; left. now apply str_leb_antisym.
Qed.
Lemma str_ltb_asym a b : str_ltb a b = true -> str_ltb b a = false.
Proof. intros H. apply str_ltb_leb in H. unfold str_ltb. now rewrite H. Qed.
Lemma failure_less_iff x y : failure_less (Some x) (Some y) = true <-> failure_before x y.
Proof.
  unfold failure_before. cbn [failure_less].
  destruct (str_ltb_total (f_filename x) (f_filename y)) as [E|[E|E]].
  - rewrite E. tauto.
  - rewrite E, str_ltb_irrefl.
    destruct (f_line x <? f_line y)%Z eqn:L1; [apply Z.ltb_lt in L1; split; auto|].
    destruct (f_line y <? f_line x)%Z eqn:L2.
    { apply Z.ltb_lt in L2. split; [discriminate|intros [H|[_ [H|[H _]]]]; [discriminate|lia|lia]]. }
    apply Z.ltb_ge in L1, L2. assert (f_line x = f_line y) as EL by lia. rewrite EL.
    destruct (f_column x <? f_column y)%Z eqn:C1; [apply Z.ltb_lt in C1; split; auto 10|].
    destruct (f_column y <? f_column x)%Z eqn:C2.
    { apply Z.ltb_lt in C2. split; [discriminate|].
      intros [H|[_ [H|[_ [H|[H _]]]]]]; [discriminate|lia|lia|lia]. }
    apply Z.ltb_ge in C1, C2. assert (f_column x = f_column y) as EC by lia. rewrite EC.
    destruct (str_ltb_total (f_lint_id x) (f_lint_id y)) as [I|[I|I]].
    + rewrite I. split; auto 10.
    + rewrite I, str_ltb_irrefl. split; [auto 10|].
      intros [H|[_ [H|[_ [H|[_ [H|[_ H]]]]]]]]; (discriminate || lia || assumption).
    + rewrite I, (str_ltb_asym _ _ I). split; [discriminate|].
      intros [H|[_ [H|[_ [H|[_ [H|[H _]]]]]]]]; try (discriminate || lia).
      rewrite H, str_ltb_irrefl in I. discriminate.
  - rewrite E, (str_ltb_asym _ _ E). split; [discriminate|]. intros [H|[H _]]; [discriminate|].
    rewrite H, str_ltb_irrefl in E. discriminate.
Qed.
Lemma failure_eq x y : f_filename x = f_filename y -> f_line x = f_line y -> f_column x = f_column y ->
  f_lint_id x = f_lint_id y -> f_message x = f_message y -> x = y.
Proof. destruct x, y; simpl; intros; congruence. Qed.
Lemma failure_trichotomy x y : failure_before x y \/ x = y \/ failure_before y x.
Proof.
  unfold failure_before.
  destruct (str_ltb_total (f_filename x) (f_filename y)) as [E|[E|E]]; [auto| |auto].
  destruct (Z.lt_trichotomy (f_line x) (f_line y)) as [L|[L|L]]; [auto| |auto 10].
  destruct (Z.lt_trichotomy (f_column x) (f_column y)) as [C|[C|C]]; [auto 10| |auto 10].
  destruct (str_ltb_total (f_lint_id x) (f_lint_id y)) as [I|[I|I]]; [auto 10| |auto 15].
  destruct (str_ltb_total (f_message x) (f_message y)) as [M|[M|M]]; [auto 10| |auto 15].
  right; left. now apply failure_eq.
Qed.
Lemma failure_before_irrefl x : ~ failure_before x x.
Proof. unfold failure_before. rewrite !str_ltb_irrefl. intuition (lia || discriminate). Qed.
Lemma failure_before_trans x y z : failure_before x y -> failure_before y z -> failure_before x z.
Proof.
  unfold failure_before. intros H1 H2.
  destruct H1 as [H1|[E1 H1]].
  - left. destruct H2 as [H2|[E2 _]]; [now apply str_ltb_trans with (f_filename y)|now rewrite <- E2].
  - rewrite E1. destruct H2 as [H2|[E2 H2]]; [now left|right]. split; [assumption|].
    destruct H1 as [H1|[L1 H1]]; destruct H2 as [H2|[L2 H2]]; try (left; lia).
    right. split; [lia|].
    destruct H1 as [H1|[C1 H1]]; destruct H2 as [H2|[C2 H2]]; try (left; lia).
    right. split; [lia|].
    destruct H1 as [H1|[I1 H1]].
    + left. destruct H2 as [H2|[I2 _]]; [now apply str_ltb_trans with (f_lint_id y)|now rewrite <- I2].
    + rewrite I1. destruct H2 as [H2|[I2 H2]]; [now left|right]. split; [assumption|].
      now apply str_ltb_trans with (f_message y).
Qed.

Definition failure_leb (a b : option failure) : bool := negb (failure_less b a).
Definition opt_le (a b : option failure) : Prop :=
  match a, b with None, _ => True | Some _, None => False | Some x, Some y => failure_le x y end.
Lemma failure_leb_iff a b : failure_leb a b = true <-> opt_le a b.
Proof.
  unfold failure_leb. destruct a as [x|], b as [y|]; try (simpl; split; (easy || congruence)).
  rewrite negb_true_iff, <- not_true_iff_false, failure_less_iff. cbn [opt_le]. unfold failure_le. split.
  - intros H. destruct (failure_trichotomy x y) as [T|[T|T]]; tauto.
  - intros [H|H] H'; [|subst; now apply failure_before_irrefl in H'].
    apply (failure_before_irrefl x). now apply failure_before_trans with y.
Qed.
Lemma opt_le_total a b : opt_le a b \/ opt_le b a.
Proof.
  destruct a as [x|], b as [y|]; simpl; auto. unfold failure_le.
  destruct (failure_trichotomy x y) as [T|[T|T]]; auto.
Qed.
Lemma opt_le_trans a b c : opt_le a b -> opt_le b c -> opt_le a c.
Proof.
  destruct a as [x|], b as [y|], c as [z|]; simpl; try tauto. unfold failure_le.
  intros [H1| ->] [H2| ->]; auto. left. now apply failure_before_trans with y.
Qed.
Lemma opt_le_antisym a b : opt_le a b -> opt_le b a -> a = b.
Proof.
  destruct a as [x|], b as [y|]; simpl; try tauto. unfold failure_le.
  intros [H1| ->] [H2|H2]; auto; [|now subst]. exfalso. apply (failure_before_irrefl x).
  now apply failure_before_trans with y.
Qed.
Lemma leb_total a b : failure_leb a b = true \/ failure_leb b a = true.
Proof. rewrite !failure_leb_iff. apply opt_le_total. Qed.
Lemma leb_trans a b c : failure_leb a b = true -> failure_leb b c = true -> failure_leb a c = true.
Proof. rewrite !failure_leb_iff. apply opt_le_trans. Qed.
Lemma leb_antisym a b : failure_leb a b = true -> failure_leb b a = true -> a = b.
Proof. rewrite !failure_leb_iff. apply opt_le_antisym. Qed.
Lemma sort_failures_perm l : Permutation l (sort_failures l).
Proof. apply isort_perm. Qed.
Lemma sort_failures_sorted l : StronglySorted opt_le (sort_failures l).
Proof.
  pose proof (isort_sorted failure_leb leb_total leb_trans l) as S.
  change (isort failure_leb l) with (sort_failures l) in S.
  induction S as [|a l' S IH F]; constructor; auto.
  eapply Forall_impl; [|exact F]. intros b. apply failure_leb_iff.
Qed.
Lemma sort_failures_unique l1 l2 : Permutation l1 l2 -> sort_failures l1 = sort_failures l2.
Proof. exact (isort_unique failure_leb leb_total leb_trans leb_antisym l1 l2). Qed.
Lemma StronglySorted_map_Some l : StronglySorted opt_le (map Some l) -> StronglySorted failure_le l.
Proof.
  induction l as [|x l IH]; intros H; [constructor|]. inversion H as [|? ? S F]; subst.
  constructor; [auto|]. rewrite Forall_forall in *. intros y Hy. now apply (F (Some y)), in_map.
Qed.
Lemma sorted_opt_leb s : StronglySorted opt_le s -> StronglySorted (fun a b => failure_leb a b = true) s.
Proof.
  induction 1 as [|a l' S IH F]; constructor; auto.
  eapply Forall_impl; [|exact F]. intros b. apply failure_leb_iff.
Qed.
Lemma sort_failures_char l s :
  Permutation l s -> StronglySorted opt_le s -> s = sort_failures l.
Proof.
  intros P S. apply (sorted_perm_unique failure_leb leb_antisym).
  - now apply sorted_opt_leb.
  - apply (isort_sorted failure_leb leb_total leb_trans).
  - rewrite <- P. apply sort_failures_perm.
Qed.

(** ** Printing *)
Lemma itoa_zero z : itoa z = "0" <-> z = 0%Z.
Proof.
  split; [|now intros ->]. destruct z as [|p|p]; [easy| |].
  - change (itoa (Z.pos p)) with (itoa_N (N.pos p)). change "0" with (itoa_N 0). intros H.
    apply itoa_N_inj in H. discriminate.
  - discriminate.
Qed.
Lemma shown_int_spec z : shown_int z = itoa (if (z =? 0)%Z then 1 else z).
Proof.
  unfold shown_int. destruct (String.eqb (itoa z) "0") eqn:E.
  - apply String.eqb_eq, itoa_zero in E as ->. reflexivity.
  - apply String.eqb_neq in E. destruct (z =? 0)%Z eqn:Ez; [|reflexivity].
    apply Z.eqb_eq in Ez as ->. now destruct E.
Qed.
Lemma itoa_nonempty z : itoa z <> EmptyString.
Proof.
  destruct z as [|p|p]; [discriminate| |discriminate].
  apply (Decimal_nonempty _ _ (itoa_N_Decimal (N.pos p))).
Qed.
Lemma field_text_nonempty f x t : field_text f x = Some t -> t <> EmptyString.
Proof.
  destruct x; simpl.
  - destruct (is_empty (f_filename f)) eqn:E; intros H; injection H as <-; [discriminate|now apply is_empty_false].
  - intros H; injection H as <-. apply itoa_nonempty.
  - intros H; injection H as <-. apply itoa_nonempty.
  - destruct (is_empty (f_lint_id f)) eqn:E; intros H; [discriminate|injection H as <-; now apply is_empty_false].
  - destruct (is_empty (f_message f)) eqn:E; intros H; [discriminate|injection H as <-; now apply is_empty_false].
  - discriminate.
Qed.
Lemma fprintln_loop_spec f fields : Forall known_field fields ->
  fprintln_loop f fields = (line_text f fields, negb (is_empty (line_text f fields)), None).
Proof.
  induction fields as [|x rest IH]; intros H; [reflexivity|]. inversion H as [|? ? Hx Hr]; subst.
  specialize (IH Hr).
  assert (forall t, t <> EmptyString -> forall u, is_empty (t +++ u) = false) as NE
    by (intros t Ht u; destruct t; easy).
  assert (forall (t : option string),
    (forall s, t = Some s -> s <> EmptyString) ->
    (let '(out, w, e) := fprintln_loop f rest in
     let is_last := match rest with [] => true | _ => false end in
     match t with
     | Some s => (s +++ (if true && negb is_last then ":" else EmptyString) +++ out,
                  true || (true && negb is_last) || w, e)
     | None => (EmptyString +++ (if false && negb is_last then ":" else EmptyString) +++ out,
                  false || (false && negb is_last) || w, e)
     end) =
    (let l := match rest with
              | [] => match t with Some s => s | None => EmptyString end
              | _ => match t with Some s => s +++ ":" | None => EmptyString end +++ line_text f rest
              end in (l, negb (is_empty l), None))) as K.
  { intros t Ht. rewrite IH. destruct t as [s|].
    - specialize (Ht s eq_refl). destruct rest as [|y rest].
      + cbn. rewrite !sapp_nil_r. apply is_empty_false in Ht. now rewrite Ht.
      + cbn [negb andb orb]. rewrite <- sapp_assoc.
        rewrite (NE (s +++ ":")); [reflexivity|]. destruct s; discriminate.
    - destruct rest as [|y rest]; reflexivity. }
  assert (forall t, field_text f x = t -> forall s, t = Some s -> s <> EmptyString) as Hne.
  { intros t Ht s ->. now apply field_text_nonempty in Ht. }
  specialize (K (field_text f x) (Hne _ eq_refl)).
  assert (line_text f (x :: rest) = match rest with
              | [] => match field_text f x with Some s => s | None => EmptyString end
              | _ => match field_text f x with Some s => s +++ ":" | None => EmptyString end +++ line_text f rest
              end) as -> by (now destruct rest).
  cbv zeta in K. rewrite <- K. cbn [fprintln_loop].
  destruct x; cbn [field_text] in *; try contradiction; unfold shown_filename; rewrite ?shown_int_spec.
  - destruct (fprintln_loop f rest) as [[? ?] ?]. reflexivity.
  - destruct (fprintln_loop f rest) as [[? ?] ?]. reflexivity.
  - destruct (fprintln_loop f rest) as [[? ?] ?]. reflexivity.
  - destruct (is_empty (f_lint_id f)); destruct (fprintln_loop f rest) as [[? ?] ?]; reflexivity.
  - destruct (is_empty (f_message f)); destruct (fprintln_loop f rest) as [[? ?] ?]; reflexivity.
Qed.
Theorem fprintln_spec f fields : Forall known_field fields ->
  let line := line_text f (match fields with [] => default_failure_fields | _ => fields end) in
  fprintln f fields =
    (if is_empty line then EmptyString else line +++ String newline EmptyString, None).
Proof.
  intros H line. unfold fprintln.
  assert (Forall known_field (match fields with [] => default_failure_fields | _ => fields end)) as H'.
  { destruct fields; [|assumption]. repeat constructor. }
  rewrite (fprintln_loop_spec f _ H'). fold line. destruct (is_empty line) eqn:E; cbn [negb].
  - apply is_empty_true in E. now rewrite E.
  - reflexivity.
Qed.

(** Recovering the fields of a default line. *)
Lemma itoa_no_colon z : lacks ":" (itoa z).
Proof.
  assert (forall n, lacks ":" (itoa_N n)) as H.
  { intros n. pose proof (Decimal_digits _ _ (itoa_N_Decimal n)) as D. apply lacks_no_char.
    unfold no_char. revert D. apply sforall_impl. intros c. all_ascii c; vm_compute; congruence. }
  destruct z as [|p|p]; [split; [discriminate|exact I]|apply H|].
  simpl. split; [discriminate|]. apply H.
Qed.
Lemma itoa_inj a b : itoa a = itoa b -> a = b.
Proof.
  assert (forall p, itoa_N (N.pos p) = "0" -> False) as H0.
  { intros p H. change "0" with (itoa_N 0) in H. apply itoa_N_inj in H. discriminate. }
  assert (forall n r, itoa_N n = String "-" r -> False) as Hm.
  { intros n r H. pose proof (Decimal_digits _ _ (itoa_N_Decimal n)) as D. rewrite H in D. discriminate. }
  destruct a as [|p|p], b as [|q|q]; try reflexivity; intros H.
  - symmetry in H. apply itoa_zero in H. discriminate.
  - discriminate.
  - apply itoa_zero in H. discriminate.
  - change (itoa_N (N.pos p) = itoa_N (N.pos q)) in H. apply itoa_N_inj in H. congruence.
  - change (itoa_N (N.pos p) = String "-" (itoa_N (N.pos q))) in H. now apply Hm in H.
  - discriminate.
  - change (String "-" (itoa_N (N.pos p)) = itoa_N (N.pos q)) in H. symmetry in H. now apply Hm in H.
  - injection H as H. apply itoa_N_inj in H. congruence.
Qed.
Lemma lacks_cut c a b x y : lacks c a -> lacks c x ->
  a +++ String c b = x +++ String c y -> a = x /\ b = y.
Proof.
  revert x; induction a as [|h a IH]; intros x Ha Hx H; destruct x as [|k x]; simpl in *.
  - now injection H.
  - injection H as -> H. tauto.
  - injection H as -> H. tauto.
  - injection H as -> H. destruct (IH x) as [-> ->]; tauto.
Qed.
Theorem fprintln_default_recover f :
  lacks ":" (f_filename f) ->
  exists out, fprintln f [] = (out +++ String newline EmptyString, None) /\
  (exists a b c d, out = a +++ ":" +++ b +++ ":" +++ c +++ ":" +++ d /\
     lacks ":" a /\ lacks ":" b /\ lacks ":" c) /\
  forall a b c d,
    out = a +++ ":" +++ b +++ ":" +++ c +++ ":" +++ d -> lacks ":" a -> lacks ":" b -> lacks ":" c ->
    a = (if is_empty (f_filename f) then "<input>" else f_filename f) /\
    b = itoa (if (f_line f =? 0)%Z then 1 else f_line f) /\
    c = itoa (if (f_column f =? 0)%Z then 1 else f_column f) /\
    d = f_message f.
Proof.
  intros H. pose proof (fprintln_spec f [] (Forall_nil _)) as S. cbv zeta iota in S.
  set (fn := if is_empty (f_filename f) then "<input>" else f_filename f).
  set (ln := itoa (if (f_line f =? 0)%Z then 1 else f_line f)%Z).
  set (cn := itoa (if (f_column f =? 0)%Z then 1 else f_column f)%Z).
  assert (line_text f default_failure_fields = fn +++ ":" +++ ln +++ ":" +++ cn +++ ":" +++ f_message f) as E.
  { unfold default_failure_fields. cbn [line_text field_text]. fold fn ln cn.
    destruct (is_empty (f_message f)) eqn:Em.
    - apply is_empty_true in Em. rewrite Em, !sapp_assoc. reflexivity.
    - rewrite !sapp_assoc. reflexivity. }
  rewrite E in S.
  assert (lacks ":" fn) as Hfn.
  { unfold fn. destruct (is_empty (f_filename f)); [|exact H]. cbn. repeat (split; [discriminate|]). exact I. }
  assert (lacks ":" ln) as Hln by apply itoa_no_colon.
  assert (lacks ":" cn) as Hcn by apply itoa_no_colon.
  exists (fn +++ ":" +++ ln +++ ":" +++ cn +++ ":" +++ f_message f). split; [|split].
  - rewrite S. assert (is_empty (fn +++ ":" +++ ln +++ ":" +++ cn +++ ":" +++ f_message f) = false) as ->; [|reflexivity].
    destruct fn; reflexivity.
  - now exists fn, ln, cn, (f_message f).
  - intros a b c d Eo Ha Hb Hc.
    apply (lacks_cut ":" fn _ a) in Eo as [-> Eo]; auto.
    apply (lacks_cut ":" ln _ b) in Eo as [-> Eo]; auto.
    apply (lacks_cut ":" cn _ c) in Eo as [-> Eo]; auto.
Qed.

(** Parsing the field list. *)
Lemma parse_failure_field_spec s x :
  parse_failure_field s = Ok x <-> known_field x /\ to_lower s = field_name_of x.
Proof.
  unfold parse_failure_field. split.
  - repeat match goal with |- context[String.eqb ?a ?b] => destruct (String.eqb a b) eqn:?E end;
    intros H; try discriminate; injection H as <-; apply String.eqb_eq in E || idtac;
    split; try exact I; simpl;
    repeat match goal with H : String.eqb _ _ = true |- _ => apply String.eqb_eq in H end; auto.
  - intros [Hk H]. rewrite H. destruct x; try contradiction; reflexivity.
Qed.
Lemma mapM_Ok {A B} (f : A -> result B) l ys :
  mapM f l = Ok ys <-> Forall2 (fun x y => f x = Ok y) l ys.
Proof.
  revert ys; induction l as [|x l IH]; intros ys; cbn [mapM].
  - split; [intros H; injection H as <-; constructor|intros H; now inversion H].
  - destruct (f x) as [y|m] eqn:E; cbn [bind].
    + destruct (mapM f l) as [zs|m] eqn:El; cbn [bind].
      * split.
        -- intros H; injection H as <-. constructor; [assumption|]. now apply IH.
        -- intros H. inversion H as [|? y' ? zs' H1 H2]; subst. rewrite E in H1. injection H1 as ->.
           apply IH in H2. injection H2 as ->. reflexivity.
      * split; [discriminate|]. intros H. inversion H as [|? y' ? zs' H1 H2]; subst.
        apply IH in H2. discriminate.
    + split; [discriminate|]. intros H. inversion H as [|? y' ? zs' H1 H2]; subst. congruence.
Qed.
Lemma Forall2_weaken {A B} (P Q : A -> B -> Prop) l m :
  (forall a b, P a b -> Q a b) -> Forall2 P l m -> Forall2 Q l m.
Proof. intros H. induction 1; constructor; auto. Qed.
Theorem parse_fields_known s fields :
  parse_colon_separated_failure_fields s = Ok fields -> Forall known_field fields /\ fields <> [].
Proof.
  unfold parse_colon_separated_failure_fields. destruct (is_empty s).
  - intros H; injection H as <-. split; [repeat constructor|discriminate].
  - intros H. apply mapM_Ok in H. split.
    + induction H as [|x y l ys Hx Hl IH]; constructor; auto. now apply parse_failure_field_spec in Hx.
    + intros ->. inversion H as [Hs|]; subst. symmetry in Hs. now apply split_char_nonnil in Hs.
Qed.
Theorem parse_fields_spec s fields : s <> EmptyString ->
  (parse_colon_separated_failure_fields s = Ok fields <->
   Forall2 (fun part x => known_field x /\ to_lower part = field_name_of x) (split_char ":" s) fields).
Proof.
  intros Hs. unfold parse_colon_separated_failure_fields. apply is_empty_false in Hs. rewrite Hs.
  rewrite mapM_Ok. split; intros H; (eapply Forall2_weaken; [|exact H]); intros x y; apply parse_failure_field_spec.
Qed.
Theorem accepted_fields_print s fields f :
  parse_colon_separated_failure_fields s = Ok fields -> snd (fprintln f fields) = None.
Proof. intros H. apply parse_fields_known in H as [H _]. now rewrite (fprintln_spec f fields H). Qed.
Lemma fprintln_loop_unknown f fields n :
  In (FOther n) fields -> snd (fprintln_loop f fields) <> None.
Proof.
  induction fields as [|x rest IH]; [easy|]. intros [->|H]; [discriminate|]. specialize (IH H).
  cbn [fprintln_loop]. destruct (fprintln_loop f rest) as [[o w] e]. simpl in IH.
  destruct x; try (destruct (is_empty _)); simpl; try assumption; discriminate.
Qed.
Theorem unknown_field_error f fields n : In (FOther n) fields -> snd (fprintln f fields) <> None.
Proof.
  intros H. unfold fprintln. destruct fields as [|x rest]; [easy|].
  pose proof (fprintln_loop_unknown f (x :: rest) n H) as E.
  destruct (fprintln_loop f (x :: rest)) as [[o w] e]. simpl in E. destruct e; [discriminate|easy].
Qed.
Lemma map_Some_perm (l : list failure) (s : list (option failure)) :
  Permutation (map Some l) s -> exists s', s = map Some s' /\ Permutation l s'.
Proof. intros P. symmetry in P. apply Permutation_map_inv in P as (s' & -> & P). now exists s'. Qed.
Theorem sort_failures_plain (l : list failure) :
  exists s : list failure, sort_failures (map Some l) = map Some s /\
    Permutation l s /\ StronglySorted failure_le s.
Proof.
  destruct (map_Some_perm l _ (sort_failures_perm (map Some l))) as (s & E & P).
  exists s. repeat split; auto. apply StronglySorted_map_Some. rewrite <- E. apply sort_failures_sorted.
Qed.
