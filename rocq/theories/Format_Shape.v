(** Proofs about formatting: the shape of what is printed. *)
From Coq Require Import Permutation Sorted Lia.
From Verif Require Import GoStrFacts Protostrs_Proofs Text_Proofs Format_Spec Format_Model Format_Values.

(** Blank space before a newline only if it is another newline, and a newline at the end. *)
Definition tidy (s : string) : Prop :=
  forall a c b, s = a +++ String c (String newline b) -> is_space c = false \/ c = newline.
Definition closed (s : string) : Prop := s = "" \/ exists t, s = t +++ String newline EmptyString.
Definition neat (s : string) : Prop := tidy s /\ closed s.
Lemma neat_nil : neat "".
Proof. split; [|now left]. intros a c b E. exfalso. now destruct a. Qed.
Lemma app_split : forall a b x y : string, a +++ b = x +++ y ->
  (exists u, a = x +++ u /\ y = u +++ b) \/ (exists u, x = a +++ u /\ b = u +++ y).
Proof.
  induction a as [|c a IH]; intros b x y E.
  - right. exists x. auto.
  - destruct x as [|d x]; [left; exists (String c a); auto|]. cbn in E. injection E as -> E.
    destruct (IH b x y E) as [(u & -> & ->)|(u & -> & ->)]; [left|right]; exists u; auto.
Qed.
Lemma neat_app a b : neat a -> neat b -> neat (a +++ b).
Proof.
  intros [Ta Ca] [Tb Cb]. split.
  - intros x c r E. destruct (app_split _ _ _ _ E) as [(u & Ea & Er)|(u & Ex & Eb)].
    + destruct u as [|d u]; cbn in Er.
      * apply (Tb "" c r). symmetry. exact Er.
      * injection Er as <- Er. destruct u as [|d u]; cbn in Er.
        -- destruct Ca as [->|(t & Et)]; [now destruct x|]. right. rewrite Et in Ea.
           assert (last_char (t +++ String newline EmptyString) = last_char (x +++ String c EmptyString)) as L by now rewrite Ea.
           rewrite !last_char_app in L. now injection L.
        -- injection Er as <- Er. apply (Ta x c u). exact Ea.
    + apply (Tb u c r). exact Eb.
  - destruct Cb as [->|(t & ->)]; [rewrite sapp_nil_r; exact Ca|]. right. exists (a +++ t). now rewrite sapp_assoc.
Qed.
Lemma no_newline_split t a b : one_line t -> t <> a +++ String newline b.
Proof. intros H ->. unfold one_line, no_char in H. rewrite sforall_app in H. cbn in H. apply andb_true_iff in H as [_ H]. discriminate. Qed.
Lemma neat_line t : one_line t -> no_blank_end t -> neat (t +++ String newline EmptyString).
Proof.
  intros H1 H2. split; [|right; eauto]. intros a c b E.
  destruct (app_split _ _ _ _ E) as [(u & Et & Er)|(u & Ea & Eb)].
  - destruct u as [|d u]; cbn in Er; [discriminate|]. injection Er as <- Er. destruct u as [|e u]; cbn in Er.
    + left. now apply (H2 a).
    + injection Er as <- Er. exfalso. apply (no_newline_split t (a +++ String c EmptyString) u H1). now rewrite sapp_assoc.
  - destruct u as [|d u]; cbn in Eb; [|injection Eb as _ Eb; now destruct u].
    discriminate.
Qed.
Lemma trim_no_blank t : no_blank_end (trim_right is_space t).
Proof. intros l c E. apply (trim_right_last is_space t). rewrite E. apply last_char_app. Qed.
Lemma one_line_app a b : one_line (a +++ b) <-> one_line a /\ one_line b.
Proof. unfold one_line, no_char. rewrite sforall_app. apply andb_true_iff. Qed.
Lemma one_line_trim f t : one_line t -> one_line (trim_right f t).
Proof. unfold one_line, no_char. intros H. destruct (trim_right_spec f t) as (p & E & _). rewrite E, sforall_app in H. now apply andb_true_iff in H. Qed.
Lemma one_line_trim_left f t : one_line t -> one_line (trim_left f t).
Proof. unfold one_line, no_char. intros H. destruct (trim_left_spec f t) as (p & E & _). rewrite E, sforall_app in H. now apply andb_true_iff in H. Qed.
Lemma one_line_repeat n : one_line (srepeat "  " n).
Proof. induction n as [|n IH]; [reflexivity|]. exact IH. Qed.
Lemma one_line_cat l : Forall one_line l -> one_line (cat l).
Proof. induction 1; [reflexivity|]. cbn [cat]. now apply one_line_app. Qed.
Lemma P_neat n args : Forall one_line args -> neat (P n args).
Proof.
  intros H. destruct args as [|a args]; [apply (neat_line ""); [reflexivity|intros l c E; now destruct l]|].
  unfold P. cbv zeta. destruct (is_empty _).
  - apply (neat_line ""); [reflexivity|intros l c E; now destruct l].
  - apply neat_line; [|apply trim_no_blank]. apply one_line_trim, one_line_app. split; [apply one_line_repeat|now apply one_line_cat].
Qed.
Lemma cat_neat l : Forall neat l -> neat (cat l).
Proof. induction 1; [apply neat_nil|]. cbn [cat]. now apply neat_app. Qed.
Lemma Forall_map_in {A B} (f : A -> B) (Q : B -> Prop) l : (forall x, In x l -> Q (f x)) -> Forall Q (map f l).
Proof. intros H. apply Forall_forall. intros y Hy. apply in_map_iff in Hy as (x & <- & Hx). now apply H. Qed.
Lemma remarks_neat n ls : Forall one_line ls -> neat (cat (map (fun line => P n ["//"; clean_comment_line line]) ls)).
Proof.
  intros H. apply cat_neat, Forall_map_in. intros x Hx. rewrite Forall_forall in H. apply P_neat.
  constructor; [reflexivity|]. constructor; [|constructor]. now apply one_line_trim_left, H.
Qed.
Lemma p_comment_neat n c : comment_plain c -> neat (p_comment n c).
Proof. destruct c as [c|]; intros H; [now apply remarks_neat|apply neat_nil]. Qed.
Lemma p_inline_neat n c args : comment_plain c -> Forall one_line args -> neat (p_inline n c args).
Proof.
  intros Hc Ha. destruct c as [c|]; cbn [p_inline]; [|now apply P_neat]. cbn in Hc.
  destruct (c_lines c) as [|l ls]; [now apply P_neat|]. inversion Hc; subst. apply neat_app; [|now apply remarks_neat].
  apply P_neat. apply Forall_app. split; [assumption|]. constructor; [reflexivity|]. constructor; [|constructor]. now apply one_line_trim_left.
Qed.
Lemma one_line_char c : c <> newline -> one_line (String c EmptyString).
Proof. intros H. unfold one_line, no_char. cbn [sforall]. destruct (Ascii.eqb c newline) eqn:E; [apply Ascii.eqb_eq in E; easy|reflexivity]. Qed.
Lemma one_line_cons c s : c <> newline -> one_line s -> one_line (String c s).
Proof. intros H Hs. change (String c s) with (String c EmptyString +++ s). apply one_line_app. split; [now apply one_line_char|assumption]. Qed.
Lemma source_line l : literal_plain l -> one_line (source_of l).
Proof.
  destruct l as [src b q arr mp]. intros (H & Hq & _). unfold source_of. cbn. destruct b; [|assumption].
  assert ((match q with Some c => c | None => dquote end) <> newline) as X by (destruct q; [congruence|discriminate]).
  apply one_line_cons; [assumption|]. apply one_line_app. split; [assumption|]. now apply one_line_char.
Qed.
Lemma one_line_N n : one_line (itoa_N n).
Proof.
  unfold one_line, no_char. pose proof (Decimal_digits _ _ (itoa_N_Decimal n)) as D. revert D. apply sforall_impl.
  intros c. all_ascii c; vm_compute; congruence.
Qed.
Lemma one_line_itoa z : one_line (itoa z).
Proof. destruct z as [|p|p]; [reflexivity|apply one_line_N|]. cbn. apply one_line_N. Qed.
Lemma one_line_join sep l : one_line sep -> Forall one_line l -> one_line (join sep l).
Proof.
  intros Hs H. induction H as [|x l Hx H IH]; [reflexivity|]. destruct l as [|y l]; [exact Hx|].
  rewrite join_cons2. apply one_line_app. split; [assumption|]. now apply one_line_app.
Qed.
Lemma one_line_range r : one_line (range_text r).
Proof.
  unfold range_text. destruct (rg_max r); [apply one_line_app; split; [apply one_line_itoa|reflexivity]|].
  destruct (Z.eqb _ _); [apply one_line_itoa|]. apply one_line_app. split; [apply one_line_itoa|].
  apply one_line_app. split; [reflexivity|apply one_line_itoa].
Qed.
Ltac lines :=
  repeat first
    [ assumption | reflexivity | apply one_line_itoa | apply one_line_range
    | match goal with
      | |- Forall _ [] => constructor
      | |- Forall _ (_ :: _) => constructor
      | |- Forall _ (_ ++ _) => apply Forall_app; split
      | |- one_line (if ?b then _ else _) => destruct b
      | |- one_line (_ +++ _) => apply one_line_app; split
      end ].
Section LiteralInd.
  Variable Q : literal -> Prop.
  Hypothesis H : forall src b q arr mp, Forall Q arr -> Forall (fun e => Q (snd e)) mp -> Q (mk_literal src b q arr mp).
  Fixpoint literal_rec' (l : literal) : Q l :=
    match l with
    | mk_literal src b q arr mp =>
        H src b q arr mp
          ((fix go (a : list literal) : Forall Q a :=
              match a with [] => Forall_nil _ | x :: r => Forall_cons x (literal_rec' x) (go r) end) arr)
          ((fix go (m : list (string * literal)) : Forall (fun e => Q (snd e)) m :=
              match m with [] => Forall_nil _ | (k, v) :: r => @Forall_cons _ (fun e => Q (snd e)) (k, v) r (literal_rec' v) (go r) end) mp)
    end.
End LiteralInd.
Lemma p_inner_neat l : forall n name suffix, literal_plain l -> one_line name -> one_line suffix -> neat (p_inner n name l suffix).
Proof.
  induction l as [src b q arr mp IHa IHm] using literal_rec'. intros n name suffix H Hn Hs.
  assert (one_line (if is_empty name then "" else name +++ ": ")) as Hp by lines.
  pose proof H as (_ & _ & Ha & Hm). cbn [p_inner].
  destruct (is_single_value _).
  - destruct (is_empty (source_of _)); [apply neat_nil|]. apply P_neat. lines. now apply source_line.
  - assert (neat ((fix items (a : list literal) : string :=
               match a with [] => "" | x :: r => p_inner (S n) "" x (match r with [] => "" | _ => "," end) +++ items r end) arr)) as Ni.
    { clear - IHa Ha. revert Ha. induction IHa as [|x r Hx _ IH]; intros Ha; [apply neat_nil|]. destruct Ha as [H1 H2].
      apply neat_app; [apply Hx; [assumption|reflexivity|destruct r; reflexivity]|now apply IH]. }
    assert (neat ((fix entries (m : list (string * literal)) : string :=
               match m with [] => "" | (k, v) :: r => p_inner (S n) k v "" +++ entries r end) mp)) as Ne.
    { clear - IHm Hm. revert Hm. induction IHm as [|[k v] r Hx _ IH]; intros Hm; [apply neat_nil|]. destruct Hm as [[H0 H1] H2].
      apply neat_app; [apply Hx; [assumption|assumption|reflexivity]|now apply IH]. }
    destruct arr as [|a0 arr0]; (apply neat_app; [apply P_neat; lines|apply neat_app; [assumption|apply P_neat; lines]]).
Qed.
Definition shaped (o : out) : Prop := neat (fst o).
Lemma shaped_says s : neat s -> shaped (says s).
Proof. exact (fun H => H). Qed.
Lemma shaped_seq a b : shaped a -> shaped b -> shaped (seq a b).
Proof. apply neat_app. Qed.
Lemma shaped_nil : shaped (says "").
Proof. apply neat_nil. Qed.
Lemma shaped_outs l : Forall shaped l -> shaped (outs l).
Proof. induction 1; [apply shaped_nil|]. now apply shaped_seq. Qed.
Lemma p_option_shaped n prefix suffix o : option_plain o -> one_line prefix -> one_line suffix -> shaped (p_option n prefix suffix o).
Proof.
  intros (Hn & Hl & Hc & Hi) Hp Hs. unfold p_option. apply shaped_seq; [now apply p_comment_neat|].
  destruct (is_single_value (o_const o)).
  - destruct (is_empty _); [apply shaped_nil|]. apply shaped_says, p_inline_neat; [assumption|]. lines. now apply source_line.
  - destruct (l_array (o_const o)); [|apply neat_nil]. apply shaped_says.
    apply neat_app; [apply P_neat; lines|]. apply neat_app; [|apply p_inline_neat; [assumption|lines]].
    apply cat_neat, Forall_map_in. intros [k v] Hin. cbn [fst snd].
    destruct (o_const o) as [src b q arr mp]. destruct Hl as (_ & _ & _ & Hm). cbn [l_map] in Hin.
    assert (one_line k /\ literal_plain v) as [Hk Hv].
    { clear - Hm Hin. induction mp as [|[k' v'] r IH]; [easy|]. destruct Hm as [Hm1 Hm2]. destruct Hin as [E|Hin]; [|now apply IH].
      injection E as -> ->. exact Hm1. }
    now apply p_inner_neat.
Qed.
Lemma option_list_shaped n is_field os : Forall option_plain os -> shaped (p_option_list n is_field os).
Proof.
  induction 1 as [|o os H _ IH]; [apply shaped_nil|]. cbn [p_option_list]. apply shaped_seq; [|exact IH].
  apply p_option_shaped; [assumption|destruct is_field; reflexivity|destruct is_field; [destruct os|]; reflexivity].
Qed.
Section Shape.
  Variable sort_options : list opt -> list opt.
  Variable sort_imports : list import -> list import.
  Hypothesis sort_o : forall l, Permutation l (sort_options l).
  Hypothesis sort_i : forall l, Permutation l (sort_imports l).
  Lemma options_shaped n b os : Forall option_plain os -> shaped (p_options sort_options n b os).
  Proof. intros H. apply option_list_shaped. eapply Permutation_Forall; [apply sort_o|assumption]. Qed.
  Lemma field_shaped n prefix name ftype tag c inline os : one_line prefix -> one_line name -> one_line ftype -> comment_plain c ->
    comment_plain inline -> Forall option_plain os -> shaped (p_message_or_enum_field sort_options n prefix name ftype tag c inline os).
  Proof.
    intros Hp Hn Ht Hc Hi Ho. unfold p_message_or_enum_field. cbv zeta. apply shaped_seq; [now apply p_comment_neat|].
    set (ft := if is_empty ftype then ftype else ftype +++ " "). assert (one_line ft) as Hft by (subst ft; lines). clearbody ft.
    assert (shaped (outs [says (P n [prefix; ft; name; " = "; itoa tag; " ["]); p_options sort_options (S n) true os; says (p_inline n inline ["];"])])) as Hlong.
    { apply shaped_outs. constructor; [apply P_neat; lines|]. constructor; [now apply options_shaped|].
      constructor; [|constructor]. apply p_inline_neat; [assumption|lines]. }
    destruct os as [|o [|o' os']]; [|destruct (is_single_value (o_const o)); [destruct (is_empty _)|]|]; try exact Hlong.
    - apply p_inline_neat; [assumption|lines].
    - inversion Ho as [|? ? (Hon & Hol & _) _]; subst. apply p_inline_neat; [assumption|]. lines. now apply source_line.
  Qed.
  Lemma reserved_shaped n r : plain (EReserved r) -> shaped (visit_reserved n r).
  Proof.
    intros (Hn & Hc & Hi). unfold visit_reserved.
    destruct (rs_ranges r) as [|x l], (rs_names r) as [|y m].
    - now apply p_comment_neat.
    - apply neat_app; [now apply p_comment_neat|]. apply p_inline_neat; [assumption|]. lines.
      apply one_line_join; [reflexivity|]. apply Forall_map_in. intros z Hz. rewrite Forall_forall in Hn.
      apply one_line_cons; [discriminate|]. apply one_line_app. split; [now apply Hn|reflexivity].
    - apply neat_app; [now apply p_comment_neat|]. apply p_inline_neat; [assumption|]. lines.
      apply one_line_join; [reflexivity|]. apply Forall_map_in. intros z Hz. apply one_line_range.
    - apply neat_nil.
  Qed.
  Lemma rpc_shaped n r es : plain (ERPC r es) -> shaped (visit_rpc sort_options n r).
  Proof.
    intros (Hn & Hq & Hr & Ho & Hc & Hi). unfold visit_rpc. cbv zeta. apply shaped_seq; [now apply p_comment_neat|].
    destruct (r_options r) as [|o os].
    - apply p_inline_neat; [assumption|lines].
    - apply shaped_outs. constructor; [apply P_neat; lines|]. constructor; [now apply options_shaped|].
      constructor; [|constructor]. apply p_inline_neat; [assumption|lines].
  Qed.
  Lemma block_shaped n c opening none children be ba : comment_plain c -> Forall one_line opening -> shaped children ->
    shaped (block n c opening none children be ba).
  Proof.
    intros Hc Ho Hch. unfold block. assert (forall b : bool, neat (if b then P n [] else "")) as Hb by (intros []; [now apply P_neat|apply neat_nil]).
    destruct none.
    - apply neat_app; [now apply p_comment_neat|]. apply neat_app; [apply P_neat; lines|apply Hb].
    - apply shaped_outs. constructor; [|constructor; [exact Hch|constructor; [|constructor]]].
      + apply neat_app; [now apply p_comment_neat|]. apply P_neat; lines.
      + apply neat_app; [apply P_neat; lines|apply Hb].
  Qed.
  Lemma visit_shaped proto2 e : forall p n hit, plain e -> shaped (visit sort_options proto2 p n hit e).
  Proof.
    assert (forall p n es, Forall (fun e => forall p n hit, plain e -> shaped (visit sort_options proto2 p n hit e)) es ->
      (fix all (es : list element) : Prop := match es with [] => True | x :: r => plain x /\ all r end) es ->
      shaped ((fix go (es : list element) : out :=
         match es with [] => says "" | x :: r => seq (visit sort_options proto2 p (S n) true x) (go r) end) es)) as Hkids.
    { intros p n es IH. induction IH as [|x r Hx _ IH]; intros H; [apply shaped_nil|]. destruct H as [H1 H2].
      apply shaped_seq; [now apply Hx|now apply IH]. }
    induction e as [c|s|pk|i|o|k f|r|x|f es IH|h es IH|h x es IH|h es IH|h o g es IH|h es IH|r es IH] using element_ind';
      intros p n hit H; cbn [visit]; try apply shaped_nil.
    - destruct hit; [|apply shaped_nil]. apply neat_app; [now apply p_comment_neat|now apply P_neat].
    - unfold visit_option. destruct p; try (apply options_shaped; now constructor); apply shaped_nil.
    - destruct H as (Hk & Ht & Hn & Ho & Hc & Hi). unfold visit_field, p_field.
      destruct k as [a b d| |key]; apply field_shaped; lines.
    - now apply reserved_shaped.
    - destruct H as (Hc & Hi). apply neat_app; [now apply p_comment_neat|]. apply p_inline_neat; [assumption|]. lines.
      apply one_line_join; [reflexivity|]. apply Forall_map_in. intros z Hz. apply one_line_range.
    - destruct H as (Hn & Ha & Hc & Hi). unfold p_enum_field. apply field_shaped; lines.
      clear - Ha. induction es as [|e es IH]; [constructor|]. destruct Ha as [H1 H2]. unfold options_of. cbn [map concat].
      apply Forall_app. split; [|now apply IH]. destruct e; lines.
    - destruct H as (Hn & Hc & Ha). apply block_shaped; [assumption|lines|now apply Hkids].
    - destruct H as (Hn & Hc & Ha). apply block_shaped; [assumption|lines|now apply Hkids].
    - destruct H as (Hn & Hc & Ha). apply block_shaped; [assumption|lines|now apply Hkids].
    - destruct H as (Hn & Hc & Ha). apply block_shaped; [assumption|lines|now apply Hkids].
    - destruct H as (Hn & Hc & Ha). apply block_shaped; [assumption|lines|now apply Hkids].
    - now apply (rpc_shaped n r es).
  Qed.
  Lemma main_shaped proto2 es : forall hit, Forall plain es -> shaped (main_loop sort_options proto2 hit es).
  Proof.
    induction es as [|e es IH]; intros hit H; [apply shaped_nil|]. inversion H; subst. cbn [main_loop].
    apply shaped_seq; [now apply visit_shaped|now apply IH].
  Qed.

  Section Fix.
    Variable filename : string.
    Variable fx : fix_kind.
    Variable header prefix : string.
    Hypothesis filename_line : one_line filename.
    Hypothesis prefix_line : one_line prefix.
    Hypothesis header_lines : Forall no_blank_end (split_char newline header).
    Definition opt_plain (o : option opt) : Prop := match o with None => True | Some o => option_plain o end.
    Ltac st := cbn [first_visit fp_hits fp_with fp_syntax fp_package fp_options fp_imports fp_hit fp_out fp_csharp fp_go fp_java_multiple fp_java_class fp_java fp_objc fp_php].
    Definition state_plain (v : first_pass) : Prop :=
      shaped (fp_out v) /\ match fp_syntax v with None => True | Some s => plain (ESyntax s) end /\
      match fp_package v with None => True | Some p => plain (EPackage p) end /\
      Forall option_plain (fp_options v) /\ Forall (fun i => plain (EImport i)) (fp_imports v) /\
      opt_plain (fp_csharp v) /\ opt_plain (fp_go v) /\ opt_plain (fp_java_multiple v) /\ opt_plain (fp_java_class v) /\
      opt_plain (fp_java v) /\ opt_plain (fp_objc v) /\ opt_plain (fp_php v).
    Lemma visit_plain v e : plain e -> state_plain v -> state_plain (first_visit fx header v e).
    Proof.
      intros He Hv. pose proof Hv as (H1 & H2 & H3 & H4 & H5 & H6 & H7 & H8 & H9 & H10 & H11 & H12).
      destruct e as [c|s|pk|i|o|k f|r|x|f l|h l|h x l|h l|h o g l|h l|r l];
        try (unfold state_plain; st; repeat (split; [assumption|]); assumption).
      - cbn [first_visit]. destruct (fp_hit v); [assumption|]. destruct (_ || _); [|assumption].
        unfold state_plain. st. split; [|repeat (split; [assumption|]); assumption].
        apply shaped_seq; [assumption|]. apply neat_app; [now apply p_comment_neat|now apply P_neat].
      - cbn [first_visit]. destruct (fp_syntax v) eqn:E; unfold state_plain; st; rewrite ?E; repeat (split; [assumption|]); try assumption.
        split; [apply shaped_seq; [assumption|apply neat_nil]|]. repeat (split; [assumption|]); assumption.
      - cbn [first_visit]. destruct (fp_package v) eqn:E; unfold state_plain; st; rewrite ?E; repeat (split; [assumption|]); try assumption.
        split; [apply shaped_seq; [assumption|apply neat_nil]|]. repeat (split; [assumption|]); assumption.
      - unfold state_plain. st. repeat (split; [assumption|]). split; [|repeat (split; [assumption|]); assumption].
        apply Forall_app. split; [assumption|]. constructor; [exact He|constructor].
      - cbn [first_visit]. unfold first_option. cbv zeta.
        assert (Forall option_plain (fp_options v ++ [o])) as Ho by (apply Forall_app; split; [assumption|constructor; [exact He|constructor]]).
        destruct (fix_none fx); [unfold state_plain; st; repeat (split; [assumption|]); assumption|].
        repeat match goal with |- state_plain (if ?b then _ else _) => destruct b end;
          unfold state_plain; st; repeat (split; [assumption|]); assumption.
    Qed.
    Lemma state_all es : Forall plain es -> forall v, state_plain v -> state_plain (fold_left (first_visit fx header) es v).
    Proof. induction 1 as [|e es He _ IH]; intros v Hv; [assumption|]. cbn [fold_left]. apply IH. now apply visit_plain. Qed.
    Lemma state_0 : state_plain first_pass_0.
    Proof. unfold state_plain. cbn. split; [apply neat_nil|]. repeat (split; [exact I || constructor|]). exact I. Qed.
    Lemma newline_ok_upper c : negb (Ascii.eqb c newline) = true -> negb (Ascii.eqb (upper_char c) newline) = true.
    Proof. all_ascii c; vm_compute; congruence. Qed.
    Lemma newline_ok_lower c : negb (Ascii.eqb c newline) = true -> negb (Ascii.eqb (lower_char c) newline) = true.
    Proof. all_ascii c; vm_compute; congruence. Qed.
    Lemma newline_ok_usual c : is_letter c = true \/ is_digit c = true \/ c = "."%char \/ c = "-"%char \/ c = "/"%char -> negb (Ascii.eqb c newline) = true.
    Proof. intros [H|[H|[->|[->| ->]]]]; try reflexivity; revert H; all_ascii c; vm_compute; congruence. Qed.
    Lemma replace_line c r s : one_line r -> one_line s -> one_line (replace_char c r s).
    Proof.
      intros Hr. induction s as [|d s IH]; intros H; [reflexivity|]. change (String d s) with (String d EmptyString +++ s) in H.
      apply one_line_app in H as [H1 H2]. cbn [replace_char]. destruct (Ascii.eqb d c); [apply one_line_app; auto|].
      change (String d (replace_char c r s)) with (String d EmptyString +++ replace_char c r s). apply one_line_app. auto.
    Qed.
    Lemma with_plain name o l : one_line name -> literal_plain l -> opt_plain o -> option_plain (with_const name o l).
    Proof. intros Hn Hl Ho. destruct o as [o|]; cbn; [|unfold option_plain; cbn; auto]. destruct Ho as (A & B & C & D). unfold option_plain. cbn. auto. Qed.
    Lemma string_plain s : one_line s -> literal_plain (string_literal s).
    Proof. intros H. cbn. split; [assumption|]. split; [discriminate|]. split; exact I. Qed.
    Lemma managed_plain v pkg : one_line pkg -> state_plain v -> Forall option_plain (managed filename fx prefix v pkg).
    Proof.
      intros Hp (H1 & H2 & H3 & H4 & H5 & H6 & H7 & H8 & H9 & H10 & H11 & H12).
      pose proof newline_ok_upper. pose proof newline_ok_lower. pose proof newline_ok_usual. unfold managed.
      apply Forall_app. split.
      - constructor; [apply with_plain; [reflexivity|apply string_plain|assumption]|constructor; [|constructor; [|constructor; [|constructor]]]].
        + destruct (fix_v2 fx); [now apply chars_go_v2|now apply chars_go].
        + apply with_plain; [reflexivity| |assumption]. cbn. split; [reflexivity|]. split; [discriminate|]. split; exact I.
        + apply with_plain; [reflexivity| |assumption]. apply string_plain. now apply chars_class.
        + apply with_plain; [reflexivity| |assumption]. apply string_plain. now apply chars_java.
      - destruct (fix_v2 fx); [|constructor]. constructor; [|constructor; [|constructor; [|constructor]]].
        + apply with_plain; [reflexivity| |assumption]. apply string_plain. now apply chars_csharp.
        + apply with_plain; [reflexivity| |assumption]. apply string_plain. now apply chars_objc.
        + apply with_plain; [reflexivity| |assumption]. apply string_plain. apply replace_line; [reflexivity|]. now apply chars_csharp.
    Qed.
    (** *** Lines and adjacent characters *)
    Lemma tidy_sub a b c : tidy (a +++ b +++ c) -> tidy b.
    Proof. intros H x d r E. apply (H (a +++ x) d (r +++ c)). rewrite E, !sapp_assoc. reflexivity. Qed.
    Lemma lines_tidy s : tidy (s +++ String newline EmptyString) -> Forall no_blank_end (split_char newline s).
    Proof.
      intros H. assert (forall l, In l (split_char newline s) -> exists a b, s +++ String newline EmptyString = a +++ l +++ String newline b) as Hin.
      { clear H. intros l Hl. apply in_split in Hl as (l1 & l2 & El). rewrite <- (join_split newline s), El. clear.
        assert (forall l1 l l2, exists a b, join (String newline EmptyString) (l1 ++ l :: l2) +++ String newline EmptyString = a +++ l +++ String newline b) as Hj.
        { clear. induction l1 as [|x l1 IH]; intros l l2.
          - destruct l2 as [|y l2]; [exists "", ""; reflexivity|]. cbn [app]. rewrite join_cons2. exists "".
            exists (join (String newline EmptyString) (y :: l2) +++ String newline EmptyString). cbn [String.append]. now rewrite sapp_assoc.
          - destruct (IH l l2) as (a & b & E). cbn [app].
            destruct (l1 ++ l :: l2) as [|y m] eqn:Em; [now destruct l1|]. rewrite join_cons2. rewrite !sapp_assoc. rewrite E.
            exists (x +++ String newline a), b. now rewrite sapp_assoc. }
        apply Hj. }
      apply Forall_forall. intros l Hl t c Et. destruct (Hin l Hl) as (a & b & E).
      destruct (H (a +++ t) c b) as [X| ->]; [rewrite E, Et, !sapp_assoc; reflexivity|assumption|].
      exfalso. pose proof (split_char_parts newline s) as Hp. rewrite Forall_forall in Hp. specialize (Hp l Hl).
      now apply (no_newline_split l t "") in Hp.
    Qed.
    Lemma tidy_lines s : Forall no_blank_end (split_char newline s) -> tidy (s +++ String newline EmptyString).
    Proof.
      intros H. rewrite <- (join_split newline s). pose proof (split_char_parts newline s) as Hp. revert H Hp.
      pose proof (split_char_nonnil newline s) as Hne. generalize (split_char newline s) Hne. clear.
      assert (forall l, l <> [] -> Forall no_blank_end l -> Forall (fun x => no_char newline x = true) l ->
        neat (join (String newline EmptyString) l +++ String newline EmptyString)) as HJ.
      { induction l as [|x l IH]; intros Hne H Hp; [easy|]. inversion H; inversion Hp; subst. destruct l as [|y l]; [now apply neat_line|].
        rewrite join_cons2, !sapp_assoc, <- (sapp_assoc x). apply neat_app; [now apply neat_line|]. now apply IH. }
      intros l Hne H Hp. now apply HJ.
    Qed.
    Lemma split_trim_right s : Forall no_blank_end (split_char newline s) -> tidy (trim_right is_space s +++ String newline EmptyString).
    Proof.
      intros H. apply tidy_lines in H. intros a c b E. destruct (app_split _ _ _ _ E) as [(u & Et & Er)|(u & Ea & Eb)].
      - destruct u as [|d u]; cbn in Er; [discriminate|]. injection Er as <- Er. destruct u as [|e u]; cbn in Er.
        + left. apply (trim_right_last is_space s). rewrite Et. apply last_char_app.
        + injection Er as <- Er. destruct (trim_right_spec is_space s) as (p & Es & _).
          apply (H a c (u +++ p +++ String newline EmptyString)). rewrite Es at 1. rewrite Et, !sapp_assoc. reflexivity.
      - destruct u as [|d u]; cbn in Eb; [|injection Eb as _ Eb; now destruct u]. discriminate.
    Qed.
    Lemma header_neat : neat (P 0 [header]).
    Proof.
      unfold P. cbn [srepeat cat]. change ("" +++ ?x) with x. rewrite sapp_nil_r. cbv zeta. destruct (is_empty _).
      - apply (neat_line ""); [reflexivity|intros l c E; now destruct l].
      - split; [now apply split_trim_right|right; eauto].
    Qed.
    Lemma first_shaped v : state_plain v -> shaped (first_do sort_options sort_imports filename fx header prefix v).
    Proof.
      intros Hv. pose proof Hv as (H1 & H2 & H3 & H4 & H5 & _). unfold first_do. cbv zeta. apply shaped_outs.
      constructor; [assumption|]. constructor; [destruct (_ || _); [apply shaped_nil|apply neat_app; [apply header_neat|now apply P_neat]]|].
      constructor.
      { destruct (fp_syntax v) as [s|]; [|apply shaped_nil]. destruct H2 as (A & B & C). apply neat_app; [now apply p_comment_neat|].
        apply neat_app; [destruct (sx_comment s); [now apply P_neat|apply neat_nil]|]. apply neat_app; [|now apply P_neat].
        apply p_inline_neat; [assumption|lines]. }
      constructor.
      { destruct (fp_package v) as [s|]; [|apply shaped_nil]. destruct H3 as (A & B & C). apply neat_app; [now apply p_comment_neat|].
        apply neat_app; [|now apply P_neat]. apply p_inline_neat; [assumption|lines]. }
      constructor.
      { match goal with |- shaped (match ?l with _ => _ end) => set (os := l) end.
        assert (Forall option_plain os) as Ho.
        { subst os. destruct (fix_none fx); [assumption|]. destruct (fp_package v) as [p|]; [|assumption].
          apply Forall_app. split; [assumption|]. apply managed_plain; [apply H3|assumption]. }
        clearbody os. destruct os; [apply shaped_nil|]. apply shaped_seq; [now apply options_shaped|now apply P_neat]. }
      constructor; [|constructor]. destruct (fp_imports v) as [|i l] eqn:Ei; [apply shaped_nil|]. rewrite <- Ei in *.
      apply neat_app; [|now apply P_neat]. unfold p_imports. apply cat_neat, Forall_map_in. intros j Hj.
      assert (In j (fp_imports v)) as Hj' by (eapply Permutation_in; [symmetry; apply sort_i|exact Hj]).
      rewrite Forall_forall in H5. destruct (H5 j Hj') as (A & B & C & D). unfold p_import. cbv zeta.
      apply neat_app; [now apply p_comment_neat|]. apply p_inline_neat; [assumption|lines].
    Qed.
    Lemma trim_space_shape s : trim_space s <> "" ->
      (forall c r, trim_space s = String c r -> is_space c = false) /\ exists a b, s = a +++ trim_space s +++ b.
    Proof.
      intros Hne. unfold trim_space in *. destruct (trim_left_spec is_space s) as (p & Es & Hp).
      destruct (trim_right_spec is_space (trim_left is_space s)) as (q & Et & Hq). split.
      - intros c r E. rewrite E in Et. cbn in Et.
        destruct (is_space c) eqn:Ec; [|reflexivity]. exfalso.
        assert (trim_left is_space (trim_left is_space s) = trim_left is_space s) as Id.
        { clear. induction s as [|c s IH]; [reflexivity|]. cbn [trim_left]. destruct (is_space c) eqn:E; [exact IH|]. cbn [trim_left]. now rewrite E. }
        rewrite Et in Id. cbn [trim_left] in Id. rewrite Ec in Id.
        destruct (trim_left_spec is_space (r +++ q)) as (z & Ez & _). rewrite Id in Ez.
        apply (f_equal String.length) in Ez. rewrite (slength_app z) in Ez. cbn [String.length] in Ez. lia.
      - exists p, q. rewrite <- Et. exact Es.
    Qed.
    Lemma transform_shaped es text fs : Forall plain es ->
      transform_elements sort_options sort_imports filename fx header prefix es = Ok (text, fs) -> well_shaped text.
    Proof.
      intros He. unfold transform_elements. cbv zeta. set (v := fold_left _ es _).
      assert (state_plain v) as Hv by (apply state_all; [assumption|apply state_0]).
      intros E. destruct (match fp_syntax v with None => _ | Some s => _ end) as [proto2|]; [|discriminate]. cbn [bind] in E.
      pose proof (first_shaped v Hv) as N1. pose proof (main_shaped proto2 es false He) as N2.
      pose proof (neat_app _ _ N1 N2) as [T _].
      set (f1 := first_do _ _ _ _ _ _ v) in *. set (f2 := main_loop _ _ _ _) in *. clearbody f1 f2.
      set (s := fst f1 +++ fst f2) in *. clearbody s. injection E as E _. subst text.
      destruct (is_empty (trim_space s)) eqn:Ee; [left; reflexivity|]. apply is_empty_false in Ee. right. exists (trim_space s).
      split; [reflexivity|]. split; [assumption|]. destruct (trim_space_shape s Ee) as (Hf & a & b & Es). split; [exact Hf|].
      apply lines_tidy. intros x c r E. destruct (app_split _ _ _ _ E) as [(u & Et & Er)|(u & Ea & Eb)].
      - destruct u as [|d u]; cbn in Er; [discriminate|]. injection Er as <- Er. destruct u as [|e u]; cbn in Er.
        + left. unfold trim_space in Et. apply (trim_right_last is_space (trim_left is_space s)). rewrite Et. apply last_char_app.
        + injection Er as <- Er. rewrite Es in T. apply tidy_sub in T. apply (T x c u). exact Et.
      - destruct u as [|d u]; cbn in Eb; [|injection Eb as _ Eb; now destruct u]. discriminate.
    Qed.
  End Fix.
End Shape.
