(** Proofs about formatting: whether there are failures depends only on the contents of a file. *)
From Coq Require Import Permutation Sorted Lia.
From Verif Require Import GoStrFacts Format_Spec Format_Model Format_Proofs Format_First Format_Same.

Definition no_array (o : opt) : Prop := is_single_value (o_const o) = true \/ l_array (o_const o) = [].
Lemma p_option_ok n pre suf o : snd (p_option n pre suf o) = [] <-> no_array o.
Proof.
  unfold p_option, no_array. cbn [seq snd says app]. destruct (is_single_value (o_const o)) eqn:E.
  - split; [now left|]. intros _. destruct (is_empty _); reflexivity.
  - destruct (l_array (o_const o)); cbn; split; auto; [discriminate|]. intros [X|X]; discriminate X.
Qed.
Lemma app_nil {A} (a b : list A) : a ++ b = [] <-> a = [] /\ b = [].
Proof. split; [apply app_eq_nil|]. intros [-> ->]. reflexivity. Qed.
Lemma option_list_ok n b os : snd (p_option_list n b os) = [] <-> Forall no_array os.
Proof.
  induction os as [|o os IH]; [split; [constructor|reflexivity]|]. cbn [p_option_list seq snd]. rewrite app_nil, p_option_ok, IH. split.
  - intros []. now constructor.
  - intros H. inversion H. auto.
Qed.
Section Same2.
  Variable sort : list opt -> list opt.
  Variable sort_imports : list import -> list import.
  Hypothesis sort_ok : sorts_by o_name sort.
  Hypothesis sort_i : sorts_by im_filename sort_imports.
  Lemma p_options_ok n b os : snd (p_options sort n b os) = [] <-> Forall no_array os.
  Proof.
    unfold p_options. rewrite option_list_ok. destruct (sort_ok os) as [P _]. rewrite !Forall_forall. split; intros H o I; apply H.
    - eapply Permutation_in; [exact P|exact I].
    - eapply Permutation_in; [symmetry; exact P|exact I].
  Qed.
  Lemma same_no_array os os' : same_options os os' -> Forall no_array os -> Forall no_array os'.
  Proof.
    intros (_ & l & P & F) H. assert (Forall no_array l) as Hl.
    { rewrite Forall_forall in *. intros o I. apply H. eapply Permutation_in; [symmetry; exact P|exact I]. }
    clear P H. induction F as [|o o' l l' (_ & E & _) _ IH]; [constructor|]. inversion Hl; subst. constructor; [|auto]. unfold no_array in *. now rewrite <- E.
  Qed.
  Lemma pf_ok n pre name ft tag c c' i i' os os' : same_options os os' ->
    snd (p_message_or_enum_field sort n pre name ft tag c i os) = [] -> snd (p_message_or_enum_field sort n pre name ft tag c' i' os') = [].
  Proof.
    intros Ho. unfold p_message_or_enum_field. cbv zeta. cbn [seq snd says app].
    set (f := if is_empty ft then ft else ft +++ " "). clearbody f.
    assert (snd (outs [says (P n [pre; f; name; " = "; itoa tag; " ["]); p_options sort (S n) true os; says (p_inline n i ["];"])]) = [] ->
            snd (outs [says (P n [pre; f; name; " = "; itoa tag; " ["]); p_options sort (S n) true os'; says (p_inline n i' ["];"])]) = []) as Hlong.
    { cbn [outs seq says snd]. cbn [app]. rewrite !app_nil_r, !p_options_ok. now apply same_no_array. }
    pose proof (same_options_length _ _ Ho) as Hlen.
    destruct os as [|o [|o1 os]].
    - destruct os'; [|discriminate]. reflexivity.
    - destruct (same_options_one _ _ Ho) as (o' & -> & (En & El & _)). rewrite El.
      destruct (is_single_value (o_const o')); [|exact Hlong]. destruct (is_empty _); [exact Hlong|]. reflexivity.
    - destruct os' as [|o' [|o1' os']]; try discriminate. exact Hlong.
  Qed.
  Lemma block_ok n c c' opening opening' none ch ch' be ba : (snd ch = [] -> snd ch' = []) ->
    snd (block n c opening none ch be ba) = [] -> snd (block n c' opening' none ch' be ba) = [].
  Proof. intros H. unfold block. destruct none; cbn [outs seq says snd app]; [reflexivity|]. rewrite !app_nil_r. exact H. Qed.
  Lemma visit_ok proto2 e : forall e' p n hit, same e e' -> snd (visit sort proto2 p n hit e) = [] -> snd (visit sort proto2 p n hit e') = [].
  Proof.
    assert (forall p n es es', 
      Forall (fun e => forall e' p n hit, same e e' -> snd (visit sort proto2 p n hit e) = [] -> snd (visit sort proto2 p n hit e') = []) es ->
      all_same es es' ->
      snd ((fix go (es : list element) : out :=
         match es with [] => says "" | x :: r => seq (visit sort proto2 p (S n) true x) (go r) end) es) = [] ->
      snd ((fix go (es : list element) : out :=
         match es with [] => says "" | x :: r => seq (visit sort proto2 p (S n) true x) (go r) end) es') = []) as Hkids.
    { intros p n es es' IH. revert es'. induction IH as [|x r Hx _ IH]; intros [|x' r'] H; try easy. destruct H as [H1 H2].
      cbn [seq snd]. rewrite !app_nil. intros [E1 E2]. split; [exact (Hx x' p (S n) true H1 E1)|now apply IH]. }
    assert (forall es es' : list element, all_same es es' -> match es with [] => true | _ => false end = match es' with [] => true | _ => false end) as Hnone
      by (intros [|] [|]; easy).
    induction e as [c|s|pk|i|o|k f|r|x|f es IH|h es IH|h x es IH|h es IH|h o g es IH|h es IH|r es IH] using element_ind';
      intros e' p n hit H; destruct e' as [c'|s'|pk'|i'|o'|k' f'|r'|x'|f' es'|h' es'|h' x' es'|h' es'|h' o' g' es'|h' es'|r' es'];
      try (now destruct H); try reflexivity; cbn [visit].
    - intros _. destruct hit; reflexivity.
    - unfold visit_option. destruct p; try reflexivity; try discriminate; rewrite !p_options_ok; apply same_no_array;
        (split; [repeat constructor; easy|]; exists [o]; split; [reflexivity|]; constructor; [exact H|constructor]).
    - destruct H as (-> & En & Et & Es & Ho & Hc & Hi). unfold visit_field, p_field.
      destruct k' as [a b d| |key]; rewrite En, Et, Es; now apply pf_ok.
    - destruct H as (Er & En & Hc & Hi). unfold visit_reserved. rewrite Er, En.
      destruct (rs_ranges r') as [|? ?], (rs_names r') as [|? ?]; try reflexivity; discriminate.
    - destruct H as (En & Ei & Ho & Hc & Hi). unfold p_enum_field. rewrite En, Ei. now apply pf_ok.
    - destruct H as (_ & Ha). rewrite (Hnone es es' Ha). apply block_ok. now apply Hkids.
    - destruct H as (_ & -> & Ha). rewrite (Hnone es es' Ha). apply block_ok. now apply Hkids.
    - destruct H as (_ & Ha). rewrite (Hnone es es' Ha). apply block_ok. now apply Hkids.
    - destruct H as (_ & -> & -> & Ha). rewrite (Hnone es es' Ha). apply block_ok. now apply Hkids.
    - destruct H as (_ & Ha). rewrite (Hnone es es' Ha). apply block_ok. now apply Hkids.
    - destruct H as (E1 & E2 & E3 & E4 & E5 & Ho & Hc & Hi). unfold visit_rpc. cbv zeta. cbn [seq says snd app].
      pose proof (same_options_length _ _ Ho) as Hl. pose proof (same_no_array _ _ Ho) as Hp.
      destruct (r_options r) as [|? ?], (r_options r') as [|? ?]; try discriminate; cbn [outs seq says snd app]; [reflexivity|].
      rewrite !app_nil_r, !p_options_ok. exact Hp.
  Qed.
  (** *** Files *)
  Lemma main_failures proto2 es : forall hit,
    snd (main_loop sort proto2 hit es) =
    concat (map (fun e => snd (visit sort proto2 NoParent 0 true e)) (others (if hit then es else after_leading es))).
  Proof.
    induction es as [|e es IH]; intros hit; [destruct hit; reflexivity|]. cbn [main_loop seq snd]. rewrite IH.
    destruct hit; destruct e; reflexivity.
  Qed.
  Definition fine_file (es : list element) (proto2 : bool) : Prop :=
    Forall no_array (own_options es) /\ Forall (fun e => snd (visit sort proto2 NoParent 0 true e) = []) (others (after_leading es)).
  Lemma concat_nil {A B} (f : A -> list B) l : concat (map f l) = [] <-> Forall (fun x => f x = []) l.
  Proof.
    induction l as [|x l IH]; [split; [constructor|reflexivity]|]. cbn [map concat]. rewrite app_nil, IH. split; [intros []; now constructor|]. intros H. inversion H. auto.
  Qed.
  Lemma transform_fine filename header prefix es : length (syntaxes es) <= 1 -> length (packages es) <= 1 ->
    forall text fs, transform_elements sort sort_imports filename FixNone header prefix es = Ok (text, fs) ->
      exists proto2, version_of es = Ok proto2 /\ (fs = [] <-> fine_file es proto2).
  Proof.
    intros Hs Hp text fs. unfold transform_elements. cbv zeta. pose proof (after_all FixNone header es Hs Hp) as A.
    set (v := fold_left _ es _) in *. clearbody v. destruct A as (I1 & I2 & I3 & I4 & I5 & _ & _ & _ & _ & _ & _ & _ & I13).
    unfold version_of. rewrite I1.
    destruct (match first_syntax es with None => _ | Some s => _ end) as [proto2|m]; [|discriminate]. cbn [bind]. intros [= _ <-].
    exists proto2. split; [reflexivity|]. rewrite app_nil, main_failures, concat_nil. unfold fine_file.
    assert (snd (first_do sort sort_imports filename FixNone header prefix v) = [] <-> Forall no_array (own_options es)) as ->; [|reflexivity].
    rewrite <- (p_options_ok 0 false).
    unfold first_do. cbn [fix_none orb]. cbv zeta. rewrite I1, I2, I3, I4, I13. cbn [fix_none orb].
    unfold kept_options. cbn [fix_none outs seq snd].
    assert (L : forall l, snd (outs (map (fun e => match e with EComment c => says (p_comment 0 (Some c) +++ P 0 []) | _ => says "" end) l)) = []).
    { induction l as [|e l IH]; [reflexivity|]. cbn [map outs seq snd]. rewrite IH. destruct e; reflexivity. }
    rewrite L. cbn [app says snd].
    destruct (own_options es) as [|o os] eqn:Eo.
    - rewrite p_options_ok. destruct (first_syntax es), (first_package es), (own_imports es); cbn; split; auto; constructor.
    - destruct (first_syntax es), (first_package es), (own_imports es); cbn [snd says app seq]; rewrite ?app_nil_r; reflexivity.
  Qed.
  Lemma same_fine es es' proto2 : same_file es es' -> fine_file es proto2 -> fine_file es' proto2.
  Proof.
    intros (_ & _ & _ & So & _ & Sr) (F1 & F2). split; [now apply (same_no_array _ _ So)|].
    clear - Sr F2 sort_ok. induction Sr as [|e e' l l' H _ IH]; [constructor|]. inversion F2; subst. constructor; [|auto]. now apply (visit_ok proto2 e e').
  Qed.
  (** The text and the failures, for a file with the same contents. *)
  Theorem same_outcome filename header prefix es es' text : length (syntaxes es) <= 1 -> length (packages es) <= 1 ->
    same_file es es' -> transform_elements sort sort_imports filename FixNone header prefix es = Ok (text, []) ->
    transform_elements sort sort_imports filename FixNone header prefix es' = Ok (text, []).
  Proof.
    intros Hs Hp H E. destruct (same_text sort sort_imports sort_ok sort_i filename header prefix es es' text [] Hs Hp H E) as (fs' & E').
    assert (length (syntaxes es') <= 1 /\ length (packages es') <= 1) as [Hs' Hp'].
    { destruct H as (_ & S & Q & _). apply Forall2_len in S, Q. lia. }
    destruct (transform_fine _ _ _ _ Hs Hp _ _ E) as (v & V & F). destruct (transform_fine _ _ _ _ Hs' Hp' _ _ E') as (v' & V' & F').
    destruct (same_head sort sort_imports sort_ok sort_i es es' H) as (Ev & _). assert (v' = v) as -> by congruence.
    rewrite E'. f_equal. f_equal. apply F'. apply (same_fine es); [assumption|]. now apply F.
  Qed.
  Lemma own_options_detached M : own_options (detached M) = own_options M.
  Proof.
    induction M as [|e M IH]; [reflexivity|]. unfold detached. cbn [map concat]. fold (detached M). rewrite own_options_app, IH.
    change (e :: M) with ([e] ++ M). rewrite own_options_app. f_equal. destruct e; try reflexivity. destruct (sx_comment s); reflexivity.
  Qed.
  Theorem reread_outcome filename header prefix es es' text : length (syntaxes es) <= 1 -> length (packages es) <= 1 ->
    NoDup (map o_name (own_options es)) -> NoDup (map im_filename (own_imports es)) ->
    same_file (detached (canonical sort sort_imports es)) es' ->
    transform_elements sort sort_imports filename FixNone header prefix es = Ok (text, []) ->
    transform_elements sort sort_imports filename FixNone header prefix es' = Ok (text, []).
  Proof.
    intros Hs Hp No Ni H E. destruct (reread_parts sort sort_imports sort_ok sort_i es Hs Hp No Ni) as (Hs' & Hp' & Ev & Eh & Er).
    destruct (reread_text sort sort_imports sort_ok sort_i filename header prefix es es' text [] Hs Hp No Ni H E) as (fs' & E').
    assert (length (syntaxes es') <= 1 /\ length (packages es') <= 1) as [Hs2 Hp2].
    { destruct H as (_ & S & Q & _). apply Forall2_len in S, Q. lia. }
    destruct (transform_fine _ _ _ _ Hs Hp _ _ E) as (v & V & F). destruct (transform_fine _ _ _ _ Hs2 Hp2 _ _ E') as (v' & V' & F').
    destruct (same_head sort sort_imports sort_ok sort_i _ es' H) as (Ev' & _). assert (v' = v) as -> by congruence.
    rewrite E'. f_equal. f_equal. apply F'. apply (same_fine (detached (canonical sort sort_imports es))); [assumption|].
    destruct (proj1 F eq_refl) as (F1 & F2). split; [|now rewrite Er].
    rewrite own_options_detached. unfold canonical. rewrite !own_options_app.
    destruct (packages_none es) as (_ & _ & P3 & _). destruct (options_none (sort (own_options es))) as (_ & _ & O3 & _).
    destruct (imports_none (sort_imports (own_imports es))) as (_ & _ & M3 & _).
    destruct (still_none _ (others_still (after_leading es))) as (_ & _ & T3 & _). destruct (still_none _ (leading_still es)) as (_ & _ & L3 & _).
    rewrite P3, O3, M3, T3, L3.
    assert (own_options (syntaxes es) = []) as ->.
    { pose proof (syntaxes_all es) as A. revert A. generalize (syntaxes es). induction l as [|e l IH]; intros A; [reflexivity|]. change (e :: l) with ([e] ++ l). rewrite own_options_app.
      rewrite IH by (intros x I; apply A; now right). destruct (A e) as (x & ->); [now left|reflexivity]. }
    cbn [app]. rewrite app_nil_r. destruct (sort_ok (own_options es)) as [P _]. rewrite Forall_forall in *. intros o I. apply F1.
    eapply Permutation_in; [symmetry; exact P|exact I].
  Qed.
End Same2.
