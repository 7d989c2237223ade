(** Facts about [GoRegexp]. *)
From Verif Require Import GoRegexp GoStrFacts.

(** How a text is cut up by a match: [gs] are the groups, the first one begun before
    with the text [cur] if there is one. *)
Inductive cut : list item -> string -> option string -> list string -> Prop :=
| CutNil s cur : cut [] s cur []
| CutLit l r s cur gs : cut r s (took cur l) gs -> cut (Lit l :: r) (l +++ s) cur gs
| CutDot c r s cur gs : cut r s (took cur (String c EmptyString)) gs -> cut (Dot :: r) (String c s) cur gs
| CutDots t r s cur gs : cut r s (took cur t) gs -> cut (Dots :: r) (t +++ s) cur gs
| CutNums t r s cur gs : t <> EmptyString -> sforall is_digit t = true ->
    cut r s (took cur t) gs -> cut (Nums :: r) (t +++ s) cur gs
| CutOpen r s cur gs : cut r s (Some EmptyString) gs -> cut (Open :: r) s cur gs
| CutClose r s g gs : cut r s None gs -> cut (Close :: r) s (Some g) (g :: gs)
| CutEnd r cur gs : cut r EmptyString cur gs -> cut (End :: r) EmptyString cur gs.

Lemma took_nil cur : took cur EmptyString = cur.
Proof. destruct cur; cbn; [now rewrite sapp_nil_r|reflexivity]. Qed.
Lemma took_took cur a b : took (took cur a) b = took cur (a +++ b).
Proof. destruct cur; cbn; [now rewrite sapp_assoc|reflexivity]. Qed.

Definition dots (r : list item) : string -> option string -> option (list string) :=
  fix dots (s : string) (cur : option string) {struct s} : option (list string) :=
    match s with
    | EmptyString => match_at r s cur
    | String c s' =>
        match dots s' (took cur (String c EmptyString)) with
        | Some g => Some g
        | None => match_at r s cur
        end
    end.
Definition nums (r : list item) : bool -> string -> option string -> option (list string) :=
  fix nums (first : bool) (s : string) (cur : option string) {struct s} : option (list string) :=
    let stop := if first then None else match_at r s cur in
    match s with
    | EmptyString => stop
    | String c s' =>
        if is_digit c then
          match nums false s' (took cur (String c EmptyString)) with
          | Some g => Some g
          | None => stop
          end
        else stop
    end.
Lemma dots_sound r : (forall s cur gs, match_at r s cur = Some gs -> cut r s cur gs) ->
  forall s cur gs, dots r s cur = Some gs -> cut (Dots :: r) s cur gs.
Proof.
  intros IH. induction s as [|c s IHs]; intros cur gs H; cbn [dots] in H.
  - apply (CutDots EmptyString). rewrite took_nil. auto.
  - destruct (dots r s (took cur (String c EmptyString))) as [g|] eqn:E.
    + injection H as ->. apply IHs in E. inversion E as [| | |t r' s' cur' gs' Hc| | | |]; subst.
      rewrite took_took in Hc. exact (CutDots (String c t) r s' cur gs Hc).
    + apply (CutDots EmptyString). rewrite took_nil. auto.
Qed.
Lemma nums_sound r : (forall s cur gs, match_at r s cur = Some gs -> cut r s cur gs) ->
  forall s first cur gs, nums r first s cur = Some gs ->
  exists t s', s = t +++ s' /\ sforall is_digit t = true /\ (first = true -> t <> EmptyString) /\ cut r s' (took cur t) gs.
Proof.
  intros IH. assert (Hstop : forall s (first : bool) cur gs, (if first then None else match_at r s cur) = Some gs ->
    exists t s', s = t +++ s' /\ sforall is_digit t = true /\ (first = true -> t <> EmptyString) /\ cut r s' (took cur t) gs).
  { intros s first cur gs H. destruct first; [discriminate|]. exists EmptyString, s. rewrite took_nil. repeat split; auto; discriminate. }
  induction s as [|c s IHs]; intros first cur gs H; cbn [nums] in H; [now apply Hstop|].
  destruct (is_digit c) eqn:Ec; [|now apply Hstop].
  destruct (nums r false s (took cur (String c EmptyString))) as [g|] eqn:E; [|now apply Hstop].
  injection H as ->. apply IHs in E as (t & s' & -> & Ht & _ & Hc). rewrite took_took in Hc.
  exists (String c t), s'. cbn. rewrite Ec, Ht. repeat split; [discriminate|exact Hc].
Qed.
Lemma match_sound is : forall s cur gs, match_at is s cur = Some gs -> cut is s cur gs.
Proof.
  induction is as [|i r IH]; intros s cur gs H; [cbn in H; injection H as <-; constructor|].
  destruct i as [l| | | | | |].
  - cbn [match_at] in H. destruct (has_prefix s l) eqn:E; [|discriminate].
    apply has_prefix_spec in E as (t & ->). rewrite sdrop_app_exact in H. constructor. auto.
  - cbn [match_at] in H. destruct s as [|c s]; [discriminate|]. constructor. auto.
  - now apply dots_sound.
  - apply (nums_sound r IH) in H as (t & s' & -> & Ht & Hn & Hc). constructor; auto.
  - cbn [match_at] in H. constructor. auto.
  - cbn [match_at] in H. destruct cur as [g|]; [|discriminate].
    destruct (match_at r s None) as [gs'|] eqn:E; [|discriminate]. injection H as <-. constructor. auto.
  - cbn [match_at] in H. destruct s; [|discriminate]. constructor. auto.
Qed.
(** A text that can be cut up is matched. *)
Lemma match_complete is : forall s cur gs, cut is s cur gs -> exists gs', match_at is s cur = Some gs'.
Proof.
  induction is as [|i r IH]; intros s cur gs H; [now exists []|].
  destruct i as [l| | | | | |]; inversion H as [|l0 r0 s0 cur0 gs0 Hc|c r0 s0 cur0 gs0 Hc|t r0 s0 cur0 gs0 Hc|t r0 s0 cur0 gs0 Hn Ht Hc|r0 s0 cur0 gs0 Hc|r0 s0 g0 gs0 Hc|r0 cur0 gs0 Hc]; subst.
  - cbn [match_at]. rewrite has_prefix_app, sdrop_app_exact. eauto.
  - cbn [match_at]. eauto.
  - change (exists gs', dots r (t +++ s0) cur = Some gs'). clear H. revert cur Hc. induction t as [|c t IHt]; intros cur Hc.
    + cbn [String.append]. rewrite took_nil in Hc. destruct (IH _ _ _ Hc) as (g & Hg). destruct s0; cbn [dots]; [eauto|].
      destruct (dots r s0 _); eauto.
    + cbn [String.append dots]. destruct (IHt (took cur (String c EmptyString))) as (g & ->); [now rewrite took_took|eauto].
  - change (exists gs', nums r true (t +++ s0) cur = Some gs'). clear H.
    assert (Hgen : forall t cur (first : bool), (first = true -> t <> EmptyString) -> sforall is_digit t = true -> cut r s0 (took cur t) gs -> exists gs', nums r first (t +++ s0) cur = Some gs').
    { clear Hc Ht Hn t. induction t as [|c t IHt]; intros cur' first Hn Ht Hc.
      - rewrite took_nil in Hc. destruct first; [now destruct Hn|]. destruct (IH _ _ _ Hc) as (g & Hg).
        destruct s0; cbn [String.append nums]; [eauto|]. destruct (is_digit a); [|eauto]. destruct (nums r false s0 _); eauto.
      - cbn in Ht. apply andb_true_iff in Ht as [Hd Ht]. cbn [String.append nums]. rewrite Hd.
        destruct (IHt (took cur' (String c EmptyString)) false) as (g & ->); [discriminate|assumption|now rewrite took_took|eauto]. }
    eapply Hgen; eauto.
  - cbn [match_at]. eauto.
  - cbn [match_at]. destruct (IH _ _ _ Hc) as (g & ->). eauto.
  - cbn [match_at]. eauto.
Qed.
Lemma search_sound is s gs : search is s = Some gs -> exists a b, s = a +++ b /\ cut is b None gs.
Proof.
  revert gs. induction s as [|c s IH]; intros gs H; cbn [search] in H.
  - destruct (match_at is EmptyString None) eqn:E; [|discriminate]. injection H as ->. exists EmptyString, EmptyString. split; [reflexivity|now apply match_sound].
  - destruct (match_at is (String c s) None) eqn:E.
    + injection H as ->. exists EmptyString, (String c s). split; [reflexivity|now apply match_sound].
    + apply IH in H as (a & b & -> & Hc). now exists (String c a), b.
Qed.
