(** The texts of lint findings: lemmas for C103. *)
From Verif Require Import GoStrFacts GoMapFacts Strs_Proofs Protostrs_Proofs.
From Verif Require Import Lint_RuleFacts Lint_RuleProofs Lint_RuleProofs2 Lint_FileProofs Lint_MapProofs LintRun_Proofs.
From Verif Require Export Lint_Text_Spec.

Definition hinted (l : linter) (d : descriptor) (t : string) : string :=
  if lc_allow_suppression (cfg_lint (ps_config (d_set d)))
  then t +++ " This can be suppressed by adding ""@suppresswarnings " +++ ln_annotation l +++ """ to the comment." else t.
Lemma finish_plain l d p t : finish l (add_failure d p t) = [mk_failure (d_filename d) (p_line p) (p_column p) (ln_id l) t].
Proof. reflexivity. Qed.
Lemma finish_supp l d c p t : ln_annotation l <> EmptyString -> t <> EmptyString -> is_suppressed l (Some (d_set d)) c = false ->
  finish l (add_suppressable d c p t) = [mk_failure (d_filename d) (p_line p) (p_column p) (ln_id l) (hinted l d t)].
Proof.
  intros Ha Ht Hs. unfold finish, add_suppressable. cbn [raw_set raw_comment raw_failure]. rewrite Hs.
  unfold hinted, allow_suppression. cbn [failure_at f_message f_filename f_line f_column].
  assert (E : is_empty t = false) by now apply is_empty_false.
  assert (E2 : is_empty (ln_annotation l) = false) by now apply is_empty_false.
  rewrite E, E2. cbn [negb]. rewrite andb_true_r. cbn [andb].
  destruct (lc_allow_suppression _); reflexivity.
Qed.
Lemma silenced_iff l a d c : ln_annotation l = a -> a <> EmptyString ->
  (is_suppressed l (Some (d_set d)) c = true <-> silenced a d c).
Proof.
  intros <- Ha. unfold is_suppressed, silenced, allow_suppression.
  assert (E2 : is_empty (ln_annotation l) = false) by now apply is_empty_false.
  rewrite E2. cbn [negb andb]. rewrite andb_true_iff. split.
  - intros [H1 H2]. split; [assumption|]. destruct c as [c|]; [|discriminate].
    apply existsb_exists in H2 as (x & Hx & Hc). exists c, x. split; [reflexivity|]. split; [assumption|]. now apply has_substring_iff.
  - intros [H1 (c' & x & -> & Hx & Hc)]. split; [assumption|]. apply existsb_exists. exists x. split; [assumption|]. now apply has_substring_iff.
Qed.

Section T.
  Variables (ord : order) (sing : string -> string).
  Lemma same_linter l l' : In l (all_linters ord sing) -> In l' (all_linters ord sing) -> ln_id l = ln_id l' -> l = l'.
  Proof.
    pose proof (all_nodup ord sing) as N. revert N. generalize (all_linters ord sing) as ls.
    induction ls as [|x ls IH]; intros N H1 H2 E; [contradiction|]. simpl in N. inversion N as [|? ? N1 N2]; subst.
    destruct H1 as [->|H1], H2 as [->|H2]; auto.
    - exfalso. apply N1. rewrite E. now apply in_map.
    - exfalso. apply N1. rewrite <- E. now apply in_map.
  Qed.

  (** Rules without an annotation. *)
  Lemma plain_says l id (S : saying) : In l (all_linters ord sing) -> ln_id l = id -> ~ In id (map fst annotations) ->
    (forall ds raws r, (forall d, In d ds -> well_formed (d_elements d)) -> ln_check l ds = Ok raws -> In r raws ->
       exists d p t, In d ds /\ r = add_failure d p t /\ S ds d p t) ->
    Says ord sing id S.
  Proof.
    intros Hl Hid Ha H l' ds fs f Hl' Hid' Hwf E Hf.
    assert (l' = l) as -> by (apply same_linter; congruence). unfold linter_check in E.
    destruct (ln_check l ds) as [raws|] eqn:Ec; [|discriminate]. injection E as <-.
    apply in_flat_map in Hf as (r & Hr & Hf). destruct (H ds raws r Hwf Ec Hr) as (d & p & t & Hd & -> & HS).
    rewrite finish_plain in Hf. destruct Hf as [<-|[]]. exists d, t. split; [assumption|]. split; [reflexivity|].
    split; [destruct p; exact HS|]. right. split; [now right|reflexivity].
  Qed.
  (** Rules with one. *)
  Lemma supp_says l id a (S : saying) : In l (all_linters ord sing) -> ln_id l = id -> ln_annotation l = a -> a <> EmptyString ->
    In (id, a) annotations ->
    (forall ds raws r, (forall d, In d ds -> well_formed (d_elements d)) -> ln_check l ds = Ok raws -> In r raws ->
       exists d c p t, In d ds /\ r = add_suppressable d c p t /\ t <> EmptyString /\ (~ silenced a d c -> S ds d p t)) ->
    Says ord sing id S.
  Proof.
    intros Hl Hid Ha Hne Hin H l' ds fs f Hl' Hid' Hwf E Hf.
    assert (l' = l) as -> by (apply same_linter; congruence). unfold linter_check in E.
    destruct (ln_check l ds) as [raws|] eqn:Ec; [|discriminate]. injection E as <-.
    apply in_flat_map in Hf as (r & Hr & Hf). destruct (H ds raws r Hwf Ec Hr) as (d & c & p & t & Hd & -> & Ht & HS).
    destruct (is_suppressed l (Some (d_set d)) c) eqn:Es.
    { rewrite finish_suppressed in Hf by exact Es. contradiction. }
    rewrite finish_supp in Hf; [|congruence|assumption|assumption]. destruct Hf as [<-|[]].
    exists d, t. split; [assumption|]. split; [reflexivity|].
    split; [destruct p; apply HS; rewrite <- (silenced_iff l a d c Ha Hne), Es; discriminate|].
    unfold with_hint, hinted. cbn [f_message]. rewrite Ha. destruct (lc_allow_suppression _).
    - left. exists a. auto.
    - right. auto.
  Qed.
  Lemma plain_exactly l id (assume : descriptor -> Prop) (S : saying) (check : descriptor -> list raw) :
    In l (all_linters ord sing) -> ln_id l = id -> ~ In id (map fst annotations) ->
    (forall ds, ln_check l ds = Ok (flat_map check ds)) ->
    (forall ds d r, well_formed (d_elements d) -> assume d -> (In r (check d) <-> exists p t, r = add_failure d p t /\ S ds d p t)) ->
    Says_exactly ord sing assume id S.
  Proof.
    intros Hl Hid Ha Hck H l' ds Hl' Hid' Hwf.
    assert (l' = l) as -> by (apply same_linter; congruence).
    exists (flat_map (finish l) (flat_map check ds)). split; [unfold linter_check; now rewrite Hck|].
    intros file p m. split.
    - intros (f & Hf & Hp & <-). apply in_flat_map in Hf as (r & Hr & Hf). apply in_flat_map in Hr as (d & Hd & Hr).
      destruct (Hwf d Hd) as [W A]. apply (H ds d r W A) in Hr as (p' & t & -> & HS).
      rewrite finish_plain in Hf. destruct Hf as [<-|[]]. destruct Hp as (<- & E1 & E2). cbn in E1, E2.
      exists d, t. split; [assumption|]. split; [reflexivity|]. split; [|right; split; [now right|reflexivity]].
      destruct p, p'; cbn in E1, E2; subst; exact HS.
    - intros (d & t & Hd & <- & HS & Hm). destruct (Hwf d Hd) as [W A].
      assert (m = t) as ->.
      { destruct Hm as [(a & _ & Hin & _)|[_ ->]]; [|reflexivity]. exfalso. apply Ha. apply in_map_iff. exists (id, a). auto. }
      exists (mk_failure (d_filename d) (p_line p) (p_column p) (ln_id l) t). split; [|split; [repeat split|reflexivity]].
      apply in_flat_map. exists (add_failure d p t). split; [|now left]. apply in_flat_map. exists d. split; [assumption|].
      apply (H ds d _ W A). eauto.
  Qed.
  Lemma supp_exactly l id a (assume : descriptor -> Prop) (S : saying) (check : descriptor -> list raw) :
    In l (all_linters ord sing) -> ln_id l = id -> ln_annotation l = a -> a <> EmptyString -> In (id, a) annotations ->
    (forall a', In (id, a') annotations -> a' = a) ->
    (forall ds, ln_check l ds = Ok (flat_map check ds)) ->
    (forall ds d, well_formed (d_elements d) -> assume d ->
       (forall r, In r (check d) -> exists c p t, r = add_suppressable d c p t /\ t <> EmptyString) /\
       forall p t, (exists c, In (add_suppressable d c p t) (check d) /\ ~ silenced a d c) <-> S ds d p t) ->
    Says_exactly ord sing assume id S.
  Proof.
    intros Hl Hid Ha Hne Hin Hu Hck H l' ds Hl' Hid' Hwf.
    assert (l' = l) as -> by (apply same_linter; congruence).
    exists (flat_map (finish l) (flat_map check ds)). split; [unfold linter_check; now rewrite Hck|].
    intros file p m. split.
    - intros (f & Hf & Hp & <-). apply in_flat_map in Hf as (r & Hr & Hf). apply in_flat_map in Hr as (d & Hd & Hr).
      destruct (Hwf d Hd) as [W A]. destruct (H ds d W A) as [H1 H2]. destruct (H1 r Hr) as (c & p' & t & -> & Ht).
      destruct (is_suppressed l (Some (d_set d)) c) eqn:Es.
      { rewrite finish_suppressed in Hf by exact Es. contradiction. }
      rewrite finish_supp in Hf; [|congruence|assumption|assumption]. destruct Hf as [<-|[]].
      destruct Hp as (<- & E1 & E2). cbn in E1, E2. exists d, t. split; [assumption|]. split; [reflexivity|]. split.
      + assert (p = p') as -> by (destruct p, p'; cbn in E1, E2; congruence).
        apply H2. exists c. split; [assumption|]. rewrite <- (silenced_iff l a d c Ha Hne), Es. discriminate.
      + unfold with_hint, hinted. cbn [f_message]. rewrite Ha. destruct (lc_allow_suppression _).
        * left. exists a. auto.
        * right. auto.
    - intros (d & t & Hd & <- & HS & Hm). destruct (Hwf d Hd) as [W A]. destruct (H ds d W A) as [H1 H2].
      apply H2 in HS as (c & Hc & Hs). destruct (H1 _ Hc) as (c' & p' & t' & E & Ht). injection E as <- ? ? <-.
      exists (mk_failure (d_filename d) (p_line p) (p_column p) (ln_id l) (hinted l d t)). split; [|split; [repeat split|]].
      + apply in_flat_map. exists (add_suppressable d c p t). split; [apply in_flat_map; eauto|].
        rewrite finish_supp; [now left|congruence|assumption|].
        destruct (is_suppressed l (Some (d_set d)) c) eqn:Es; [|reflexivity]. exfalso. apply Hs. now apply (silenced_iff l a d c Ha Hne).
      + cbn [f_message]. unfold hinted. rewrite Ha. unfold with_hint in Hm. cbv zeta in Hm. destruct (lc_allow_suppression _).
        * destruct Hm as [(a' & _ & Hi & ->)|[[E'|Hn] ->]]; [now rewrite (Hu a' Hi)|discriminate|].
          exfalso. apply Hn. apply in_map_iff. exists (id, a). auto.
        * destruct Hm as [(a' & E' & _)|[_ ->]]; [discriminate|reflexivity].
  Qed.

  (** ** By the shape of the check *)
  Lemma visiting_says l id (S : saying) ks hook : In l (all_linters ord sing) -> ln_id l = id -> ~ In id (map fst annotations) ->
    (forall ds, ln_check l ds = visiting ks hook ds) ->
    (forall ds d ctx e r, well_formed (d_elements d) -> In d ds -> located (d_elements d) ctx e ->
       Forall (fun x => entered ks x = true) ctx -> In r (hook d ctx e) ->
       exists p t, r = add_failure d p t /\ S ds d p t) ->
    Says ord sing id S.
  Proof.
    intros Hl Hid Ha Hck H. eapply plain_says; eauto. intros ds raws r Hwf E Hr. rewrite Hck in E. injection E as <-.
    apply in_flat_map in Hr as (d & Hd & Hr). apply in_flat_map in Hr as ([ctx e] & Hv & Hr).
    apply visited_iff in Hv as [Hloc HF]. destruct (H ds d ctx e r (Hwf d Hd) Hd Hloc HF Hr) as (p & t & -> & HS). eauto 10.
  Qed.
  Lemma file_says l id (S : saying) check : In l (all_linters ord sing) -> ln_id l = id -> ~ In id (map fst annotations) ->
    (forall ds, ln_check l ds = per_file check ds) ->
    (forall ds d rs r, well_formed (d_elements d) -> In d ds -> check d = Ok rs -> In r rs ->
       exists p t, r = add_failure d p t /\ S ds d p t) ->
    Says ord sing id S.
  Proof.
    intros Hl Hid Ha Hck H. eapply plain_says; eauto. intros ds raws r Hwf E Hr. rewrite Hck in E. unfold per_file in E.
    destruct (concatM_Ok _ _ _ E) as [_ Hi]. apply Hi in Hr as (d & rs & Hd & Ed & Hr).
    destruct (H ds d rs r (Hwf d Hd) Hd Ed Hr) as (p & t & -> & HS). eauto 10.
  Qed.
  Lemma file_ok_says l id (S : saying) check : In l (all_linters ord sing) -> ln_id l = id -> ~ In id (map fst annotations) ->
    (forall ds, ln_check l ds = per_file_ok check ds) ->
    (forall ds d r, well_formed (d_elements d) -> In d ds -> In r (check d) ->
       exists p t, r = add_failure d p t /\ S ds d p t) ->
    Says ord sing id S.
  Proof.
    intros Hl Hid Ha Hck H. eapply (file_says l id S (fun d => Ok (check d))); eauto.
    - intros ds. rewrite Hck. apply per_file_ok_per_file.
    - intros ds d rs r W Hd E Hr. injection E as <-. eauto.
  Qed.
  Lemma exactly_says assume id S : Says_exactly ord sing assume id S -> (forall d, well_formed (d_elements d) -> assume d) ->
    Says ord sing id S.
  Proof.
    intros H Ha l ds fs f Hl Hid Hwf E Hf. destruct (H l ds Hl Hid) as (fs' & E' & HI); [auto|].
    rewrite E in E'. injection E' as <-.
    destruct (proj1 (HI (f_filename f) (mk_pos (f_line f) (f_column f)) (f_message f))) as (d & t & Hd & Ef & HS & Hh).
    - exists f. repeat split; auto.
    - exists d, t. auto.
  Qed.
End T.
Ltac not_annotated := let H := fresh in intros H; repeat (destruct H as [H|H]; [discriminate H|]); exact H.
Lemma in_if_not b r (x : raw) : In r (if_not b [x]) <-> b = false /\ r = x.
Proof. destruct b; simpl; intuition congruence. Qed.
