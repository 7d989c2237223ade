(** Proofs about internal/desc. *)
From Verif Require Import GoStrFacts GoMapFacts Strs_Proofs Desc_Model Desc_Spec Reflect_Spec Reflect_Proofs.
From Coq Require Import Sorting.Sorted.

(** ** SortFileDescriptorSet *)
Lemma collect_names_spec l : forall names r, collect_names l names = Ok r <->
  (r = rev (map fl_name l) ++ names /\ Forall (fun f => fl_name f <> "") l /\ NoDup (map fl_name l) /\
   (forall f, In f l -> ~ In (fl_name f) names)).
Proof.
  induction l as [|f l IH]; intros names r; simpl.
  - split; [intros H; injection H as <-; repeat split; auto; constructor|now intros (-> & _)].
  - destruct (is_empty (fl_name f)) eqn:E.
    { split; [discriminate|]. intros (_ & F & _). inversion F as [|? ? Hn _]; subst.
      destruct (fl_name f); [congruence|discriminate]. }
    destruct (mem (fl_name f) names) eqn:Em.
    { split; [discriminate|]. intros (_ & _ & _ & H). apply mem_In in Em. destruct (H f); auto. }
    assert (Hm : ~ In (fl_name f) names) by (rewrite <- mem_In, Em; discriminate).
    rewrite IH. split.
    + intros (-> & F & N & D). rewrite <- app_assoc. split; [reflexivity|]. split; [|split].
      * constructor; [|assumption]. now apply is_empty_false.
      * constructor; [|assumption]. intros Hi. apply in_map_iff in Hi as (g & Eg & Hg).
        apply (D g Hg). left. now symmetry.
      * intros g [<-|Hg]; [assumption|]. intros Hi. apply (D g Hg). now right.
    + intros (-> & F & N & D). inversion F; subst. inversion N as [|? ? Hn N']; subst.
      rewrite <- app_assoc. split; [reflexivity|]. split; [assumption|]. split; [assumption|].
      intros g Hg [Eg|Hi]; [|exact (D g (or_intror Hg) Hi)].
      apply Hn. rewrite Eg. now apply in_map.
Qed.
Lemma filter_all {A} (p : A -> bool) l : (forall x, In x l -> p x = true) -> filter p l = l.
Proof.
  induction l as [|x l IH]; intros H; simpl; [reflexivity|]. rewrite (H x (or_introl eq_refl)). f_equal.
  apply IH. intros y Hy. apply H. now right.
Qed.
Theorem sort_file_descriptor_set_spec fs f r :
  sort_file_descriptor_set fs f = Ok r <->
  Forall (fun g => fl_name g <> "") fs /\ NoDup (map fl_name fs) /\
  exists before g after, fs = before ++ g :: after /\ fl_name g = fl_name f /\ r = before ++ after ++ [f].
Proof.
  unfold sort_file_descriptor_set, bind.
  destruct (collect_names fs []) as [names|] eqn:E.
  - apply collect_names_spec in E as (-> & F & N & _). rewrite app_nil_r.
    destruct (mem (fl_name f) (rev (map fl_name fs))) eqn:Em.
    + apply mem_In in Em. rewrite <- in_rev in Em. apply in_map_iff in Em as (g & Eg & Hg).
      apply in_split in Hg as (before & after & ->).
      assert (Ef : filter (fun g => negb (String.eqb (fl_name g) (fl_name f))) (before ++ g :: after) = before ++ after).
      { rewrite filter_app. simpl. rewrite Eg, String.eqb_refl. simpl.
        rewrite map_app in N. simpl in N. apply NoDup_remove in N as [N Hn]. rewrite in_app_iff in Hn.
        rewrite !filter_all; [reflexivity| |]; intros x Hx; apply negb_true_iff, String.eqb_neq; intros Ex;
          apply Hn; rewrite Eg, <- Ex; [right|left]; now apply in_map. }
      rewrite Ef. split.
      * intros H; injection H as <-. split; [assumption|]. split; [assumption|].
        exists before, g, after. rewrite <- app_assoc. auto.
      * intros (_ & _ & b & g' & a & E1 & E2 & ->).
        assert (Hf2 : filter (fun g => negb (String.eqb (fl_name g) (fl_name f))) (b ++ g' :: a) = b ++ a).
        { rewrite E1 in N. rewrite filter_app. simpl. rewrite E2, String.eqb_refl. simpl.
          rewrite map_app in N. simpl in N. apply NoDup_remove in N as [N Hn]. rewrite in_app_iff in Hn.
          rewrite !filter_all; [reflexivity| |]; intros x Hx; apply negb_true_iff, String.eqb_neq; intros Ex;
            apply Hn; rewrite E2, <- Ex; [right|left]; now apply in_map. }
        rewrite <- Ef, E1, Hf2, <- app_assoc. reflexivity.
    + split; [discriminate|]. intros (_ & _ & b & g & a & -> & Eg & _).
      assert (Hm : mem (fl_name f) (rev (map fl_name (b ++ g :: a))) = true); [|congruence].
      apply mem_In. rewrite <- in_rev. rewrite <- Eg. apply in_map, in_app_iff. right. now left.
  - split; [discriminate|]. intros (F & N & _).
    assert (collect_names fs [] = Ok (rev (map fl_name fs) ++ [])); [|congruence].
    apply collect_names_spec. auto.
Qed.

(** ** MergeFileDescriptorSets *)
Section Merge.
  Variable sha256 : string -> string.
  Notation sum f := (sha256 (fl_data f)).

  (** What is known after the files [seen]. *)
  Record merged (seen : list file_desc) (st : list (string * string) * list file_desc) : Prop := {
    mg_map : forall n s, gget n (fst st) = Some s <-> exists f, In f (snd st) /\ fl_name f = n /\ sum f = s;
    mg_names : NoDup (map fl_name (snd st));
    mg_sound : forall f, In f (snd st) -> In f seen;
    mg_complete : forall f, In f seen -> fl_name f <> "" /\ exists g, In g (snd st) /\ fl_name g = fl_name f /\ sum g = sum f
  }.
  Lemma NoDup_map_key {A B} (f : A -> B) l x y : NoDup (map f l) -> In x l -> In y l -> f x = f y -> x = y.
  Proof using.
    induction l as [|z l IH]; simpl; [easy|]. intros N Hx Hy E. inversion N as [|? ? Hn N']; subst.
    destruct Hx as [->|Hx], Hy as [->|Hy]; auto.
    - exfalso. apply Hn. rewrite E. now apply in_map.
    - exfalso. apply Hn. rewrite <- E. now apply in_map.
  Qed.
  Lemma merge_files_inv l : forall seen st st', merged seen st -> merge_files sha256 l st = Ok st' ->
    exists l0, l = map Some l0 /\ merged (seen ++ l0) st'.
  Proof using.
    induction l as [|x l IH]; intros seen st st' M; simpl.
    - intros H; injection H as <-. exists []. split; [reflexivity|]. now rewrite app_nil_r.
    - destruct x as [f|]; [|discriminate]. destruct (is_empty (fl_name f)) eqn:Ee; [discriminate|].
      apply is_empty_false in Ee.
      destruct (gget (fl_name f) (fst st)) as [s|] eqn:Eg.
      + destruct (String.eqb s (sum f)) eqn:Es; [|discriminate]. apply String.eqb_eq in Es as ->.
        intros H. destruct (IH (seen ++ [f]) st st') as (l0 & -> & M'); [|assumption|].
        * constructor; [apply M|apply M| |].
          -- intros g Hg. apply in_app_iff. left. now apply M.
          -- intros g Hg. apply in_app_iff in Hg as [Hg|[<-|[]]]; [now apply M|].
             split; [assumption|]. now apply (mg_map _ _ M) in Eg.
        * exists (f :: l0). split; [reflexivity|]. now rewrite <- app_assoc in M'.
      + intros H. destruct (IH (seen ++ [f]) (gput (fl_name f) (sum f) (fst st), snd st ++ [f]) st') as (l0 & -> & M'); [|assumption|].
        * assert (Hn : forall g, In g (snd st) -> fl_name g <> fl_name f).
          { intros g Hg E. assert (gget (fl_name f) (fst st) = Some (sum g)); [|congruence].
            apply (mg_map _ _ M). eauto. }
          constructor; simpl.
          -- intros n s. destruct (string_dec n (fl_name f)) as [->|Hne].
             ++ rewrite gget_gput_eq. split.
                ** intros Hs; injection Hs as <-. exists f. rewrite in_app_iff. simpl. auto.
                ** intros (g & Hg & E1 & <-). apply in_app_iff in Hg as [Hg|[<-|[]]]; [now apply Hn in Hg|reflexivity].
             ++ rewrite gget_gput_neq by assumption. rewrite (mg_map _ _ M). split.
                ** intros (g & Hg & ?). exists g. rewrite in_app_iff. auto.
                ** intros (g & Hg & E1 & E2). apply in_app_iff in Hg as [Hg|[<-|[]]]; [eauto|congruence].
          -- rewrite map_app. simpl. apply Permutation_NoDup with (l := fl_name f :: map fl_name (snd st)).
             { apply Permutation_cons_append. }
             constructor; [|apply M]. intros Hi. apply in_map_iff in Hi as (g & E & Hg). now apply Hn in Hg.
          -- intros g Hg. rewrite in_app_iff. apply in_app_iff in Hg as [Hg|Hg]; [left; now apply M|now right].
          -- intros g Hg. apply in_app_iff in Hg as [Hg|[<-|[]]].
             ++ destruct (mg_complete _ _ M g Hg) as (H1 & h & H2 & H3). split; [assumption|].
                exists h. rewrite in_app_iff. auto.
             ++ split; [assumption|]. exists f. rewrite in_app_iff. simpl. auto.
        * exists (f :: l0). split; [reflexivity|]. now rewrite <- app_assoc in M'.
  Qed.
  Lemma merge_files_ok l0 : forall seen st, merged seen st ->
    (forall f, In f l0 -> fl_name f <> "") ->
    (forall f g, In f (seen ++ l0) -> In g (seen ++ l0) -> fl_name f = fl_name g -> sum f = sum g) ->
    exists st', merge_files sha256 (map Some l0) st = Ok st'.
  Proof using.
    induction l0 as [|f l IH]; intros seen st M Hn Hs; [simpl; eauto|].
    assert (E : exists st1, merge_files sha256 [Some f] st = Ok st1).
    { simpl. destruct (is_empty (fl_name f)) eqn:Ee.
      { destruct (Hn f (or_introl eq_refl)). destruct (fl_name f); [reflexivity|discriminate]. }
      destruct (gget (fl_name f) (fst st)) as [s|] eqn:Eg; [|eauto].
      apply (mg_map _ _ M) in Eg as (g & Hg & En & <-).
      rewrite (Hs g f); [rewrite String.eqb_refl; eauto| | |assumption]; rewrite in_app_iff.
      - left. now apply M.
      - right. now left. }
    destruct E as [st1 E]. destruct (merge_files_inv _ _ _ _ M E) as (l1 & El & M1).
    assert (l1 = [f]) as -> by (destruct l1 as [|? [|? ?]]; simpl in El; congruence).
    assert (EQ : merge_files sha256 (map Some (f :: l)) st = merge_files sha256 (map Some l) st1).
    { revert E. simpl. destruct (is_empty (fl_name f)); [discriminate|].
      destruct (gget (fl_name f) (fst st)) as [s|]; [destruct (String.eqb s (sum f)); [|discriminate]|];
        intros E; injection E as <-; reflexivity. }
    rewrite EQ. apply (IH (seen ++ [f])); [assumption| |].
    - intros g Hg. apply Hn. now right.
    - rewrite <- app_assoc. exact Hs.
  Qed.
  Lemma merge_sets_inv sets : forall seen st st', merged seen st -> merge_sets sha256 sets st = Ok st' ->
    exists ls, sets = map (fun l => Some (map Some l)) ls /\ merged (seen ++ concat ls) st'.
  Proof using.
    induction sets as [|x sets IH]; intros seen st st' M; simpl.
    - intros H; injection H as <-. exists []. split; [reflexivity|]. simpl. now rewrite app_nil_r.
    - destruct x as [l|]; [|discriminate]. unfold bind.
      destruct (merge_files sha256 l st) as [st1|] eqn:E; [|discriminate].
      destruct (merge_files_inv _ _ _ _ M E) as (l0 & -> & M1). intros H.
      destruct (IH _ _ _ M1 H) as (ls & -> & M2). exists (l0 :: ls). split; [reflexivity|].
      simpl. now rewrite app_assoc.
  Qed.
  Lemma merge_sets_ok ls : forall seen st, merged seen st ->
    (forall f, In f (concat ls) -> fl_name f <> "") ->
    (forall f g, In f (seen ++ concat ls) -> In g (seen ++ concat ls) -> fl_name f = fl_name g -> sum f = sum g) ->
    exists st', merge_sets sha256 (map (fun l => Some (map Some l)) ls) st = Ok st'.
  Proof using.
    induction ls as [|l ls IH]; intros seen st M Hn Hs; [simpl; eauto|].
    simpl in *. destruct (merge_files_ok l seen st M) as [st1 E1].
    - intros f Hf. apply Hn, in_app_iff. now left.
    - intros f g Hf Hg. apply Hs; rewrite in_app_iff in *; rewrite in_app_iff; tauto.
    - rewrite E1. cbn [bind]. destruct (merge_files_inv _ _ _ _ M E1) as (l1 & El & M1).
      assert (l1 = l) as ->.
      { clear -El. revert l1 El. induction l as [|x l IH]; intros [|y l1]; simpl; try discriminate; [reflexivity|].
        intros H; injection H as -> H. f_equal. now apply IH. }
      apply (IH (seen ++ l)); [assumption| |].
      + intros f Hf. apply Hn, in_app_iff. now right.
      + now rewrite <- app_assoc.
  Qed.
  Lemma merged_nil : merged [] ([], []).
  Proof using. constructor; simpl; try easy; [|constructor]. intros n s. split; [discriminate|]. now intros (f & [] & _). Qed.

  Lemma file_in_concat ls f : file_in (map (fun l => Some (map Some l)) ls) f <-> In f (concat ls).
  Proof using.
    unfold file_in. rewrite in_concat. split.
    - intros (l & H1 & H2). apply in_map_iff in H1 as (l0 & E & H1). injection E as <-.
      apply in_map_iff in H2 as (g & E & H2). injection E as ->. eauto.
    - intros (l & H1 & H2). exists (map Some l). split; apply in_map_iff; eauto.
  Qed.
  Theorem merge_spec sets r :
    no_collision sha256 sets -> faithful_sets sets -> merge_file_descriptor_sets sha256 sets = Ok r ->
    Increasing (map fl_name r) /\ (forall f, In f r <-> file_in sets f) /\
    no_nil sets /\ (forall f, file_in sets f -> fl_name f <> "") /\
    (forall f g, file_in sets f -> file_in sets g -> fl_name f = fl_name g -> f = g).
  Proof using.
    intros HC HF. unfold merge_file_descriptor_sets, bind.
    destruct (merge_sets sha256 sets ([], [])) as [st|] eqn:E; [|discriminate]. intros H; injection H as <-.
    destruct (merge_sets_inv _ _ _ _ merged_nil E) as (ls & -> & M). simpl in M.
    assert (Hin : forall f, file_in (map (fun l => Some (map Some l)) ls) f -> In f (snd st)).
    { intros f Hf. pose proof Hf as Hf'. apply file_in_concat in Hf'.
      destruct (mg_complete _ _ M f Hf') as (_ & g & Hg & En & Es).
      assert (file_in (map (fun l => Some (map Some l)) ls) g) as Hg'.
      { apply file_in_concat. now apply M. }
      rewrite <- (HF g f Hg' Hf); [assumption|]. now apply HC. }
    split; [|split; [|split; [|split]]].
    - apply isort_name_increasing. apply M.
    - intros f. rewrite <- isort_perm. split; [|apply Hin]. intros Hf. apply file_in_concat. now apply M.
    - intros s Hs. apply in_map_iff in Hs as (l & <- & _). exists (map Some l). split; [reflexivity|].
      intros x Hx. apply in_map_iff in Hx as (f & <- & _). eauto.
    - intros f Hf. apply file_in_concat in Hf. now apply M.
    - intros f g Hf Hg En. apply Hin in Hf, Hg. apply (NoDup_map_key fl_name (snd st)); auto. apply M.
  Qed.
  Theorem merge_ok sets :
    no_nil sets -> (forall f, file_in sets f -> fl_name f <> "") ->
    (forall f g, file_in sets f -> file_in sets g -> fl_name f = fl_name g -> f = g) ->
    exists r, merge_file_descriptor_sets sha256 sets = Ok r.
  Proof using.
    intros HN Hne HU.
    assert (exists ls, sets = map (fun l => Some (map Some l)) ls) as [ls ->].
    { clear -HN. induction sets as [|s sets IH]; [now exists []|].
      destruct (HN s (or_introl eq_refl)) as (l & -> & Hl).
      destruct IH as [ls ->]; [intros x Hx; apply HN; now right|].
      assert (exists l0, l = map Some l0) as [l0 ->].
      { clear -Hl. induction l as [|x l IH]; [now exists []|].
        destruct (Hl x (or_introl eq_refl)) as [f ->]. destruct IH as [l0 ->]; [intros y Hy; apply Hl; now right|].
        now exists (f :: l0). }
      now exists (l0 :: ls). }
    destruct (merge_sets_ok ls [] ([], []) merged_nil) as [st Hst].
    - intros f Hf. apply Hne. now apply file_in_concat.
    - simpl. intros f g Hf Hg En. rewrite (HU f g); [reflexivity| | |assumption]; now apply file_in_concat.
    - unfold merge_file_descriptor_sets. rewrite Hst. simpl. eauto.
  Qed.
  Lemma increasing_names_unique l1 l2 :
    Increasing (map fl_name l1) -> Increasing (map fl_name l2) -> (forall f, In f l1 <-> In f l2) -> l1 = l2.
  Proof using.
    revert l2. induction l1 as [|x l1 IH]; intros l2 I1 I2 H.
    - destruct l2 as [|y l2]; [reflexivity|]. destruct (proj2 (H y) (or_introl eq_refl)).
    - destruct l2 as [|y l2]; [destruct (proj1 (H x) (or_introl eq_refl))|].
      simpl in I1, I2. inversion I1 as [|? ? A1 B1]; subst. inversion I2 as [|? ? A2 B2]; subst.
      assert (x = y) as ->.
      { destruct (proj1 (H x) (or_introl eq_refl)) as [->|Hx]; [reflexivity|].
        destruct (proj2 (H y) (or_introl eq_refl)) as [->|Hy]; [reflexivity|].
        specialize (A1 _ (in_map fl_name _ _ Hy)). specialize (A2 _ (in_map fl_name _ _ Hx)).
        exfalso. unfold str_ltb in A1, A2. apply negb_true_iff in A1, A2.
        destruct (str_leb_total (fl_name x) (fl_name y)); congruence. }
      f_equal. apply IH; [assumption|assumption|]. intros f. split; intros Hf.
      + destruct (proj1 (H f) (or_intror Hf)) as [<-|?]; [|assumption].
        specialize (A1 _ (in_map fl_name _ _ Hf)). now rewrite str_ltb_irrefl in A1.
      + destruct (proj2 (H f) (or_intror Hf)) as [<-|?]; [|assumption].
        specialize (A2 _ (in_map fl_name _ _ Hf)). now rewrite str_ltb_irrefl in A2.
  Qed.
  (** The same files in any order, grouping or multiplicity give the same result. *)
  Theorem merge_order sets sets' r :
    no_collision sha256 sets -> faithful_sets sets -> no_nil sets' ->
    (forall f, file_in sets f <-> file_in sets' f) ->
    merge_file_descriptor_sets sha256 sets = Ok r -> merge_file_descriptor_sets sha256 sets' = Ok r.
  Proof using.
    intros HC HF HN HE H. destruct (merge_spec _ _ HC HF H) as (I & A & _ & Ne & U).
    destruct (merge_ok sets' HN) as [r' H'].
    - intros f Hf. apply Ne. now apply HE.
    - intros f g Hf Hg. apply U; now apply HE.
    - rewrite H'. f_equal.
      destruct (merge_spec sets' r') as (I' & A' & _); [| |assumption|].
      + intros f g Hf Hg. apply HC; now apply HE.
      + intros f g Hf Hg. apply HF; now apply HE.
      + symmetry. apply increasing_names_unique; try assumption. intros f. rewrite A, A'. apply HE.
  Qed.
End Merge.
