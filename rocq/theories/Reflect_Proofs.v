(** Proofs about internal/reflect. *)
From Verif Require Import GoStrFacts GoMapFacts Strs_Proofs Reflect_Model Reflect_Spec.
From Coq Require Import Sorting.Sorted Lia.

(** ** Induction over nested messages *)
Section MessageDescInd.
  Variable P : message_desc -> Prop.
  Hypothesis H : forall name fields oneofs nested enums,
    Forall P nested -> P (mk_message_desc name fields oneofs nested enums).
  Fixpoint message_desc_ind' (d : message_desc) : P d :=
    match d with
    | mk_message_desc name fields oneofs nested enums =>
        H name fields oneofs nested enums
          ((fix go (l : list message_desc) : Forall P l :=
              match l with
              | [] => Forall_nil P
              | x :: l' => Forall_cons x (message_desc_ind' x) (go l')
              end) nested)
    end.
End MessageDescInd.

(** ** Sorting by a key *)
Section SortByKey.
  Context {A K : Type} (key : A -> K) (leb : K -> K -> bool).
  Hypothesis Htotal : forall a b, leb a b = true \/ leb b a = true.
  Hypothesis Htrans : forall a b c, leb a b = true -> leb b c = true -> leb a c = true.
  Hypothesis Hanti : forall a b, leb a b = true -> leb b a = true -> a = b.
  Let le a b := leb (key a) (key b).

  Lemma isort_key_unique l1 l2 :
    Permutation l1 l2 -> NoDup (map key l1) -> isort le l1 = isort le l2.
  Proof using Htotal Htrans Hanti.
    intros P N.
    assert (S1 : StronglySorted (fun a b => le a b = true) (isort le l1)).
    { apply isort_sorted; unfold le; eauto. }
    assert (S2 : StronglySorted (fun a b => le a b = true) (isort le l2)).
    { apply isort_sorted; unfold le; eauto. }
    assert (P' : Permutation (isort le l1) (isort le l2)).
    { rewrite <- (isort_perm le l1), <- (isort_perm le l2). exact P. }
    assert (N' : NoDup (map key (isort le l1))).
    { eapply Permutation_NoDup; [|exact N]. apply Permutation_map, isort_perm. }
    revert S1 S2 P' N'. generalize (isort le l1) (isort le l2). clear P N l1 l2.
    induction l as [|x l IH]; intros l2 S1 S2 P N.
    - now apply Permutation_nil in P.
    - destruct l2 as [|y l2]; [symmetry in P; now apply Permutation_nil in P|].
      inversion S1 as [|? ? S1' F1]; subst. inversion S2 as [|? ? S2' F2]; subst.
      simpl in N. inversion N as [|? ? Nx N']; subst.
      assert (x = y) as ->.
      { assert (In x (y :: l2)) as Hx by (rewrite <- P; now left).
        assert (In y (x :: l)) as Hy by (rewrite P; now left).
        destruct Hx as [->|Hx]; [reflexivity|]. destruct Hy as [->|Hy]; [reflexivity|].
        rewrite Forall_forall in F1, F2. specialize (F1 _ Hy). specialize (F2 _ Hx).
        exfalso. apply Nx. apply in_map_iff. exists y. split; [|assumption].
        apply Hanti; assumption. }
      f_equal. apply IH; auto. now apply Permutation_cons_inv in P.
  Qed.
End SortByKey.

Lemma Z_leb_total a b : (a <=? b)%Z = true \/ (b <=? a)%Z = true.
Proof. rewrite !Z.leb_le. lia. Qed.
Lemma Z_leb_trans a b c : (a <=? b)%Z = true -> (b <=? c)%Z = true -> (a <=? c)%Z = true.
Proof. rewrite !Z.leb_le. lia. Qed.
Lemma Z_leb_anti a b : (a <=? b)%Z = true -> (b <=? a)%Z = true -> a = b.
Proof. rewrite !Z.leb_le. lia. Qed.

Lemma isort_name_unique {A} (key : A -> string) l1 l2 :
  Permutation l1 l2 -> NoDup (map key l1) ->
  isort (fun a b => str_leb (key a) (key b)) l1 = isort (fun a b => str_leb (key a) (key b)) l2.
Proof. apply isort_key_unique; [apply str_leb_total|apply str_leb_trans|apply str_leb_antisym]. Qed.
Lemma isort_name_sorted {A} (key : A -> string) l :
  StronglySorted (fun a b => str_leb (key a) (key b) = true) (isort (fun a b => str_leb (key a) (key b)) l).
Proof. apply isort_sorted; intros; [apply str_leb_total|eapply str_leb_trans; eassumption]. Qed.
Lemma isort_name_increasing {A} (key : A -> string) l :
  NoDup (map key l) -> Increasing (map key (isort (fun a b => str_leb (key a) (key b)) l)).
Proof.
  intros N. apply sorted_nodup_increasing.
  - pose proof (isort_name_sorted key l) as S. induction S as [|x l' S IH F]; simpl; constructor; [exact IH|].
    apply Forall_forall. intros y Hy. apply in_map_iff in Hy as (z & <- & Hz).
    rewrite Forall_forall in F. now apply F.
  - eapply Permutation_NoDup; [|exact N]. apply Permutation_map, isort_perm.
Qed.

(** ** mapM and Forall2 *)
Lemma mapM_Forall2 {A B} (f : A -> result B) l : forall r, mapM f l = Ok r <-> Forall2 (fun x y => f x = Ok y) l r.
Proof.
  induction l as [|x l IH]; intros r; simpl.
  - split; [intros H; injection H as <-; constructor|intros H; inversion H; reflexivity].
  - unfold bind. destruct (f x) as [y|e] eqn:E.
    + destruct (mapM f l) as [ys|e] eqn:E2.
      * split; [intros H; injection H as <-; constructor; [assumption|now apply IH]|].
        intros H; inversion H as [|? y' ? ys' H1 H2]; subst. rewrite E in H1. injection H1 as <-.
        apply IH in H2. congruence.
      * split; [discriminate|]. intros H; inversion H as [|? y' ? ys' H1 H2]; subst.
        apply IH in H2. discriminate.
    + split; [discriminate|]. intros H; inversion H as [|? y' ? ys' H1 H2]; congruence.
Qed.
Lemma Forall2_perm {A B} (R : A -> B -> Prop) l1 l2 :
  Permutation l1 l2 -> forall r1, Forall2 R l1 r1 -> exists r2, Forall2 R l2 r2 /\ Permutation r1 r2.
Proof.
  induction 1 as [|x l1 l2 P IH|x y l|l1 l2 l3 P1 IH1 P2 IH2]; intros r1 F.
  - inversion F; subst. now exists [].
  - inversion F as [|? b ? r H1 H2]; subst. destruct (IH _ H2) as (r2 & F2 & P2).
    exists (b :: r2). split; now constructor.
  - inversion F as [|? b ? r H1 H2]; subst. inversion H2 as [|? b' ? r' H3 H4]; subst.
    exists (b' :: b :: r'). split; [repeat constructor; assumption|constructor].
  - destruct (IH1 _ F) as (r2 & F2 & Pa). destruct (IH2 _ F2) as (r3 & F3 & Pb).
    exists r3. split; [assumption|]. now transitivity r2.
Qed.
Lemma Forall2_map_eq {A B C} (R : A -> B -> Prop) (f : A -> C) (g : B -> C) l r :
  (forall a b, R a b -> f a = g b) -> Forall2 R l r -> map f l = map g r.
Proof. intros H F. induction F; simpl; [reflexivity|]. f_equal; auto. Qed.
Lemma Forall2_imp {A B} (R S : A -> B -> Prop) l r :
  (forall a b, R a b -> S a b) -> Forall2 R l r -> Forall2 S l r.
Proof. intros H F. induction F; constructor; auto. Qed.
Lemma Forall2_imp_In {A B} (R S : A -> B -> Prop) l : forall r,
  (forall a b, In a l -> R a b -> S a b) -> Forall2 R l r -> Forall2 S l r.
Proof. intros r H F. induction F; constructor; [apply H; [now left|assumption]|apply IHF; intros; apply H; [now right|assumption]]. Qed.

Section SortedConcat.
  Context {F A B : Type} (sel : F -> list A) (conv : A -> result B) (leb : B -> B -> bool).
  Let one (f : F) : result (list B) := do r <- mapM conv (sel f); Ok (isort leb r).
  Lemma concatM_sorted files r :
    concatM one files = Ok r ->
    exists r', Forall2 (fun x y => conv x = Ok y) (flat_map sel files) r' /\ Permutation r' r.
  Proof using.
    revert r. induction files as [|f files IH]; intros r.
    - simpl. intros H; injection H as <-. exists []. split; constructor.
    - rewrite concatM_cons. unfold bind at 1. unfold one at 1, bind at 1.
      destruct (mapM conv (sel f)) as [a|] eqn:E; [|discriminate].
      destruct (concatM one files) as [b|] eqn:E2; [|discriminate]. simpl. intros H; injection H as <-.
      destruct (IH _ eq_refl) as (r' & F1 & P1). apply mapM_Forall2 in E.
      exists (a ++ r'). split; [now apply Forall2_app|]. apply Permutation_app; [apply isort_perm|assumption].
  Qed.
  Lemma concatM_sorted_ok files r' :
    Forall2 (fun x y => conv x = Ok y) (flat_map sel files) r' ->
    exists r, concatM one files = Ok r /\ Permutation r' r.
  Proof using.
    revert r'. induction files as [|f files IH]; intros r' H.
    - inversion H; subst. exists []. now split.
    - simpl in H. apply Forall2_app_inv_l in H as (a & b & Ha & Hb & ->).
      apply mapM_Forall2 in Ha. destruct (IH _ Hb) as (r & Hr & P).
      exists (isort leb a ++ r). rewrite concatM_cons. unfold one at 1. rewrite Ha. simpl. rewrite Hr. simpl.
      split; [reflexivity|]. apply Permutation_app; [apply isort_perm|assumption].
  Qed.
End SortedConcat.

Lemma Permutation_flat_map_eq {A B} (f : A -> list B) l1 l2 :
  Permutation l1 l2 -> Permutation (flat_map f l1) (flat_map f l2).
Proof.
  induction 1; simpl; [constructor|now apply Permutation_app_head| |etransitivity; eassumption].
  rewrite !app_assoc. apply Permutation_app_tail, Permutation_app_comm.
Qed.

(** ** Grouping files by package *)
Definition good_package (s : string) : Prop := exists c t, s = String c t /\ c <> "."%char.

Record grouped (seen : list file_desc) (pm : package_map) : Prop := {
  gr_keys : NoDup (map fst pm);
  gr_inner : forall pkg fm, In (pkg, fm) pm -> NoDup (map fst fm);
  gr_sound : forall pkg fm n f, In (pkg, fm) pm -> In (n, f) fm -> In f seen /\ fl_package f = pkg /\ fl_name f = n;
  gr_complete : forall f, In f seen -> exists fm g, In (fl_package f, fm) pm /\ In (fl_name f, g) fm /\ fl_data g = fl_data f;
  gr_nonempty : forall pkg fm, In (pkg, fm) pm -> exists f, In f seen /\ fl_package f = pkg;
  gr_good : forall f, In f seen -> good_package (fl_package f)
}.

Lemma gput_In_iff {K V} {key : Key K} (k : K) (v : V) m x w :
  NoDup (map fst m) -> In (x, w) (gput k v m) <-> (x = k /\ w = v) \/ (x <> k /\ In (x, w) m).
Proof.
  intros N. split.
  - intros H. apply (In_gget _ _ _ (gput_NoDup k v m N)) in H.
    destruct (key_dec x k) as [->|Hn].
    + rewrite gget_gput_eq in H. left. split; congruence.
    + rewrite gget_gput_neq in H by assumption. right. split; [assumption|now apply gget_In].
  - intros [[-> ->]|[Hn H]]; apply gget_In; [apply gget_gput_eq|].
    rewrite gget_gput_neq by assumption. now apply In_gget.
Qed.

Lemma add_file_grouped seen pm f pm' :
  grouped seen pm -> add_file pm f = Ok pm' -> grouped (seen ++ [f]) pm'.
Proof.
  intros G. unfold add_file. destruct (fl_package f) as [|c t] eqn:EP; [discriminate|].
  destruct (Ascii.eqb c ".") eqn:Ec; [discriminate|]. rewrite <- EP.
  assert (GP : good_package (fl_package f)).
  { exists c, t. split; [assumption|]. now apply Ascii.eqb_neq. }
  assert (Hgood : forall g, In g (seen ++ [f]) -> good_package (fl_package g)).
  { intros g Hg. apply in_app_iff in Hg as [Hg|[<-|[]]]; [now apply (gr_good _ _ G)|assumption]. }
  set (fm := match gget (fl_package f) pm with Some fm => fm | None => [] end).
  assert (Nfm : NoDup (map fst fm)).
  { unfold fm. destruct (gget (fl_package f) pm) eqn:E; [|constructor].
    apply gget_In in E. now apply (gr_inner _ _ G) in E. }
  assert (Sfm : forall n g, In (n, g) fm -> In g seen /\ fl_package g = fl_package f /\ fl_name g = n).
  { unfold fm. intros n g Hg. destruct (gget (fl_package f) pm) eqn:E; [|easy].
    apply gget_In in E. now apply (gr_sound _ _ G _ _ _ _ E). }
  assert (Cfm : forall g, In g seen -> fl_package g = fl_package f ->
                exists h, In (fl_name g, h) fm /\ fl_data h = fl_data g).
  { intros g Hg Ep. destruct (gr_complete _ _ G g Hg) as (fm' & h & H1 & H2 & H3).
    rewrite Ep in H1. apply (In_gget _ _ _ (gr_keys _ _ G)) in H1. unfold fm. rewrite H1. eauto. }
  assert (Main : forall fm',
    NoDup (map fst fm') ->
    (forall n g, In (n, g) fm' -> In g (seen ++ [f]) /\ fl_package g = fl_package f /\ fl_name g = n) ->
    (forall g, In g (seen ++ [f]) -> fl_package g = fl_package f -> exists h, In (fl_name g, h) fm' /\ fl_data h = fl_data g) ->
    grouped (seen ++ [f]) (gput (fl_package f) fm' pm)).
  { intros fm' N1 S1 C1. constructor.
    - apply gput_NoDup, (gr_keys _ _ G).
    - intros pkg x H. apply (gput_In_iff _ _ _ _ _ (gr_keys _ _ G)) in H as [[-> ->]|[Hn H]]; [assumption|].
      now apply (gr_inner _ _ G) in H.
    - intros pkg x n g H Hg. apply (gput_In_iff _ _ _ _ _ (gr_keys _ _ G)) in H as [[-> ->]|[Hn H]]; [auto|].
      destruct (gr_sound _ _ G _ _ _ _ H Hg) as (? & ? & ?). rewrite in_app_iff. auto.
    - intros g Hg. destruct (string_dec (fl_package g) (fl_package f)) as [Ep|En].
      + destruct (C1 g Hg Ep) as (h & H1 & H2). exists fm', h. split; [|auto].
        apply (gput_In_iff _ _ _ _ _ (gr_keys _ _ G)). now left.
      + apply in_app_iff in Hg as [Hg|[<-|[]]]; [|congruence].
        destruct (gr_complete _ _ G g Hg) as (x & h & H1 & H2 & H3). exists x, h. split; [|auto].
        apply (gput_In_iff _ _ _ _ _ (gr_keys _ _ G)). now right.
    - intros pkg x H. apply (gput_In_iff _ _ _ _ _ (gr_keys _ _ G)) in H as [[-> ->]|[Hn H]].
      + exists f. split; [apply in_app_iff; right; now left|reflexivity].
      + destruct (gr_nonempty _ _ G _ _ H) as (g & H1 & H2). exists g. rewrite in_app_iff. auto.
    - assumption. }
  destruct (gget (fl_name f) fm) as [g|] eqn:Eg.
  - destruct (String.eqb (fl_data f) (fl_data g)) eqn:Ed; [|discriminate]. apply String.eqb_eq in Ed.
    intros H; injection H as <-. apply Main; [assumption| |].
    + intros n h Hh. destruct (Sfm _ _ Hh) as (? & ? & ?). rewrite in_app_iff. auto.
    + intros h Hh Ep. apply in_app_iff in Hh as [Hh|[<-|[]]]; [auto|].
      apply gget_In in Eg. eauto.
  - intros H; injection H as <-. apply Main.
    + now apply gput_NoDup.
    + intros n h Hh. apply (gput_In_iff _ _ _ _ _ Nfm) in Hh as [[-> ->]|[Hn Hh]].
      * rewrite in_app_iff. simpl. auto.
      * destruct (Sfm _ _ Hh) as (? & ? & ?). rewrite in_app_iff. auto.
    + intros h Hh Ep. destruct (string_dec (fl_name h) (fl_name f)) as [En|En].
      * apply in_app_iff in Hh as [Hh|[<-|[]]].
        -- destruct (Cfm h Hh Ep) as (k & H1 & H2). rewrite En in H1.
           apply (In_gget _ _ _ Nfm) in H1. congruence.
        -- exists f. split; [|reflexivity]. apply (gput_In_iff _ _ _ _ _ Nfm). now left.
      * apply in_app_iff in Hh as [Hh|[<-|[]]]; [|congruence].
        destruct (Cfm h Hh Ep) as (k & H1 & H2). exists k. split; [|assumption].
        apply (gput_In_iff _ _ _ _ _ Nfm). now right.
Qed.
Lemma add_files_grouped l : forall seen pm pm',
  grouped seen pm -> add_files pm l = Ok pm' -> grouped (seen ++ l) pm'.
Proof.
  induction l as [|f l IH]; intros seen pm pm' G; simpl.
  - intros H; injection H as <-. now rewrite app_nil_r.
  - unfold bind. destruct (add_file pm f) as [pm1|] eqn:E; [|discriminate]. intros H.
    replace (seen ++ f :: l) with ((seen ++ [f]) ++ l) by now rewrite <- app_assoc.
    eapply IH; [|exact H]. eapply add_file_grouped; eassumption.
Qed.
Lemma grouped_nil : grouped [] [].
Proof. constructor; try easy. constructor. Qed.

Lemma add_file_ok seen pm f :
  grouped seen pm -> good_package (fl_package f) ->
  (forall g, In g seen -> fl_package g = fl_package f -> fl_name g = fl_name f -> fl_data g = fl_data f) ->
  exists pm', add_file pm f = Ok pm'.
Proof.
  intros G (c & t & EP & Hc) Hd. unfold add_file. rewrite EP.
  destruct (Ascii.eqb c ".") eqn:Ec; [now apply Ascii.eqb_eq in Ec|]. rewrite <- EP.
  destruct (gget (fl_package f) pm) as [fm|] eqn:E; cbn [gget].
  - destruct (gget (fl_name f) fm) as [g|] eqn:Eg; [|eauto].
    apply gget_In in E. apply gget_In in Eg. destruct (gr_sound _ _ G _ _ _ _ E Eg) as (H1 & H2 & H3).
    rewrite (Hd g H1 H2 H3), String.eqb_refl. eauto.
  - eauto.
Qed.
Lemma add_files_ok l : forall seen pm,
  grouped seen pm -> (forall f, In f l -> good_package (fl_package f)) ->
  (forall f g, In f (seen ++ l) -> In g (seen ++ l) -> fl_package g = fl_package f -> fl_name g = fl_name f -> fl_data g = fl_data f) ->
  exists pm', add_files pm l = Ok pm'.
Proof.
  induction l as [|f l IH]; intros seen pm G Hg Hd; [now exists pm|].
  simpl. destruct (add_file_ok seen pm f G) as [pm1 E1].
  - apply Hg. now left.
  - intros g H1 H2 H3. apply Hd; auto; rewrite in_app_iff; simpl; auto.
  - rewrite E1. simpl. apply (IH (seen ++ [f])).
    + eapply add_file_grouped; eassumption.
    + intros g Hx. apply Hg. now right.
    + rewrite <- app_assoc. exact Hd.
Qed.

(** A file name belongs to one package. *)
Definition name_package (fs : list file_desc) : Prop :=
  forall f g, In f fs -> In g fs -> fl_name f = fl_name g -> fl_package f = fl_package g.

Lemma file_packages_In pm file pkg :
  In (file, pkg) (file_packages pm) <-> exists fm f, In (pkg, fm) pm /\ In (file, f) fm.
Proof.
  unfold file_packages. rewrite in_concat. split.
  - intros (l & Hl & Hi). apply in_map_iff in Hl as ([p fm] & <- & Hp). simpl in Hi.
    apply in_map_iff in Hi as ([n f] & E & Hn). simpl in E. injection E as <- <-. eauto.
  - intros (fm & f & H1 & H2). exists (map (fun nf => (fst nf, pkg)) fm). split.
    + apply in_map_iff. now exists (pkg, fm).
    + apply in_map_iff. now exists (file, f).
Qed.
Lemma file_name_map_spec l : forall m r,
  get_file_name_to_package_name l m = Ok r ->
  (forall file pkg, gget file m = Some pkg -> gget file r = Some pkg) /\
  (forall file pkg, In (file, pkg) l -> gget file r = Some pkg) /\
  (forall file pkg, gget file r = Some pkg -> gget file m = Some pkg \/ In (file, pkg) l).
Proof.
  induction l as [|[file0 pkg0] l IH]; intros m r; cbn [get_file_name_to_package_name].
  - intros H; injection H as <-. repeat split; [auto|easy|auto].
  - destruct (gget file0 m) as [p|] eqn:E.
    + destruct (String.eqb p pkg0) eqn:Ep; [|discriminate]. apply String.eqb_eq in Ep as ->.
      intros H. apply IH in H as (H1 & H2 & H3). repeat split; [auto| |].
      * intros file pkg [Hi|Hi]; [injection Hi as <- <-; auto|auto].
      * intros file pkg Hr. destruct (H3 _ _ Hr); [now left|right; now right].
    + intros H. apply IH in H as (H1 & H2 & H3). repeat split.
      * intros file pkg Hf. apply H1. rewrite gget_gput_neq; [assumption|congruence].
      * intros file pkg [Hi|Hi]; [injection Hi as <- <-; apply H1; apply gget_gput_eq|auto].
      * intros file pkg Hr. destruct (H3 _ _ Hr) as [Hm|Hi]; [|right; now right].
        destruct (string_dec file file0) as [->|Hn].
        -- rewrite gget_gput_eq in Hm. injection Hm as <-. right. now left.
        -- rewrite gget_gput_neq in Hm by assumption. now left.
Qed.
Lemma file_name_map_ok l : forall m,
  (forall file p q, In (file, p) l -> In (file, q) l -> p = q) ->
  (forall file p q, gget file m = Some p -> In (file, q) l -> p = q) ->
  exists r, get_file_name_to_package_name l m = Ok r.
Proof.
  induction l as [|[file0 pkg0] l IH]; intros m H1 H2; cbn [get_file_name_to_package_name]; [eauto|].
  destruct (gget file0 m) as [p|] eqn:E.
  - rewrite (H2 _ _ pkg0 E (or_introl eq_refl)), String.eqb_refl. apply IH.
    + intros file p' q Ha Hb. eapply H1; right; eassumption.
    + intros file p' q Ha Hb. eapply H2; [eassumption|right; eassumption].
  - apply IH.
    + intros file p q Ha Hb. eapply H1; right; eassumption.
    + intros file p q Ha Hb. destruct (string_dec file file0) as [->|Hn].
      * rewrite gget_gput_eq in Ha. injection Ha as <-. eapply H1; [now left|right; eassumption].
      * rewrite gget_gput_neq in Ha by assumption. eapply H2; [eassumption|right; eassumption].
Qed.

(** ** Conversions *)
Lemma strip_spec s t : verify_fully_qualified_name_and_strip s = Ok t <-> strips s t.
Proof.
  split.
  - destruct s as [|c s]; simpl; [discriminate|]. destruct (Ascii.eqb c ".") eqn:E; [|discriminate].
    apply Ascii.eqb_eq in E as ->. intros H; injection H as <-. constructor.
  - intros H; inversion H; subst. reflexivity.
Qed.
Lemma new_field_spec d f : new_field d = Ok f -> reflects_field d f.
Proof.
  unfold new_field, bind. destruct (is_empty (fdd_type_name d)) eqn:E.
  - intros H; injection H as <-. unfold reflects_field; simpl. repeat split; auto.
    left. split; [|reflexivity]. destruct (fdd_type_name d); [reflexivity|discriminate].
  - destruct (verify_fully_qualified_name_and_strip (fdd_type_name d)) as [t|] eqn:Ev; [|discriminate].
    intros H; injection H as <-. unfold reflects_field; simpl. repeat split; auto. right. now apply strip_spec.
Qed.
Lemma new_enum_spec e : reflects_enum e (new_enum e).
Proof. split; [reflexivity|]. apply isort_perm. Qed.
Lemma get_enums_spec l : list_reflects reflects_enum l (get_enums l).
Proof.
  exists (map new_enum l). split; [|apply isort_perm].
  induction l; constructor; [apply new_enum_spec|assumption].
Qed.
Lemma new_method_spec d m : new_service_method d = Ok m -> reflects_method d m.
Proof.
  unfold new_service_method, bind.
  destruct (verify_fully_qualified_name_and_strip (mt_request d)) eqn:E1; [|discriminate].
  destruct (verify_fully_qualified_name_and_strip (mt_response d)) eqn:E2; [|discriminate].
  intros H; injection H as <-. apply strip_spec in E1, E2. repeat split; assumption.
Qed.
Lemma new_service_spec d s : new_service d = Ok s -> reflects_service d s.
Proof.
  unfold new_service, bind. destruct (mapM new_service_method (sv_methods d)) as [ms|] eqn:E; [|discriminate].
  intros H; injection H as <-. split; [reflexivity|]. simpl. apply mapM_Forall2 in E.
  exists ms. split; [|apply isort_perm]. eapply Forall2_imp; [|exact E]. apply new_method_spec.
Qed.

(** Oneof numbers collected by [add_fields]. *)
Lemma oneof_at_spec oneofs i n :
  oneof_at oneofs i = Ok n <-> (0 <= i)%Z /\ nth_error oneofs (Z.to_nat i) = Some n.
Proof.
  unfold oneof_at. destruct (i <? 0)%Z eqn:E.
  - apply Z.ltb_lt in E. split; [discriminate|lia].
  - apply Z.ltb_ge in E. destruct (nth_error oneofs (Z.to_nat i)); split; try discriminate;
      try (intros H; injection H as <-; now split); intros [_ H]; congruence.
Qed.
Lemma add_fields_spec oneofs l : forall m r,
  NoDup (map fst m) ->
  add_fields oneofs l m = Ok r ->
  Forall2 reflects_field l (fst r) /\
  NoDup (map fst (snd r)) /\
  (forall n, (exists v, gget n (snd r) = Some v) <-> (exists v, gget n m = Some v)) /\
  (forall n v, gget n (snd r) = Some v -> exists v0 inside outside, gget n m = Some v0 /\
     Permutation l (inside ++ outside) /\ Forall (field_in_oneof oneofs n) inside /\
     Forall (fun f => ~ field_in_oneof oneofs n f) outside /\ v = v0 ++ map fdd_number inside).
Proof.
  induction l as [|f l IH]; intros m r N; simpl.
  - intros H; injection H as <-. simpl. repeat split; [constructor|assumption|auto|auto|].
    intros n v Hv. exists v, [], []. repeat split; auto. now rewrite app_nil_r.
  - unfold bind at 1. destruct (new_field f) as [f'|] eqn:Ef; [|discriminate].
    destruct (match fdd_oneof f with None => Ok m | Some i => _ end) as [m'|] eqn:Em; [|discriminate].
    cbn [bind]. unfold bind at 1. destruct (add_fields oneofs l m') as [r'|] eqn:Er; [|discriminate].
    intros H; injection H as <-. simpl.
    destruct (fdd_oneof f) as [i|] eqn:Ei.
    + unfold bind in Em. destruct (oneof_at oneofs i) as [n0|] eqn:En; [|discriminate].
      destruct (gget n0 m) as [ns|] eqn:Eg; [|discriminate]. injection Em as <-.
      destruct (IH _ _ (gput_NoDup n0 _ m N) Er) as (F & N' & K & V).
      apply oneof_at_spec in En as [Hi En].
      split; [constructor; [now apply new_field_spec|assumption]|]. split; [assumption|]. split.
      * intros n. rewrite K. destruct (string_dec n n0) as [->|Hn].
        -- rewrite gget_gput_eq. split; eauto.
        -- now rewrite gget_gput_neq.
      * intros n v Hv. destruct (V n v Hv) as (v0 & ins & out & H1 & H2 & H3 & H4 & H5).
        destruct (string_dec n n0) as [->|Hn].
        -- rewrite gget_gput_eq in H1. injection H1 as <-. exists ns, (f :: ins), out.
           split; [assumption|]. split; [simpl; now constructor|]. split; [|split; [assumption|]].
           ++ constructor; [|assumption]. exists i. auto.
           ++ rewrite H5, <- app_assoc. reflexivity.
        -- rewrite gget_gput_neq in H1 by assumption. exists v0, ins, (f :: out).
           split; [assumption|]. split; [rewrite H2; apply Permutation_middle|].
           split; [assumption|]. split; [|assumption]. constructor; [|assumption].
           intros (j & Hj & _ & Hj'). rewrite Ei in Hj. injection Hj as <-. congruence.
    + injection Em as <-. destruct (IH _ _ N Er) as (F & N' & K & V).
      split; [constructor; [now apply new_field_spec|assumption]|]. split; [assumption|]. split; [assumption|].
      intros n v Hv. destruct (V n v Hv) as (v0 & ins & out & H1 & H2 & H3 & H4 & H5).
      exists v0, ins, (f :: out). split; [assumption|]. split; [rewrite H2; apply Permutation_middle|].
      split; [assumption|]. split; [|assumption]. constructor; [|assumption].
      intros (j & Hj & _). congruence.
Qed.
Lemma base_oneofs_spec oneofs n v :
  gget n (base_oneofs oneofs) = Some v <-> v = [] /\ In n oneofs.
Proof.
  unfold base_oneofs. rewrite gget_build, <- map_rev. rewrite (in_rev oneofs).
  induction (rev oneofs) as [|x l IH]; [simpl; split; [discriminate|easy]|].
  cbn [map gget]. destruct (keqb n x) eqn:E.
  - apply keqb_eq in E as ->. split; [intros H; injection H as <-; simpl; auto|intros [-> _]; reflexivity].
  - rewrite IH. apply keqb_neq in E. simpl. intuition congruence.
Qed.

Lemma new_message_eq name fields oneofs nested enums :
  new_message (mk_message_desc name fields oneofs nested enums) =
  do nested' <- mapM new_message nested;
  do r <- add_fields oneofs fields (base_oneofs oneofs);
  Ok (mk_message name (sort_fields (fst r)) (sorted_oneofs (snd r)) (sort_messages nested') (get_enums enums)).
Proof.
  cbn [new_message].
  match goal with |- bind (?f nested) _ = _ => assert (E : f nested = mapM new_message nested) end.
  { clear. induction nested as [|x l IH]; [reflexivity|]. cbn [mapM]. rewrite <- IH. reflexivity. }
  now rewrite E.
Qed.
Lemma new_message_spec d : forall m, new_message d = Ok m -> reflects_message d m.
Proof.
  induction d as [name fields oneofs nested enums IH] using message_desc_ind'. intros m.
  rewrite new_message_eq. unfold bind. destruct (mapM new_message nested) as [nested'|] eqn:En; [|discriminate].
  destruct (add_fields oneofs fields (base_oneofs oneofs)) as [r|] eqn:Er; [|discriminate].
  intros H; injection H as <-. apply mapM_Forall2 in En.
  destruct (add_fields_spec _ _ _ _ (build_NoDup _) Er) as (F & N & K & V).
  assert (PO : Permutation (map (fun kv => mk_oneof (fst kv) (isort Z.leb (snd kv))) (snd r)) (sorted_oneofs (snd r)))
    by apply isort_perm.
  assert (InO : forall o, In o (sorted_oneofs (snd r)) <->
                exists v, gget (oo_name o) (snd r) = Some v /\ oo_numbers o = isort Z.leb v).
  { intros o. rewrite <- PO. rewrite in_map_iff. split.
    - intros ([k v] & <- & Hi). exists v. simpl. split; [now apply In_gget|reflexivity].
    - intros (v & Hv & Ho). exists (oo_name o, v). simpl. rewrite <- Ho. split; [now destruct o|now apply gget_In]. }
  apply reflects_message_intro with (nested0 := nested').
  - exists (fst r). split; [assumption|apply isort_perm].
  - eapply Permutation_NoDup; [apply Permutation_map; exact PO|]. rewrite map_map. exact N.
  - intros n. assert (In n oneofs <-> exists v, gget n (base_oneofs oneofs) = Some v) as ->.
    { split; [intros H; exists []; now apply base_oneofs_spec|intros [v H]; now apply base_oneofs_spec in H]. }
    rewrite <- K. split.
    + intros [v Hv]. exists (mk_oneof n (isort Z.leb v)). split; [|reflexivity]. apply InO. simpl. eauto.
    + intros (o & Ho & <-). apply InO in Ho as (v & Hv & _). eauto.
  - intros o Ho. apply InO in Ho as (v & Hv & Ho). destruct (V _ _ Hv) as (v0 & ins & out & H1 & H2 & H3 & H4 & H5).
    apply base_oneofs_spec in H1 as [-> _]. exists ins, out. repeat split; try assumption.
    rewrite Ho. simpl in H5. rewrite <- H5. apply isort_perm.
  - eapply Forall2_imp_In; [|exact En]. rewrite Forall_forall in IH. intros a b Ha Hb. exact (IH a Ha b Hb).
  - apply isort_perm.
  - apply get_enums_spec.
Qed.
Lemma new_message_name d m : new_message d = Ok m -> md_name d = msg_name m.
Proof. intros H. apply new_message_spec in H. now inversion H. Qed.
Lemma new_service_name d s : new_service d = Ok s -> sv_name d = sv_name s.
Proof. intros H. now apply new_service_spec in H as [H _]. Qed.

(** ** One package *)
Lemma faithful_incl fs gs : (forall f, In f gs -> In f fs) -> faithful fs -> faithful gs.
Proof. intros H F f g Hf Hg. apply F; auto. Qed.

Section Grouped.
  Variables (sets : list file_set) (fs : list file_desc) (pm : package_map) (ftp : list (string * string)).
  Hypothesis HF : faithful fs.
  Hypothesis HD : distinct_files sets fs.
  Hypothesis HG : add_files [] (concat sets) = Ok pm.
  Hypothesis HT : get_file_name_to_package_name (file_packages pm) [] = Ok ftp.

  Lemma concat_In f : In f (concat sets) <-> In f fs.
  Proof using HD. destruct HD as [_ H]. rewrite H, in_concat. reflexivity. Qed.
  Lemma pm_grouped : grouped (concat sets) pm.
  Proof using HG. exact (add_files_grouped _ [] [] pm grouped_nil HG). Qed.
  Lemma pm_files pkg fm f : In (pkg, fm) pm -> In f (map snd fm) <-> In f (files_of pkg fs).
  Proof using HF HD HG.
    intros Hp. pose proof pm_grouped as G. unfold files_of. rewrite filter_In, String.eqb_eq. split.
    - intros Hf. apply in_map_iff in Hf as ([n f'] & <- & Hn). simpl.
      destruct (gr_sound _ _ G _ _ _ _ Hp Hn) as (H1 & H2 & H3). rewrite concat_In in H1. auto.
    - intros [Hf Ep]. destruct (gr_complete _ _ G f) as (fm' & g & H1 & H2 & H3); [now apply concat_In|].
      rewrite Ep in H1. apply (In_gget _ _ _ (gr_keys _ _ G)) in H1. apply (In_gget _ _ _ (gr_keys _ _ G)) in Hp.
      assert (fm' = fm) as -> by congruence.
      assert (g = f) as ->.
      { apply HF; [|assumption|assumption]. apply concat_In.
        apply (gget_In pkg fm pm) in Hp. apply (gr_sound _ _ G _ _ _ _ Hp H2). }
      apply in_map_iff. now exists (fl_name f, f).
  Qed.
  Lemma pm_perm pkg fm : In (pkg, fm) pm -> Permutation (map snd fm) (files_of pkg fs).
  Proof using HF HD HG.
    intros Hp. pose proof pm_grouped as G. apply NoDup_Permutation.
    - apply (NoDup_map_inv fl_name). rewrite map_map.
      replace (map (fun x => fl_name (snd x)) fm) with (map fst fm); [now apply (gr_inner _ _ G pkg)|].
      apply map_ext_in. intros [n f] Hn. symmetry. now apply (gr_sound _ _ G _ _ _ _ Hp Hn).
    - apply NoDup_filter. apply HD.
    - intros f. now apply pm_files.
  Qed.
  Lemma pm_packages pkg : In pkg (map fst pm) <-> exists f, In f fs /\ fl_package f = pkg.
  Proof using HD HG.
    pose proof pm_grouped as G. split.
    - intros H. apply in_map_iff in H as ([p fm] & <- & Hp). simpl.
      destruct (gr_nonempty _ _ G _ _ Hp) as (f & H1 & H2). exists f. now rewrite concat_In in H1.
    - intros (f & Hf & <-). destruct (gr_complete _ _ G f) as (fm & g & H1 & _); [now apply concat_In|].
      apply in_map_iff. now exists (fl_package f, fm).
  Qed.
  Lemma ftp_spec file pkg : gget file ftp = Some pkg <-> exists f, In f fs /\ fl_name f = file /\ fl_package f = pkg.
  Proof using HF HD HG HT.
    pose proof pm_grouped as G. destruct (file_name_map_spec _ _ _ HT) as (_ & H2 & H3). split.
    - intros H. destruct (H3 _ _ H) as [H'|H']; [discriminate|]. apply file_packages_In in H' as (fm & f & Ha & Hb).
      destruct (gr_sound _ _ G _ _ _ _ Ha Hb) as (H5 & H6 & H7). rewrite concat_In in H5. eauto.
    - intros (f & Hf & <- & <-). apply H2, file_packages_In.
      destruct (gr_complete _ _ G f) as (fm & g & Ha & Hb & _); [now apply concat_In|]. eauto.
  Qed.

  Lemma get_deps_spec pkg fm r : In (pkg, fm) pm -> get_deps ftp pkg fm = Ok r ->
    Increasing r /\ forall d, In d r <-> depends fs pkg d.
  Proof using HF HD HG HT.
    intros Hp. unfold get_deps, bind.
    destruct (concatM _ fm) as [ds|] eqn:E; [|discriminate]. intros H; injection H as <-.
    destruct (sort_uniq_modify_spec (fun x => x) ds) as [Hi Hm]. split; [assumption|].
    intros d. unfold sort_uniq. rewrite Hm. destruct (concatM_Ok _ _ _ E) as [Hok Hin]. split.
    - intros (Hne & y & Hy & ->). apply Hin in Hy as ([n f] & a & Hf & Ha & Hy). simpl in Ha.
      destruct (concatM_Ok _ _ _ Ha) as [_ Hin2]. apply Hin2 in Hy as (dep & b & Hdep & Hb & Hy).
      destruct (gget dep ftp) as [q|] eqn:Eq; [|discriminate]. injection Hb as <-.
      destruct (String.eqb q pkg) eqn:Eqp; [easy|]. destruct Hy as [<-|[]].
      apply ftp_spec in Eq as (g & Hg & <- & <-).
      assert (Hf' : In f (files_of pkg fs)).
      { apply (pm_files pkg fm); [assumption|]. apply in_map_iff. now exists (n, f). }
      apply filter_In in Hf' as [Hf1 Hf2]. apply String.eqb_eq in Hf2.
      exists f, g. repeat split; try assumption. now apply String.eqb_neq.
    - intros (f & g & Hf & Hg & Hd & Ef & Eg & Hne).
      pose proof pm_grouped as G. split.
      { intros ->. destruct (gr_good _ _ G g) as (c & t & Hc & _); [now apply concat_In|]. congruence. }
      exists d. split; [|reflexivity]. apply Hin.
      assert (Hf' : In f (map snd fm)).
      { apply (pm_files pkg fm _ Hp). apply filter_In. split; [assumption|]. now apply String.eqb_eq. }
      apply in_map_iff in Hf' as ([n f'] & E' & Hn). simpl in E'. subst f'.
      destruct (Hok (n, f) Hn) as [a Ha]. simpl in Ha. exists (n, f), a. split; [assumption|]. split; [assumption|].
      destruct (concatM_Ok _ _ _ Ha) as [_ Hin2]. apply Hin2. exists (fl_name g), [d].
      split; [assumption|]. split; [|now left].
      assert (gget (fl_name g) ftp = Some d) as -> by (apply ftp_spec; exists g; auto).
      destruct (String.eqb d pkg) eqn:Ed; [now apply String.eqb_eq in Ed|reflexivity].
  Qed.
  Lemma get_deps_ok pkg fm : imports_resolve fs -> In (pkg, fm) pm -> exists r, get_deps ftp pkg fm = Ok r.
  Proof using HF HD HG HT.
    intros HI Hp. unfold get_deps.
    match goal with |- context[concatM ?F fm] => destruct (concatM_all_Ok F fm) as [r Hr] end; [|rewrite Hr; simpl; eauto].
    intros [n f] Hn. simpl. apply concatM_all_Ok. intros dep Hdep.
    assert (Hf' : In f (files_of pkg fs)).
    { apply (pm_files pkg fm); [assumption|]. apply in_map_iff. now exists (n, f). }
    apply filter_In in Hf' as [Hf1 Hf2]. destruct (HI f dep Hf1 Hdep) as (g & Hg & <-).
    assert (gget (fl_name g) ftp = Some (fl_package g)) as -> by (apply ftp_spec; exists g; auto). eauto.
  Qed.

  (** The conversions of one package, by the declarations of its files. *)
  Lemma new_package_inv pkg fm p : In (pkg, fm) pm -> new_package ftp (pkg, fm) = Ok p ->
    pk_name p = pkg /\ Increasing (pk_deps p) /\ (forall d, In d (pk_deps p) <-> depends fs pkg d) /\
    (exists ms, Forall2 (fun x y => new_message x = Ok y) (messages_of pkg fs) ms /\
                exists ms', Permutation ms ms' /\ pk_messages p = sort_messages ms') /\
    (exists ss, Forall2 (fun x y => new_service x = Ok y) (services_of pkg fs) ss /\
                exists ss', Permutation ss ss' /\ pk_services p = isort (fun a b => str_leb (sv_name a) (sv_name b)) ss') /\
    (exists es', Permutation (map new_enum (enums_of pkg fs)) es' /\
                pk_enums p = isort (fun a b => str_leb (en_name a) (en_name b)) es').
  Proof using HF HD HG HT.
    intros Hp. cbn [new_package]. unfold bind at 1. destruct (get_deps ftp pkg fm) as [deps|] eqn:Ed; [|discriminate].
    unfold bind at 1. destruct (concatM (fun nf => get_messages _) fm) as [ms|] eqn:Em; [|discriminate].
    unfold bind at 1. destruct (concatM (fun nf => get_services _) fm) as [ss|] eqn:Es; [|discriminate].
    intros H; injection H as <-. destruct (get_deps_spec _ _ _ Hp Ed) as [D1 D2].
    pose proof (pm_perm _ _ Hp) as PP. cbn [pk_name pk_deps pk_messages pk_enums pk_services].
    split; [reflexivity|]. split; [assumption|]. split; [assumption|]. split; [|split].
    - apply (concatM_sorted (fun nf : string * file_desc => fl_messages (snd nf)) new_message) in Em as (r' & F & P).
      assert (P2 : Permutation (flat_map (fun nf : string * file_desc => fl_messages (snd nf)) fm) (messages_of pkg fs)).
      { unfold messages_of. rewrite <- PP. rewrite flat_map_concat_map, (flat_map_concat_map fl_messages), map_map. reflexivity. }
      destruct (Forall2_perm _ _ _ P2 _ F) as (r2 & F2 & P3). exists r2. split; [assumption|].
      exists ms. split; [|reflexivity]. now rewrite <- P3.
    - apply (concatM_sorted (fun nf : string * file_desc => fl_services (snd nf)) new_service) in Es as (r' & F & P).
      assert (P2 : Permutation (flat_map (fun nf : string * file_desc => fl_services (snd nf)) fm) (services_of pkg fs)).
      { unfold services_of. rewrite <- PP. rewrite flat_map_concat_map, (flat_map_concat_map fl_services), map_map. reflexivity. }
      destruct (Forall2_perm _ _ _ P2 _ F) as (r2 & F2 & P3). exists r2. split; [assumption|].
      exists ss. split; [|reflexivity]. now rewrite <- P3.
    - eexists. split; [|reflexivity]. unfold enums_of. rewrite <- PP. clear.
      induction fm as [|[n f] fm IH]; [constructor|]. simpl. rewrite map_app. apply Permutation_app; [|exact IH].
      apply isort_perm.
  Qed.
  Lemma new_package_ok pkg fm : In (pkg, fm) pm -> imports_resolve fs ->
    (forall d, In d (messages_of pkg fs) -> exists m, new_message d = Ok m) ->
    (forall d, In d (services_of pkg fs) -> exists s, new_service d = Ok s) ->
    exists p, new_package ftp (pkg, fm) = Ok p.
  Proof using HF HD HG HT.
    intros Hp HI HM HS. cbn [new_package]. destruct (get_deps_ok _ _ HI Hp) as [deps ->]. cbn [bind].
    assert (Hin : forall nf, In nf fm -> In (snd nf) (files_of pkg fs)).
    { intros nf Hn. apply (pm_files pkg fm _ Hp). apply in_map_iff. now exists nf. }
    match goal with |- context[concatM ?F fm] => destruct (concatM_all_Ok F fm) as [ms Hms] end.
    { intros nf Hn. unfold get_messages. destruct (mapM new_message (fl_messages (snd nf))) eqn:E; [simpl; eauto|].
      exfalso. assert (exists r, mapM new_message (fl_messages (snd nf)) = Ok r) as [r Hr]; [|congruence].
      assert (HA : forall d, In d (fl_messages (snd nf)) -> exists m, new_message d = Ok m).
      { intros d Hd. apply HM. apply in_flat_map. eauto. }
      clear -HA. induction (fl_messages (snd nf)) as [|x l IH]; [now exists []|].
      destruct (HA x (or_introl eq_refl)) as [y Hy]. destruct IH as [ys Hys]; [intros; apply HA; now right|].
      exists (y :: ys). simpl. now rewrite Hy, Hys. }
    rewrite Hms. cbn [bind].
    match goal with |- context[concatM ?F fm] => destruct (concatM_all_Ok F fm) as [ss Hss] end.
    { intros nf Hn. unfold get_services. destruct (mapM new_service (fl_services (snd nf))) eqn:E; [simpl; eauto|].
      exfalso. assert (exists r, mapM new_service (fl_services (snd nf)) = Ok r) as [r Hr]; [|congruence].
      assert (HA : forall d, In d (fl_services (snd nf)) -> exists m, new_service d = Ok m).
      { intros d Hd. apply HS. apply in_flat_map. eauto. }
      clear -HA. induction (fl_services (snd nf)) as [|x l IH]; [now exists []|].
      destruct (HA x (or_introl eq_refl)) as [y Hy]. destruct IH as [ys Hys]; [intros; apply HA; now right|].
      exists (y :: ys). simpl. now rewrite Hy, Hys. }
    rewrite Hss. cbn [bind]. eauto.
  Qed.
End Grouped.

(** ** The whole set *)
Lemma new_package_set_of_inv sets ps : new_package_set_of sets = Ok ps ->
  exists pm ftp l, add_files [] (concat sets) = Ok pm /\
    get_file_name_to_package_name (file_packages pm) [] = Ok ftp /\
    Forall2 (fun x y => new_package ftp x = Ok y) pm l /\
    ps = isort (fun a b => str_leb (pk_name a) (pk_name b)) l.
Proof.
  unfold new_package_set_of, bind. destruct (add_files [] (concat sets)) as [pm|] eqn:E1; [|discriminate].
  destruct (get_file_name_to_package_name (file_packages pm) []) as [ftp|] eqn:E2; [|discriminate].
  destruct (mapM (new_package ftp) pm) as [l|] eqn:E3; [|discriminate]. intros H; injection H as <-.
  apply mapM_Forall2 in E3. exists pm, ftp, l. auto.
Qed.
Lemma Forall2_In_r {A B} (R : A -> B -> Prop) l r y : Forall2 R l r -> In y r -> exists x, In x l /\ R x y.
Proof. intros F. induction F; simpl; [easy|]. intros [<-|H']; [eauto|]. destruct (IHF H') as (z & ? & ?). eauto. Qed.
Lemma Forall2_In_l {A B} (R : A -> B -> Prop) l r x : Forall2 R l r -> In x l -> exists y, In y r /\ R x y.
Proof. intros F. induction F; simpl; [easy|]. intros [<-|H']; [eauto|]. destruct (IHF H') as (z & ? & ?). eauto. Qed.
Lemma new_package_name ftp pf p : new_package ftp pf = Ok p -> pk_name p = fst pf.
Proof.
  destruct pf as [pkg fm]. unfold new_package, bind. destruct (get_deps _ _ _); [|discriminate].
  destruct (concatM _ fm); [|discriminate]. destruct (concatM _ fm); [|discriminate].
  intros H; injection H as <-. reflexivity.
Qed.
Lemma packages_names ftp pm l : Forall2 (fun x y => new_package ftp x = Ok y) pm l -> map fst pm = map pk_name l.
Proof. apply Forall2_map_eq. intros a b H. symmetry. now apply new_package_name in H. Qed.

Theorem new_package_set_describes sets fs ps :
  distinct_files sets fs -> faithful fs -> new_package_set_of sets = Ok ps -> describes fs ps.
Proof.
  intros HD HF H. destruct (new_package_set_of_inv _ _ H) as (pm & ftp & l & HG & HT & FF & ->).
  pose proof (packages_names _ _ _ FF) as EN. pose proof (pm_grouped sets pm HG) as G.
  pose proof (isort_perm (fun a b => str_leb (pk_name a) (pk_name b)) l) as PL.
  split; [|split].
  - apply isort_name_increasing. rewrite <- EN. apply (gr_keys _ _ G).
  - intros pkg. rewrite <- (pm_packages sets fs pm HD HG pkg). rewrite EN, in_map_iff.
    split; intros (p & H1 & H2); exists p; [split; [assumption|now rewrite PL]|split; [now rewrite <- PL|assumption]].
  - intros p Hp. rewrite <- PL in Hp. destruct (Forall2_In_r _ _ _ _ FF Hp) as ([pkg fm] & Hi & Hn).
    destruct (new_package_inv sets fs pm ftp HF HD HG HT _ _ _ Hi Hn) as (-> & D1 & D2 & M & S & E).
    split; [assumption|]. split; [assumption|].
    destruct M as (ms & FM & ms' & PM & ->), S as (ss & FS & ss' & PS & ->), E as (es' & PE & ->).
    split; [|split].
    + exists ms. split; [eapply Forall2_imp; [|exact FM]; apply new_message_spec|].
      rewrite PM. apply isort_perm.
    + exists (map new_enum (enums_of pkg fs)). split.
      * clear. induction (enums_of pkg fs); constructor; [apply new_enum_spec|assumption].
      * rewrite PE. apply isort_perm.
    + exists ss. split; [eapply Forall2_imp; [|exact FS]; apply new_service_spec|].
      rewrite PS. apply isort_perm.
Qed.

Lemma name_package_of_unique fs : names_unique fs -> name_package fs.
Proof. intros H f g Hf Hg E. now rewrite (H f g Hf Hg E). Qed.

Lemma new_package_set_ok sets fs :
  distinct_files sets fs -> faithful fs ->
  (forall f, In f fs -> good_package (fl_package f)) -> imports_resolve fs -> names_unique fs ->
  (forall pkg d, In d (messages_of pkg fs) -> exists m, new_message d = Ok m) ->
  (forall pkg d, In d (services_of pkg fs) -> exists s, new_service d = Ok s) ->
  exists ps, new_package_set_of sets = Ok ps.
Proof.
  intros HD HF HGP HI HN HM HS.
  assert (Hc : forall f, In f (concat sets) <-> In f fs) by (intros; now apply concat_In).
  destruct (add_files_ok (concat sets) [] [] grouped_nil) as [pm HG].
  { intros f Hf. apply HGP. now apply Hc. }
  { intros f g Hf Hg _ E. simpl in Hf, Hg. rewrite Hc in Hf, Hg. now rewrite (HN g f Hg Hf E). }
  pose proof (pm_grouped sets pm HG) as G.
  destruct (file_name_map_ok (file_packages pm) []) as [ftp HT].
  { intros file p q H1 H2. apply file_packages_In in H1 as (fm1 & f1 & A1 & B1).
    apply file_packages_In in H2 as (fm2 & f2 & A2 & B2).
    destruct (gr_sound _ _ G _ _ _ _ A1 B1) as (H1 & <- & H3).
    destruct (gr_sound _ _ G _ _ _ _ A2 B2) as (H2 & <- & H4).
    rewrite Hc in H1, H2. rewrite (HN f1 f2 H1 H2); [reflexivity|congruence]. }
  { intros file p q H; discriminate. }
  assert (HP : exists l, mapM (new_package ftp) pm = Ok l).
  { assert (HA : forall pf, In pf pm -> exists p, new_package ftp pf = Ok p).
    { intros [pkg fm] Hp. eapply new_package_ok with (sets := sets); eauto. }
    clear -HA. induction pm as [|x l IH]; [now exists []|].
    destruct (HA x (or_introl eq_refl)) as [y Hy]. destruct IH as [ys Hys]; [intros; apply HA; now right|].
    exists (y :: ys). simpl. now rewrite Hy, Hys. }
  destruct HP as [l Hl]. unfold new_package_set_of. rewrite HG. cbn [bind]. rewrite HT. cbn [bind]. rewrite Hl.
  cbn [bind]. eauto.
Qed.

(** Moving definitions. *)
Theorem new_package_set_moves sets fs ps sets' gs :
  distinct_files sets fs -> faithful fs -> distinct_files sets' gs -> faithful gs ->
  unique_definitions fs -> same_declarations fs gs -> imports_resolve gs -> names_unique gs ->
  new_package_set_of sets = Ok ps -> new_package_set_of sets' = Ok ps.
Proof.
  intros HD HF HD' HF' HU HSD HI' HN' H.
  destruct (new_package_set_of_inv _ _ H) as (pm & ftp & l & HG & HT & FF & Eps).
  pose proof (pm_grouped sets pm HG) as G.
  pose proof (packages_names _ _ _ FF) as EN.
  (* every package of fs was converted *)
  assert (Hpkg : forall pkg, (exists f, In f fs /\ fl_package f = pkg) ->
            exists fm p, In (pkg, fm) pm /\ In p l /\ new_package ftp (pkg, fm) = Ok p).
  { intros pkg Hx. apply (pm_packages sets fs pm HD HG) in Hx. apply in_map_iff in Hx as ([k fm] & <- & Hk).
    destruct (Forall2_In_l _ _ _ _ FF Hk) as (p & H1 & H2). eauto. }
  assert (HM : forall pkg d, In d (messages_of pkg gs) -> exists m, new_message d = Ok m).
  { intros pkg d Hd. destruct (HSD pkg) as (_ & P & _). rewrite <- P in Hd.
    assert (exists f, In f fs /\ fl_package f = pkg) as Hx.
    { apply in_flat_map in Hd as (f & Hf & _). apply filter_In in Hf as [Hf1 Hf2]. apply String.eqb_eq in Hf2. eauto. }
    destruct (Hpkg _ Hx) as (fm & p & H1 & H2 & H3).
    destruct (new_package_inv sets fs pm ftp HF HD HG HT _ _ _ H1 H3) as (_ & _ & _ & (ms & FM & _) & _).
    destruct (Forall2_In_l _ _ _ _ FM Hd) as (m & _ & Hm). eauto. }
  assert (HS : forall pkg d, In d (services_of pkg gs) -> exists s, new_service d = Ok s).
  { intros pkg d Hd. destruct (HSD pkg) as (_ & _ & _ & P & _). rewrite <- P in Hd.
    assert (exists f, In f fs /\ fl_package f = pkg) as Hx.
    { apply in_flat_map in Hd as (f & Hf & _). apply filter_In in Hf as [Hf1 Hf2]. apply String.eqb_eq in Hf2. eauto. }
    destruct (Hpkg _ Hx) as (fm & p & H1 & H2 & H3).
    destruct (new_package_inv sets fs pm ftp HF HD HG HT _ _ _ H1 H3) as (_ & _ & _ & _ & (ss & FS & _) & _).
    destruct (Forall2_In_l _ _ _ _ FS Hd) as (m & _ & Hm). eauto. }
  assert (HGP : forall g, In g gs -> good_package (fl_package g)).
  { intros g Hg. destruct (HSD (fl_package g)) as [E _].
    destruct (proj2 E (ex_intro _ g (conj Hg eq_refl))) as (f & Hf & <-).
    apply (gr_good _ _ G). now apply (concat_In sets fs HD). }
  destruct (new_package_set_ok sets' gs HD' HF' HGP HI' HN' HM HS) as [ps' H'].
  rewrite H'. f_equal.
  destruct (new_package_set_of_inv _ _ H') as (pm' & ftp' & l' & HG' & HT' & FF' & Eps').
  pose proof (pm_grouped sets' pm' HG') as G'.
  pose proof (packages_names _ _ _ FF') as EN'.
  subst ps ps'. symmetry.
  assert (Nl : NoDup (map pk_name l)) by (rewrite <- EN; apply (gr_keys _ _ G)).
  assert (Nl' : NoDup (map pk_name l')) by (rewrite <- EN'; apply (gr_keys _ _ G')).
  apply isort_name_unique; [|assumption].
  (* every package of one list is in the other *)
  assert (Heq : forall p p', In p l -> In p' l' -> pk_name p = pk_name p' -> p = p').
  { intros p p' Hp Hp' En.
    destruct (Forall2_In_r _ _ _ _ FF Hp) as ([pkg fm] & Hi & Hn).
    destruct (Forall2_In_r _ _ _ _ FF' Hp') as ([pkg' fm'] & Hi' & Hn').
    pose proof (new_package_name _ _ _ Hn) as N1. pose proof (new_package_name _ _ _ Hn') as N2. simpl in N1, N2.
    assert (pkg' = pkg) as -> by congruence.
    destruct (new_package_inv sets fs pm ftp HF HD HG HT _ _ _ Hi Hn) as (A0 & A1 & A2 & AM & AS & AE).
    destruct (new_package_inv sets' gs pm' ftp' HF' HD' HG' HT' _ _ _ Hi' Hn') as (B0 & B1 & B2 & BM & BS & BE).
    destruct (HSD pkg) as (_ & PM & PE & PS & DD). destruct (HU pkg) as (UM & UE & US).
    destruct p as [pn pd pe pmm psv], p' as [pn' pd' pe' pmm' psv']. simpl in *. f_equal.
    - congruence.
    - apply sorted_perm_unique with (leb := str_leb).
      + apply str_leb_antisym.
      + clear -A1. induction A1 as [|x r Hx Hr IH]; constructor; [exact IH|].
        apply Forall_forall. intros y Hy. specialize (Hx y Hy).
        destruct (str_leb_total x y) as [?|Hyx]; [assumption|]. unfold str_ltb in Hx. rewrite Hyx in Hx. discriminate.
      + clear -B1. induction B1 as [|x r Hx Hr IH]; constructor; [exact IH|].
        apply Forall_forall. intros y Hy. specialize (Hx y Hy).
        destruct (str_leb_total x y) as [?|Hyx]; [assumption|]. unfold str_ltb in Hx. rewrite Hyx in Hx. discriminate.
      + apply NoDup_Permutation.
        * clear -A1. induction A1 as [|x r Hx Hr IH]; constructor; [|exact IH].
          intros Hy. specialize (Hx x Hy). now rewrite str_ltb_irrefl in Hx.
        * clear -B1. induction B1 as [|x r Hx Hr IH]; constructor; [|exact IH].
          intros Hy. specialize (Hx x Hy). now rewrite str_ltb_irrefl in Hx.
        * intros d. rewrite A2, B2. apply DD.
    - destruct AE as (ea & PA & ->), BE as (eb & PB & ->). apply isort_name_unique.
      + rewrite <- PA, <- PB. now apply Permutation_map.
      + eapply Permutation_NoDup; [apply Permutation_map; exact PA|]. rewrite map_map. exact UE.
    - destruct AM as (ma & FA & ma' & PA & ->), BM as (mb & FB & mb' & PB & ->).
      destruct (Forall2_perm _ _ _ PM _ FA) as (mc & FC & PC).
      assert (mc = mb) as ->.
      { clear -FB FC. revert mb FB. induction FC as [|x y l r H F IH]; intros mb FB; inversion FB; subst; [reflexivity|].
        f_equal; [congruence|]. now apply IH. }
      apply isort_name_unique.
      + rewrite <- PA, PC. exact PB.
      + eapply Permutation_NoDup; [apply Permutation_map; exact PA|].
        replace (map msg_name ma) with (map md_name (messages_of pkg fs)); [exact UM|].
        apply (Forall2_map_eq (fun x y => new_message x = Ok y)); [|exact FA]. intros. now apply new_message_name.
    - destruct AS as (ma & FA & ma' & PA & ->), BS as (mb & FB & mb' & PB & ->).
      destruct (Forall2_perm _ _ _ PS _ FA) as (mc & FC & PC).
      assert (mc = mb) as ->.
      { clear -FB FC. revert mb FB. induction FC as [|x y l r H F IH]; intros mb FB; inversion FB; subst; [reflexivity|].
        f_equal; [congruence|]. now apply IH. }
      apply isort_name_unique.
      + rewrite <- PA, PC. exact PB.
      + eapply Permutation_NoDup; [apply Permutation_map; exact PA|].
        replace (map sv_name ma) with (map sv_name (services_of pkg fs)); [exact US|].
        apply (Forall2_map_eq (fun x y => new_service x = Ok y)); [|exact FA]. intros. now apply new_service_name. }
  apply NoDup_Permutation.
  - now apply NoDup_map_inv in Nl.
  - now apply NoDup_map_inv in Nl'.
  - intros p. split.
    + intros Hp.
      assert (Hx : In (pk_name p) (map pk_name l)) by now apply in_map.
      rewrite <- EN in Hx. apply (pm_packages sets fs pm HD HG) in Hx.
      apply (proj1 (HSD (pk_name p))) in Hx. apply (pm_packages sets' gs pm' HD' HG') in Hx.
      rewrite EN' in Hx. apply in_map_iff in Hx as (p' & E & Hp'). now rewrite (Heq p p' Hp Hp' (eq_sym E)).
    + intros Hp'.
      assert (Hx : In (pk_name p) (map pk_name l')) by now apply in_map.
      rewrite <- EN' in Hx. apply (pm_packages sets' gs pm' HD' HG') in Hx.
      apply (proj1 (HSD (pk_name p))) in Hx. apply (pm_packages sets fs pm HD HG) in Hx.
      rewrite EN in Hx. apply in_map_iff in Hx as (p' & E & Hp). now rewrite <- (Heq p' p Hp Hp' E).
Qed.
