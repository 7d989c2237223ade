(** Files as protoc makes them give package sets the break check theorems are
    about. *)
From Verif Require Import Breaking_Spec Extract_Proofs.
From Verif Require Import GoStrFacts GoMapFacts Strs_Proofs Reflect_Model Reflect_Spec Reflect_Proofs.
From Coq Require Import Lia.

Lemma add_fields_ok oneofs l : forall m,
  Forall (valid_field_desc oneofs) l ->
  (forall n, In n oneofs -> exists v, gget n m = Some v) ->
  exists r, add_fields oneofs l m = Ok r.
Proof.
  induction l as [|f l IH]; intros m V K; simpl; [eauto|].
  inversion V as [|? ? (L & T & N & O) V']; subst.
  assert (exists f', new_field f = Ok f') as [f' ->].
  { unfold new_field. destruct N as [(-> & _)|(s & _ & ->)]; simpl; eauto. }
  cbn [bind]. destruct (fdd_oneof f) as [i|] eqn:Ei.
  - destruct (O i eq_refl) as [O1 O2].
    destruct (nth_error oneofs (Z.to_nat i)) as [n|] eqn:En.
    2:{ apply nth_error_None in En. lia. }
    assert (oneof_at oneofs i = Ok n) as -> by now apply oneof_at_spec.
    cbn [bind]. destruct (K n) as [v Hv]; [eapply nth_error_In; eassumption|]. rewrite Hv. cbn [bind].
    destruct (IH (gput n (v ++ [fdd_number f]) m) V') as [r ->]; [|simpl; eauto].
    intros n' Hn'. destruct (string_dec n' n) as [->|Hne].
    + rewrite gget_gput_eq. eauto.
    + rewrite gget_gput_neq by assumption. auto.
  - cbn [bind]. destruct (IH m V' K) as [r ->]. simpl. eauto.
Qed.
Lemma mapM_exists {A B} (f : A -> result B) l :
  (forall x, In x l -> exists y, f x = Ok y) -> exists r, mapM f l = Ok r.
Proof.
  induction l as [|x l IH]; intros H; [now exists []|].
  destruct (H x (or_introl eq_refl)) as [y Hy]. destruct IH as [ys Hys]; [intros; apply H; now right|].
  exists (y :: ys). simpl. now rewrite Hy, Hys.
Qed.
Lemma new_message_ok d : valid_message_desc d -> exists m, new_message d = Ok m.
Proof.
  induction d as [name fields oneofs nested enums IH] using message_desc_ind'. intros V.
  inversion V as [? ? ? ? ? VF NF NO VN]; subst. rewrite new_message_eq.
  destruct (mapM_exists new_message nested) as [ns ->].
  { intros x Hx. rewrite Forall_forall in IH, VN. auto. }
  cbn [bind]. destruct (add_fields_ok oneofs fields (base_oneofs oneofs) VF) as [r ->].
  - intros n Hn. exists []. now apply base_oneofs_spec.
  - simpl. eauto.
Qed.
Lemma new_service_ok s : Forall valid_method_desc (sv_methods s) -> exists r, new_service s = Ok r.
Proof.
  intros V. unfold new_service. destruct (mapM_exists new_service_method (sv_methods s)) as [r ->].
  - intros m Hm. rewrite Forall_forall in V. destruct (V m Hm) as [[a Ha] [b Hb]].
    unfold new_service_method. rewrite Ha, Hb. simpl. eauto.
  - simpl. eauto.
Qed.

Lemma reflects_valid_field oneofs d f : reflects_field d f -> valid_field_desc oneofs d -> valid_field f.
Proof.
  intros (E1 & E2 & E3 & E4 & E5) (L & T & N & O). unfold valid_field. rewrite E3, E4. split; [assumption|].
  split; [assumption|]. intros HN. destruct N as [(_ & N1 & N2 & N3)|(s & Hs & Ed)].
  - destruct HN as [H|[H|H]]; congruence.
  - destruct E5 as [[E _]|E]; [congruence|]. inversion E as [s' E' E'']; subst. congruence.
Qed.

(** Oneofs of a reflected message share no field number. *)
Definition message_disjoint (m : message) : Prop :=
  NoDup (map oo_name (msg_oneofs m)) /\
  forall o o' n, In o (msg_oneofs m) -> In o' (msg_oneofs m) ->
    In n (oo_numbers o) -> In n (oo_numbers o') -> o = o'.
Inductive disjoint_deep : message -> Prop :=
| disjoint_deep_intro : forall m, message_disjoint m -> Forall disjoint_deep (msg_nested m) -> disjoint_deep m.

Lemma NoDup_map_inj {A B} (f : A -> B) l x y : NoDup (map f l) -> In x l -> In y l -> f x = f y -> x = y.
Proof.
  induction l as [|z l IH]; simpl; [easy|]. intros N Hx Hy E. inversion N as [|? ? Hn N']; subst.
  destruct Hx as [->|Hx], Hy as [->|Hy]; auto.
  - exfalso. apply Hn. rewrite E. now apply in_map.
  - exfalso. apply Hn. rewrite <- E. now apply in_map.
Qed.
Lemma reflects_valid_message d : forall m, reflects_message d m -> valid_message_desc d ->
  valid_message m /\ disjoint_deep m.
Proof.
  induction d as [name dfields doneofs dnested denums IH] using message_desc_ind'. intros m R V.
  inversion V as [? ? ? ? ? VF NF NO VN]; subst.
  inversion R as [? ? ? ? ? fields oneofs nested enums nested0 RF RN RD RO Rn Pn Re]; subst.
  destruct RF as (f0 & F0 & P0).
  assert (HV : Forall (fun x => valid_message x /\ disjoint_deep x) nested).
  { apply Forall_forall. intros x Hx. rewrite <- Pn in Hx.
    destruct (Forall2_In_r _ _ _ _ Rn Hx) as (d & Hd & Rd). rewrite Forall_forall in IH, VN.
    exact (IH d Hd x Rd (VN d Hd)). }
  assert (Hnum : forall o n, In o oneofs -> In n (oo_numbers o) ->
            exists d, In d dfields /\ fdd_number d = n /\ field_in_oneof doneofs (oo_name o) d).
  { intros o n Ho Hn. destruct (RO o Ho) as (ins & out & P1 & H1 & H2 & P2).
    rewrite <- P2 in Hn. apply in_map_iff in Hn as (d & <- & Hd). exists d. split; [|split; [reflexivity|]].
    - rewrite P1. apply in_app_iff. now left.
    - rewrite Forall_forall in H1. auto. }
  split.
  - constructor.
    + apply Forall_forall. intros f Hf. rewrite <- P0 in Hf.
      destruct (Forall2_In_r _ _ _ _ F0 Hf) as (d & Hd & Rd). rewrite Forall_forall in VF.
      exact (reflects_valid_field _ _ _ Rd (VF d Hd)).
    + intros o n Ho Hn. destruct (Hnum o n Ho Hn) as (d & Hd & <- & _).
      destruct (Forall2_In_l _ _ _ _ F0 Hd) as (f & Hf & Rf). exists f. rewrite <- P0. split; [assumption|].
      apply Rf.
    + eapply Forall_impl; [|exact HV]. now intros a [? _].
  - constructor; simpl.
    + split; [assumption|]. simpl. intros o o' n Ho Ho' Hn Hn'.
      destruct (Hnum o n Ho Hn) as (d & Hd & E1 & i & Hi & I0 & In1).
      destruct (Hnum o' n Ho' Hn') as (d' & Hd' & E2 & i' & Hi' & I0' & In1').
      assert (d' = d) as -> by (apply (NoDup_map_inj fdd_number dfields); congruence).
      assert (i' = i) as -> by congruence. apply (NoDup_map_inj oo_name oneofs); congruence.
    + eapply Forall_impl; [|exact HV]. now intros a [_ ?].
Qed.

Lemma scope_disjoint ms es path ms' es' :
  scope_in ms es path ms' es' -> Forall disjoint_deep ms -> Forall disjoint_deep ms'.
Proof.
  induction 1 as [|ms es n m path ms' es' D S IH]; intros F; [assumption|].
  apply IH. apply declares_In in D as [D _]. rewrite Forall_forall in F. specialize (F m D). now inversion F.
Qed.

Theorem new_package_set_valid sets fs :
  distinct_files sets fs -> faithful fs -> valid_files fs ->
  exists ps, new_package_set_of sets = Ok ps /\ valid_set ps /\ oneofs_disjoint (packages_of true ps).
Proof.
  intros HD HF (VF & HI & HN). rewrite Forall_forall in VF.
  assert (VM : forall pkg d, In d (messages_of pkg fs) -> valid_message_desc d).
  { intros pkg d Hd. apply in_flat_map in Hd as (f & Hf & Hd). apply filter_In in Hf as [Hf _].
    destruct (VF f Hf) as (_ & V & _). rewrite Forall_forall in V. auto. }
  destruct (new_package_set_ok sets fs HD HF) as [ps H]; try assumption.
  - intros f Hf. apply (VF f Hf).
  - intros pkg d Hd. apply new_message_ok. eauto.
  - intros pkg d Hd. apply in_flat_map in Hd as (f & Hf & Hd). apply filter_In in Hf as [Hf _].
    destruct (VF f Hf) as (_ & _ & V). rewrite Forall_forall in V. apply new_service_ok. auto.
  - exists ps. split; [assumption|]. destruct (new_package_set_describes sets fs ps HD HF H) as (DI & DP & DD).
    assert (HM : forall p, In p ps -> Forall (fun m => valid_message m /\ disjoint_deep m) (pk_messages p)).
    { intros p Hp. destruct (DD p Hp) as (_ & _ & (l0 & F0 & P0) & _). apply Forall_forall. intros m Hm.
      rewrite <- P0 in Hm. destruct (Forall2_In_r _ _ _ _ F0 Hm) as (d & Hd & Rd).
      apply (reflects_valid_message d); [assumption|]. exact (VM _ _ Hd). }
    split.
    + apply Forall_forall. intros p Hp. split; [|split].
      * assert (exists f, In f fs /\ fl_package f = pk_name p) as (f & Hf & <-) by (apply DP; eauto).
        destruct (VF f Hf) as ((c & s & E & _) & _). rewrite E. discriminate.
      * eapply Forall_impl; [|exact (HM p Hp)]. now intros a [? _].
      * intros d Hd. apply (DD p Hp) in Hd as (f & g & _ & Hg & _ & _ & Eg & _).
        apply DP. eauto.
    + intros pkg path n m number o o' (ms & es & (p & (Dp & _) & S) & Dm) [Do Io] [Do' Io'].
      apply declares_In in Dp as [Hp _].
      assert (F : Forall disjoint_deep ms).
      { apply (scope_disjoint _ _ _ _ _ S). eapply Forall_impl; [|exact (HM p Hp)]. now intros a [_ ?]. }
      apply declares_In in Dm as [Hm _]. rewrite Forall_forall in F. specialize (F m Hm).
      inversion F as [? [_ Hd] _]; subst.
      apply declares_In in Do as [Do _]. apply declares_In in Do' as [Do' _]. eauto.
Qed.
(** Whatever the files, package names come out non-empty and in order. *)
Theorem new_package_set_named sets fs ps :
  distinct_files sets fs -> faithful fs -> new_package_set_of sets = Ok ps -> packages_named ps.
Proof.
  intros HD HF H. destruct (new_package_set_describes sets fs ps HD HF H) as (DI & DP & DD).
  destruct (new_package_set_of_inv _ _ H) as (pm & ftp & l & HG & HT & FF & _).
  pose proof (pm_grouped sets pm HG) as G.
  apply Forall_forall. intros p Hp.
  assert (exists f, In f fs /\ fl_package f = pk_name p) as (f & Hf & <-) by (apply DP; eauto).
  destruct (gr_good _ _ G f) as (c & t & E & _); [now apply (concat_In sets fs HD)|]. rewrite E. discriminate.
Qed.
