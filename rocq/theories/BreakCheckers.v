(** Boolean checkers for the hypotheses of the break check theorems, used only to
    show that concrete package sets meet them. *)
From Verif Require Import GoMapFacts Extract_Model Breaking_Model Breaking_Spec Extract_Proofs.

Definition valid_fieldb (f : field) : bool :=
  ((1 <=? fd_label f) && (fd_label f <=? 3) && (1 <=? fd_type f) && (fd_type f <=? 18))%Z &&
  (negb ((fd_type f =? 10) || (fd_type f =? 11) || (fd_type f =? 14))%Z || negb (is_empty (fd_type_name f))).
Lemma valid_fieldb_ok f : valid_fieldb f = true -> valid_field f.
Proof.
  unfold valid_fieldb, valid_field, named_type.
  rewrite !andb_true_iff, !orb_true_iff, !negb_true_iff, !orb_false_iff, !Z.leb_le, !Z.eqb_neq, is_empty_false. tauto.
Qed.
Fixpoint valid_messageb (m : message) : bool :=
  let '(mk_message _ fields oneofs nested _) := m in
  forallb valid_fieldb fields &&
  forallb (fun o => forallb (fun n => existsb (fun f => (fd_number f =? n)%Z) fields) (oo_numbers o)) oneofs &&
  (fix go (l : list message) : bool := match l with [] => true | x :: l' => valid_messageb x && go l' end) nested.
Lemma valid_messageb_ok m : valid_messageb m = true -> valid_message m.
Proof.
  induction m as [name fields oneofs nested enums IH] using message_ind'. cbn [valid_messageb].
  rewrite !andb_true_iff. intros [[H1 H2] H3]. constructor.
  - rewrite forallb_forall in H1. rewrite Forall_forall. intros f Hf. now apply valid_fieldb_ok, H1.
  - rewrite forallb_forall in H2. intros o n Ho Hn. apply H2 in Ho. rewrite forallb_forall in Ho. apply Ho in Hn.
    apply existsb_exists in Hn as (f & Hf & E). apply Z.eqb_eq in E. eauto.
  - revert H3. clear H1 H2. induction IH as [|x l Hx Hl IHl]; [constructor|]. rewrite andb_true_iff. intros [H1 H2].
    constructor; auto.
Qed.
Definition valid_setb (ps : package_set) : bool :=
  forallb (fun p => negb (is_empty (pk_name p)) && forallb valid_messageb (pk_messages p) &&
                    forallb (fun d => existsb (fun q => String.eqb (pk_name q) d) ps) (pk_deps p)) ps.
Lemma valid_setb_ok ps : valid_setb ps = true -> valid_set ps.
Proof.
  unfold valid_setb, valid_set. intros H. rewrite forallb_forall in H. rewrite Forall_forall. intros p Hp. apply H in Hp.
  rewrite !andb_true_iff, negb_true_iff, is_empty_false, !forallb_forall in Hp. destruct Hp as [[H1 H2] H3].
  split; [assumption|]. split.
  - rewrite Forall_forall. intros m Hm. now apply valid_messageb_ok, H2.
  - intros d Hd. apply H3, existsb_exists in Hd as (q & Hq & E). apply String.eqb_eq in E. eauto.
Qed.

Section Keepsb.
  Context {A K : Type} {key0 : Key K} (key : A -> K).
  Definition keepsb (same : A -> A -> bool) (l l' : list A) : bool :=
    forallb (fun x => match gget (key x) (build (map (fun y => (key y, y)) l')) with
                      | Some y => same x y | None => false end) l.
  Lemma keepsb_ok (same : A -> A -> Prop) sameb l l' :
    (forall x, In x l -> forall y, sameb x y = true -> same x y) -> keepsb sameb l l' = true -> keeps key same l l'.
  Proof.
    intros HS H k x D. apply declares_In in D as [Hi <-]. unfold keepsb in H. rewrite forallb_forall in H.
    pose proof (H x Hi) as Hx. destruct (gget (key x) _) as [y|] eqn:E; [|discriminate].
    apply (gget_build_declares key (fun y => y)) in E as (y' & D & ->). exists y'. auto.
  Qed.
End Keepsb.
Definition same_fieldb (f g : field) : bool :=
  String.eqb (fd_name f) (fd_name g) && (fd_label f =? fd_label g)%Z && (fd_type f =? fd_type g)%Z &&
  String.eqb (fd_type_name f) (fd_type_name g).
Lemma same_fieldb_ok f g : same_fieldb f g = true -> same_field f g.
Proof. unfold same_fieldb, same_field. rewrite !andb_true_iff, !String.eqb_eq, !Z.eqb_eq. intuition auto. Qed.
Definition same_valueb (v w : enum_value) : bool := String.eqb (ev_name v) (ev_name w) && (ev_number v =? ev_number w)%Z.
Definition same_enumb (e f : enum) : bool := keepsb ev_number same_valueb (en_values e) (en_values f).
Lemma same_enumb_ok e f : same_enumb e f = true -> same_enum e f.
Proof.
  apply keepsb_ok. intros [? ?] _ [? ?]. unfold same_valueb. cbn. rewrite andb_true_iff, String.eqb_eq, Z.eqb_eq. now intros [-> ->].
Qed.
Definition same_oneofb (o o' : oneof) : bool := forallb (fun n => existsb (Z.eqb n) (oo_numbers o')) (oo_numbers o).
Definition in_any (m : message) (n : Z) : bool := existsb (fun o => existsb (Z.eqb n) (oo_numbers o)) (msg_oneofs m).
Fixpoint message_extendsb (m t : message) {struct m} : bool :=
  keepsb fd_number same_fieldb (msg_fields m) (msg_fields t) &&
  keepsb oo_name same_oneofb (msg_oneofs m) (msg_oneofs t) &&
  forallb (fun f => existsb (fun o => match gget (oo_name o) (build (map (fun y => (oo_name y, y)) (msg_oneofs m))) with
                                      | Some o' => existsb (Z.eqb (fd_number f)) (oo_numbers o') | None => false end) (msg_oneofs m)
                    || negb (in_any t (fd_number f))) (msg_fields m) &&
  keepsb en_name same_enumb (msg_enums m) (msg_enums t) &&
  (let '(mk_message _ _ _ nested _) := m in
   (fix go (l : list message) : bool :=
      match l with
      | [] => true
      | x :: l' => match gget (msg_name x) (build (map (fun y => (msg_name y, y)) (msg_nested t))) with
                   | Some y => message_extendsb x y | None => false end && go l'
      end) nested).
Lemma message_extendsb_ok m : forall t, message_extendsb m t = true -> message_extends m t.
Proof.
  induction m as [name fields oneofs nested enums IH] using message_ind'. intros t. cbn [message_extendsb].
  rewrite !andb_true_iff. intros [[[[H1 H2] H3] H4] H5]. cbn [msg_fields msg_oneofs msg_enums] in *. constructor; cbn [msg_fields msg_oneofs msg_enums msg_nested].
  - eapply keepsb_ok; [|exact H1]. intros. now apply same_fieldb_ok.
  - eapply keepsb_ok; [|exact H2]. intros o _ o' Ho n Hn. unfold same_oneofb in Ho. rewrite forallb_forall in Ho.
    apply Ho, existsb_exists in Hn as (n' & Hn' & E). apply Z.eqb_eq in E. now subst.
  - intros k f D. apply declares_In in D as [Hi <-]. rewrite forallb_forall in H3. apply H3 in Hi.
    apply orb_true_iff in Hi as [Hi|Hi].
    + intros Hno. exfalso. apply existsb_exists in Hi as (o & Ho & E).
      destruct (gget (oo_name o) _) as [o'|] eqn:Eg; [|discriminate].
      apply (gget_build_declares oo_name (fun y => y)) in Eg as (o2 & D & ->).
      apply existsb_exists in E as (n & Hn & E). apply Z.eqb_eq in E. subst n.
      apply (Hno o2). split; [|assumption]. cbn [msg_oneofs]. pose proof (declares_In _ _ _ _ D) as [_ ->]. exact D.
    + intros _ o [D Hn]. apply negb_true_iff in Hi. unfold in_any in Hi. apply declares_In in D as [Ho _].
      assert (X : existsb (fun o => existsb (Z.eqb (fd_number f)) (oo_numbers o)) (msg_oneofs t) = true).
      { apply existsb_exists. exists o. split; [assumption|]. apply existsb_exists. eexists. split; [eassumption|apply Z.eqb_refl]. }
      congruence.
  - eapply keepsb_ok; [|exact H4]. intros. now apply same_enumb_ok.
  - apply (keepsb_ok msg_name message_extends message_extendsb).
    + intros x Hx y. rewrite Forall_forall in IH. now apply IH.
    + unfold keepsb. clear - H5. induction nested as [|x l IHl]; [reflexivity|]. cbn [forallb].
      apply andb_true_iff in H5 as [H H5]. rewrite H. now apply IHl.
Qed.
Definition same_methodb (a b : method) : bool :=
  String.eqb (mt_name a) (mt_name b) && String.eqb (mt_request a) (mt_request b) && String.eqb (mt_response a) (mt_response b) &&
  Bool.eqb (mt_client_streaming a) (mt_client_streaming b) && Bool.eqb (mt_server_streaming a) (mt_server_streaming b).
Definition service_extendsb (s t : service) : bool := keepsb mt_name same_methodb (sv_methods s) (sv_methods t).
Definition package_extendsb (p t : package) : bool :=
  keepsb en_name same_enumb (pk_enums p) (pk_enums t) && keepsb msg_name message_extendsb (pk_messages p) (pk_messages t) &&
  keepsb sv_name service_extendsb (pk_services p) (pk_services t).
Definition set_extendsb (from to : package_set) : bool := keepsb pk_name package_extendsb from to.
Lemma set_extendsb_ok from to : set_extendsb from to = true -> set_extends from to.
Proof.
  apply keepsb_ok. intros p _ t. unfold package_extendsb. rewrite !andb_true_iff. intros [[H1 H2] H3]. split; [|split].
  - eapply keepsb_ok; [|exact H1]. intros. now apply same_enumb_ok.
  - eapply keepsb_ok; [|exact H2]. intros. now apply message_extendsb_ok.
  - eapply keepsb_ok; [|exact H3]. intros s _ s' Hs. eapply keepsb_ok; [|exact Hs].
    intros [? ? ? ? ?] _ [? ? ? ? ?]. unfold same_methodb. cbn. rewrite !andb_true_iff, !String.eqb_eq, !Bool.eqb_true_iff.
    intros [[[[-> ->] ->] ->] ->]. reflexivity.
Qed.
