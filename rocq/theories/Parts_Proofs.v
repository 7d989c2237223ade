(** A break check of a whole is the break checks of its parts. *)
From Verif Require Import Breaking_Spec Breaking_Model Breaking_Proofs BreakRun_Proofs.

Definition both (F G : packages) : packages := fun n p => F n p \/ G n p.
Definition apart (F G : packages) : Prop := forall n p q, F n p -> G n q -> False.

Section Mono.
  Variables A A' B B' : packages.
  Hypothesis HA : forall n p, A n p -> A' n p.
  Hypothesis HB : forall n p, B n p -> B' n p.
  Lemma scope_mono (X X' : packages) : (forall n p, X n p -> X' n p) -> forall pkg path ms es, scope_at X pkg path ms es -> scope_at X' pkg path ms es.
  Proof. intros H pkg path ms es (p & Hp & S). exists p. auto. Qed.
  Lemma message_mono (X X' : packages) : (forall n p, X n p -> X' n p) -> forall pkg path n m, message_at X pkg path n m -> message_at X' pkg path n m.
  Proof. intros H pkg path n m (ms & es & S & D). exists ms, es. split; [exact (scope_mono X X' H _ _ _ _ S)|exact D]. Qed.
  Lemma enum_mono (X X' : packages) : (forall n p, X n p -> X' n p) -> forall pkg path n m, enum_at X pkg path n m -> enum_at X' pkg path n m.
  Proof. intros H pkg path n m (ms & es & S & D). exists ms, es. split; [exact (scope_mono X X' H _ _ _ _ S)|exact D]. Qed.
  Lemma field_pair_mono pkg path n m t k f g : field_pair A B pkg path n m t k f g -> field_pair A' B' pkg path n m t k f g.
  Proof. intros (H1 & H2 & H3 & H4). split; [exact (message_mono _ _ HA _ _ _ _ H1)|]. split; [exact (message_mono _ _ HB _ _ _ _ H2)|]. auto. Qed.
  Lemma method_pair_mono pkg n name m t : method_pair A B pkg n name m t -> method_pair A' B' pkg n name m t.
  Proof. intros (s & s' & (p & H1 & D1) & (p' & H2 & D2) & H3 & H4). exists s, s'. split; [exists p; auto|]. split; [exists p'; auto|]. auto. Qed.
  Lemma changed_mono id msg : changed A B id msg -> changed A' B' id msg.
  Proof.
    intros [pkg path n m t k f g H N|pkg path n m t k f g H N|pkg path n m t k f g H N|pkg path n m t k f g H N1 N2 N3|pkg path n m t k f g o H N1 N2|pkg path n m t k o o' z H1 H2 D1 D2 I N|pkg path n e t k v w H1 H2 D1 D2 N|pkg n k m t H N|pkg n k m t H N|pkg n k m t H N|pkg n k m t H N].
    - exact (ch_field_name _ _ _ _ _ _ _ _ _ _ (field_pair_mono _ _ _ _ _ _ _ _ H) N).
    - exact (ch_field_label _ _ _ _ _ _ _ _ _ _ (field_pair_mono _ _ _ _ _ _ _ _ H) N).
    - exact (ch_field_type _ _ _ _ _ _ _ _ _ _ (field_pair_mono _ _ _ _ _ _ _ _ H) N).
    - exact (ch_field_type_name _ _ _ _ _ _ _ _ _ _ (field_pair_mono _ _ _ _ _ _ _ _ H) N1 N2 N3).
    - exact (ch_field_into_oneof _ _ _ _ _ _ _ _ _ _ _ (field_pair_mono _ _ _ _ _ _ _ _ H) N1 N2).
    - exact (ch_oneof_field_removed _ _ _ _ _ _ _ _ _ _ _ (message_mono _ _ HA _ _ _ _ H1) (message_mono _ _ HB _ _ _ _ H2) D1 D2 I N).
    - exact (ch_enum_value_name _ _ _ _ _ _ _ _ _ _ (enum_mono _ _ HA _ _ _ _ H1) (enum_mono _ _ HB _ _ _ _ H2) D1 D2 N).
    - exact (ch_request _ _ _ _ _ _ _ (method_pair_mono _ _ _ _ _ H) N).
    - exact (ch_response _ _ _ _ _ _ _ (method_pair_mono _ _ _ _ _ H) N).
    - exact (ch_client_streaming _ _ _ _ _ _ _ (method_pair_mono _ _ _ _ _ H) N).
    - exact (ch_server_streaming _ _ _ _ _ _ _ (method_pair_mono _ _ _ _ _ H) N).
  Qed.
End Mono.
Section Parts.
  Variables F G T U : packages.
  Hypothesis FU : apart F U.
  Hypothesis GT : apart G T.
  Lemma scope_both A B pkg path ms es : scope_at (both A B) pkg path ms es <-> scope_at A pkg path ms es \/ scope_at B pkg path ms es.
  Proof.
    split.
    - intros (p & [H|H] & S); [left|right]; now exists p.
    - intros [(p & H & S)|(p & H & S)]; exists p; (split; [|exact S]); [now left|now right].
  Qed.
  Lemma message_both A B pkg path n m : message_at (both A B) pkg path n m <-> message_at A pkg path n m \/ message_at B pkg path n m.
  Proof.
    split.
    - intros (ms & es & S & D). apply scope_both in S as [S|S]; [left|right]; now exists ms, es.
    - intros [(ms & es & S & D)|(ms & es & S & D)]; exists ms, es; (split; [apply scope_both; auto|exact D]).
  Qed.
  Lemma enum_both A B pkg path n m : enum_at (both A B) pkg path n m <-> enum_at A pkg path n m \/ enum_at B pkg path n m.
  Proof.
    split.
    - intros (ms & es & S & D). apply scope_both in S as [S|S]; [left|right]; now exists ms, es.
    - intros [(ms & es & S & D)|(ms & es & S & D)]; exists ms, es; (split; [apply scope_both; auto|exact D]).
  Qed.
  Lemma service_both A B pkg n s : service_at (both A B) pkg n s <-> service_at A pkg n s \/ service_at B pkg n s.
  Proof.
    split.
    - intros (p & [H|H] & D); [left|right]; now exists p.
    - intros [(p & H & D)|(p & H & D)]; exists p; (split; [|exact D]); [now left|now right].
  Qed.
  Lemma scope_apart A B pkg p1 m1 e1 p2 m2 e2 : apart A B -> scope_at A pkg p1 m1 e1 -> scope_at B pkg p2 m2 e2 -> False.
  Proof. intros H (p & Hp & _) (q & Hq & _). exact (H _ _ _ Hp Hq). Qed.
  Lemma message_apart A B pkg p1 n1 m1 p2 m2 e2 : apart A B -> message_at A pkg p1 n1 m1 -> scope_at B pkg p2 m2 e2 -> False.
  Proof. intros H (a & b & S & _). exact (scope_apart A B _ _ _ _ _ _ _ H S). Qed.
  Lemma enum_apart A B pkg p1 n1 m1 p2 m2 e2 : apart A B -> enum_at A pkg p1 n1 m1 -> scope_at B pkg p2 m2 e2 -> False.
  Proof. intros H (a & b & S & _). exact (scope_apart A B _ _ _ _ _ _ _ H S). Qed.
  Lemma service_apart A B pkg n1 s1 n2 s2 : apart A B -> service_at A pkg n1 s1 -> service_at B pkg n2 s2 -> False.
  Proof. intros H (p & Hp & _) (q & Hq & _). exact (H _ _ _ Hp Hq). Qed.
  Lemma message_scope A pkg path n m : message_at A pkg path n m -> exists ms es, scope_at A pkg path ms es.
  Proof. intros (a & b & S & _). eauto. Qed.
  Lemma enum_scope A pkg path n m : enum_at A pkg path n m -> exists ms es, scope_at A pkg path ms es.
  Proof. intros (a & b & S & _). eauto. Qed.
  Ltac apart_tac :=
    exfalso;
    repeat match goal with
    | H : message_at U _ _ _ _ |- _ => apply message_scope in H as (? & ? & H)
    | H : message_at T _ _ _ _ |- _ => apply message_scope in H as (? & ? & H)
    | H : enum_at U _ _ _ _ |- _ => apply enum_scope in H as (? & ? & H)
    | H : enum_at T _ _ _ _ |- _ => apply enum_scope in H as (? & ? & H)
    end;
    first [ eapply (message_apart F U); eassumption | eapply (message_apart G T); eassumption
          | eapply (enum_apart F U); eassumption | eapply (enum_apart G T); eassumption
          | eapply (service_apart F U); eassumption | eapply (service_apart G T); eassumption
          | eapply FU; eassumption | eapply GT; eassumption ].
  Ltac split_both :=
    repeat match goal with
    | H : message_at (both _ _) _ _ _ _ |- _ => apply message_both in H as [H|H]
    | H : enum_at (both _ _) _ _ _ _ |- _ => apply enum_both in H as [H|H]
    | H : service_at (both _ _) _ _ _ |- _ => apply service_both in H as [H|H]
    | H : scope_at (both _ _) _ _ _ _ |- _ => apply scope_both in H as [H|H]
    | H : both _ _ _ _ |- _ => destruct H as [H|H]
    end.
  Ltac join_both :=
    repeat match goal with
    | |- message_at (both _ _) _ _ _ _ => apply message_both; first [left; eassumption|right; eassumption]
    | |- enum_at (both _ _) _ _ _ _ => apply enum_both; first [left; eassumption|right; eassumption]
    | |- service_at (both _ _) _ _ _ => apply service_both; first [left; eassumption|right; eassumption]
    | |- scope_at (both _ _) _ _ _ _ => apply scope_both; first [left; eassumption|right; eassumption]
    | |- both _ _ _ _ => first [left; eassumption|right; eassumption]
    end.
  Lemma deleted_both id msg : deleted (both F G) (both T U) id msg <-> deleted F T id msg \/ deleted G U id msg.
  Proof.
    split.
    - intros [n p H N|pkg path n m ms es H S A|pkg path n m ms es H S A|pkg path n m t f H S I A|pkg path n m t f H S I A|pkg path n m t f H S I A|pkg p t s H S I A|pkg n s t m H S I A].
      + destruct H as [H|H]; [left|right]; apply (del_package _ _ n p H); intros t Ht; apply (N t); [now left|now right].
      + split_both; try (apart_tac; fail); [left|right]; eapply del_message; eassumption.
      + split_both; try (apart_tac; fail); [left|right]; eapply del_enum; eassumption.
      + split_both; try (apart_tac; fail); [left|right]; eapply del_field; eassumption.
      + split_both; try (apart_tac; fail); [left|right]; eapply del_oneof; eassumption.
      + split_both; try (apart_tac; fail); [left|right]; eapply del_enum_value; eassumption.
      + split_both; try (apart_tac; fail); [left|right]; eapply del_service; eassumption.
      + split_both; try (apart_tac; fail); [left|right]; eapply del_method; eassumption.
    - intros [D|D]; destruct D as [n p H N|pkg path n m ms es H S A|pkg path n m ms es H S A|pkg path n m t f H S I A|pkg path n m t f H S I A|pkg path n m t f H S I A|pkg p t s H S I A|pkg n s t m H S I A];
      first [ eapply del_message; [join_both|join_both|eassumption]; fail
            | eapply del_enum; [join_both|join_both|eassumption]; fail
            | eapply del_field; [join_both|join_both|eassumption|eassumption]; fail
            | eapply del_oneof; [join_both|join_both|eassumption|eassumption]; fail
            | eapply del_enum_value; [join_both|join_both|eassumption|eassumption]; fail
            | eapply del_service; [join_both|join_both|eassumption|eassumption]; fail
            | eapply del_method; [join_both|join_both|eassumption|eassumption]; fail
            | idtac ].
      + apply (del_package _ _ n p); [now left|]. intros t [Ht|Ht]; [exact (N t Ht)|exact (FU _ _ _ H Ht)].
      + apply (del_package _ _ n p); [now right|]. intros t [Ht|Ht]; [exact (GT _ _ _ H Ht)|exact (N t Ht)].
  Qed.
  Lemma field_pair_both pkg path n m t k f g : field_pair (both F G) (both T U) pkg path n m t k f g <-> field_pair F T pkg path n m t k f g \/ field_pair G U pkg path n m t k f g.
  Proof.
    split.
    - intros (A & B & C & D). split_both; try (apart_tac; fail); [left|right]; repeat split; assumption.
    - intros [(A & B & C & D)|(A & B & C & D)]; repeat split; join_both; assumption.
  Qed.
  Lemma method_pair_both pkg n name m t : method_pair (both F G) (both T U) pkg n name m t <-> method_pair F T pkg n name m t \/ method_pair G U pkg n name m t.
  Proof.
    split.
    - intros (s & s' & A & B & C). split_both; try (apart_tac; fail); [left|right]; exists s, s'; auto.
    - intros [(s & s' & A & B & C)|(s & s' & A & B & C)]; exists s, s'; (split; [join_both|]); (split; [join_both|exact C]).
  Qed.
  Lemma changed_both id msg : changed (both F G) (both T U) id msg <-> changed F T id msg \/ changed G U id msg.
  Proof.
    split.
    - intros [pkg path n m t k f g H N|pkg path n m t k f g H N|pkg path n m t k f g H N|pkg path n m t k f g H N1 N2 N3|pkg path n m t k f g o H N1 N2|pkg path n m t k o o' z H1 H2 D1 D2 I N|pkg path n e t k v w H1 H2 D1 D2 N|pkg n k m t H N|pkg n k m t H N|pkg n k m t H N|pkg n k m t H N].
      + apply field_pair_both in H as [H|H]; [left|right]; exact (ch_field_name _ _ _ _ _ _ _ _ _ _ H N).
      + apply field_pair_both in H as [H|H]; [left|right]; exact (ch_field_label _ _ _ _ _ _ _ _ _ _ H N).
      + apply field_pair_both in H as [H|H]; [left|right]; exact (ch_field_type _ _ _ _ _ _ _ _ _ _ H N).
      + apply field_pair_both in H as [H|H]; [left|right]; exact (ch_field_type_name _ _ _ _ _ _ _ _ _ _ H N1 N2 N3).
      + apply field_pair_both in H as [H|H]; [left|right]; exact (ch_field_into_oneof _ _ _ _ _ _ _ _ _ _ _ H N1 N2).
      + split_both; try (apart_tac; fail); [left|right]; exact (ch_oneof_field_removed _ _ _ _ _ _ _ _ _ _ _ H1 H2 D1 D2 I N).
      + split_both; try (apart_tac; fail); [left|right]; exact (ch_enum_value_name _ _ _ _ _ _ _ _ _ _ H1 H2 D1 D2 N).
      + apply method_pair_both in H as [H|H]; [left|right]; exact (ch_request _ _ _ _ _ _ _ H N).
      + apply method_pair_both in H as [H|H]; [left|right]; exact (ch_response _ _ _ _ _ _ _ H N).
      + apply method_pair_both in H as [H|H]; [left|right]; exact (ch_client_streaming _ _ _ _ _ _ _ H N).
      + apply method_pair_both in H as [H|H]; [left|right]; exact (ch_server_streaming _ _ _ _ _ _ _ H N).
    - intros [C|C]; refine (changed_mono _ _ _ _ _ _ _ _ C); intros; first [left; assumption|right; assumption].
  Qed.
  Lemma beta_both id msg : beta_dependency (both T U) id msg <-> beta_dependency T id msg \/ beta_dependency U id msg.
  Proof.
    split.
    - intros [n p d [H|H] I B]; [left|right]; now apply (beta_dep _ n p d).
    - intros [[n p d H I B]|[n p d H I B]]; apply (beta_dep _ n p d); auto; [now left|now right].
  Qed.
End Parts.

(** ** Sets of packages *)
Definition names_apart (a b : package_set) : Prop := forall p q, In p a -> In q b -> pk_name p <> pk_name q.
Lemma declares_In {A K} (key : A -> K) l k x : declares key l k x -> In x l /\ key x = k.
Proof. intros (b & a & -> & H & _). split; [apply in_app_iff; right; now left|exact H]. Qed.
Lemma declares_both a b n p : names_apart a b -> (declares pk_name (a ++ b) n p <-> declares pk_name a n p \/ declares pk_name b n p).
Proof.
  intros Ap. split.
  - intros (x & y & E & K & Fo). revert a Ap E. induction x as [|z x IH]; intros a Ap E.
    + destruct a as [|p' a]; [right; exists [], y; auto|]. cbn [app] in E. injection E as -> E. left. exists [], a. split; [reflexivity|]. split; [exact K|]. rewrite <- E in Fo. apply Forall_app in Fo. tauto.
    + destruct a as [|p' a]; [right; exists (z :: x), y; auto|]. cbn [app] in E. injection E as -> E.
      destruct (IH a) as [(u & v & -> & H)|H]; [intros q r Hq; apply Ap; now right|exact E| |now right]. left. exists (z :: u), v. auto.
  - intros [(x & y & -> & K & Fo)|(x & y & -> & K & Fo)].
    + exists x, (y ++ b). rewrite <- app_assoc. split; [reflexivity|]. split; [exact K|]. apply Forall_app. split; [exact Fo|]. apply Forall_forall. intros q Hq. rewrite <- K. intros X. apply (Ap p q); auto. apply in_app_iff. right. now left.
    + exists (a ++ x), y. rewrite <- app_assoc. auto.
Qed.
Lemma packages_both w a b n p : names_apart a b -> (packages_of w (a ++ b) n p <-> both (packages_of w a) (packages_of w b) n p).
Proof. intros Ap. unfold packages_of, both. rewrite (declares_both a b n p Ap). tauto. Qed.
Lemma packages_apart w a b : names_apart a b -> apart (packages_of w a) (packages_of w b).
Proof. intros Ap n p q [H _] [H' _]. apply declares_In in H as [H E], H' as [H' E']. apply (Ap p q); congruence. Qed.
Lemma deleted_ext A B A' B' id msg : (forall n p, A n p <-> A' n p) -> (forall n p, B n p <-> B' n p) -> deleted A B id msg -> deleted A' B' id msg.
Proof.
  intros HA HB.
  assert (SA := scope_mono A A' (fun n p => proj1 (HA n p))). assert (SB := scope_mono B B' (fun n p => proj1 (HB n p))).
  assert (MA := message_mono A A' (fun n p => proj1 (HA n p))). assert (MB := message_mono B B' (fun n p => proj1 (HB n p))).
  assert (EA := enum_mono A A' (fun n p => proj1 (HA n p))). assert (EB := enum_mono B B' (fun n p => proj1 (HB n p))).
  assert (VA : forall pkg n s, service_at A pkg n s -> service_at A' pkg n s) by (intros pkg n s (p & H & D); exists p; split; [now apply HA|exact D]).
  assert (VB : forall pkg n s, service_at B pkg n s -> service_at B' pkg n s) by (intros pkg n s (p & H & D); exists p; split; [now apply HB|exact D]).
  intros [n p H N|pkg path n m ms es H S X|pkg path n m ms es H S X|pkg path n m t f H S I X|pkg path n m t f H S I X|pkg path n m t f H S I X|pkg p t s H S I X|pkg n s t m H S I X].
  - apply (del_package _ _ n p); [now apply HA|]. intros t Ht. apply (N t). now apply HB.
  - exact (del_message _ _ _ _ _ _ _ _ (MA _ _ _ _ H) (SB _ _ _ _ S) X).
  - exact (del_enum _ _ _ _ _ _ _ _ (EA _ _ _ _ H) (SB _ _ _ _ S) X).
  - exact (del_field _ _ _ _ _ _ _ _ (MA _ _ _ _ H) (MB _ _ _ _ S) I X).
  - exact (del_oneof _ _ _ _ _ _ _ _ (MA _ _ _ _ H) (MB _ _ _ _ S) I X).
  - exact (del_enum_value _ _ _ _ _ _ _ _ (EA _ _ _ _ H) (EB _ _ _ _ S) I X).
  - exact (del_service _ _ _ _ _ _ (proj1 (HA _ _) H) (proj1 (HB _ _) S) I X).
  - exact (del_method _ _ _ _ _ _ _ (VA _ _ _ H) (VB _ _ _ S) I X).
Qed.
Lemma reported_both cfg a b c d id msg : names_apart a b -> names_apart c d -> names_apart a d -> names_apart b c ->
  (reported cfg (a ++ b) (c ++ d) id msg <-> reported cfg a c id msg \/ reported cfg b d id msg).
Proof.
  intros Ab Cd Ad Bc. unfold reported. set (w := include_beta cfg).
  pose proof (packages_apart w a d Ad) as FU. pose proof (packages_apart w b c Bc) as GT.
  pose proof (fun n p => packages_both w a b n p Ab) as PF. pose proof (fun n p => packages_both w c d n p Cd) as PT.
  pose proof (deleted_both _ _ _ _ FU GT id msg) as D. pose proof (changed_both _ _ _ _ FU GT id msg) as C.
  pose proof (beta_both (packages_of w c) (packages_of w d) id msg) as B.
  assert (D' : deleted (packages_of w (a ++ b)) (packages_of w (c ++ d)) id msg <-> deleted (both (packages_of w a) (packages_of w b)) (both (packages_of w c) (packages_of w d)) id msg).
  { split; apply deleted_ext; intros n p; first [apply PF|apply PT|symmetry; apply PF|symmetry; apply PT]. }
  assert (C' : changed (packages_of w (a ++ b)) (packages_of w (c ++ d)) id msg <-> changed (both (packages_of w a) (packages_of w b)) (both (packages_of w c) (packages_of w d)) id msg).
  { split; apply changed_mono; intros n p; first [apply PF|apply PT]. }
  assert (B' : beta_dependency (packages_of w (c ++ d)) id msg <-> beta_dependency (both (packages_of w c) (packages_of w d)) id msg).
  { split; intros [n p e H I X]; apply (beta_dep _ n p e); auto; now apply PT. }
  rewrite D', D, C', C, B', B. tauto.
Qed.
Theorem break_parts cfg a b c d fs f1 f2 : names_apart a b -> names_apart c d -> names_apart a d -> names_apart b c ->
  packages_named (a ++ b) -> oneofs_disjoint (packages_of (include_beta cfg) (c ++ d)) ->
  run_break cfg (a ++ b) (c ++ d) = Ok fs -> run_break cfg a c = Ok f1 -> run_break cfg b d = Ok f2 ->
  forall f, In f fs <-> In f f1 \/ In f f2.
Proof.
  intros Ab Cd Ad Bc Nm Od R R1 R2 f. apply Forall_app in Nm as Nm2. destruct Nm2 as [Na Nb].
  assert (Mc : forall x, (forall n p, packages_of (include_beta cfg) x n p -> packages_of (include_beta cfg) (c ++ d) n p) -> oneofs_disjoint (packages_of (include_beta cfg) x)).
  { intros x H pkg path n m k o o' M. apply (Od pkg path n m k o o'). exact (message_mono _ _ H _ _ _ _ M). }
  assert (Oc : oneofs_disjoint (packages_of (include_beta cfg) c)) by (apply Mc; intros n p H; apply packages_both; [exact Cd|now left]).
  assert (Odd : oneofs_disjoint (packages_of (include_beta cfg) d)) by (apply Mc; intros n p H; apply packages_both; [exact Cd|now right]).
  rewrite (run_break_spec cfg _ _ fs Nm Od R f), (run_break_spec cfg _ _ f1 Na Oc R1 f), (run_break_spec cfg _ _ f2 Nb Odd R2 f). split.
  - intros (id & msg & E & H). apply reported_both in H as [H|H]; auto; [left|right]; now exists id, msg.
  - intros [(id & msg & E & H)|(id & msg & E & H)]; exists id, msg; (split; [exact E|]); apply reported_both; auto.
Qed.

(** ** One package *)
Definition within (n : string) (F : packages) : packages := fun m p => m = n /\ F m p.
Lemma scope_within F pkg path ms es : scope_at F pkg path ms es -> scope_at (within pkg F) pkg path ms es.
Proof. intros (p & H & S). exists p. split; [now split|exact S]. Qed.
Lemma message_within F pkg path n m : message_at F pkg path n m -> message_at (within pkg F) pkg path n m.
Proof. intros (ms & es & S & D). exists ms, es. split; [now apply scope_within|exact D]. Qed.
Lemma enum_within F pkg path n m : enum_at F pkg path n m -> enum_at (within pkg F) pkg path n m.
Proof. intros (ms & es & S & D). exists ms, es. split; [now apply scope_within|exact D]. Qed.
Lemma service_within F pkg n s : service_at F pkg n s -> service_at (within pkg F) pkg n s.
Proof. intros (p & H & D). exists p. split; [now split|exact D]. Qed.
Lemma field_within F T pkg path n m t k f g : field_pair F T pkg path n m t k f g -> field_pair (within pkg F) (within pkg T) pkg path n m t k f g.
Proof. intros (A & B & C & D). split; [now apply message_within|]. split; [now apply message_within|]. auto. Qed.
Lemma method_within F T pkg n k m t : method_pair F T pkg n k m t -> method_pair (within pkg F) (within pkg T) pkg n k m t.
Proof. intros (s & s' & A & B & C). exists s, s'. split; [now apply service_within|]. split; [now apply service_within|exact C]. Qed.
Lemma deleted_within F T id msg : deleted F T id msg <-> exists n, deleted (within n F) (within n T) id msg.
Proof.
  split.
  - intros [n p H N|pkg path n m ms es H S X|pkg path n m ms es H S X|pkg path n m t f H S I X|pkg path n m t f H S I X|pkg path n m t f H S I X|pkg p t s H S I X|pkg n s t m H S I X].
    + exists n. apply (del_package _ _ n p); [now split|]. intros t [_ Ht]. exact (N t Ht).
    + exists pkg. exact (del_message _ _ _ _ _ _ _ _ (message_within _ _ _ _ _ H) (scope_within _ _ _ _ _ S) X).
    + exists pkg. exact (del_enum _ _ _ _ _ _ _ _ (enum_within _ _ _ _ _ H) (scope_within _ _ _ _ _ S) X).
    + exists pkg. exact (del_field _ _ _ _ _ _ _ _ (message_within _ _ _ _ _ H) (message_within _ _ _ _ _ S) I X).
    + exists pkg. exact (del_oneof _ _ _ _ _ _ _ _ (message_within _ _ _ _ _ H) (message_within _ _ _ _ _ S) I X).
    + exists pkg. exact (del_enum_value _ _ _ _ _ _ _ _ (enum_within _ _ _ _ _ H) (enum_within _ _ _ _ _ S) I X).
    + exists pkg. exact (del_service _ _ _ _ _ _ (conj eq_refl H) (conj eq_refl S) I X).
    + exists pkg. exact (del_method _ _ _ _ _ _ _ (service_within _ _ _ _ H) (service_within _ _ _ _ S) I X).
  - intros (k & D).
    pose proof (fun n p => proj2 (A := n = k) (B := F n p)) as HA. pose proof (fun n p => proj2 (A := n = k) (B := T n p)) as HB.
    assert (SB := scope_mono (within k T) T HB). assert (MA := message_mono (within k F) F HA). assert (MB := message_mono (within k T) T HB).
    assert (EA := enum_mono (within k F) F HA). assert (EB := enum_mono (within k T) T HB).
    destruct D as [n p H N|pkg path n m ms es H S X|pkg path n m ms es H S X|pkg path n m t f H S I X|pkg path n m t f H S I X|pkg path n m t f H S I X|pkg p t s H S I X|pkg n s t m H S I X].
    + destruct H as [E H]. apply (del_package _ _ n p H). intros t Ht. apply (N t). now split.
    + exact (del_message _ _ _ _ _ _ _ _ (MA _ _ _ _ H) (SB _ _ _ _ S) X).
    + exact (del_enum _ _ _ _ _ _ _ _ (EA _ _ _ _ H) (SB _ _ _ _ S) X).
    + exact (del_field _ _ _ _ _ _ _ _ (MA _ _ _ _ H) (MB _ _ _ _ S) I X).
    + exact (del_oneof _ _ _ _ _ _ _ _ (MA _ _ _ _ H) (MB _ _ _ _ S) I X).
    + exact (del_enum_value _ _ _ _ _ _ _ _ (EA _ _ _ _ H) (EB _ _ _ _ S) I X).
    + exact (del_service _ _ _ _ _ _ (proj2 H) (proj2 S) I X).
    + destruct H as (p & [_ H] & D), S as (p' & [_ H'] & D'). exact (del_method F T pkg n s t m (ex_intro _ p (conj H D)) (ex_intro _ p' (conj H' D')) I X).
Qed.
Lemma changed_within F T id msg : changed F T id msg <-> exists n, changed (within n F) (within n T) id msg.
Proof.
  split.
  - intros [pkg path n m t k f g H N|pkg path n m t k f g H N|pkg path n m t k f g H N|pkg path n m t k f g H N1 N2 N3|pkg path n m t k f g o H N1 N2|pkg path n m t k o o' z H1 H2 D1 D2 I N|pkg path n e t k v w H1 H2 D1 D2 N|pkg n k m t H N|pkg n k m t H N|pkg n k m t H N|pkg n k m t H N]; exists pkg.
    + exact (ch_field_name _ _ _ _ _ _ _ _ _ _ (field_within _ _ _ _ _ _ _ _ _ _ H) N).
    + exact (ch_field_label _ _ _ _ _ _ _ _ _ _ (field_within _ _ _ _ _ _ _ _ _ _ H) N).
    + exact (ch_field_type _ _ _ _ _ _ _ _ _ _ (field_within _ _ _ _ _ _ _ _ _ _ H) N).
    + exact (ch_field_type_name _ _ _ _ _ _ _ _ _ _ (field_within _ _ _ _ _ _ _ _ _ _ H) N1 N2 N3).
    + exact (ch_field_into_oneof _ _ _ _ _ _ _ _ _ _ _ (field_within _ _ _ _ _ _ _ _ _ _ H) N1 N2).
    + exact (ch_oneof_field_removed _ _ _ _ _ _ _ _ _ _ _ (message_within _ _ _ _ _ H1) (message_within _ _ _ _ _ H2) D1 D2 I N).
    + exact (ch_enum_value_name _ _ _ _ _ _ _ _ _ _ (enum_within _ _ _ _ _ H1) (enum_within _ _ _ _ _ H2) D1 D2 N).
    + exact (ch_request _ _ _ _ _ _ _ (method_within _ _ _ _ _ _ _ H) N).
    + exact (ch_response _ _ _ _ _ _ _ (method_within _ _ _ _ _ _ _ H) N).
    + exact (ch_client_streaming _ _ _ _ _ _ _ (method_within _ _ _ _ _ _ _ H) N).
    + exact (ch_server_streaming _ _ _ _ _ _ _ (method_within _ _ _ _ _ _ _ H) N).
  - intros (k & C). refine (changed_mono _ _ _ _ _ _ _ _ C); intros n p [_ H]; exact H.
Qed.
(** The packages of a set with a name. *)
Definition named (n : string) (ps : package_set) : package_set := filter (fun p => String.eqb (pk_name p) n) ps.
Lemma named_is w n ps m p : packages_of w (named n ps) m p <-> within n (packages_of w ps) m p.
Proof.
  unfold packages_of, within.
  assert (D : declares pk_name (named n ps) m p <-> m = n /\ declares pk_name ps m p); [|tauto].
  assert (Q : forall l, Forall (fun y => pk_name y <> n) (named n l) <-> Forall (fun y => pk_name y <> n) l).
  { intros l. rewrite !Forall_forall. unfold named. split; intros H x Hx.
    - destruct (String.eqb_spec (pk_name x) n) as [E|E]; [|exact E]. exfalso. apply (H x); [|exact E]. apply filter_In. split; [exact Hx|now apply String.eqb_eq].
    - apply filter_In in Hx as [Hx _]. now apply H. }
  split.
  - intros H. pose proof (declares_In _ _ _ _ H) as [I E]. unfold named in I. apply filter_In in I as [_ I]. apply String.eqb_eq in I.
    assert (m = n) as -> by congruence. split; [reflexivity|]. clear I.
    induction ps as [|x ps IH]; [destruct H as ([|] & a & X & _); discriminate X|]. cbn [named filter] in H.
    destruct (String.eqb_spec (pk_name x) n) as [Ex|Ex].
    + destruct H as ([|y b] & a & X & K & Fo).
      * injection X as -> X. exists [], ps. split; [reflexivity|]. split; [exact K|]. apply Q. unfold named. rewrite X. exact Fo.
      * injection X as -> X. destruct IH as (b' & a' & -> & R); [exists b, a; auto|]. exists (y :: b'), a'. auto.
    + destruct (IH H) as (b' & a' & -> & R). exists (x :: b'), a'. auto.
  - intros (-> & b & a & -> & K & Fo). exists (named n b), (named n a). split; [|split; [exact K|now apply Q]].
    unfold named. rewrite filter_app. cbn [filter]. assert (String.eqb (pk_name p) n = true) as -> by now apply String.eqb_eq. reflexivity.
Qed.
Theorem reported_named cfg from to id msg : reported cfg from to id msg <-> exists n, reported cfg (named n from) (named n to) id msg.
Proof.
  unfold reported. set (w := include_beta cfg).
  assert (D : forall n, deleted (within n (packages_of w from)) (within n (packages_of w to)) id msg <-> deleted (packages_of w (named n from)) (packages_of w (named n to)) id msg).
  { intros n. split; apply deleted_ext; intros m p; first [apply named_is|symmetry; apply named_is]. }
  assert (C : forall n, changed (within n (packages_of w from)) (within n (packages_of w to)) id msg <-> changed (packages_of w (named n from)) (packages_of w (named n to)) id msg).
  { intros n. split; apply changed_mono; intros m p; apply named_is. }
  rewrite deleted_within, changed_within. split.
  - intros [(n & H)|[(n & H)|(X & Y & H)]].
    + exists n. left. now apply D.
    + exists n. right. left. now apply C.
    + destruct H as [n p d H I B]. exists n. right. right. split; [exact X|]. split; [exact Y|]. apply (beta_dep _ n p d); auto. now apply named_is.
  - intros (n & [H|[H|(X & Y & H)]]).
    + left. exists n. now apply D.
    + right. left. exists n. now apply C.
    + right. right. split; [exact X|]. split; [exact Y|]. destruct H as [m p d H I B]. apply (beta_dep _ m p d); auto. apply named_is in H as [_ H]. exact H.
Qed.
