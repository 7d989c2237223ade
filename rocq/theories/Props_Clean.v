(** C120: what a clean break check says. *)
From Coq Require Import ZArith.
From Verif Require Import GoMapFacts Extract_Model Extract_Proofs Breaking_Model Breaking_Spec Breaking_Proofs BreakRun_Proofs BreakCheckers Props_Breaking.

Lemma scope_in_snoc ms es path ms' es' n m : scope_in ms es path ms' es' -> declares msg_name ms' n m -> scope_in ms es (path ++ [n]) (msg_nested m) (msg_enums m).
Proof. induction 1 as [ms es|ms es x y path ms' es' D S IH]; intros H; cbn [app]; econstructor; eauto. constructor. Qed.
Lemma message_scope ps pkg path n m : message_at ps pkg path n m -> scope_at ps pkg (path ++ [n]) (msg_nested m) (msg_enums m).
Proof. intros (ms & es & (p & Hp & S) & D). exists p. split; [exact Hp|]. eapply scope_in_snoc; eassumption. Qed.

Section Clean.
  Variable F T : packages.
  Hypothesis Nd : forall id msg, ~ deleted F T id msg.
  Hypothesis Nc : forall id msg, ~ changed F T id msg.
  Lemma enum_kept pkg path n e t : enum_at F pkg path n e -> enum_at T pkg path n t -> same_enum e t.
  Proof.
    intros E E' k v D. destruct (declares_or_absent ev_number (en_values t) k) as [[y Dy]|A].
    - exists y. split; [exact Dy|]. destruct (string_dec (ev_name v) (ev_name y)) as [X|X].
      + apply declares_In in D as [_ Dk]. apply declares_In in Dy as [_ Yk]. destruct v, y. cbn in *. congruence.
      + exfalso. eapply Nc. eapply ch_enum_value_name; eassumption.
    - exfalso. apply declares_In in D as [I <-]. eapply Nd. eapply del_enum_value; eassumption.
  Qed.
  Lemma enums_kept pkg path ms es ms' es' : scope_at F pkg path ms es -> scope_at T pkg path ms' es' -> keeps en_name same_enum es es'.
  Proof.
    intros S S' k e D. assert (Ea : enum_at F pkg path k e) by (exists ms, es; auto).
    destruct (declares_or_absent en_name es' k) as [[y Dy]|A].
    - exists y. split; [exact Dy|]. eapply (enum_kept pkg path k); [exact Ea|exists ms', es'; auto].
    - exfalso. eapply Nd. eapply del_enum; [exact Ea|exact S'|exact A].
  Qed.
  Lemma message_kept m : forall pkg path n t, message_at F pkg path n m -> message_at T pkg path n t -> message_extends m t.
  Proof.
    induction m as [name fields oneofs nested enums IH] using message_ind'. set (m := mk_message name fields oneofs nested enums). intros pkg path n t M M'.
    assert (Fields : forall k f, declares fd_number (msg_fields m) k f -> exists g, declares fd_number (msg_fields t) k g).
    { intros k f D. destruct (declares_or_absent fd_number (msg_fields t) k) as [X|A]; [exact X|]. exfalso. apply declares_In in D as [I <-]. eapply Nd. eapply del_field; eassumption. }
    constructor.
    - intros k f D. destruct (Fields k f D) as (g & G). exists g. split; [exact G|]. assert (P : field_pair F T pkg path n m t k f g) by (repeat split; assumption).
      assert (Ty : fd_type f = fd_type g). { destruct (Z.eq_dec (fd_type f) (fd_type g)); [assumption|]. exfalso. eapply Nc. eapply ch_field_type; eassumption. }
      split; [destruct (string_dec (fd_name f) (fd_name g)); [assumption|]; exfalso; eapply Nc; eapply ch_field_name; eassumption|].
      split; [destruct (Z.eq_dec (fd_label f) (fd_label g)); [assumption|]; exfalso; eapply Nc; eapply ch_field_label; eassumption|].
      split; [exact Ty|]. intros Nt. destruct (string_dec (fd_type_name f) (fd_type_name g)); [assumption|]. exfalso. eapply Nc. eapply ch_field_type_name; eassumption.
    - intros k o D. destruct (declares_or_absent oo_name (msg_oneofs t) k) as [[o' D']|A].
      + exists o'. split; [exact D'|]. intros x Hx. destruct (in_dec Z.eq_dec x (oo_numbers o')) as [|N]; [assumption|]. exfalso. eapply Nc. eapply ch_oneof_field_removed; eassumption.
      + exfalso. apply declares_In in D as [I <-]. eapply Nd. eapply del_oneof; eassumption.
    - intros k f D No o Ho. destruct (Fields k f D) as (g & G). eapply Nc. eapply (ch_field_into_oneof F T pkg path n m t k f g); [repeat split; eassumption|exact No|exact Ho].
    - eapply enums_kept; eapply message_scope; eassumption.
    - intros k x D. assert (Xa : message_at F pkg (path ++ [n]) k x) by (exists nested, enums; split; [exact (message_scope _ _ _ _ _ M)|exact D]).
      destruct (declares_or_absent msg_name (msg_nested t) k) as [[y Dy]|A].
      + exists y. split; [exact Dy|]. apply declares_In in D as [I _]. rewrite Forall_forall in IH. eapply IH; [exact I|exact Xa|]. exists (msg_nested t), (msg_enums t). split; [exact (message_scope _ _ _ _ _ M')|exact Dy].
      + exfalso. eapply Nd. eapply del_message; [exact Xa|exact (message_scope _ _ _ _ _ M')|exact A].
  Qed.
  Lemma service_kept pkg n s t : service_at F pkg n s -> service_at T pkg n t -> service_extends s t.
  Proof.
    intros S S' k m D. destruct (declares_or_absent mt_name (sv_methods t) k) as [[y Dy]|A].
    - exists y. split; [exact Dy|]. assert (P : method_pair F T pkg n k m y) by (exists s, t; auto).
      assert (X1 : mt_request m = mt_request y) by (destruct (string_dec (mt_request m) (mt_request y)); [assumption|]; exfalso; eapply Nc; eapply ch_request; eassumption).
      assert (X2 : mt_response m = mt_response y) by (destruct (string_dec (mt_response m) (mt_response y)); [assumption|]; exfalso; eapply Nc; eapply ch_response; eassumption).
      assert (X3 : mt_client_streaming m = mt_client_streaming y) by (destruct (Bool.bool_dec (mt_client_streaming m) (mt_client_streaming y)); [assumption|]; exfalso; eapply Nc; eapply ch_client_streaming; eassumption).
      assert (X4 : mt_server_streaming m = mt_server_streaming y) by (destruct (Bool.bool_dec (mt_server_streaming m) (mt_server_streaming y)); [assumption|]; exfalso; eapply Nc; eapply ch_server_streaming; eassumption).
      apply declares_In in D as [_ Dk]. apply declares_In in Dy as [_ Yk]. destruct m, y. cbn in *. congruence.
    - exfalso. apply declares_In in D as [I <-]. eapply Nd. eapply del_method; eassumption.
  Qed.
  Lemma package_kept n p t : F n p -> T n t -> package_extends p t.
  Proof.
    intros P P'. assert (S : scope_at F n [] (pk_messages p) (pk_enums p)) by (exists p; split; [exact P|constructor]).
    assert (S' : scope_at T n [] (pk_messages t) (pk_enums t)) by (exists t; split; [exact P'|constructor]).
    split; [eapply enums_kept; eassumption|]. split.
    - intros k m D. assert (M : message_at F n [] k m) by (eexists; eexists; split; [exact S|exact D]). destruct (declares_or_absent msg_name (pk_messages t) k) as [[y Dy]|A].
      + exists y. split; [exact Dy|]. eapply message_kept; [exact M|]. eexists; eexists; split; [exact S'|exact Dy].
      + exfalso. eapply Nd. eapply del_message; eassumption.
    - intros k s D. destruct (declares_or_absent sv_name (pk_services t) k) as [[y Dy]|A].
      + exists y. split; [exact Dy|]. eapply (service_kept n k); [exists p|exists t]; auto.
      + exfalso. apply declares_In in D as [I <-]. eapply Nd. eapply del_service; eassumption.
  Qed.
End Clean.

(** A check that finds nothing: every package looked at is still there, with all that was in it
    and nothing of that changed. *)
Definition kept (with_beta : bool) (from to : package_set) : Prop :=
  forall n p, packages_of with_beta from n p -> exists t, packages_of with_beta to n t /\ package_extends p t.

Theorem C120_clean : forall cfg from to, packages_named from -> run_break cfg from to = Ok [] ->
  kept (include_beta cfg) from to /\
  (include_beta cfg = false -> allow_beta_deps cfg = false -> forall n p d, packages_of false to n p -> In d (pk_deps p) -> ~ beta_name d).
Proof.
  intros cfg from to N R.
  assert (Nd : forall id msg, ~ deleted (packages_of (include_beta cfg) from) (packages_of (include_beta cfg) to) id msg).
  { intros id msg D. assert (I : In id deletion_rules) by (destruct D; cbn; tauto). now apply (C04_deletions cfg from to [] N R id msg I) in D. }
  assert (Nc : forall id msg, ~ changed (packages_of (include_beta cfg) from) (packages_of (include_beta cfg) to) id msg).
  { intros id msg D. assert (I : In id change_rules) by (destruct D; cbn; tauto). now destruct (C05_changes_reported cfg from to [] N R id msg I D) as (msg' & [] & _). }
  split.
  - intros n p P. destruct (packages_of_dec (include_beta cfg) to n) as [[t T]|A].
    + exists t. split; [exact T|]. eapply package_kept; eassumption.
    + exfalso. eapply Nd. eapply del_package; eassumption.
  - intros Ib Ab n p d P I B. destruct (C06_beta_deps cfg from to [] N R ("Package " +++ quote n +++ " depends on beta package " +++ quote d +++ " which is not allowed.")) as (_ & X).
    apply X. split; [exact Ib|]. split; [exact Ab|]. exists n, p, d. auto.
Qed.
Print Assumptions C120_clean.

(** ** The converse: as C03, for the packages that are looked at *)
Section Kept.
  Variables (wb : bool) (from to : package_set).
  Let F := packages_of wb from.
  Let T := packages_of wb to.
  Hypothesis EXT : kept wb from to.
  Lemma kept_package n p t : F n p -> T n t -> package_extends p t.
  Proof. intros D HT. apply EXT in D as (t' & D' & E). now rewrite (packages_of_fun wb to n t t' HT D'). Qed.
  Lemma kept_package_ex n p : F n p -> exists t, T n t.
  Proof. intros D. apply EXT in D as (t' & D' & _). now exists t'. Qed.
  Lemma kept_scope pkg path : forall ms es ms' es', scope_at F pkg path ms es -> scope_at T pkg path ms' es' ->
    keeps msg_name message_extends ms ms' /\ keeps en_name same_enum es es'.
  Proof.
    induction path as [|n path IH] using rev_ind; intros ms es ms' es' S S'.
    - destruct S as (p & Hp & S). destruct S' as (t & Ht & S'). inversion S; inversion S'; subst.
      destruct (kept_package _ _ _ Hp Ht) as (H1 & H2 & _). auto.
    - apply scope_at_snoc in S as (m & (a & b & S & D) & -> & ->).
      apply scope_at_snoc in S' as (t & (a' & b' & S' & D') & -> & ->).
      destruct (IH _ _ _ _ S S') as [H _]. pose proof (keeps_both _ _ _ _ _ _ _ H D D') as E.
      inversion E as [? ? H1 H2 H3 H4 H5]; subst. auto.
  Qed.
  Lemma kept_message pkg path n m t : message_at F pkg path n m -> message_at T pkg path n t -> message_extends m t.
  Proof.
    intros (a & b & S & D) (a' & b' & S' & D'). destruct (kept_scope _ _ _ _ _ _ S S') as [H _].
    exact (keeps_both _ _ _ _ _ _ _ H D D').
  Qed.
  Lemma kept_enum pkg path n m t : enum_at F pkg path n m -> enum_at T pkg path n t -> same_enum m t.
  Proof.
    intros (a & b & S & D) (a' & b' & S' & D'). destruct (kept_scope _ _ _ _ _ _ S S') as [_ H].
    exact (keeps_both _ _ _ _ _ _ _ H D D').
  Qed.
  Lemma kept_service pkg n s t : service_at F pkg n s -> service_at T pkg n t -> service_extends s t.
  Proof.
    intros (p & Hp & D) (q & Hq & D'). destruct (kept_package _ _ _ Hp Hq) as (_ & _ & H).
    exact (keeps_both _ _ _ _ _ _ _ H D D').
  Qed.
  Lemma keeps_absent {A K} {key0 : Key K} (key : A -> K) same l l' x :
    keeps key same l l' -> In x l -> absent key l' (key x) -> False.
  Proof.
    intros H Hi Ha. apply (In_declares key) in Hi as [y D]. apply H in D as (z & Dz & _).
    apply declares_In in Dz as [Hz E]. now apply Ha in Hz.
  Qed.
  Lemma kept_quiet : quiet F T.
  Proof.
    intros id s. split; intros H.
    - destruct H as [n p Hp Hn|pkg path n m ms es M S Ha|pkg path n e ms es E S Ha|pkg path n m t f M M' Hf Ha
        |pkg path n m t o M M' Ho Ha|pkg path n e t v E E' Hv Ha|pkg p t sv Hp Ht Hs Ha|pkg n sv t m S S' Hm Ha].
      + destruct (kept_package_ex _ _ Hp) as [t Ht]. now apply Hn in Ht.
      + destruct M as (a & b & S0 & D). destruct (kept_scope _ _ _ _ _ _ S0 S) as [H _].
        apply declares_In in D as [Hi <-]. exact (keeps_absent _ _ _ _ _ H Hi Ha).
      + destruct E as (a & b & S0 & D). destruct (kept_scope _ _ _ _ _ _ S0 S) as [_ H].
        apply declares_In in D as [Hi <-]. exact (keeps_absent _ _ _ _ _ H Hi Ha).
      + pose proof (kept_message _ _ _ _ _ M M') as X. inversion X as [? ? H1 H2 H3 H4 H5]; subst.
        exact (keeps_absent _ _ _ _ _ H1 Hf Ha).
      + pose proof (kept_message _ _ _ _ _ M M') as X. inversion X as [? ? H1 H2 H3 H4 H5]; subst.
        exact (keeps_absent _ _ _ _ _ H2 Ho Ha).
      + pose proof (kept_enum _ _ _ _ _ E E') as X. exact (keeps_absent _ _ _ _ _ X Hv Ha).
      + destruct (kept_package _ _ _ Hp Ht) as (_ & _ & X). exact (keeps_absent _ _ _ _ _ X Hs Ha).
      + pose proof (kept_service _ _ _ _ S S') as X. exact (keeps_absent _ _ _ _ _ X Hm Ha).
    - assert (FP : forall pkg path n m t z f g, field_pair F T pkg path n m t z f g ->
         same_field f g /\ ((forall o, ~ in_oneof m z o) -> forall o, ~ in_oneof t z o)).
      { intros pkg path n m t z f g (M & M' & D & D'). pose proof (kept_message _ _ _ _ _ M M') as X.
        inversion X as [? ? H1 H2 H3 H4 H5]; subst. split; [exact (keeps_both _ _ _ _ _ _ _ H1 D D')|]. eapply H3; eassumption. }
      assert (MP : forall pkg n k f g, method_pair F T pkg n k f g -> f = g).
      { intros pkg n k f g (s1 & s2 & S1 & S2 & D & D'). pose proof (kept_service _ _ _ _ S1 S2) as X.
        exact (keeps_both _ _ _ _ _ _ _ X D D'). }
      destruct H as [pkg path n m t z f g P E|pkg path n m t z f g P E|pkg path n m t z f g P E
        |pkg path n m t z f g P E N En|pkg path n m t z f g o P L L'|pkg path n m t k o o' z M M' D D' Hi Hn
        |pkg path n e t z v w E E' D D' N|pkg n k f g P E|pkg n k f g P E|pkg n k f g P E|pkg n k f g P E].
      + now apply FP in P as [(? & _) _].
      + now apply FP in P as [(_ & ? & _) _].
      + now apply FP in P as [(_ & _ & ? & _) _].
      + apply FP in P as [(_ & _ & _ & X) _]. exact (En (X N)).
      + apply FP in P as [_ X]. exact (X L o L').
      + pose proof (kept_message _ _ _ _ _ M M') as X. inversion X as [? ? H1 H2 H3 H4 H5]; subst.
        apply Hn. exact (keeps_both _ _ _ _ _ _ _ H2 D D' z Hi).
      + pose proof (kept_enum _ _ _ _ _ E E') as X. apply N. f_equal. exact (keeps_both _ _ _ _ _ _ _ X D D').
      + apply MP in P as ->. congruence.
      + apply MP in P as ->. congruence.
      + apply MP in P as ->. congruence.
      + apply MP in P as ->. congruence.
  Qed.
End Kept.
(** The check finds nothing exactly if nothing is missing or changed, and no package that is not
    beta depends on one that is, unless that is allowed. *)
Theorem C120_exact : forall cfg from to, valid_set from -> valid_set to ->
  (run_break cfg from to = Ok [] <->
   kept (include_beta cfg) from to /\
   (include_beta cfg = false -> allow_beta_deps cfg = false -> forall n p d, packages_of false to n p -> In d (pk_deps p) -> ~ beta_name d)).
Proof.
  intros cfg from to Vf Vt. split; [apply C120_clean; now apply valid_set_named|]. intros (K & B). destruct (C04_runs cfg from to Vf Vt) as (fs & R). rewrite R. destruct fs as [|f fs]; [reflexivity|].
  exfalso. destruct (run_break_sound cfg from to (f :: fs) f (valid_set_named _ Vf) R (or_introl eq_refl)) as (id & msg & _ & [H|[H|(E1 & E2 & H)]]).
  - now apply kept_quiet in H.
  - now apply kept_quiet in H.
  - rewrite E1 in H. destruct H as [n p d Hp Hd Hb]. exact (B E1 E2 n p d Hp Hd Hb).
Qed.
Print Assumptions C120_exact.
(** The old version and one with additions; and the other way round. *)
Example C120_ex : valid_set ex_old /\ valid_set ex_new /\ run_break (mk_break_config false true) ex_old ex_new = Ok [] /\ kept false ex_old ex_new /\ ~ kept true ex_new ex_old.
Proof.
  split; [exact ex_old_valid|]. split; [exact ex_new_valid|]. split; [vm_compute; reflexivity|]. split.
  - apply (C120_clean (mk_break_config false true)); [apply valid_set_named, ex_old_valid|vm_compute; reflexivity].
  - intros H. destruct (H "qux.v1" (mk_package "qux.v1" [] [] [] [])) as (y & (D & _) & _).
    + split; [exists [ex_bar; ex_baz; ex_foo2], []; repeat constructor|now left].
    + apply declares_In in D as [[<-|[<-|[<-|[]]]] E]; discriminate.
Qed.
(** Nothing found in either direction: both versions have the same packages, and these the same in them. *)
Theorem C120_both : forall cfg a b, packages_named a -> packages_named b -> run_break cfg a b = Ok [] -> run_break cfg b a = Ok [] ->
  (forall n, (exists p, packages_of (include_beta cfg) a n p) <-> exists p, packages_of (include_beta cfg) b n p) /\
  forall n p q, packages_of (include_beta cfg) a n p -> packages_of (include_beta cfg) b n q -> package_extends p q /\ package_extends q p.
Proof.
  intros cfg a b Na Nb Ab Ba. destruct (C120_clean cfg a b Na Ab) as (K & _). destruct (C120_clean cfg b a Nb Ba) as (K' & _). split.
  - intros n. split; intros (p & P); [destruct (K n p P) as (t & T & _)|destruct (K' n p P) as (t & T & _)]; now exists t.
  - intros n p q P Q. split; [exact (kept_package _ _ _ K n p q P Q)|exact (kept_package _ _ _ K' n q p Q P)].
Qed.
Print Assumptions C120_both.
Example C120_both_ex : packages_named ex_old /\ packages_named (rev ex_old) /\ rev ex_old <> ex_old /\
  run_break (mk_break_config true false) ex_old (rev ex_old) = Ok [] /\ run_break (mk_break_config true false) (rev ex_old) ex_old = Ok [].
Proof. repeat split; repeat constructor; try discriminate; vm_compute; discriminate. Qed.
