(** C118: a break check looks at one package at a time. *)
From Verif Require Import GoMapFacts Extract_Model Breaking_Model Breaking_Spec Breaking_Proofs BreakRun_Proofs BreakCheckers Parts_Proofs Props_Breaking.

(** No package of one set has the name of one in the other. *)
Definition no_common_name (a b : package_set) : Prop := forall p q, In p a -> In q b -> pk_name p <> pk_name q.
(** The packages of a set with the name [n]. *)
Definition package_named (n : string) (ps : package_set) : package_set := filter (fun p => String.eqb (pk_name p) n) ps.

(** What is found is what there is to report for the packages taken one by one, each
    compared only with the package of the same name. *)
Theorem C118_packages : forall cfg from to fs, packages_named from ->
  oneofs_disjoint (packages_of (include_beta cfg) to) -> run_break cfg from to = Ok fs ->
  forall f, In f fs <-> exists n id msg, f = mk_failure "" 0 0 id msg /\ reported cfg (package_named n from) (package_named n to) id msg.
Proof.
  intros cfg from to fs N O R f. rewrite (C05_complete_list cfg from to fs N O R f). split.
  - intros (id & msg & E & H). apply reported_named in H as (n & H). now exists n, id, msg.
  - intros (n & id & msg & E & H). exists id, msg. split; [exact E|]. apply reported_named. now exists n.
Qed.
Print Assumptions C118_packages.

Lemma valid_both a b : valid_set a -> valid_set b -> valid_set (a ++ b).
Proof.
  unfold valid_set. rewrite !Forall_forall. intros A B p Hp. apply in_app_iff in Hp as [Hp|Hp]; [destruct (A p Hp) as (X & Y & Z)|destruct (B p Hp) as (X & Y & Z)];
  (split; [exact X|]; split; [exact Y|]; intros d Hd; destruct (Z d Hd) as (q & Hq & E); exists q; split; [apply in_app_iff; auto|exact E]).
Qed.
(** If a set falls into two parts, checking the parts separately finds the same. *)
Theorem C118_parts : forall cfg a b c d,
  valid_set a -> valid_set b -> valid_set c -> valid_set d ->
  no_common_name a b -> no_common_name c d -> no_common_name a d -> no_common_name b c ->
  oneofs_disjoint (packages_of (include_beta cfg) (c ++ d)) ->
  exists fs f1 f2, run_break cfg (a ++ b) (c ++ d) = Ok fs /\ run_break cfg a c = Ok f1 /\ run_break cfg b d = Ok f2
    /\ forall f, In f fs <-> In f f1 \/ In f f2.
Proof.
  intros cfg a b c d Va Vb Vc Vd Ab Cd Ad Bc O.
  destruct (C04_runs cfg (a ++ b) (c ++ d) (valid_both a b Va Vb) (valid_both c d Vc Vd)) as (fs & R).
  destruct (C04_runs cfg a c Va Vc) as (f1 & R1). destruct (C04_runs cfg b d Vb Vd) as (f2 & R2).
  exists fs, f1, f2. split; [exact R|]. split; [exact R1|]. split; [exact R2|].
  assert (N : packages_named (a ++ b)). { pose proof (valid_both a b Va Vb) as V. unfold valid_set, packages_named in *. rewrite Forall_forall in *. intros p Hp. now destruct (V p Hp). }
  exact (break_parts cfg a b c d fs f1 f2 Ab Cd Ad Bc N O R R1 R2).
Qed.
Print Assumptions C118_parts.
(** In particular a part that has not changed adds nothing. *)
Theorem C118_unchanged : forall cfg a b c,
  valid_set a -> valid_set b -> valid_set c -> no_common_name a b -> no_common_name b c ->
  oneofs_disjoint (packages_of (include_beta cfg) (c ++ b)) ->
  include_beta cfg = true \/ allow_beta_deps cfg = true ->
  exists fs f1, run_break cfg (a ++ b) (c ++ b) = Ok fs /\ run_break cfg a c = Ok f1 /\ forall f, In f fs <-> In f f1.
Proof.
  intros cfg a b c Va Vb Vc Ab Bc O B.
  destruct (C118_parts cfg a b c b Va Vb Vc Vb Ab) as (fs & f1 & f2 & R & R1 & R2 & H); auto.
  { intros p q Hp Hq E. exact (Bc q p Hq Hp (eq_sym E)). }
  rewrite (C01_reflexive cfg b Vb) in R2 by tauto. injection R2 as <-.
  exists fs, f1. split; [exact R|]. split; [exact R1|]. intros f. rewrite H. cbn. tauto.
Qed.
Print Assumptions C118_unchanged.

Definition ex_other := mk_package "other.v1" [] [ex_color] [mk_message "M" [mk_field "x" 1 1 9 ""] [] [] []] [].
Definition ex_other2 := mk_package "other.v1" [] [] [mk_message "M" [] [] [] []] [].
(** At most one oneof in each message, to a depth. *)
Fixpoint few (n : nat) (m : message) : bool :=
  (length (msg_oneofs m) <=? 1)%nat && match n with 0 => match msg_nested m with [] => true | _ => false end | S n => forallb (few n) (msg_nested m) end.
Lemma few_scope n ms es path ms' es' : scope_in ms es path ms' es' -> forallb (few n) ms = true -> exists k, forallb (few k) ms' = true.
Proof.
  intros S. revert n. induction S as [ms es|ms es x m path ms' es' D S IH]; intros n F; [now exists n|].
  apply declares_In in D as [D _]. rewrite forallb_forall in F. specialize (F m D). destruct n as [|n]; cbn [few] in F; apply Bool.andb_true_iff in F as [_ F].
  - destruct (msg_nested m) eqn:E; [|discriminate]. apply (IH 0). reflexivity.
  - exact (IH n F).
Qed.
Lemma few_disjoint w n ps : forallb (fun p => forallb (few n) (pk_messages p)) ps = true -> oneofs_disjoint (packages_of w ps).
Proof.
  intros F pkg path x m k o o' (ms & es & (p & [Dp _] & S) & D) [H _] [H' _]. apply declares_In in Dp as [Dp _]. rewrite forallb_forall in F.
  destruct (few_scope n _ _ _ _ _ S (F p Dp)) as (j & Fj). apply declares_In in D as [D _]. rewrite forallb_forall in Fj. specialize (Fj m D).
  apply declares_In in H as [H _], H' as [H' _]. destruct j; cbn [few] in Fj; apply Bool.andb_true_iff in Fj as [Fj _]; (destruct (msg_oneofs m) as [|a [|b l]]; [destruct H| |discriminate Fj]; destruct H as [<-|[]], H' as [<-|[]]; reflexivity).
Qed.
Example C118_ex : valid_set ex_old /\ valid_set [ex_other] /\ valid_set ex_bad /\ valid_set [ex_other2]
  /\ no_common_name ex_old [ex_other] /\ no_common_name ex_bad [ex_other2] /\ no_common_name ex_old [ex_other2] /\ no_common_name [ex_other] ex_bad
  /\ oneofs_disjoint (packages_of false (ex_bad ++ [ex_other2]))
  /\ (exists f1 f2, run_break (mk_break_config false true) (ex_old ++ [ex_other]) (ex_bad ++ [ex_other2]) = Ok (f1 :: f2))
  /\ run_break (mk_break_config false true) [ex_other] [ex_other2] =
     Ok [mk_failure "" 0 0 "ENUMS_NOT_DELETED" "Enum ""other.v1.Color"" was deleted."; mk_failure "" 0 0 "MESSAGE_FIELDS_NOT_DELETED" "Message field ""1"" on message ""other.v1.M"" was deleted."].
Proof.
  split; [exact ex_old_valid|]. split; [now apply valid_setb_ok|]. split; [exact ex_bad_valid|]. split; [now apply valid_setb_ok|].
  split; [intros p q Hp [<-|[]]; cbn in Hp; intuition (subst; discriminate)|].
  split; [intros p q Hp [<-|[]]; cbn in Hp; intuition (subst; discriminate)|].
  split; [intros p q Hp [<-|[]]; cbn in Hp; intuition (subst; discriminate)|].
  split; [intros p q [<-|[]] Hp; cbn in Hp; intuition (subst; discriminate)|].
  split; [apply (few_disjoint false 3); reflexivity|].
  split; [eexists; eexists; vm_compute; reflexivity|vm_compute; reflexivity].
Qed.
