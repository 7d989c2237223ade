(** Which characters the values that --fix sets can have. *)
From Coq Require Import Lia.
From Verif Require Import GoStrFacts Protostrs_Proofs Text_Proofs Format_Spec Format_Model.

Section Chars.
  Variable f : ascii -> bool.
  Hypothesis f_upper : forall c, f c = true -> f (upper_char c) = true.
  Hypothesis f_lower : forall c, f c = true -> f (lower_char c) = true.
  Hypothesis f_usual : forall c, is_letter c = true \/ is_digit c = true \/ c = "."%char \/ c = "-"%char \/ c = "/"%char -> f c = true.
  Lemma usual s : sforall (fun c => is_letter c || is_digit c || existsb (Ascii.eqb c) ["."; "-"; "/"]%char) s = true -> sforall f s = true.
  Proof.
    apply sforall_impl. intros c H. apply f_usual. apply orb_true_iff in H as [H|H]; [apply orb_true_iff in H; tauto|].
    apply existsb_exists in H as (x & Hx & E). apply Ascii.eqb_eq in E. subst x. cbn in Hx. intuition.
  Qed.
  Lemma chars_split d s : sforall f s = true -> Forall (fun x => sforall f x = true) (split_char d s).
  Proof.
    induction s as [|c s IH]; intros H; [constructor; [reflexivity|constructor]|]. cbn in H. apply andb_true_iff in H as [Hc H].
    specialize (IH H). cbn [split_char]. destruct (Ascii.eqb c d); [constructor; [reflexivity|exact IH]|].
    destruct (split_char d s) as [|x l]; [constructor; [cbn; now rewrite Hc|constructor]|]. inversion IH; subst.
    constructor; [cbn; now rewrite Hc|assumption].
  Qed.
  Lemma chars_last l : Forall (fun x => sforall f x = true) l -> sforall f (last l EmptyString) = true.
  Proof. induction 1 as [|x l Hx H IH]; [reflexivity|]. destruct l; [exact Hx|exact IH]. Qed.
  Lemma chars_removelast l : Forall (fun x => sforall f x = true) l -> Forall (fun x => sforall f x = true) (removelast l).
  Proof. induction 1 as [|x l Hx H IH]; [constructor|]. destruct l; [constructor|]. cbn [removelast]. constructor; assumption. Qed.
  Lemma chars_join l : Forall (fun x => sforall f x = true) l -> sforall f (join "." l) = true.
  Proof.
    induction 1 as [|x l Hx H IH]; [reflexivity|]. destruct l as [|y l]; [exact Hx|]. rewrite join_cons2, !sforall_app, Hx, IH.
    cbn. rewrite f_usual by tauto. reflexivity.
  Qed.
  Lemma chars_title s : forall b, sforall f s = true -> sforall f (title_loop b s) = true.
  Proof.
    induction s as [|c s IH]; intros b H; [reflexivity|]. cbn in H. apply andb_true_iff in H as [Hc H].
    cbn [title_loop sforall]. rewrite IH by assumption. destruct b; [rewrite f_upper|rewrite Hc]; auto.
  Qed.
  Lemma chars_N n : sforall f (itoa_N n) = true.
  Proof.
    pose proof (Decimal_digits _ _ (itoa_N_Decimal n)) as D. revert D. apply sforall_impl. intros c H. apply f_usual. tauto.
  Qed.
  Lemma chars_itoa z : sforall f (itoa z) = true.
  Proof.
    destruct z as [|p|p]; [now apply usual|apply chars_N|].
    change (itoa (Z.neg p)) with (String "-" (itoa_N (N.pos p))). cbn [sforall]. rewrite chars_N, f_usual by tauto. reflexivity.
  Qed.
  Lemma chars_trim g s : sforall f s = true -> sforall f (trim_right g s) = true.
  Proof. intros H. destruct (trim_right_spec g s) as (p & E & _). rewrite E, sforall_app in H. now apply andb_true_iff in H. Qed.
  Lemma chars_trim_left g s : sforall f s = true -> sforall f (trim_left g s) = true.
  Proof. intros H. destruct (trim_left_spec g s) as (p & E & _). rewrite E, sforall_app in H. now apply andb_true_iff in H. Qed.
  Lemma chars_stake s : forall n, sforall f s = true -> sforall f (stake n s) = true.
  Proof.
    induction s as [|c s IH]; intros [|n] H; try reflexivity. cbn in H. apply andb_true_iff in H as [Hc H]. cbn. now rewrite Hc, IH.
  Qed.
  Lemma chars_go s : sforall f s = true -> sforall f (go_package s) = true.
  Proof.
    intros H. unfold go_package. destruct (is_empty s); [reflexivity|]. rewrite sforall_app, chars_last by now apply chars_split.
    now apply usual.
  Qed.
  Lemma chars_go_v2 s : sforall f s = true -> sforall f (go_package_v2 s) = true.
  Proof.
    intros H. unfold go_package_v2. destruct (is_empty s); [reflexivity|]. destruct (major_beta_version s); [|now apply chars_go].
    cbv zeta. rewrite sforall_app. rewrite !chars_last; [reflexivity|now apply chars_split|now apply chars_removelast, chars_split].
  Qed.
  Lemma chars_java s prefix : sforall f s = true -> sforall f prefix = true -> sforall f (java_package_prefix_override s prefix) = true.
  Proof.
    intros H Hp. unfold java_package_prefix_override. destruct (is_empty s); [reflexivity|].
    destruct (negb (is_empty prefix)); rewrite !sforall_app, ?Hp, H; [|now rewrite (usual "com.") by reflexivity].
    now rewrite (usual ".") by reflexivity.
  Qed.
  Lemma chars_csharp s : sforall f s = true -> sforall f (csharp_namespace s) = true.
  Proof.
    intros H. unfold csharp_namespace. destruct (is_empty s); [reflexivity|].
    destruct (major_beta_version s) as [[a b]|]; [|now apply chars_title].
    destruct ((a =? 0)%N || (b =? 0)%N); [now apply chars_title|].
    rewrite !sforall_app, !chars_itoa. unfold title. rewrite chars_title by now apply chars_join, chars_removelast, chars_split.
    now rewrite !usual by reflexivity.
  Qed.
  Lemma chars_first l : Forall (fun x => sforall f x = true) l -> sforall f (first_letters l) = true.
  Proof.
    induction 1 as [|x l Hx H IH]; [reflexivity|]. destruct x as [|c x]; [exact IH|]. cbn in Hx. apply andb_true_iff in Hx as [Hc _].
    cbn [first_letters sforall]. now rewrite f_upper, IH.
  Qed.
  Lemma chars_objc s : sforall f s = true -> sforall f (objc_class_prefix s) = true.
  Proof.
    intros H. unfold objc_class_prefix. destruct (is_empty s); [reflexivity|]. cbv zeta.
    set (l := match major_beta_version s with Some _ => removelast (split_char dot s) | None => split_char dot s end).
    assert (Forall (fun x => sforall f x = true) l) as Hl
      by (subst l; destruct (major_beta_version s); [apply chars_removelast|]; now apply chars_split).
    apply chars_first in Hl. destruct (String.length (first_letters l)) as [|[|[|[|n]]]]; try reflexivity; rewrite ?sforall_app, ?Hl;
      try (now rewrite usual by reflexivity); try assumption; try reflexivity.
    destruct (String.eqb _ _); [now apply usual|assumption].
  Qed.
  Lemma chars_base s : sforall f s = true -> sforall f (path_base s) = true.
  Proof.
    intros H. unfold path_base. destruct (is_empty s); [now apply usual|]. cbv zeta. destruct (is_empty _); [now apply usual|].
    unfold after_last_slash. now apply chars_last, chars_split, chars_trim.
  Qed.
  Lemma chars_camel s : forall b, sforall f s = true -> sforall f (camel_loop b s) = true.
  Proof.
    induction s as [|c s IH]; intros b H; [reflexivity|]. cbn in H. apply andb_true_iff in H as [Hc H]. cbn [camel_loop].
    destruct (is_delimiter c); [now apply IH|]. cbn [sforall]. rewrite IH by assumption. destruct (b || is_upper c); [rewrite f_upper|rewrite f_lower]; auto.
  Qed.
  Lemma chars_class s : sforall f s = true -> sforall f (java_outer_classname s) = true.
  Proof.
    intros H. unfold java_outer_classname. destruct (is_empty s); [reflexivity|]. cbv zeta. rewrite sforall_app.
    rewrite (usual "Proto") by reflexivity. rewrite andb_true_r. unfold to_upper_camel_case, trim_space.
    apply chars_camel, chars_trim, chars_trim_left. unfold trim_suffix. destruct (has_suffix _ _); [apply chars_stake|]; now apply chars_base.
  Qed.
End Chars.

Definition safe_char (c : ascii) : bool := negb (Ascii.eqb c newline || Ascii.eqb c dquote || Ascii.eqb c backslash).
Lemma safe_upper c : safe_char c = true -> safe_char (upper_char c) = true.
Proof. all_ascii c; vm_compute; congruence. Qed.
Lemma safe_lower c : safe_char c = true -> safe_char (lower_char c) = true.
Proof. all_ascii c; vm_compute; congruence. Qed.
Lemma safe_usual c : is_letter c = true \/ is_digit c = true \/ c = "."%char \/ c = "-"%char \/ c = "/"%char -> safe_char c = true.
Proof. intros [H|[H|[->|[->| ->]]]]; try reflexivity; revert H; all_ascii c; vm_compute; congruence. Qed.
Lemma safe_string s : sforall safe_char s = true -> a_string dquote s.
Proof.
  intros H. split; [reflexivity|]. split.
  - revert H. apply sforall_impl. unfold safe_char. intros c. destruct (Ascii.eqb c newline); [discriminate|reflexivity].
  - induction s as [|c s IH]; [reflexivity|]. cbn [sforall] in H. apply andb_true_iff in H as [Hc H]. cbn [quotable].
    unfold safe_char in Hc. destruct (Ascii.eqb c backslash); [now rewrite orb_true_r in Hc|].
    destruct (Ascii.eqb c dquote); [now rewrite orb_true_r in Hc|]. now apply IH.
Qed.
Lemma php_string s : sforall safe_char s = true -> a_string dquote (replace_char dot two_backslashes s).
Proof.
  intros H. split; [reflexivity|]. unfold one_line, no_char.
  induction s as [|c s IH]; [split; reflexivity|]. cbn [sforall] in H. apply andb_true_iff in H as [Hc H].
  destruct (IH H) as [I1 I2]. cbn [replace_char]. destruct (Ascii.eqb c dot) eqn:E.
  - split; [exact I1|exact I2].
  - unfold safe_char in Hc. split; cbn [sforall quotable].
    + rewrite I1. destruct (Ascii.eqb c newline); [discriminate|reflexivity].
    + destruct (Ascii.eqb c backslash); [now rewrite orb_true_r in Hc|].
      destruct (Ascii.eqb c dquote); [now rewrite orb_true_r in Hc|]. exact I2.
Qed.
(** What --fix writes between quotes can be there. *)
Lemma value_strings pkg filename prefix : sforall safe_char pkg = true -> sforall safe_char filename = true -> sforall safe_char prefix = true ->
  a_string dquote (go_package pkg) /\ a_string dquote (go_package_v2 pkg) /\ a_string dquote (java_outer_classname filename) /\
  a_string dquote (java_package_prefix_override pkg prefix) /\ a_string dquote (csharp_namespace pkg) /\
  a_string dquote (objc_class_prefix pkg) /\ a_string dquote (php_namespace pkg).
Proof.
  intros H Hf Hp. pose proof safe_upper. pose proof safe_lower. pose proof safe_usual.
  split; [now apply safe_string, chars_go|]. split; [now apply safe_string, chars_go_v2|]. split; [now apply safe_string, chars_class|].
  split; [now apply safe_string, chars_java|]. split; [now apply safe_string, chars_csharp|]. split; [now apply safe_string, chars_objc|].
  now apply php_string, chars_csharp.
Qed.
