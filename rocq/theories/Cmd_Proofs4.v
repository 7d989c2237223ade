(** Proofs about command lines: flags written before the words of the command. *)
From Verif Require Import GoStrFacts Cmd_Spec Cmd_Proofs Cmd_Proofs2 Cmd_Proofs3.
From Coq Require Import Lia.

Lemma equals_there : forall n v, sexists (Ascii.eqb "=") (n +++ "=" +++ v) = true.
Proof. intros n v. induction n as [|c n IH]; [reflexivity|]. change (Ascii.eqb "=" c || sexists (Ascii.eqb "=") (n +++ "=" +++ v) = true). rewrite IH. apply orb_true_r. Qed.
(** Groups of commands have the flags that all commands have, and no others. *)
Definition group (path : list string) : Prop := flags_at path = [bind_debug].
Lemma strip_first : forall path words pre w rest, group path -> flags_first words pre ->
  String.eqb w "--" = false -> negb (is_empty w) && negb (has_prefix w "-") = true -> eats_next (flags_at path) w = false ->
  exists r, strip_flags (flags_at path) (pre ++ w :: rest) = w :: r.
Proof.
  intros path words pre w rest G F W1 W2 W3. induction F as [|n v r N F (x & IH)|n v r N D _ F (x & IH)].
  - cbn [app strip_flags]. rewrite W1, W3, W2. eauto.
  - cbn [app strip_flags]. exists x. rewrite <- IH.
    assert (E1 : String.eqb ("--" +++ n +++ "=" +++ v) "--" = false).
    { destruct n as [|c n]; [contradiction|]. reflexivity. }
    rewrite E1. clear E1.
    assert (E : sexists (Ascii.eqb "=") ("--" +++ n +++ "=" +++ v) = true).
    { change ("--" +++ n +++ "=" +++ v) with (String "-" (String "-" (n +++ "=" +++ v))). cbn [sexists]. rewrite equals_there. reflexivity. }
    unfold eats_next. rewrite E. reflexivity.
  - exists x. rewrite <- IH. apply flag_word_fine in N as N'. apply fine_no_equals in N' as N2.
    cbn [app strip_flags].
    assert (E1 : String.eqb ("--" +++ n) "--" = false).
    { destruct n as [|c n]; [now destruct N|]. reflexivity. }
    rewrite E1. clear E1.
    assert (E : eats_next (flags_at path) ("--" +++ n) = true).
    { unfold eats_next. change ("--" +++ n) with (String "-" (String "-" n)). cbn [sexists]. rewrite N2, G. cbn [negb andb orb Ascii.eqb Bool.eqb].
      unfold lookup. cbn [find]. destruct (String.eqb_spec (fl_name bind_debug) n) as [X|_]; [exfalso; apply D; symmetry; exact X|].
      destruct (String.eqb_spec n (fl_name bind_debug)) as [X|_]; [exfalso; apply D; exact X|]. reflexivity. }
    rewrite E. clear E. destruct (r ++ w :: rest) eqn:X; [destruct r; discriminate X|]. reflexivity.
Qed.
Lemma minus_past : forall words pre w rest, flags_first words pre -> In w words -> has_prefix w "-" = false ->
  minus_first (pre ++ w :: rest) w = pre ++ rest.
Proof.
  intros words pre w rest F I P. induction F as [|n v r N F IH|n v r N D V F IH]; cbn [app minus_first].
  - now rewrite String.eqb_refl.
  - rewrite IH. destruct (String.eqb_spec w ("--" +++ n +++ "=" +++ v)) as [->|_]; [discriminate P|reflexivity].
  - rewrite IH. destruct (String.eqb_spec w ("--" +++ n)) as [->|_]; [discriminate P|].
    destruct (String.eqb_spec w v) as [->|_]; [contradiction|reflexivity].
Qed.
Lemma down_past : forall words d path pre w rest, group path -> flags_first words pre -> In w words ->
  String.eqb w "--" = false -> eats_next (flags_at path) w = false -> is_empty w = false -> has_prefix w "-" = false ->
  is_command (path ++ [w]) = true ->
  find_command (S d) path (pre ++ w :: rest) = find_command d (path ++ [w]) (pre ++ rest).
Proof.
  intros words d path pre w rest G F I E1 E2 E3 E3' E4. cbn [find_command].
  destruct (strip_first path words pre w rest G F E1) as (r & ->); [now rewrite E3, E3'|exact E2|].
  rewrite E4, (minus_past words) by assumption. reflexivity.
Qed.
Ltac pasts F := repeat (rewrite (fun w d p rest G => down_past _ d p _ w rest G F); [| reflexivity | cbn; tauto | vm_compute; reflexivity | vm_compute; reflexivity | vm_compute; reflexivity | vm_compute; reflexivity | vm_compute; reflexivity]; cbn [app]);
  rewrite leaf_done; [reflexivity | cbn; lia | vm_compute; reflexivity].
Lemma found_past : forall c pre rest, In c commands -> flags_first (c_words c) pre ->
  find_command 4 [] (pre ++ c_words c ++ rest) = (c_words c, pre ++ rest).
Proof.
  intros c pre rest H F. cbn [In commands] in H.
  do 18 (destruct H as [<-|H]; [cbn [c_words] in F |- *; cbn [app]; pasts F|]). destruct H.
Qed.
