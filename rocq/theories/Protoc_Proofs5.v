(** What protoc prints: no line gets lost. *)
From Verif Require Import Protoc_Model Protoc_Spec GoRegexpFacts GoPathFacts GoStrFacts Protostrs_Proofs Text_Proofs.
From Coq Require Import Lia.

(** ** Lines *)
Lemma split_app_sep c a b : split_char c (a +++ String c b) = split_char c a ++ split_char c b.
Proof.
  induction a as [|x a IH]; simpl.
  - now rewrite Ascii.eqb_refl.
  - rewrite IH. destruct (Ascii.eqb x c); [reflexivity|].
    destruct (split_char c a) as [|h t] eqn:E; [now apply split_char_nonnil in E|reflexivity].
Qed.
Lemma split_snoc c x s : Ascii.eqb x c = false ->
  exists init l, split_char c s = init ++ [l] /\ split_char c (s +++ String x EmptyString) = init ++ [l +++ String x EmptyString].
Proof.
  intros Hx. induction s as [|y s IH].
  - exists [], EmptyString. simpl. now rewrite Hx.
  - destruct IH as (init & l & E1 & E2). simpl. destruct (Ascii.eqb y c).
    + exists (EmptyString :: init), l. now rewrite E1, E2.
    + rewrite E1, E2. destruct init as [|h init]; [exists [], (String y l); auto|exists (String y h :: init), l; auto].
Qed.
Lemma trim_space_cons c s : is_space c = true -> trim_space (String c s) = trim_space s.
Proof. intros H. unfold trim_space. simpl. now rewrite H. Qed.
Lemma trim_space_snoc c s : is_space c = true -> trim_space (s +++ String c EmptyString) = trim_space s.
Proof.
  intros H. unfold trim_space. induction s as [|x s IH]; simpl.
  - now rewrite H.
  - destruct (is_space x); [exact IH|]. change (String x (s +++ String c EmptyString)) with (String x s +++ String c EmptyString).
    apply trim_right_app. simpl. now rewrite H.
Qed.
Lemma lines_cons c s : is_space c = true -> lines_in (String c s) = lines_in s.
Proof.
  intros H. unfold lines_in. simpl. destruct (Ascii.eqb c newline); [reflexivity|].
  destruct (split_char newline s) as [|h t] eqn:E; [now apply split_char_nonnil in E|]. cbn [map]. now rewrite trim_space_cons.
Qed.
Lemma lines_snoc c s : is_space c = true -> lines_in (s +++ String c EmptyString) = lines_in s.
Proof.
  intros H. unfold lines_in. destruct (Ascii.eqb c newline) eqn:E.
  - apply Ascii.eqb_eq in E. subst c. rewrite split_app_sep. simpl. rewrite map_app, filter_app. cbn. now rewrite app_nil_r.
  - apply (split_snoc newline c s) in E as (init & l & -> & ->). now rewrite !map_app, !filter_app; cbn [map]; rewrite trim_space_snoc.
Qed.
Lemma lines_app_l a s : sforall is_space a = true -> lines_in (a +++ s) = lines_in s.
Proof. induction a as [|c a IH]; [reflexivity|]. simpl. intros H. apply andb_true_iff in H as [H1 H2]. rewrite lines_cons by auto. auto. Qed.
Lemma lines_app_r b : forall s, sforall is_space b = true -> lines_in (s +++ b) = lines_in s.
Proof.
  induction b as [|c b IH]; intros s H; [now rewrite sapp_nil_r|]. simpl in H. apply andb_true_iff in H as [H1 H2].
  replace (s +++ String c b) with ((s +++ String c EmptyString) +++ b) by now rewrite sapp_assoc. rewrite IH by auto. now apply lines_snoc.
Qed.
Lemma lines_trim s : lines_in (trim_space s) = lines_in s.
Proof.
  unfold trim_space. destruct (trim_left_spec is_space s) as (p & E & Hp). rewrite E at 2. rewrite lines_app_l by auto.
  destruct (trim_right_spec is_space (trim_left is_space s)) as (q & E' & Hq). rewrite E' at 2. now rewrite lines_app_r.
Qed.
Lemma line_trimmed output l : In l (lines_in output) -> l <> "" /\ trim_space l = l.
Proof.
  unfold lines_in. intros H. apply filter_In in H as [H1 H2]. apply in_map_iff in H1 as (x & <- & _). split; [|apply trim_space_idem].
  apply negb_true_iff in H2. now apply is_empty_false in H2.
Qed.
(** What a match says. *)
Lemma found re line gs : re_find re line = Some gs -> exists a b, line = a +++ b /\ (re_anchored re = true -> a = EmptyString) /\ cut (re_items re) b None gs.
Proof.
  unfold re_find. destruct (re_anchored re); intros H.
  - exists EmptyString, line. split; [reflexivity|]. split; [auto|now apply match_sound].
  - apply search_sound in H as (a & b & -> & H). exists a, b. split; [reflexivity|]. split; [discriminate|auto].
Qed.
Ltac cuts := repeat match goal with H : cut (_ :: _) _ _ _ |- _ => inversion H; clear H; subst | H : cut [] _ _ _ |- _ => inversion H; clear H; subst end.
Ltac found H :=
  match type of H with re_find ?re _ = _ =>
    let Ha := fresh "Ha" in apply found in H as (? & ? & -> & Ha & H); unfold re, position_items, grp in Ha, H;
    cbn [re_anchored re_items app] in Ha, H; try rewrite (Ha eq_refl) in *; clear Ha; cuts; cbn [took] in * end.

Section Output.
  Variable files : list proto_file.
  Variable allow_unused : bool.
  Notation parse_line := (parse_line files allow_unused).
  Notation parse_lines := (parse_lines files allow_unused).
  Lemma parse_lines_eq ls : parse_lines ls = concat (map (fun l => match parse_line l with Some f => [f] | None => [] end) (filter (fun l => negb (is_empty l)) (map trim_space ls))).
  Proof.
    induction ls as [|l ls IH]; [reflexivity|]. cbn [Protoc_Model.parse_lines map filter]. destruct (is_empty (trim_space l)); cbn [negb]; [exact IH|].
    cbn [map concat]. rewrite IH. now destruct (parse_line (trim_space l)).
  Qed.
  Lemma parse_output_eq output : parse_output files allow_unused output =
    concat (map (fun l => match parse_line l with Some f => [f] | None => [] end) (lines_in output)).
  Proof. unfold parse_output. rewrite parse_lines_eq. now rewrite <- (lines_trim output) at 1. Qed.

  (** ** Single lines *)
  Definition kept (l : string) (a : option failure) : Prop :=
    match a with Some f => f_message f <> "" | None => silent_line allow_unused l end.
  Lemma placed_kept line file l c message : line <> "" -> message <> "" -> kept line (Some (placed files line file l c message)).
  Proof. intros H1 H2. unfold placed. destruct (atoi l); [destruct (atoi c)|]; exact H2 || exact H1. Qed.
  Lemma try_kept re line f next : (forall g, re_find re line = Some g -> kept line (f g)) ->
    (forall a, next = Some a -> kept line a) -> forall a, try re line f next = Some a -> kept line a.
  Proof. unfold try. intros H1 H2 a. destruct (re_find re line); [intros [= <-]; auto|auto]. Qed.
  Ltac msg := cbv [kept plain unplaced f_message]; discriminate.
  Lemma allowed_kept line f : (allow_unused = true -> unused_import_line line) -> f_message f <> "" -> kept line (allowed allow_unused f).
  Proof. unfold allowed, kept. destruct allow_unused; [left; auto|auto]. Qed.
  Lemma parse_known_kept line : line <> "" -> forall a, parse_known files allow_unused line = Some a -> kept line a.
  Proof.
    intros Hl. unfold parse_known. repeat (apply try_kept; [intros g Hg|]).
    - msg.
    - apply allowed_kept.
      + intros _. found Hg. exists (t +++ ":" +++ t0 +++ ":" +++ t1), t2, c. left. now rewrite ?sapp_nil_r, ?sapp_assoc.
      + unfold placed. destruct (atoi _); [destruct (atoi _)|]; auto; discriminate.
    - apply allowed_kept.
      + intros _. found Hg. exists (t +++ ":" +++ t0 +++ ":" +++ t1), t2, c. right. now rewrite ?sapp_nil_r, ?sapp_assoc.
      + unfold placed. destruct (atoi _); [destruct (atoi _)|]; auto; discriminate.
    - apply allowed_kept; [|msg].
      intros _. found Hg. exists t, t0, c. right. now rewrite ?sapp_nil_r, ?sapp_assoc.
    - apply placed_kept; [auto|discriminate].
    - msg.
    - msg.
    - msg.
    - msg.
    - right. found Hg. exists t, t0, c. now rewrite ?sapp_nil_r, ?sapp_assoc.
    - found Hg. apply placed_kept; [auto|discriminate].
    - found Hg. msg.
    - cbn. intros E. now destruct (at_1 g).
    - found Hg. msg.
    - msg.
    - msg.
    - msg.
    - discriminate.
  Qed.
  Lemma parse_line_kept line : line <> "" -> kept line (parse_line line).
  Proof.
    intros Hl. unfold Protoc_Model.parse_line.
    match goal with |- kept _ (match ?X with Some _ => _ | None => _ end) => destruct X as [a|] eqn:E end.
    - revert a E. repeat (apply try_kept; [intros g Hg; msg|]). discriminate.
    - assert (Hk : kept line match parse_known files allow_unused line with Some a => a | None => Some (uninterpreted line) end).
      { destruct (parse_known files allow_unused line) as [a|] eqn:Ek; [now apply (parse_known_kept line)|exact Hl]. }
      destruct (split_char ":" line) as [|file [|l [|c [|message [|? ?]]]]]; try exact Hk.
      destruct (atoi l); [|exact Hl]. destruct (atoi c); [|exact Hl]. destruct (is_empty (trim_space message)) eqn:Em; [exact Hl|]. now apply is_empty_false in Em.
  Qed.
  Lemma output_reported output : reported allow_unused (lines_in output) (parse_output files allow_unused output).
  Proof.
    rewrite parse_output_eq. assert (H : Forall (fun l => l <> "") (lines_in output)). { apply Forall_forall. intros l Hl. now apply line_trimmed in Hl. }
    induction H as [|l ls Hl H IH]; [apply ReportedNone|]. cbn [map concat]. pose proof (parse_line_kept l Hl) as Hk. destruct (parse_line l) as [f|]; cbn [app]; [now apply ReportedLine|now apply ReportedSilent].
  Qed.
End Output.
