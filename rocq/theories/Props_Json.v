(** C107: what --json prints is JSON that reads as what was found. *)
From Verif Require Export Json_Proofs.
From Verif Require Import Exec_Spec.
From Coq Require Import Lia Sorting.Permutation Sorting.Sorted.
Local Open Scope string_scope.

(** The members for a finding: what is empty or zero is left out. *)
Definition text_member (name s : string) : list (string * value) := if String.eqb s "" then [] else [(name, JText s)].
Definition number_member (name : string) (z : Z) : list (string * value) := if Z.eqb z 0 then [] else [(name, JNumber z)].
Definition told (filename : string) (line column : Z) (id message : string) : list (string * value) :=
  text_member "filename" filename ++ number_member "line" line ++ number_member "column" column ++ text_member "lint_id" id ++ text_member "message" message.
(** The texts of a finding are in UTF-8. *)
Definition readable (f : failure) : Prop := in_utf8 (f_filename f) /\ in_utf8 (f_lint_id f) /\ in_utf8 (f_message f).
Definition told_of (f : failure) : list (string * value) := told (f_filename f) (f_line f) (f_column f) (f_lint_id f) (f_message f).

Lemma ascii_utf8 s : sforall (fun c => (byte c <? 128)%N) s = true -> in_utf8 s.
Proof.
  induction s as [|c s IH]; [constructor|]. cbn [sforall]. intros H. apply andb_true_iff in H as (Hc & H). apply N.ltb_lt in Hc.
  change (String c s) with (String c "" +++ s). rewrite (utf8_one c Hc). constructor; [left; lia|now apply IH].
Qed.
Lemma text_part name s : in_utf8 name -> exists t l, legible s t /\ Forall good l /\ text_field name s = map fst l /\ text_member name t = map meant l.
Proof.
  intros Hn. destruct (reads_text s) as (t & L & R & So). pose proof (legible_empty s t L) as Le. unfold text_field, text_member.
  destruct (String.eqb_spec t "") as [->|N].
  - exists "", []. rewrite (proj2 Le eq_refl). split; [constructor|]. split; [constructor|]. now split.
  - exists t, [(name, json_string s, JText t)]. split; [exact L|]. split; [constructor; [now repeat split|constructor]|].
    destruct (String.eqb_spec t ""); [congruence|]. destruct s; [destruct Le as (Le & _); specialize (Le eq_refl); congruence|]. now split.
Qed.
Lemma number_part name z : in_utf8 name -> exists l, Forall good l /\ number_field name z = map fst l /\ number_member name z = map meant l.
Proof.
  intros Hn. unfold number_field, number_member. destruct (Z.eqb z 0); [exists []; now repeat split|].
  exists [(name, itoa z, JNumber z)]. destruct (reads_number z) as (R & So). split; [constructor; [now repeat split|constructor]|]. now split.
Qed.
Lemma compact l : "{" +++ join "," (map (fun kv => json_string (fst kv) +++ ":" +++ snd kv) (map fst l)) +++ "}" =
  "{" +++ "" +++ join ("," +++ "") (map (item "" "") l) +++ "" +++ "}" +++ "".
Proof. rewrite map_map. reflexivity. Qed.
Theorem C107_finding : forall f, exists name id message,
  legible (f_filename f) name /\ legible (f_lint_id f) id /\ legible (f_message f) message /\
  read_object (failure_json f) = Some (told name (f_line f) (f_column f) id message).
Proof.
  intros f. destruct (text_part "filename" (f_filename f)) as (name & l1 & L1 & G1 & F1 & M1); [now apply ascii_utf8|].
  destruct (number_part "line" (f_line f)) as (l2 & G2 & F2 & M2); [now apply ascii_utf8|].
  destruct (number_part "column" (f_column f)) as (l3 & G3 & F3 & M3); [now apply ascii_utf8|].
  destruct (text_part "lint_id" (f_lint_id f)) as (id & l4 & L4 & G4 & F4 & M4); [now apply ascii_utf8|].
  destruct (text_part "message" (f_message f)) as (message & l5 & L5 & G5 & F5 & M5); [now apply ascii_utf8|].
  exists name, id, message. split; [exact L1|]. split; [exact L4|]. split; [exact L5|].
  unfold told. rewrite M1, M2, M3, M4, M5, <- !map_app. unfold failure_json, failure_fields. rewrite F1, F2, F3, F4, F5, <- !map_app, compact.
  apply read_object_items; try exact I. repeat (apply Forall_app; split); assumption.
Qed.
Print Assumptions C107_finding.
Theorem C107_exact : forall f, readable f -> read_object (failure_json f) = Some (told_of f).
Proof.
  intros f (H1 & H2 & H3). destruct (C107_finding f) as (name & id & message & L1 & L2 & L3 & R).
  apply (legible_utf8 _ _ H1) in L1 as ->. apply (legible_utf8 _ _ H2) in L2 as ->. apply (legible_utf8 _ _ H3) in L3 as ->. exact R.
Qed.
Print Assumptions C107_exact.
(** Two findings that differ are told differently. *)
Fixpoint member (name : string) (l : list (string * value)) : option value :=
  match l with [] => None | (k, v) :: r => if String.eqb k name then Some v else member name r end.
Definition text_of (v : option value) : string := match v with Some (JText s) => s | _ => "" end.
Definition number_of (v : option value) : Z := match v with Some (JNumber z) => z | _ => 0%Z end.
Lemma told_member n l c i m : text_of (member "filename" (told n l c i m)) = n /\ number_of (member "line" (told n l c i m)) = l /\
  number_of (member "column" (told n l c i m)) = c /\ text_of (member "lint_id" (told n l c i m)) = i /\ text_of (member "message" (told n l c i m)) = m.
Proof.
  unfold told, text_member, number_member.
  destruct (String.eqb_spec n "") as [->|N]; destruct (Z.eqb_spec l 0) as [->|L]; destruct (Z.eqb_spec c 0) as [->|C];
  destruct (String.eqb_spec i "") as [->|Ni]; destruct (String.eqb_spec m "") as [->|M]; repeat split; reflexivity.
Qed.
Theorem C107_distinct : forall f g, readable f -> readable g -> failure_json f = failure_json g -> f = g.
Proof.
  intros f g Hf Hg E. pose proof (C107_exact f Hf) as Rf. rewrite E, (C107_exact g Hg) in Rf.
  assert (T : told_of g = told_of f) by congruence. clear Rf E.
  destruct (told_member (f_filename f) (f_line f) (f_column f) (f_lint_id f) (f_message f)) as (F1 & F2 & F3 & F4 & F5).
  destruct (told_member (f_filename g) (f_line g) (f_column g) (f_lint_id g) (f_message g)) as (G1 & G2 & G3 & G4 & G5).
  unfold told_of in T. rewrite T in G1, G2, G3, G4, G5. destruct f as [n l c i m], g as [n' l' c' i' m']. cbn [f_filename f_line f_column f_lint_id f_message] in *. congruence.
Qed.
Print Assumptions C107_distinct.

(** ** One line *)
Definition flat (s : string) : Prop := sforall (fun c => negb (Ascii.eqb c newline)) s = true.
Lemma flat_app a b : flat a -> flat b -> flat (a +++ b).
Proof. unfold flat. intros Ha Hb. now rewrite sforall_app, Ha, Hb. Qed.
Lemma flat_high x : high x -> flat x.
Proof.
  induction x as [|c x IH]; [reflexivity|]. intros (Hc & H). unfold flat. cbn [sforall]. rewrite (IH H), andb_true_r. apply negb_true_iff.
  rewrite eqb_byte. change (byte newline) with 10%N. apply N.eqb_neq. lia.
Qed.
Lemma flat_char a : flat (json_char a).
Proof. destruct a as [[] [] [] [] [] [] [] []]; reflexivity. Qed.
Lemma flat_chars s : flat (json_chars s).
Proof.
  induction s as [s IH] using shorter_ind. destruct s as [|a s]; [reflexivity|].
  pose proof (one_step a s) as St. revert IH St. generalize (String a s). clear a s. intros x IH St. destruct St as [a s A E|n s y Hc Hn _ K E|a s B E]; rewrite E.
  - apply flat_app; [apply flat_char|]. apply IH. cbn. lia.
  - apply flat_app.
    + destruct K as [->|[(_ & ->)|(_ & ->)]]; [apply flat_high, utf8_high; assumption|reflexivity|reflexivity].
    + apply IH. rewrite slength_app. pose proof (utf8_nonempty n). lia.
  - change (String backslash ("ufffd" +++ json_chars s)) with (String backslash "ufffd" +++ json_chars s). apply flat_app; [reflexivity|]. apply IH. cbn. lia.
Qed.
Lemma flat_string s : flat (json_string s).
Proof. unfold json_string. change (String dquote (json_chars s +++ String dquote "")) with (String dquote "" +++ json_chars s +++ String dquote ""). repeat apply flat_app; try reflexivity. apply flat_chars. Qed.
Lemma flat_itoa z : flat (itoa z).
Proof.
  assert (P : forall n, flat (itoa_N n)).
  { intros n. pose proof (Decimal_digits _ _ (itoa_N_Decimal n)) as D. unfold flat. induction (itoa_N n) as [|c s IH]; [reflexivity|]. cbn [sforall] in *. apply andb_true_iff in D as (Dc & D).
    rewrite (IH D), andb_true_r. destruct c as [[] [] [] [] [] [] [] []]; try discriminate Dc; reflexivity. }
  destruct z; cbn [itoa]; [apply P|apply P|apply flat_app; [reflexivity|apply P]].
Qed.
Lemma flat_join sep l : flat sep -> Forall flat l -> flat (join sep l).
Proof.
  intros Hs H. induction H as [|x l Hx H IH]; [reflexivity|]. destruct l as [|y l]; [exact Hx|].
  change (join sep (x :: y :: l)) with (x +++ sep +++ join sep (y :: l)). repeat apply flat_app; assumption.
Qed.
Theorem C107_one_line : forall f a b, failure_json f <> a +++ String newline b.
Proof.
  intros f a b E. assert (F : flat (failure_json f)).
  { unfold failure_json. repeat apply flat_app; try reflexivity. apply flat_join; [reflexivity|]. apply Forall_forall. intros x Hx. apply in_map_iff in Hx as ((k, v) & <- & Hx). cbn [fst snd].
    apply flat_app; [apply flat_string|apply flat_app; [reflexivity|]]. unfold failure_fields in Hx.
    repeat (apply in_app_iff in Hx as [Hx|Hx]); unfold text_field, number_field in Hx;
    match type of Hx with context [if ?b then _ else _] => destruct b end; cbn [In] in Hx; try tauto; destruct Hx as [Hx|[]]; injection Hx as <- <-; apply flat_string || apply flat_itoa. }
  rewrite E in F. unfold flat in F. rewrite sforall_app in F. apply andb_true_iff in F as (_ & F). discriminate F.
Qed.
Print Assumptions C107_one_line.

(** The findings of a command with --json: in order, one a line, each line an object that says
    exactly what the finding says. *)
Theorem C107_listing : forall format fs text, listing true failure_json format fs text -> (forall f, In f fs -> readable f) ->
  exists sorted lines, Permutation fs sorted /\ StronglySorted failure_le sorted /\
    text = join "" (map (fun line => line +++ String newline "") lines) /\
    (forall line, In line lines -> forall a b, line <> a +++ String newline b) /\
    Forall2 (fun f line => read_object line = Some (told_of f)) sorted lines.
Proof.
  intros format fs text (fields & sorted & _ & P & So & E) R. exists sorted, (map failure_json sorted). split; [exact P|]. split; [exact So|]. split.
  - rewrite E, map_map. reflexivity.
  - split; [intros line H; apply in_map_iff in H as (f & <- & _); apply C107_one_line|].
    assert (R' : forall f, In f sorted -> readable f) by (intros f H; apply R; now apply (Permutation_in f (Permutation_sym P))). clear -R'.
    induction sorted as [|f l IH]; [constructor|]. cbn [map]. constructor; [apply C107_exact, R'; now left|]. apply IH. intros g H. apply R'. now right.
Qed.
Print Assumptions C107_listing.
(** False: that the file name and the text can always be read back: a name of a file need not be
    in UTF-8. *)
Theorem C107_bytes_refuted : ~ (forall f, read_object (failure_json f) = Some (told_of f)).
Proof. intros H. specialize (H (mk_failure (String (ascii_of_nat 255) ".proto") 1 1 "" "x")). vm_compute in H. discriminate H. Qed.
Print Assumptions C107_bytes_refuted.

(** The version is an indented object. *)
Lemma indented l : l <> [] -> indented_json (map fst l) =
  "{" +++ String newline "" +++ join ("," +++ String newline "") (map (item "  " " ") l) +++ String newline "" +++ "}" +++ String newline "".
Proof.
  destruct l as [|m l]; [congruence|]. intros _. unfold indented_json. destruct (map fst (m :: l)) eqn:E; [discriminate E|]. rewrite <- E. rewrite map_map. reflexivity.
Qed.
Theorem C107_version : forall fields, (forall k v, In (k, v) fields -> in_utf8 k /\ in_utf8 v) ->
  read_object (version_json fields) = Some (map (fun kv => (fst kv, JText (snd kv))) (filter (fun kv => negb (String.eqb (snd kv) "")) fields)).
Proof.
  intros fields H. unfold version_json.
  assert (P : exists l, Forall good l /\ concat (map (fun kv => text_field (fst kv) (snd kv)) fields) = map fst l /\
    map (fun kv => (fst kv, JText (snd kv))) (filter (fun kv => negb (String.eqb (snd kv) "")) fields) = map meant l).
  { induction fields as [|(k, v) fields IH]; [exists []; now repeat split|]. destruct IH as (l & G & F & M); [intros k' v' I; apply H; now right|].
    destruct (H k v (or_introl eq_refl)) as (Hk & Hv). destruct (text_part k v Hk) as (t & l' & L & G' & F' & M'). apply (legible_utf8 _ _ Hv) in L as ->.
    exists (l' ++ l)%list. split; [apply Forall_app; now split|]. cbn [map concat filter fst snd]. rewrite F, F', !map_app, <- M, <- M'. split; [reflexivity|].
    unfold text_member. destruct (String.eqb v ""); reflexivity. }
  destruct P as (l & G & F & M). rewrite F, M. destruct l as [|m l]; [reflexivity|]. rewrite (indented (m :: l)) by congruence.
  apply read_object_items; try exact G; repeat split.
Qed.
Print Assumptions C107_version.

(** ** Examples *)
Definition jx : failure := mk_failure "a/b.proto" 3 7 "X" ("say """ +++ String newline "<&>\ A" +++ utf8 228 +++ utf8 8232 +++ utf8 128512).
Example C107_ex : readable jx /\ failure_json jx =
  "{""filename"":""a/b.proto"",""line"":3,""column"":7,""lint_id"":""X"",""message"":""say \""\n\u003c\u0026\u003e\\ A" +++ utf8 228 +++ "\u2028" +++ utf8 128512 +++ """}".
Proof.
  split; [|reflexivity]. repeat split; try (now apply ascii_utf8). cbn [f_message jx].
  assert (A : forall a b, sforall (fun c => (byte c <? 128)%N) a = true -> in_utf8 b -> in_utf8 (a +++ b)).
  { induction a as [|c a IH]; intros b H Hb; [exact Hb|]. cbn [sforall] in H. apply andb_true_iff in H as (Hc & H). apply N.ltb_lt in Hc.
    change (String c a +++ b) with (String c "" +++ (a +++ b)). rewrite (utf8_one c Hc). constructor; [left; lia|now apply IH]. }
  apply (A "say """); [reflexivity|]. apply (A (String newline "<&>\ A")); [reflexivity|].
  rewrite <- (sapp_nil_r (utf8 128512)). repeat (constructor; [unfold character; lia|]). constructor.
Qed.
Example C107_version_ex : version_json [("version", "1.2"); ("goos", ""); ("goarch", "amd64")] =
  "{" +++ String newline "  ""version"": ""1.2""," +++ String newline "  ""goarch"": ""amd64""" +++ String newline "}" +++ String newline "".
Proof. reflexivity. Qed.
