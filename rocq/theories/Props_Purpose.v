(** C106: how the lint rules are described. *)
From Verif Require Import GoStrFacts GoMapFacts Lint_Purpose Lint_Purpose_Spec LintRun_Spec LintRun_Proofs.
From Verif Require Lint_Doc2.
From Coq Require Import Lia.

Definition notes : list (string * string) := map (fun l => (ln_id l, ln_annotation l)) (all_linters (fun _ A l => l) (fun s => s)).
Lemma notes_eq ord sing : map (fun l => (ln_id l, ln_annotation l)) (all_linters ord sing) = notes.
Proof. reflexivity. Qed.
Definition note (id : string) : option string := match find (fun p => String.eqb (fst p) id) notes with Some p => Some (snd p) | None => None end.
Lemma find_note ord sing id : match find (fun l => String.eqb (ln_id l) id) (all_linters ord sing) with Some l => Some (ln_id l, ln_annotation l) | None => None end
  = find (fun p => String.eqb (fst p) id) notes.
Proof.
  rewrite <- (notes_eq ord sing). generalize (all_linters ord sing). intros ls. induction ls as [|l ls IH]; [reflexivity|]. cbn [find map fst].
  destruct (String.eqb (ln_id l) id); [reflexivity|exact IH].
Qed.
Definition plain_purpose (id : string) : string := match gget id purposes with Some t => t | None => "" end.
Lemma purpose_eq ord sing c id : purpose_of (all_linters ord sing) c id =
  match note id with
  | Some a => if negb (is_empty a) && lc_allow_suppression c then "Suppressable with ""@suppresswarnings " +++ a +++ """. " +++ plain_purpose id else plain_purpose id
  | None => ""
  end.
Proof.
  unfold purpose_of, note. pose proof (find_note ord sing id) as F. destruct (find _ (all_linters ord sing)) as [l|] eqn:E.
  - rewrite <- F. cbn [snd]. apply find_some in E as (_ & E). apply String.eqb_eq in E. subst id. reflexivity.
  - rewrite <- F. reflexivity.
Qed.

Definition lower_words (s : string) : string := to_lower (squeezed (unquoted s)).
Definition find_in (id : string) (l : list (string * string)) : option string := match find (fun p => String.eqb (fst p) id) l with Some p => Some (snd p) | None => None end.
Lemma find_in_some id l t : find_in id l = Some t -> In (id, t) l.
Proof. unfold find_in. destruct (find _ l) as [[k v]|] eqn:E; [|discriminate]. intros [= <-]. apply find_some in E as (I & E). apply String.eqb_eq in E. cbn in E. now subst k. Qed.
Lemma find_in_none id l : find_in id l = None -> ~ In id (map fst l).
Proof.
  unfold find_in. destruct (find _ l) as [[k v]|] eqn:E; [discriminate|]. intros _ I. apply in_map_iff in I as ([k v] & <- & I).
  pose proof (find_none _ _ E _ I) as N. cbn in N. now rewrite String.eqb_refl in N.
Qed.
Definition good_words (id : string) : bool :=
  match find_in id reworded with
  | Some t => String.eqb t (plain_purpose id)
  | None => match find_in id Lint_Doc2.documented_purposes with Some d => String.eqb (lower_words (plain_purpose id)) (lower_words d) | None => false end
  end.
Lemma good_words_in id : good_words id = true -> in_words id (plain_purpose id).
Proof.
  unfold good_words. destruct (find_in id reworded) as [t|] eqn:R.
  - intros E. apply String.eqb_eq in E. subst t. left. now apply find_in_some.
  - destruct (find_in id Lint_Doc2.documented_purposes) as [d|] eqn:D; [|discriminate]. intros E. apply String.eqb_eq in E.
    right. split; [now apply find_in_none|]. exists d. split; [now apply find_in_some|exact E].
Qed.
Definition good_note (p : string * string) : bool :=
  match find_in (fst p) suppressible with Some a => String.eqb a (snd p) && negb (is_empty a) | None => is_empty (snd p) end.
Lemma all_good : forallb (fun p => good_words (fst p) && good_note p) notes = true.
Proof. vm_compute. reflexivity. Qed.
Definition one_lineb (t : string) : bool := forallb (fun c => Nat.leb 32 (nat_of_ascii c)) (list_ascii_of_string t).
Lemma one_lineb_ok t : one_lineb t = true <-> one_line t.
Proof. unfold one_lineb, one_line. rewrite forallb_forall. split; intros H c Hc; [apply Nat.leb_le|apply Nat.leb_le]; auto. Qed.
Lemma list_ascii_app s t : list_ascii_of_string (s +++ t) = (list_ascii_of_string s ++ list_ascii_of_string t)%list.
Proof. induction s as [|c s IH]; [reflexivity|]. cbn [append list_ascii_of_string app]. now rewrite IH. Qed.
Lemma one_line_app s t : one_line s -> one_line t -> one_line (s +++ t).
Proof. intros S T c. rewrite list_ascii_app. intros I. apply in_app_iff in I as [I|I]; auto. Qed.
Lemma all_lines : forallb (fun p => one_lineb (plain_purpose (fst p)) && one_lineb (snd p)) notes = true.
Proof. vm_compute. reflexivity. Qed.

Lemma note_of (ord : order) (sing : string -> string) id : documented id -> exists a, note id = Some a /\ In (id, a) notes.
Proof.
  intros D. apply (documented_iff ord sing) in D. assert (I : In id (map fst notes)) by (rewrite <- (notes_eq ord sing), map_map; exact D).
  unfold note. destruct (find (fun p => String.eqb (fst p) id) notes) as [[k a]|] eqn:E.
  - exists a. apply find_some in E as (E1 & E2). apply String.eqb_eq in E2. cbn in E2. subst k. auto.
  - exfalso. apply in_map_iff in I as ([k a] & <- & I). pose proof (find_none _ _ E _ I) as N. cbn in N. now rewrite String.eqb_refl in N.
Qed.

Theorem C106_described : forall ord sing c id, documented id -> describes (lc_allow_suppression c) id (purpose_of (all_linters ord sing) c id).
Proof.
  intros ord sing c id D. destruct (note_of ord sing id D) as (a & N & I). rewrite purpose_eq, N.
  pose proof (proj1 (forallb_forall _ _) all_good _ I) as G. cbn [fst] in G. apply andb_true_iff in G as (G1 & G2).
  exists (plain_purpose id). split; [now apply good_words_in|]. unfold good_note in G2. cbn [fst snd] in G2.
  destruct (find_in id suppressible) as [a'|] eqn:S.
  - apply andb_true_iff in G2 as (G2 & G3). apply String.eqb_eq in G2. subst a'. apply find_in_some in S. rewrite G3. cbn [andb].
    destruct (lc_allow_suppression c); [left; exists a; auto|right; auto].
  - rewrite G2. cbn [negb andb]. right. split; [right; now apply find_in_none|reflexivity].
Qed.
Theorem C106_one_line : forall ord sing c id, one_line (purpose_of (all_linters ord sing) c id).
Proof.
  intros ord sing c id. rewrite purpose_eq. unfold note. destruct (find (fun p => String.eqb (fst p) id) notes) as [[k a]|] eqn:E; [|intros x []].
  apply find_some in E as (E1 & E2). apply String.eqb_eq in E2. cbn in E2. subst k. cbn [snd].
  pose proof (proj1 (forallb_forall _ _) all_lines _ E1) as G. cbn [fst snd] in G. apply andb_true_iff in G as (G1 & G2). apply one_lineb_ok in G1, G2.
  destruct (negb (is_empty a) && lc_allow_suppression c); [|exact G1].
  apply one_line_app; [now apply one_lineb_ok|]. apply one_line_app; [exact G2|]. apply one_line_app; [now apply one_lineb_ok|exact G1].
Qed.
Print Assumptions C106_described.
Print Assumptions C106_one_line.
Example C106_ex : documented "NAMES_NO_DATA" /\ documented "COMMENTS_NO_C_STYLE" /\
  purpose_of (all_linters (fun _ A l => l) (fun s => s)) (mk_lint_config "" false [] [] [] "" "" true) "NAMES_NO_DATA"
    = "Suppressable with ""@suppresswarnings naming"". Verifies that no type name contains the word ""data""." /\
  purpose_of (all_linters (fun _ A l => l) (fun s => s)) (mk_lint_config "" false [] [] [] "" "" true) "COMMENTS_NO_C_STYLE"
    = "Verifies that there are no /* c-style */ comments.".
Proof. repeat split; try reflexivity; apply (documented_iff (fun _ A l => l) (fun s => s)); repeat (try (left; reflexivity); right). Qed.
