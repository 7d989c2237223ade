(** Properties of diffs: C80. *)
From Verif Require Import GoStrFacts Diff_Model.

Lemma cut_line_app : forall a b, no_char newline a = true -> cut_line (a +++ String newline b) = (a, Some b).
Proof.
  induction a as [| c a IH]; intros b H; [reflexivity|]. unfold no_char in *. cbn [sforall] in H.
  apply andb_true_iff in H as (H1 & H2). apply negb_true_iff in H1.
  cbn [String.append cut_line]. now rewrite H1, (IH b H2).
Qed.
Lemma cut_line_none : forall a, no_char newline a = true -> cut_line a = (a, None).
Proof.
  induction a as [| c a IH]; intros H; [reflexivity|]. unfold no_char in *. cbn [sforall] in H.
  apply andb_true_iff in H as (H1 & H2). apply negb_true_iff in H1. cbn [cut_line]. now rewrite H1, (IH H2).
Qed.
Lemma from_last_tab_none : forall t, no_char tab t = true -> from_last_tab t = None.
Proof.
  induction t as [| c t IH]; intros H; [reflexivity|]. unfold no_char in *. cbn [sforall] in H.
  apply andb_true_iff in H as (H1 & H2). apply negb_true_iff in H1. cbn [from_last_tab]. now rewrite (IH H2), H1.
Qed.
Lemma from_last_tab_app : forall a t, no_char tab t = true -> from_last_tab (a +++ String tab t) = Some (String tab t).
Proof.
  induction a as [| c a IH]; intros t H.
  - cbn [String.append from_last_tab]. now rewrite (from_last_tab_none t H), Ascii.eqb_refl.
  - cbn [String.append from_last_tab]. now rewrite (IH t H).
Qed.
Lemma no_char_app : forall c a b, no_char c (a +++ b) = no_char c a && no_char c b.
Proof.
  intros c a b. induction a as [| x a IH]; [reflexivity|]. unfold no_char in *. cbn [String.append sforall]. rewrite IH. apply andb_assoc.
Qed.

(** C80: in what diff prints, the names of the two files are replaced, with their times kept;
    all the rest is left as it is. *)
Theorem C80_names : forall name a b t0 t1 rest,
  no_char newline a = true -> no_char newline b = true -> no_char newline t0 = true -> no_char newline t1 = true ->
  no_char tab t0 = true -> no_char tab t1 = true ->
  replace_temp_filename
    ("--- " +++ a +++ String tab t0 +++ String newline ("+++ " +++ b +++ String tab t1 +++ String newline rest)) name =
  Ok ("--- " +++ name +++ ".orig" +++ String tab t0 +++ String newline ("+++ " +++ name +++ String tab t1 +++ String newline rest)).
Proof.
  intros name a b t0 t1 rest Na Nb N0 N1 T0 T1. unfold replace_temp_filename.
  assert (S : forall h x t r, no_char newline h = true -> no_char newline x = true -> no_char newline t = true ->
    cut_line (h +++ x +++ String tab t +++ String newline r) = (h +++ x +++ String tab t, Some r)).
  { intros h x t r H1 H2 H3.
    replace (h +++ x +++ String tab t +++ String newline r) with ((h +++ x +++ String tab t) +++ String newline r)
      by (now rewrite !sapp_assoc).
    apply cut_line_app. rewrite !no_char_app, H1, H2. unfold no_char in *. cbn [sforall]. now rewrite H3. }
  rewrite (S "--- " a t0 _ eq_refl Na N0), (S "+++ " b t1 _ eq_refl Nb N1).
  assert (St : forall h x t, no_char tab t = true -> time_stamp (h +++ x +++ String tab t) = String tab t).
  { intros h x t H. unfold time_stamp. rewrite <- sapp_assoc. now rewrite (from_last_tab_app (h +++ x) t H). }
  rewrite (St "--- " a t0 T0), (St "+++ " b t1 T1).
  rewrite !join_cons2. cbn [join]. rewrite !sapp_assoc. reflexivity.
Qed.
(** C80: anything that has not two full lines is reported and not printed, as for files that
    diff takes for binary. *)
Theorem C80_short : forall name d,
  (no_char newline d = true \/ exists a b, d = a +++ String newline b /\ no_char newline a = true /\ no_char newline b = true) ->
  replace_temp_filename d name = Err ("got unexpected diff for " +++ name).
Proof.
  intros name d [H | (a & b & -> & H1 & H2)]; unfold replace_temp_filename.
  - now rewrite (cut_line_none d H).
  - now rewrite (cut_line_app a b H1), (cut_line_none b H2).
Qed.

Section Diff.
  Variable temp_file : bool -> result string.
  Variable temp_write : bool -> option string.
  Variable diff_program : string -> string -> string -> string -> string * option string.
  Notation diff_do := (diff_do temp_file temp_write diff_program).

  (** C80: whatever happens, only the temporary files are written, they hold the two texts,
      and each of them is removed afterwards; no other file is removed. *)
  Theorem C80_leaves_nothing : forall input output name s, exists made ran,
    io_disk (fst (diff_do input output name s)) = io_disk s /\
    io_done (fst (diff_do input output name s)) =
      io_done s ++ map (fun x => Wrote (fst x) (snd x)) made ++ map Ran ran ++ map (fun x => Removed (fst x)) (rev made) /\
    (exists l, made = firstn l [(match temp_file false with Ok f => f | Err _ => "" end, input); (match temp_file true with Ok f => f | Err _ => "" end, output)]) /\
    (ran = [] \/ exists f1 f2, made = [(f1, input); (f2, output)] /\ ran = [["diff"; "-u"; f1; f2]]).
  Proof.
    intros input output name s. unfold diff_do, write_temp_file.
    destruct (temp_file false) as [f1 | m]; [|exists [], []; cbn; rewrite app_nil_r; repeat split; auto; exists 0; reflexivity].
    destruct (temp_write false) as [m |] eqn:W1.
    { exists [(f1, input)], []. unfold and_then, check, ret, emit, fail. cbn. rewrite <- !app_assoc. cbn.
      repeat split; auto. exists 1. reflexivity. }
    unfold removing, and_then, check, ret, emit.
    destruct (temp_file true) as [f2 | m].
    2: { exists [(f1, input)], []. unfold fail. cbn. rewrite <- !app_assoc. cbn. repeat split; auto. exists 1. reflexivity. }
    destruct (temp_write true) as [m |] eqn:W2.
    { exists [(f1, input); (f2, output)], []. unfold fail. cbn. rewrite <- !app_assoc. cbn. repeat split; auto. exists 2. reflexivity. }
    exists [(f1, input); (f2, output)], [["diff"; "-u"; f1; f2]].
    destruct (diff_program f1 f2 input output) as [d e].
    split; [|split; [|split]].
    - destruct d; [destruct e; reflexivity|]. destruct (replace_temp_filename _ _); reflexivity.
    - destruct d; [destruct e; cbn; rewrite <- !app_assoc; reflexivity|].
      destruct (replace_temp_filename _ _); cbn; rewrite <- !app_assoc; reflexivity.
    - exists 2. reflexivity.
    - right. exists f1, f2. auto.
  Qed.
  (** C80: the result is what diff prints, with the names replaced; the status of diff is only
      taken for an error when nothing is printed. *)
  Theorem C80_result : forall input output name s f1 f2,
    temp_file false = Ok f1 -> temp_file true = Ok f2 -> temp_write false = None -> temp_write true = None ->
    snd (diff_do input output name s) =
    match diff_program f1 f2 input output with
    | ("", Some m) => Fail m
    | ("", None) => Value ""
    | (d, _) => match replace_temp_filename d name with Ok r => Value r | Err m => Fail m end
    end.
  Proof.
    intros input output name s f1 f2 T1 T2 W1 W2. unfold diff_do, write_temp_file.
    rewrite T1, T2, W1, W2. unfold removing, and_then, check, ret, emit, fail.
    destruct (diff_program f1 f2 input output) as [[| c d] e]; [destruct e; reflexivity|].
    destruct (replace_temp_filename _ _); reflexivity.
  Qed.
End Diff.

Definition exd_text : string :=
  "--- /tmp/prototool-diff1" +++ String tab "2017" +++ String newline ("+++ /tmp/prototool-diff2" +++ String tab "2018" +++ String newline
    ("@@ -1 +1 @@" +++ String newline ("-a" +++ String newline ("+b" +++ String newline "")))).
Definition exd_run (names : bool -> result string) (prints : string * option string) :=
  let r := diff_do names (fun _ => None) (fun _ _ _ _ => prints) "a" "b" "dir/f.proto" (mk_io (fun _ => Err "") []) in
  (io_done (fst r), snd r).
Example C80_names_ex : exd_run (fun b => Ok (if b then "/tmp/prototool-diff2" else "/tmp/prototool-diff1")) (exd_text, Some "exit status 1") =
  ([Wrote "/tmp/prototool-diff1" "a"; Wrote "/tmp/prototool-diff2" "b"; Ran ["diff"; "-u"; "/tmp/prototool-diff1"; "/tmp/prototool-diff2"];
    Removed "/tmp/prototool-diff2"; Removed "/tmp/prototool-diff1"],
   Value ("--- dir/f.proto.orig" +++ String tab "2017" +++ String newline ("+++ dir/f.proto" +++ String tab "2018" +++ String newline
    ("@@ -1 +1 @@" +++ String newline ("-a" +++ String newline ("+b" +++ String newline "")))))).
Proof. vm_compute. reflexivity. Qed.
Example C80_leaves_nothing_ex : exd_run (fun b => if b then Err "no space" else Ok "/tmp/1") ("", None) =
  ([Wrote "/tmp/1" "a"; Removed "/tmp/1"], Fail "no space").
Proof. vm_compute. reflexivity. Qed.
Example C80_short_ex : no_char newline "Binary files /tmp/1 and /tmp/2 differ" = true /\
  exd_run (fun b => Ok (if b then "/tmp/2" else "/tmp/1")) ("Binary files /tmp/1 and /tmp/2 differ" +++ String newline "", Some "exit status 2") =
  ([Wrote "/tmp/1" "a"; Wrote "/tmp/2" "b"; Ran ["diff"; "-u"; "/tmp/1"; "/tmp/2"]; Removed "/tmp/2"; Removed "/tmp/1"],
   Fail "got unexpected diff for dir/f.proto").
Proof. split; vm_compute; reflexivity. Qed.
Example C80_result_ex : exd_run (fun b => Ok (if b then "/tmp/2" else "/tmp/1")) ("", Some "diff: not found") =
  ([Wrote "/tmp/1" "a"; Wrote "/tmp/2" "b"; Ran ["diff"; "-u"; "/tmp/1"; "/tmp/2"]; Removed "/tmp/2"; Removed "/tmp/1"],
   Fail "diff: not found").
Proof. vm_compute. reflexivity. Qed.

Print Assumptions C80_names.
Print Assumptions C80_short.
Print Assumptions C80_leaves_nothing.
Print Assumptions C80_result.
