(** Proofs about the commands. *)
From Verif Require Import GoStrFacts Text_Proofs.
From Verif Require Download_Proofs.
From Verif Require Export Exec_Spec.
From Coq Require Import Lia.

Lemma join_empty_app (a b : list string) : join "" (a ++ b) = join "" a +++ join "" b.
Proof.
  induction a as [|x a IH]; [reflexivity|]. destruct a as [|y a].
  - destruct b as [|z b]; cbn; [now rewrite sapp_nil_r|reflexivity].
  - change ((x :: y :: a) ++ b) with (x :: (y :: a) ++ b). cbn [join]. change (((y :: a) ++ b)) with (y :: a ++ b) in *. cbn [join] in *. rewrite IH.
    cbn [append]. now rewrite sapp_assoc.
Qed.
Lemma printed_app a b : printed (a ++ b) = printed a +++ printed b.
Proof. unfold printed. now rewrite map_app, concat_app, join_empty_app. Qed.
Lemma written_app a b : written (a ++ b) = written a ++ written b.
Proof. unfold written. now rewrite map_app, concat_app. Qed.
Lemma written_in p d es : In (p, d) (written es) <-> In (Wrote p d) es.
Proof.
  induction es as [|e es IH]; [reflexivity|]. change (e :: es) with ([e] ++ es). rewrite written_app, !in_app_iff, IH. destruct e; cbn; split; intros [H|H]; auto; try (destruct H as [H|[]]; discriminate H).
  - destruct H as [H|[]]. injection H as -> ->. auto.
  - destruct H as [H|[]]. injection H as -> ->. auto.
Qed.

(** Adding events. *)
Definition adds (s : io) (es : list event) : io := mk_io (io_disk s) (io_done s ++ es).
Lemma adds_nil s : adds s [] = s.
Proof. destruct s. unfold adds. cbn. now rewrite app_nil_r. Qed.
Lemma adds_adds s a b : adds (adds s a) b = adds s (a ++ b).
Proof. unfold adds. cbn. now rewrite app_assoc. Qed.
(** A command that only prints. *)
Definition only_prints (es : list event) : Prop := Forall (fun e => exists s, e = Printed s) es.
Lemma only_prints_written es : only_prints es -> written es = [].
Proof. induction 1 as [|e es (s & ->) _ IH]; [reflexivity|exact IH]. Qed.

Lemma println_adds x s : println x s = (adds s (if is_empty x then [] else [Printed (x +++ String newline "")]), Value tt).
Proof. unfold println. destruct (is_empty x); [now rewrite adds_nil|reflexivity]. Qed.
Definition lines_of (ls : list string) : list event := concat (map (fun x => if is_empty x then [] else [Printed (x +++ String newline "")]) ls).
Lemma each_println ls : forall s, each println ls s = (adds s (lines_of ls), Value tt).
Proof.
  induction ls as [|x ls IH]; intros s; [cbn; now rewrite adds_nil|]. cbn [each]. unfold and_then. rewrite println_adds, IH, adds_adds. reflexivity.
Qed.
Lemma lines_only_print ls : only_prints (lines_of ls).
Proof. unfold lines_of. induction ls as [|x ls IH]; [constructor|]. cbn. destruct (is_empty x); [exact IH|]. constructor; [eauto|exact IH]. Qed.
Lemma printed_lines ls : printed (lines_of ls) = join "" (map (fun x => x +++ String newline "") (filter (fun x => negb (is_empty x)) ls)).
Proof.
  unfold lines_of. induction ls as [|x ls IH]; [reflexivity|]. cbn [map concat]. rewrite printed_app, IH. cbn [filter]. destruct (is_empty x); cbn [negb]; [reflexivity|].
  cbn [map]. exact (eq_sym (join_empty_app [x +++ String newline ""] _)).
Qed.

(** ** Fields and lines *)
Lemma fields_known format fields : parse_colon_separated_failure_fields format = Ok fields -> Forall known_field fields /\ fields <> [].
Proof.
  intros H. destruct (string_dec format "") as [->|N].
  - injection H as <-. split; [repeat constructor|discriminate].
  - apply parse_fields_spec in H; [|exact N]. split.
    + clear N. induction H as [|a b l l' (K & _) H IH]; [constructor|]. constructor; assumption.
    + intros ->. inversion H as [E|]. destruct format; [easy|]. cbn [split_char] in E. destruct (Ascii.eqb a ":"); [discriminate|]. destruct (split_char ":" format); discriminate.
Qed.
Lemma fields_of_ok format fields : parse_colon_separated_failure_fields format = Ok fields <-> fields_of format fields.
Proof.
  destruct (string_dec format "") as [->|N].
  - split; [intros [= <-]; left; auto|]. intros [(_ & ->)|(N & _)]; [reflexivity|easy].
  - rewrite parse_fields_spec by exact N. split; [right; auto|]. intros [(E & _)|(_ & H)]; [easy|exact H].
Qed.
Lemma fields_of_fun format a b : fields_of format a -> fields_of format b -> a = b.
Proof. rewrite <- !fields_of_ok. intros -> H. now injection H. Qed.

Section Facts.
  Variable ord : map_order.
  Variable cwd work_dir error_format : string.
  Variable json : bool.
  Variable to_json : failure -> string.
  Variable stat : string -> result file_kind.
  Variable get_for_dir : string -> string -> result proto_set.
  Notation line := (failure_line json to_json).
  Notation shown := (shown_line json to_json).

  Lemma line_ok format fields f : fields_of format fields -> line fields f = Ok (shown fields f).
  Proof.
    intros H. apply fields_of_ok, fields_known in H as (K & N). unfold failure_line, shown_line. destruct json; [reflexivity|].
    rewrite fprintln_spec by exact K. destruct fields as [|x r]; [easy|]. cbn zeta. destruct (string_dec (line_text f (x :: r)) "") as [->|E]; [reflexivity|].
    apply String.eqb_neq in E as E1. rewrite E1. apply is_empty_false in E. now rewrite E.
  Qed.
  Lemma lines_ok format fields fs : fields_of format fields -> mapM (line fields) fs = Ok (map (shown fields) fs).
  Proof. intros H. induction fs as [|f fs IH]; [reflexivity|]. cbn [mapM map]. rewrite (line_ok format fields f H). cbn [bind]. rewrite IH. reflexivity. Qed.

  Lemma path_abs_not_empty p : p <> "" -> path_abs cwd p <> "".
  Proof.
    intros N. unfold path_abs. destruct (is_abs p) eqn:I.
    - unfold path_clean. rewrite I. discriminate.
    - destruct (string_dec cwd "") as [->|C]; [now apply (Download_Proofs.path_join_not_empty p [])|now apply Download_Proofs.path_join_not_empty].
  Qed.
  Lemma abs_clean_abs p : p <> "" -> abs_clean cwd p = path_abs cwd p.
  Proof. intros N. unfold abs_clean, path_abs. apply is_empty_false in N. rewrite N. destruct (is_abs p); reflexivity. Qed.
  Lemma should_print_iff m f : should_print cwd (Some m) f = true <-> about cwd m f.
  Proof.
    unfold should_print, about. rewrite !orb_true_iff, is_empty_true, !String.eqb_eq. destruct (string_dec (m_single m) "") as [E|N]; [split; auto|].
    rewrite (abs_clean_abs (m_single m) N). destruct (string_dec (f_filename f) "") as [E|N'].
    - rewrite E. change (abs_clean cwd "") with "". split.
      + intros [[H|H]|H]; [auto|symmetry in H; auto|]. now apply path_abs_not_empty in H.
      + intros [H|[H|(H & _)]]; [auto|symmetry in H; auto|easy].
    - rewrite (abs_clean_abs _ N'). split.
      + intros [[H|H]|H]; [auto|symmetry in H; auto|symmetry in H; auto].
      + intros [H|[H|(_ & H)]]; [auto|symmetry in H; auto|symmetry in H; auto].
  Qed.
  Lemma sorted_plain fs : exists s, concat (map (fun o => match o with Some f => [f] | None => [] end) (sort_failures (map Some fs))) = s /\ Permutation fs s /\ StronglySorted failure_le s.
  Proof.
    destruct (sort_failures_plain fs) as (s & -> & P & S). exists s. split; [|auto]. clear. induction s as [|f s IH]; [reflexivity|]. cbn. now f_equal.
  Qed.
  Lemma filter_perm {A} (b : A -> bool) l l' : Permutation l l' -> Permutation (filter b l) (filter b l').
  Proof.
    induction 1 as [|x l l' H IH|x y l|l1 l2 l3 _ IH1 _ IH2]; cbn.
    - constructor.
    - destruct (b x); [now constructor|exact IH].
    - destruct (b x), (b y); try reflexivity. apply perm_swap.
    - now transitivity (filter b l2).
  Qed.
  Lemma filter_strongly {A} (R : A -> A -> Prop) (b : A -> bool) l : StronglySorted R l -> StronglySorted R (filter b l).
  Proof.
    induction 1 as [|x l S IH F]; [constructor|]. cbn. destruct (b x); [|exact IH]. constructor; [exact IH|].
    apply Forall_forall. intros y [Hy _]%filter_In. rewrite Forall_forall in F. auto.
  Qed.

  (** Printing failures. *)
  Definition relabel (name : string) (f : failure) : failure :=
    if String.eqb name "" then f else mk_failure name (f_line f) (f_column f) (f_lint_id f) (f_message f).
  Lemma with_filename_relabel name f : with_filename name f = relabel name f.
  Proof. unfold with_filename, relabel. destruct name; reflexivity. Qed.
  Lemma print_failures_pure format name m fs : exists es r, (forall s, print_failures_for cwd json to_json format name m fs s = (adds s es, r)) /\
    only_prints es /\
    ((exists fields, fields_of format fields) -> r = Value tt /\ forall m', m = Some m' ->
      exists kept, picks (about cwd m') (map (relabel name) fs) kept /\ listing json to_json format kept (printed es)) /\
    ((forall fields, ~ fields_of format fields) -> exists e, r = Fail e).
  Proof.
    unfold print_failures_for. destruct (parse_colon_separated_failure_fields format) as [fields|e] eqn:P.
    - apply fields_of_ok in P. destruct (sorted_plain (map (with_filename name) fs)) as (srt & E & Pm & S). rewrite E.
      cbn [check]. unfold and_then at 1. unfold ret at 1.
      assert (L := lines_ok format fields (filter (should_print cwd m) srt) P). 
      set (kept := filter (should_print cwd m) srt) in *.
      exists (match map (shown fields) kept with [] => [] | ls => [Printed (join "" ls)] end), (Value tt). repeat split.
      + intros s. unfold and_then. unfold ret at 1. rewrite L. cbn [check]. unfold ret at 1. destruct (map (shown fields) kept); [now rewrite adds_nil|reflexivity].
      + destruct (map (shown fields) kept); repeat constructor. eauto.
      + intros m' ->. exists (filter (should_print cwd (Some m')) (map (relabel name) fs)). split.
        * exists (should_print cwd (Some m')). split; [|reflexivity]. intros x _. apply should_print_iff.
        * exists fields, kept. split; [exact P|]. split.
          -- subst kept. apply filter_perm. rewrite <- (map_ext _ _ (with_filename_relabel name)). exact Pm.
          -- split; [now apply filter_strongly|]. destruct (map (shown fields) kept) as [|x l] eqn:M; [reflexivity|]. cbn. reflexivity.
      + intros N. exfalso. exact (N _ P).
    - exists [], (Fail e). repeat split.
      + intros s. cbn [check]. unfold and_then, fail. now rewrite adds_nil.
      + constructor.
      + destruct H as (fields & H). apply fields_of_ok in H. congruence.
      + intros m' _. destruct H as (fields & H). apply fields_of_ok in H. congruence.
      + eauto.
  Qed.

  (** What a command is about. *)
  Lemma get_meta_pure args : exists r, (forall s, get_meta work_dir stat get_for_dir args s = (s, r)) /\
    ((exists m, r = Value m /\ found work_dir stat get_for_dir args m) \/ (exists e, r = Fail e) /\ forall m, ~ found work_dir stat get_for_dir args m).
  Proof.
    unfold get_meta. change (match args with [a] => a | _ => "." end) with (target args). destruct (stat (target args)) as [k|e] eqn:S.
    - destruct k.
      + destruct (get_for_dir work_dir (target args)) as [ps|e] eqn:G.
        * exists (Value (mk_meta ps "")). split; [reflexivity|]. left. eexists. split; [reflexivity|]. now constructor.
        * exists (Fail e). split; [reflexivity|]. right. split; [eauto|]. intros m H. destruct H; congruence.
      + destruct (get_for_dir work_dir (path_dir (target args))) as [ps|e] eqn:G.
        * exists (Value (mk_meta ps (target args))). split; [reflexivity|]. left. eexists. split; [reflexivity|]. now apply FoundFile.
        * exists (Fail e). split; [reflexivity|]. right. split; [eauto|]. intros m H. destruct H; congruence.
      + exists (Fail (target args +++ " is not a directory or a regular file")). split; [reflexivity|]. right. split; [eauto|]. intros m H. destruct H; congruence.
    - exists (Fail e). split; [reflexivity|]. right. split; [eauto|]. intros m H. destruct H; congruence.
  Qed.
  Lemma found_fun args m m' : found work_dir stat get_for_dir args m -> found work_dir stat get_for_dir args m' -> m = m'.
  Proof. intros [] []; congruence. Qed.
  Lemma get_meta_found args m s : found work_dir stat get_for_dir args m -> get_meta work_dir stat get_for_dir args s = (s, Value m).
  Proof.
    intros H. destruct (get_meta_pure args) as (r & E & [(m' & -> & F)|((e & ->) & N)]); [|now destruct (N m)]. rewrite E. now rewrite (found_fun _ _ _ H F).
  Qed.
End Facts.
