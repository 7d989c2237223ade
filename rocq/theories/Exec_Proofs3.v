(** Proofs about whole format runs and about files. *)
From Verif Require Import GoStrFacts.
From Verif Require Export Exec_Proofs2.
From Coq Require Import Lia.

Lemma filter_concat_sub {A B} (b : A -> bool) (g : A -> list B) l : exists r, Permutation (concat (map g l)) (concat (map g (filter b l)) ++ r).
Proof.
  induction l as [|a l (r & IH)]; [now exists []|]. cbn. destruct (b a).
  - exists r. cbn. rewrite <- app_assoc. now apply Permutation_app_head.
  - exists (g a ++ r). rewrite Permutation_app_swap_app. now apply Permutation_app_head.
Qed.
Lemma concat_map_perm {A B} (g : A -> list B) l l' : Permutation l l' -> Permutation (concat (map g l)) (concat (map g l')).
Proof.
  induction 1 as [|a l l' _ IH|a b l|l1 l2 l3 _ IH1 _ IH2]; cbn.
  - constructor.
  - now apply Permutation_app_head.
  - rewrite !app_assoc. apply Permutation_app_tail, Permutation_app_comm.
  - now transitivity (concat (map g l2)).
Qed.
Lemma NoDup_app_l {A} (a b : list A) : NoDup (a ++ b) -> NoDup a.
Proof. induction a as [|x a IH]; intros H; [constructor|]. cbn in H. apply NoDup_cons_iff in H as (N & H). constructor; [|auto]. intros K. apply N, in_or_app. now left. Qed.

Section Runs.
  Variable ord : map_order.
  Variable cwd work_dir error_format : string.
  Variable json : bool.
  Variable to_json : failure -> string.
  Variable D : Type.
  Variable compiler : bool -> bool -> option (bool * bool) -> (string -> result string) -> proto_set -> result (list failure * list D).
  Variable transform : Z -> string -> string -> string -> string -> result (string * list failure).
  Variable diff : string -> string -> string -> result string.
  Variable write_error : string -> string -> option (result string * string).
  Notation format := (format ord cwd error_format json to_json transform diff write_error).
  Notation handled := (handled cwd error_format json to_json transform diff write_error).
  Notation fine := (fine transform write_error).
  Notation reported := (reported transform diff).
  Notation file_output := (file_output transform diff json to_json cwd error_format).

  (** The files that the loops visit. *)
  Definition visited (place : string) (ps : proto_set) : list proto_file :=
    concat (map snd (filter (fun d => has_prefix (fst d) (ps_dir ps)) (ord place _ (ps_files ps)))).
  Lemma visited_in place ps f : visits_all ord -> In f (visited place ps) <-> below ps f.
  Proof.
    intros P. unfold visited, below. rewrite in_concat. split.
    - intros (l & Hl & Hf). apply in_map_iff in Hl as ((dir, files) & <- & Hl). apply filter_In in Hl as (Hl & Hp). exists dir, files. split; [|auto].
      eapply Permutation_in; [symmetry; apply P|exact Hl].
    - intros (dir & files & Hd & Hf & Hp). exists files. split; [|exact Hf]. apply in_map_iff. exists (dir, files). split; [reflexivity|]. apply filter_In. split; [|exact Hp].
      eapply Permutation_in; [apply P|exact Hd].
  Qed.
  Lemma visited_distinct place ps : visits_all ord -> distinct_paths ps -> NoDup (map pf_path (visited place ps)).
  Proof.
    intros P N. unfold distinct_paths in N. unfold visited.
    assert (Q := concat_map_perm snd _ _ (P place _ (ps_files ps))). apply (Permutation_NoDup (Permutation_map pf_path Q)) in N.
    destruct (filter_concat_sub (fun d => has_prefix (fst d) (ps_dir ps)) snd (ord place (string * list proto_file)%type (ps_files ps))) as (r & R).
    apply (Permutation_NoDup (Permutation_map pf_path R)) in N. rewrite map_app in N. now apply NoDup_app_l in N.
  Qed.
  Lemma skips_asked m f : below (m_set m) f -> (skips cwd m f = false <-> asked cwd m f).
  Proof.
    intros B. unfold skips, asked. rewrite andb_false_iff, !negb_false_iff, is_empty_true, String.eqb_eq. split; [auto|]. intros (_ & H); exact H.
  Qed.

  Lemma format_run o d l x m s : visits_all ord -> distinct_paths (m_set m) -> exists fs hs s' rest,
    (forall f, In f fs <-> below (m_set m) f) /\ NoDup (map pf_path fs) /\
    Forall (fun h => handled o d l x m (h_file h) (io_disk s (pf_path (h_file h))) (h_put h) (h_events h) (h_result h)) hs /\
    (fs = map h_file hs ++ rest /\ (rest = [] \/ exists h, In h hs /\ forall b, h_result h <> Value b) /\
     (forall g h, In g hs -> In h hs -> (forall v, h_result g <> Value v) -> (forall v, h_result h <> Value v) -> g = h)) /\
    io_done s' = io_done s ++ concat (map h_events hs) /\
    (forall h, In h hs -> io_disk s' (pf_path (h_file h)) = match h_put h with Some c => c | None => io_disk s (pf_path (h_file h)) end) /\
    (forall q, (forall h, In h hs -> h_put h <> None -> q <> pf_path (h_file h)) -> io_disk s' q = io_disk s q) /\
    format o d l x m s = (s', match final true hs with Value true => Value tt | Value false => Exit "" | Exit e => Exit e | Fail e => Fail e end).
  Proof.
    intros P N. destruct (files_went cwd error_format json to_json transform diff write_error o d l x m (visited "format" (m_set m)) true s) as (hs & s' & W & E).
    assert (N' := visited_distinct "format" _ P N).
    destruct (went_spec cwd error_format json to_json transform diff write_error o d l x m (io_disk s) _ s hs s' N' ltac:(reflexivity) W) as (W1 & (rest & W2) & W3 & W4 & W5).
    exists (visited "format" (m_set m)), hs, s', rest. split; [intros f; now apply visited_in|]. split; [exact N'|]. split; [exact W1|]. split; [destruct W2; split; [assumption|]; split; [assumption|eapply went_one; exact W]|]. split; [exact W3|]. split; [exact W4|]. split; [exact W5|].
    unfold Exec_Model.format. unfold and_then. fold (visited "format" (m_set m)). rewrite E. destruct (final true hs) as [[|]| |]; reflexivity.
  Qed.

  (** Failures that are printed, and the code for them. *)
  Lemma report_pure m fs : exists es r, (forall s, report cwd error_format json to_json m fs s = (adds s es, r)) /\ only_prints es /\
    ((exists fields, fields_of error_format fields) -> r = (match fs with [] => Value tt | _ => Exit "" end) /\
       exists kept, picks (about cwd m) fs kept /\ listing json to_json error_format kept (printed es)) /\
    ((forall fields, ~ fields_of error_format fields) -> exists e, r = Fail e).
  Proof.
    destruct (print_failures_pure cwd json to_json error_format "" (Some m) fs) as (es & r & P & O & V & F).
    exists es, (match r with Value _ => match fs with [] => Value tt | _ => Exit "" end | Exit e => Exit e | Fail e => Fail e end). split.
    - intros s. unfold report, print_failures. rewrite (and_then_adds _ _ _ _ _ (P s)). destruct r, fs; reflexivity.
    - split; [exact O|]. split.
      + intros Hf. destruct (V Hf) as (-> & K). split; [reflexivity|]. destruct (K m eq_refl) as (kept & Pk & L). exists kept. split; [|exact L].
        rewrite (map_ext _ (fun x => x)) in Pk by reflexivity. now rewrite map_id in Pk.
      + intros Hf. destruct (F Hf) as (e & ->). eauto.
  Qed.
  Notation do_compile := (do_compile cwd error_format json to_json D compiler).
  Lemma compile_pure gen set full m disk : exists es r, (forall s, io_disk s = disk -> do_compile gen set full m s = (adds s (Compiled gen :: es), r)) /\ only_prints es /\
    (forall e, compiler gen set full disk (m_set m) = Err e -> es = [] /\ r = Fail e) /\
    (forall fs ds, compiler gen set full disk (m_set m) = Ok (fs, ds) -> (exists fields, fields_of error_format fields) ->
       r = (match fs with [] => Value ds | _ => Exit "" end) /\ exists kept, picks (about cwd m) fs kept /\ listing json to_json error_format kept (printed es)) /\
    (forall fs ds, compiler gen set full disk (m_set m) = Ok (fs, ds) -> (forall fields, ~ fields_of error_format fields) -> exists e, r = Fail e).
  Proof.
    destruct (compiler gen set full disk (m_set m)) as [[fs ds]|e] eqn:C.
    - destruct (report_pure m fs) as (es & r & P & O & V & F). exists es, (match r with Value _ => Value ds | Exit e => Exit e | Fail e => Fail e end). split; [|split; [exact O|split; [discriminate|split]]].
      + intros s <-. unfold Exec_Model.do_compile. unfold and_then at 1, Exec_Model.emit at 1. unfold and_then at 1. cbn [io_disk]. rewrite C. cbn [check]. unfold ret at 1. cbn [fst snd].
        change (mk_io (io_disk s) (io_done s ++ [Compiled gen])) with (adds s [Compiled gen]).
        rewrite (and_then_adds _ _ _ _ _ (P (adds s [Compiled gen]))), adds_adds. destruct r; reflexivity.
      + intros fs' ds' [= <- <-] Hf. destruct (V Hf) as (-> & K). split; [destruct fs; reflexivity|exact K].
      + intros fs' ds' [= <- <-] Hf. destruct (F Hf) as (e & ->). eauto.
    - exists [], (Fail e). split; [|split; [constructor|split; [intros e' [= <-]; auto|split; discriminate]]].
      intros s <-. unfold Exec_Model.do_compile. unfold and_then at 1, Exec_Model.emit at 1. unfold and_then at 1. cbn [io_disk]. rewrite C. reflexivity.
  Qed.

  Hypothesis Hfields : exists fields, fields_of error_format fields.
  (** What one file comes to. *)
  Lemma handled_cases o d l x m md f disk w es r : mode_of o d l md -> handled o d l x m f (disk (pf_path f)) w es r ->
    (skips cwd m f = true /\ w = None /\ es = [] /\ r = Value true) \/
    (skips cwd m f = false /\
     ((r = Value true /\ fine disk x m md f) \/ (r = Value false /\ reported disk x m md f) \/ (exists e, r = Fail e /\ ~ fine disk x m md f /\ ~ reported disk x m md f))).
  Proof.
    intros M H. destruct H; [left; auto|..]; right; (split; [assumption|]).
    - right; right. exists e. split; [reflexivity|]. split; [intros (i & dt & E & _)|intros (i & dt & fs & E & _)]; congruence.
    - right; right. exists e. split; [reflexivity|]. split; [intros (i & dt & E & E' & _)|intros (i & dt & fs & E & E' & _)]; congruence.
    - right; left. destruct (print_failures_pure cwd json to_json error_format (pf_display f) (Some m) fs) as (es' & r' & P & _ & V & _).
      assert (r = r') as -> by (specialize (H3 (mk_io disk [])); rewrite P in H3; congruence). destruct (V Hfields) as (-> & _). split; [reflexivity|].
      exists input, data, fs. auto.
    - left. split; [reflexivity|]. exists data, data. auto.
    - left. split; [reflexivity|]. exists input, data. split; [assumption|]. split; [assumption|]. right. split; [|assumption]. destruct md; cbn in M; try reflexivity; destruct M as (M & _); congruence.
    - right; right. exists e. split; [reflexivity|]. assert (md = Overwrite) as -> by (destruct md; cbn in M; try reflexivity; destruct M as (M & _); congruence). split.
      + intros (i & dt & E & E' & [->|(_ & W)]); [|congruence]. rewrite H0 in E. injection E as ->. congruence.
      + intros (i & dt & fs & E & E' & [Nn|(_ & _ & K & _)]); [|easy]. rewrite H0 in E. injection E as ->. congruence.
    - right; left. destruct (print_failures_pure cwd json to_json error_format "" (Some m) [mk_failure (pf_display f) 0 0 "FORMAT_DIFF" "Format returned a diff."]) as (es' & r' & P & _ & V & _).
      assert (r = r') as -> by (specialize (H5 (mk_io disk [])); rewrite P in H5; congruence). destruct (V Hfields) as (-> & _). split; [reflexivity|].
      exists input, data, []. split; [assumption|]. split; [assumption|]. right. split; [reflexivity|]. split; [auto|]. destruct md; cbn in M; destruct M as (M1 & M2 & M3); try congruence. split; [discriminate|discriminate].
    - right; left. split; [reflexivity|]. exists input, data, []. split; [assumption|]. split; [assumption|]. right. split; [reflexivity|]. split; [auto|]. destruct md; cbn in M; destruct M as (M1 & M2 & M3); try congruence. split; [discriminate|]. eauto.
    - right; right. exists e. split; [reflexivity|]. assert (md = Diff) as -> by (destruct md; cbn in M; destruct M as (M1 & M2 & M3); congruence). split.
      + intros (i & dt & E & E' & [->|(K & _)]); [|easy]. rewrite H0 in E. injection E as ->. congruence.
      + intros (i & dt & fs & E & E' & K). rewrite H0 in E. injection E as <-. rewrite H1 in E'. injection E' as <- <-. destruct K as [K|(_ & _ & _ & K)]; [easy|]. destruct (K eq_refl) as (t & Kt). congruence.
    - right; left. split; [reflexivity|]. exists input, data, []. split; [assumption|]. split; [assumption|]. right. split; [reflexivity|]. split; [auto|]. destruct md; cbn in M; destruct M as (M1 & M2 & M3); try congruence. split; discriminate.
  Qed.
  (** What is printed for it. *)
  Lemma handled_output o d l x m md f disk w es v : mode_of o d l md -> handled o d l x m f (disk (pf_path f)) w es (Value v) -> skips cwd m f = false ->
    file_output disk x m md f (printed es).
  Proof.
    intros M H Sk. inversion H; subst; clear H; try congruence.
    - destruct (print_failures_pure cwd json to_json error_format (pf_display f) (Some m) fs) as (es' & r' & P & _ & V & _).
      assert (es = es') as -> by (specialize (H7 (mk_io disk [])); rewrite P in H7; injection H7; intros; congruence).
      destruct (V Hfields) as (-> & K). destruct (K m eq_refl) as (kept & Pk & L). eapply OutFailures; try eassumption.
      replace (map _ fs) with (map (relabel (pf_display f)) fs); [exact Pk|]. apply map_ext. intros a. unfold relabel. destruct (String.eqb (pf_display f) ""); [now destruct a|reflexivity].
    - assert (K := OutSame transform diff json to_json cwd error_format disk x m md f data ltac:(eassumption) ltac:(eassumption)). destruct md; cbn in M; destruct M as (-> & -> & ->); cbn in *; exact K.
    - eapply OutOverwrite; eauto. destruct md; cbn in M; destruct M as (M1 & M2 & M3); congruence.
    - destruct (print_failures_pure cwd json to_json error_format "" (Some m) [mk_failure (pf_display f) 0 0 "FORMAT_DIFF" "Format returned a diff."]) as (es' & r' & P & _ & V & _).
      assert (es = es') as -> by (match goal with H : forall s, print_failures_for _ _ _ _ "" _ _ _ = _ |- _ => specialize (H (mk_io disk [])); rewrite P in H; injection H; intros; congruence end).
      destruct (V Hfields) as (-> & K). destruct (K m eq_refl) as (kept & Pk & L). eapply OutLint; try eassumption; [congruence|]. destruct md; cbn in M; destruct M as (M1 & M2 & M3); congruence.
    - cbn. eapply OutDiff; eauto. destruct md; cbn in M; destruct M as (M1 & M2 & M3); congruence.
    - cbn. eapply OutPlain; eauto. destruct md; cbn in M; destruct M as (M1 & M2 & M3); congruence.
  Qed.
End Runs.
