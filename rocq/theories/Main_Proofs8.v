(** The modes of format: when there is nothing to do in one of them, there is nothing to do in any. *)
From Coq Require Import Permutation.
From Verif Require Import GoStrFacts Settings_Spec Exec_Spec Exec_Proofs Main_Model Main_Spec Main_Proofs4 Main_Proofs6.

Lemma written_step {A} (c : cmd A) s s1 o : framed c -> c s = (s1, o) -> exists es, io_done s1 = io_done s ++ es.
Proof.
  intros F E. destruct s as [dk dn]. destruct (F dk) as (es & d & o' & Q & _). rewrite Q in E. injection E as <- _. now exists es.
Qed.

Lemma written_more es es' : written (es ++ es') = written es -> written es' = [].
Proof. rewrite written_app. intros H. rewrite <- (app_nil_r (written es)) in H at 2. now apply app_inv_head in H. Qed.
Lemma written_same {A} (c : cmd A) s s1 o : framed c -> c s = (s1, o) -> written (io_done s1) = written (io_done s) -> io_disk s1 = io_disk s.
Proof.
  intros F E W. destruct s as [dk dn]. destruct (F dk) as (es & d & o' & Q & N). rewrite Q in E. injection E as <- _. cbn [io_done io_disk] in *.
  apply N. intros p x I. apply written_more in W. revert W. apply in_split in I as (l1 & l2 & ->). rewrite written_app. cbn. intros W.
  apply app_eq_nil in W as (_ & W). discriminate W.
Qed.

Section Modes.
  Variable ord : map_order.
  Variable cwd work error_format : string.
  Variable json : bool.
  Variable to_json : failure -> string.
  Variable stat : string -> result file_kind.
  Variable get : string -> string -> result proto_set.
  Variable D : Type.
  Variable compiler : bool -> bool -> option (bool * bool) -> (string -> result string) -> proto_set -> result (list failure * list D).
  Variable commands : bool -> proto_set -> result (list string).
  Variable transform : Z -> string -> string -> string -> string -> result (string * list failure).
  Variable diff : string -> string -> string -> result string.
  Variable write_error : string -> string -> option (result string * string).
  Variable x : bool.
  Notation file o d l := (format_file cwd error_format json to_json transform diff write_error o d l x).
  Notation files o d l := (format_files cwd error_format json to_json transform diff write_error o d l x).
  Notation format_cmd args o d l := (format_cmd ord cwd work error_format json to_json stat get D compiler commands transform diff write_error args o d l x).

  (** The file is not asked for, or formatting does not change it. *)
  Definition nothing_at (m : meta) (disk : string -> result string) (f : proto_file) : Prop :=
    negb (is_empty (m_single m)) && negb (String.eqb (pf_path f) (abs_clean cwd (m_single m))) = true \/
    exists data, disk (pf_path f) = Ok data /\
      transform (format_fix x m) (format_header x m) (format_java_prefix x m) (pf_path f) data = Ok (data, []).

  Lemma file_nothing o d l m f s s1 : file o d l m f s = (s1, Value true) -> written (io_done s1) = written (io_done s) -> nothing_at m (io_disk s) f.
  Proof.
    unfold format_file, nothing_at. destruct (_ && _) eqn:K; [now left|]. intros H W. right. unfold and_then at 1 in H. unfold read_file in H.
    destruct (io_disk s (pf_path f)) as [input|e]; [|discriminate H]. unfold and_then at 1, Exec_Model.check in H.
    destruct (transform _ _ _ _ input) as [[data fs]|e] eqn:T; [|discriminate H]. cbn [ret fail] in H.
    destruct fs as [|a fs].
    2:{ unfold and_then, ret in H. destruct (print_failures _ _ _ _ _ _ _ _) as [s2 [u|e|e]]; discriminate H. }
    exists input. split; [reflexivity|]. destruct (String.eqb_spec input data) as [->|N]; [exact T|exfalso]. cbn [negb] in H.
    destruct o.
    - unfold and_then, write_file, ret in H. destruct (write_error _ _) as [[rest e]|]; [discriminate H|]. injection H as <-. cbn [io_done] in W.
      apply written_more in W. discriminate W.
    - destruct l.
      { unfold and_then, ret in H. destruct (print_failures _ _ _ _ _ _ _ _) as [s2 [u|e|e]]; discriminate H. }
      destruct d; [|discriminate H]. unfold and_then at 1, Exec_Model.check in H. destruct (diff _ _ _); discriminate H.
  Qed.
  Lemma file_quiet o d l m f s : nothing_at m (io_disk s) f ->
    exists es, file o d l m f s = (mk_io (io_disk s) (io_done s ++ es), Value true) /\ written es = [] /\ (o || d || l = true -> es = []).
  Proof.
    unfold format_file, nothing_at. destruct (_ && _) eqn:K; intros H.
    { exists []. rewrite app_nil_r. destruct s. auto. }
    destruct H as [H|(data & R & T)]; [discriminate H|]. unfold and_then at 1, read_file. rewrite R. unfold and_then at 1, Exec_Model.check. rewrite T. cbn [ret].
    rewrite String.eqb_refl. cbn [negb]. destruct (negb o && negb l && negb d) eqn:Q.
    - exists [Printed data]. split; [reflexivity|]. split; [reflexivity|]. destruct o, d, l; discriminate.
    - exists []. rewrite app_nil_r. destruct s. auto.
  Qed.
  Lemma files_nothing o d l m fs : forall b s s1, files o d l m b fs s = (s1, Value true) -> written (io_done s1) = written (io_done s) ->
    b = true /\ Forall (nothing_at m (io_disk s)) fs.
  Proof.
    induction fs as [|f fs IH]; intros b s s1 H W; cbn [format_files] in H.
    { injection H as <- ->. split; [reflexivity|constructor]. }
    unfold and_then at 1 in H. destruct (file o d l m f s) as [s2 [ok|e|e]] eqn:F; try discriminate H.
    pose proof F as F0. apply written_step in F0 as (es & E1); [|apply fr_format_file].
    pose proof H as H0. apply written_step in H0 as (es' & E2).
    2:{ clear. generalize (b && ok). induction fs as [|g fs IH]; intros c; cbn [format_files]; [apply fr_ret|]. apply fr_then; [apply fr_format_file|intros; apply IH]. }
    assert (W1 : written (io_done s2) = written (io_done s)).
    { rewrite E2, E1, <- app_assoc in W. apply written_more in W. rewrite written_app in W. apply app_eq_nil in W as (W & _). rewrite E1, written_app, W. apply app_nil_r. }
    assert (Dk : io_disk s2 = io_disk s) by (eapply written_same; [apply fr_format_file|exact F|exact W1]).
    apply IH in H as (B & A); [|congruence]. apply andb_true_iff in B as (-> & ->). rewrite Dk in A.
    split; [reflexivity|]. constructor; [|exact A]. eapply file_nothing; eassumption.
  Qed.
  Lemma files_quiet o d l m fs : forall s, Forall (nothing_at m (io_disk s)) fs ->
    exists es, files o d l m true fs s = (mk_io (io_disk s) (io_done s ++ es), Value true) /\ written es = [] /\ (o || d || l = true -> es = []).
  Proof.
    induction fs as [|f fs IH]; intros s H; cbn [format_files].
    { exists []. rewrite app_nil_r. destruct s. auto. }
    inversion H as [|? ? H1 H2]; subst. destruct (file_quiet o d l m f s H1) as (es & E & W & Q). unfold and_then at 1. rewrite E. cbn [andb].
    destruct (IH (mk_io (io_disk s) (io_done s ++ es)) H2) as (es' & E' & W' & Q'). cbn [io_disk io_done] in E'. rewrite E'.
    exists (es ++ es'). rewrite app_assoc. split; [reflexivity|]. split; [rewrite written_app, W; exact W'|]. intros B. now rewrite Q, Q'.
  Qed.
  Lemma format_quiet args o d l m s ds s2 : get_meta work stat get args s = (s, Value m) ->
    compile cwd error_format json to_json D compiler commands false false false m s = (s2, Value ds) ->
    (forall f, below (m_set m) f -> nothing_at m (io_disk s) f) -> visits_all ord ->
    more_than_one_set [o; d; l] = false ->
    exists es, format_cmd args o d l s = (mk_io (io_disk s) (io_done s ++ Compiled false :: es), Value tt) /\ written es = [].
  Proof.
    intros G C A V M. unfold Exec_Model.format_cmd. rewrite M. unfold and_then at 1. rewrite G. unfold and_then at 1. rewrite C.
    apply compiled_ok in C. subst s2. unfold Exec_Model.format. set (fs := concat _).
    assert (Forall (nothing_at m (io_disk s)) fs) as F.
    { apply Forall_forall. intros f I. apply A. subst fs. apply in_concat in I as (l0 & I1 & I2). apply in_map_iff in I1 as ((dir & l1) & <- & I1).
      apply filter_In in I1 as (I1 & P). cbn [fst snd] in *. exists dir, l1. split; [|split; [exact I2|exact P]].
      eapply Permutation_in; [symmetry; apply V|exact I1]. }
    clearbody fs. unfold and_then at 1. set (s4 := mk_io (io_disk s) (io_done s ++ [Compiled false])).
    destruct (files_quiet o d l m fs s4 F) as (es & E & We & Q). rewrite E. exists es. subst s4. cbn [io_disk io_done]. rewrite <- app_assoc. auto.
  Qed.
  Lemma format_modes args o d l o' d' l' s s1 : format_cmd args o d l s = (s1, Value tt) -> written (io_done s1) = written (io_done s) ->
    more_than_one_set [o'; d'; l'] = false ->
    exists es, format_cmd args o' d' l' s = (mk_io (io_disk s) (io_done s ++ Compiled false :: es), Value tt) /\ written es = [] /\ (o' || d' || l' = true -> es = []).
  Proof.
    intros H W M. unfold Exec_Model.format_cmd in *. destruct (more_than_one_set [o; d; l]); [discriminate H|]. rewrite M.
    unfold and_then at 1 in H. unfold and_then at 1. destruct (get_meta work stat get args s) as [s2 [m|e|e]] eqn:G; try discriminate H.
    assert (s2 = s) as ->.
    { revert G. unfold get_meta, and_then, Exec_Model.check. destruct (stat _) as [[]|]; cbn; try destruct (get _ _); cbn; now intros [= <- _]. }
    unfold and_then at 1 in H. unfold and_then at 1. destruct (compile _ _ _ _ _ _ _ _ _ _ m s) as [s3 [ds|e|e]] eqn:C; try discriminate H.
    apply compiled_ok in C. subst s3. unfold Exec_Model.format in *. set (fs := concat _) in *. clearbody fs. unfold and_then at 1 in H. unfold and_then at 1.
    set (s4 := mk_io (io_disk s) (io_done s ++ [Compiled false])) in *.
    destruct (files o d l m true fs s4) as [s5 [b|e|e]] eqn:F; try discriminate H. destruct b; [|discriminate H]. injection H as ->.
    destruct (files_nothing o d l m fs true s4 s1 F) as (_ & A).
    { rewrite W. subst s4. cbn [io_done]. rewrite written_app. symmetry. apply app_nil_r. }
    destruct (files_quiet o' d' l' m fs s4 A) as (es & E & We & Q). rewrite E. exists es. subst s4. cbn [io_disk io_done]. rewrite <- app_assoc. auto.
  Qed.
End Modes.
