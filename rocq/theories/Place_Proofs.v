(** Paths that name the same place. *)
From Coq Require Import Lia.
From Verif Require Import GoStrFacts GoPathFacts File_Model Exec_Model Exec_Spec Settings_Model LintCmd_Model Main_Model Place_Spec.
From Verif Require Main_Proofs7.

(** ** Cleaning *)
Lemma walk_app a b from : walk from (a ++ b) = walk (walk from a) b.
Proof. apply fold_left_app. Qed.
Lemma go_rooted st c : ok_comps st -> rev (clean_step true st c) = go (rev st) c.
Proof.
  intros H. unfold clean_step, go. change (is_empty c) with (match c with EmptyString => true | _ => false end).
  replace (match c with EmptyString => true | _ => false end) with (String.eqb c "") by (now destruct c).
  destruct (String.eqb c "" || String.eqb c "."); [reflexivity|]. destruct (String.eqb c ".."); [|reflexivity].
  destruct st as [|top st]; [reflexivity|]. inversion H as [|? ? X Y]; subst. apply ok_comp_inv in X as (_ & _ & X & _). apply String.eqb_neq in X. rewrite X.
  cbn [rev]. now rewrite removelast_last.
Qed.
Lemma walk_rooted cs : Forall (fun c => no_char slash c = true) cs -> forall st, ok_comps st -> rev (fold_left (clean_step true) cs st) = walk (rev st) cs.
Proof.
  induction 1 as [|c cs X F IH]; intros st H; [reflexivity|]. cbn [fold_left]. rewrite IH by now apply clean_step_rooted_ok. unfold walk. cbn [fold_left]. now rewrite go_rooted.
Qed.
Lemma is_abs_match p : (if is_abs p then true else false) = match p with String "/" _ => true | _ => false end.
Proof. unfold is_abs. destruct p as [|[[] [] [] [] [] [] [] []] p]; try reflexivity. Qed.
Lemma place_from here p : place here p = walk (if is_abs p then [] else here) (split_char slash p).
Proof. unfold place, is_abs. destruct p as [|[[] [] [] [] [] [] [] []] p]; reflexivity. Qed.
Lemma abs_place here p : ok_comps here -> p <> "" -> path_abs (abs_path here) p = abs_path (place here p).
Proof.
  intros H N. rewrite place_from. unfold path_abs. destruct (is_abs p) eqn:A.
  - unfold path_clean. rewrite A. unfold clean_comps. rewrite walk_rooted; [reflexivity|apply split_char_parts|constructor].
  - rewrite path_join_abs by assumption. rewrite walk_rooted; [now rewrite rev_involutive|apply split_char_parts|now apply ok_comps_rev].
Qed.
Lemma place_ok here p : ok_comps here -> ok_comps (place here p).
Proof.
  intros H. rewrite place_from. rewrite <- (rev_involutive (if is_abs p then [] else here)), <- walk_rooted; [|apply split_char_parts|].
  - apply ok_comps_rev, clean_fold_rooted_ok; [|apply split_char_parts]. apply ok_comps_rev. destruct (is_abs p); [constructor|exact H].
  - apply ok_comps_rev. destruct (is_abs p); [constructor|exact H].
Qed.
(** The parts of a relative path that is cleaned lead to the same place. *)
Definition solid (c : string) : Prop := c <> "" /\ c <> "." /\ no_char slash c = true.
Lemma clean_rel_walk cs : Forall (fun c => no_char slash c = true) cs -> forall st from, Forall solid st ->
  walk from (rev (fold_left (clean_step false) cs st)) = walk (walk from (rev st)) cs /\ Forall solid (fold_left (clean_step false) cs st).
Proof.
  induction 1 as [|c cs X F IH]; intros st from S; [split; [reflexivity|exact S]|]. cbn [fold_left].
  assert (K : walk from (rev (clean_step false st c)) = go (walk from (rev st)) c /\ Forall solid (clean_step false st c)).
  { unfold clean_step, go. replace (is_empty c) with (String.eqb c "") by (now destruct c). destruct (String.eqb c "" || String.eqb c ".") eqn:E; [split; [reflexivity|exact S]|].
    apply orb_false_iff in E as (E1 & E2). apply String.eqb_neq in E1, E2. destruct (String.eqb c "..") eqn:E.
    - apply String.eqb_eq in E. subst c. destruct st as [|top st].
      + split; [reflexivity|]. repeat constructor; discriminate.
      + inversion S as [|? ? (T1 & T2 & T3) S']; subst. destruct (String.eqb top "..") eqn:E.
        * split; [|constructor; [repeat split; discriminate|exact S]]. cbn [rev]. rewrite walk_app. reflexivity.
        * split; [|exact S']. cbn [rev]. rewrite walk_app. unfold walk at 2. cbn [fold_left]. unfold go at 1. apply String.eqb_neq in T1, T2. rewrite T1, T2, E. cbn [orb]. now rewrite removelast_last.
    - split; [|constructor; [repeat split; assumption|exact S]]. cbn [rev]. rewrite walk_app. unfold walk at 1. cbn [fold_left]. unfold go. apply String.eqb_neq in E1, E2. now rewrite E1, E2, E. }
  destruct K as (K1 & K2). destruct (IH _ from K2) as (A & B). split; [|exact B]. rewrite A, K1. reflexivity.
Qed.
Lemma clean_rel_abs p : is_abs p = false -> is_abs (path_clean p) = false.
Proof.
  intros A. unfold path_clean. rewrite A. unfold clean_comps. destruct (clean_rel_walk (split_char slash p) (split_char_parts _ _) [] [] ltac:(constructor)) as (_ & S).
  destruct (rev (fold_left (clean_step false) (split_char slash p) [])) as [|x l] eqn:E; [reflexivity|].
  assert (X : solid x). { rewrite Forall_forall in S. apply S, in_rev. rewrite E. now left. }
  destruct X as (X1 & X2 & X3). destruct x as [|y x]; [contradiction|]. unfold is_abs.
  replace (join "/" (String y x :: l)) with (String y (match l with [] => x | _ => x +++ "/" +++ join "/" l end)) by (now destruct l). cbn [has_prefix].
  destruct (Ascii.eqb "/" y) eqn:Y; [|reflexivity]. apply Ascii.eqb_eq in Y. subst y. discriminate X3.
Qed.
Lemma place_clean here p : ok_comps here -> p <> "" -> place here (path_clean p) = place here p.
Proof.
  intros H N. rewrite !place_from. destruct (is_abs p) eqn:A.
  - destruct (path_clean_clean_abs p A) as (cs & O & E). rewrite E. rewrite is_abs_abs_path.
    transitivity cs.
    + destruct cs as [|c cs]; [reflexivity|]. rewrite split_abs by (assumption || discriminate). change (walk [] ("" :: c :: cs)) with (walk [] (c :: cs)).
      change (walk [] (c :: cs)) with (walk (rev []) (c :: cs)). rewrite <- walk_rooted; [|now apply ok_comps_no_slash|constructor]. rewrite clean_fold_ok by assumption. now rewrite app_nil_r, rev_involutive.
    + unfold path_clean in E. rewrite A in E. unfold clean_comps in E. rewrite walk_rooted in E; [|apply split_char_parts|constructor]. cbn [rev] in E.
      change ("/" +++ join "/" (walk [] (split_char slash p))) with (abs_path (walk [] (split_char slash p))) in E.
      symmetry. eapply abs_path_inj; [|exact O|exact E]. change (walk [] (split_char slash p)) with (walk (rev []) (split_char slash p)). rewrite <- walk_rooted; [|apply split_char_parts|constructor].
      apply ok_comps_rev, clean_fold_rooted_ok; [constructor|apply split_char_parts].
  - rewrite (clean_rel_abs p A). unfold path_clean. rewrite A. unfold clean_comps.
    destruct (clean_rel_walk (split_char slash p) (split_char_parts _ _) [] here ltac:(constructor)) as (W & S). change (walk here (rev [])) with here in W.
    destruct (rev (fold_left (clean_step false) (split_char slash p) [])) as [|x l] eqn:E.
    + rewrite <- W. reflexivity.
    + rewrite <- W. f_equal. apply (split_join slash); [discriminate|]. rewrite <- E. apply Forall_rev. eapply Forall_impl; [|exact S]. intros c (_ & _ & X). exact X.
Qed.
Lemma upto_split p : exists q, (upto_last_slash p = "" /\ split_char slash p = [p]) \/ (upto_last_slash p = q +++ "/" /\ exists c, split_char slash p = split_char slash q ++ [c] /\ p = q +++ String slash c).
Proof.
  assert (E : no_char slash p = true \/ exists q c, p = q +++ String slash c /\ no_char slash c = true).
  { induction p as [|x p IH]; [now left|]. destruct IH as [IH|(q & c & -> & C)].
    - destruct (Ascii.eqb x slash) eqn:X.
      + apply Ascii.eqb_eq in X. subst x. right. exists "", p. split; [reflexivity|exact IH].
      + left. unfold no_char in *. cbn [sforall]. now rewrite X.
    - right. exists (String x q), c. split; [reflexivity|exact C]. }
  destruct E as [E|(q & c & -> & C)].
  - exists "". left. split.
    + unfold upto_last_slash. pose proof (srev_no_char slash p E) as S. assert (T : forall s, no_char slash s = true -> trim_left (fun c => negb (Ascii.eqb c slash)) s = "").
      { clear. induction s as [|x s IH]; [reflexivity|]. unfold no_char in *. cbn [sforall]. intros H. apply andb_true_iff in H as (A & B). cbn [trim_left]. rewrite A. now apply IH. }
      now rewrite T.
    + now apply split_char_no.
  - exists q. right. rewrite upto_last_slash_app by assumption. split; [reflexivity|]. exists c. split; [|reflexivity]. rewrite split_app_slash. f_equal. now apply split_char_no.
Qed.
Lemma place_dir here p : ok_comps here -> ends_in_name p -> place here (path_dir p) = removelast (place here p).
Proof.
  intros H N. change (~ In (last (split_char slash p) "") [""; "."; ".."]) in N. unfold path_dir. destruct (upto_split p) as (q & [(U & S)|(U & c & S & E)]); rewrite U.
  - change (path_clean "") with ".". rewrite !place_from, S. assert (A : is_abs p = false).
    { unfold is_abs. destruct p as [|x p]; [reflexivity|]. cbn [has_prefix]. destruct (Ascii.eqb "/" x) eqn:X; [|reflexivity]. apply Ascii.eqb_eq in X. subst x. cbn in S. discriminate S. }
    rewrite A. rewrite S in N. cbn [last] in N. change (walk (if is_abs "." then [] else here) (split_char slash ".")) with here.
    unfold walk. cbn [fold_left]. unfold go. destruct (String.eqb p "" || String.eqb p ".") eqn:X.
    { exfalso. apply N. apply orb_true_iff in X as [X|X]; apply String.eqb_eq in X; subst; cbn; tauto. }
    destruct (String.eqb p "..") eqn:Y; [exfalso; apply N; apply String.eqb_eq in Y; subst; cbn; tauto|]. now rewrite removelast_last.
  - rewrite place_clean; [|exact H|now destruct q]. rewrite !place_from, S. change (q +++ "/") with (q +++ String slash ""). rewrite split_app_slash.
    assert (A : is_abs (q +++ String slash "") = is_abs p) by (rewrite E; now destruct q). rewrite A. rewrite !walk_app. change (split_char slash "") with [""].
    rewrite S, last_last in N. set (x := walk _ (split_char slash q)). unfold walk. cbn [fold_left]. change (go x "") with x. unfold go. destruct (String.eqb c "" || String.eqb c ".") eqn:X.
    { exfalso. apply N. apply orb_true_iff in X as [X|X]; apply String.eqb_eq in X; subst; cbn; tauto. }
    destruct (String.eqb c "..") eqn:Y; [exfalso; apply N; apply String.eqb_eq in Y; subst; cbn; tauto|]. now rewrite removelast_last.
Qed.

(** ** What comes of it *)
(** Both did the same, or both could not begin. *)
Definition alike_from {A} (s : io) (x y : io * outcome A) : Prop := x = y \/ exists m m', x = (s, Fail m) /\ y = (s, Fail m').
Lemma alike_then {A B} s (c c' : cmd A) (k k' : A -> cmd B) : alike_from s (c s) (c' s) -> (forall a t, k a t = k' a t) -> alike_from s (and_then c k s) (and_then c' k' s).
Proof.
  intros [E|(m & m' & E & E')] K; unfold and_then; [rewrite E; destruct (c' s) as [t [a|a|a]]; left; [apply K|reflexivity..]|]. rewrite E, E'. right. exists m, m'. split; reflexivity.
Qed.
Lemma and_then_ext {A B} (c c' : cmd A) (k k' : A -> cmd B) s : c s = c' s -> (forall a t, k a t = k' a t) -> and_then c k s = and_then c' k' s.
Proof. intros E K. unfold and_then. rewrite E. destruct (c' s) as [t [a|a|a]]; [apply K|reflexivity..]. Qed.
(** Checks that come first. *)
Lemma checked_first {A B} s (x : result A) (k k' : A -> cmd B) : (forall a, alike_from s (k a s) (k' a s)) -> alike_from s (and_then (Exec_Model.check x) k s) (and_then (Exec_Model.check x) k' s).
Proof. intros K. destruct x as [a|m]; [apply K|left; reflexivity]. Qed.

Section Single.
  Variable cwd : string.
  Variable ps : proto_set.
  Variable a b : string.
  Hypothesis E : (a = "" /\ b = "") \/ (a <> "" /\ b <> "" /\ abs_clean cwd a = abs_clean cwd b).
  Notation m := (mk_meta ps a).
  Notation m' := (mk_meta ps b).
  Lemma should_same f : should_print cwd (Some m) f = should_print cwd (Some m') f.
  Proof.
    unfold should_print. cbn [m_single]. destruct E as [(-> & ->)|(A & B & C)]; [reflexivity|]. apply is_empty_false in A, B. rewrite A, B. cbn [orb]. rewrite <- C.
    destruct (String.eqb a (f_filename f)) eqn:X, (String.eqb b (f_filename f)) eqn:Y; cbn [orb]; try reflexivity.
    - apply String.eqb_eq in X. rewrite X. symmetry. apply String.eqb_refl.
    - apply String.eqb_eq in Y. rewrite <- Y, <- C. apply String.eqb_refl.
  Qed.
  Variable error_format : string.
  Variable json : bool.
  Variable to_json : failure -> string.
  Lemma failures_same f n fs s : print_failures_for cwd json to_json f n (Some m) fs s = print_failures_for cwd json to_json f n (Some m') fs s.
  Proof. unfold print_failures_for. rewrite (filter_ext _ _ should_same). reflexivity. Qed.
  Lemma report_same fs s : report cwd error_format json to_json m fs s = report cwd error_format json to_json m' fs s.
  Proof. apply and_then_ext; [apply failures_same|reflexivity]. Qed.
  Variable D : Type.
  Variable compiler : bool -> bool -> option (bool * bool) -> (string -> result string) -> proto_set -> result (list failure * list D).
  Variable commands : bool -> proto_set -> result (list string).
  Lemma do_compile_same gen set full s : do_compile cwd error_format json to_json D compiler gen set full m s = do_compile cwd error_format json to_json D compiler gen set full m' s.
  Proof.
    unfold do_compile. apply and_then_ext; [reflexivity|]. intros _ t. apply and_then_ext; [reflexivity|]. intros x u. apply and_then_ext; [apply report_same|reflexivity].
  Qed.
  Lemma compile_same gen set dry s : Exec_Model.compile cwd error_format json to_json D compiler commands gen set dry m s = Exec_Model.compile cwd error_format json to_json D compiler commands gen set dry m' s.
  Proof. unfold Exec_Model.compile. destruct dry; [reflexivity|apply do_compile_same]. Qed.
  Variable transform : Z -> string -> string -> string -> string -> result (string * list failure).
  Variable diff : string -> string -> string -> result string.
  Variable write_error : string -> string -> option (result string * string).
  Variable ord : map_order.
  Variable o d l x : bool.
  Lemma format_file_same f s : format_file cwd error_format json to_json transform diff write_error o d l x m f s = format_file cwd error_format json to_json transform diff write_error o d l x m' f s.
  Proof.
    unfold format_file. cbn [m_single].
    replace (negb (is_empty b) && negb (String.eqb (pf_path f) (abs_clean cwd b))) with (negb (is_empty a) && negb (String.eqb (pf_path f) (abs_clean cwd a))).
    2:{ destruct E as [(-> & ->)|(A & B & C)]; [reflexivity|]. apply is_empty_false in A, B. now rewrite A, B, C. }
    destruct (_ && _); [reflexivity|]. apply and_then_ext; [reflexivity|]. intros i t. apply and_then_ext; [reflexivity|]. intros [data fs] u.
    destruct fs as [|f0 fs]; [|apply and_then_ext; [apply failures_same|reflexivity]]. destruct (negb (String.eqb i data)); [|reflexivity]. destruct o; [reflexivity|]. destruct l; [|reflexivity].
    apply and_then_ext; [apply failures_same|reflexivity].
  Qed.
  Lemma format_files_same fs : forall ok s, format_files cwd error_format json to_json transform diff write_error o d l x m ok fs s = format_files cwd error_format json to_json transform diff write_error o d l x m' ok fs s.
  Proof. induction fs as [|f fs IH]; intros ok s; [reflexivity|]. cbn [format_files]. apply and_then_ext; [apply format_file_same|]. intros k t. apply IH. Qed.
  Lemma format_same s : format ord cwd error_format json to_json transform diff write_error o d l x m s = format ord cwd error_format json to_json transform diff write_error o d l x m' s.
  Proof. unfold format. apply and_then_ext; [apply format_files_same|reflexivity]. Qed.
  Variable run_lint : (string -> result string) -> proto_set -> bool -> result (list failure).
  Lemma lint_same s : lint cwd error_format json to_json run_lint m s = lint cwd error_format json to_json run_lint m' s.
  Proof. unfold lint. apply and_then_ext; [reflexivity|]. intros fs t. apply report_same. Qed.
End Single.

Section Method.
  Variable w : world.
  Variable here_comps : list string.
  Hypothesis Hh : ok_comps here_comps.
  Hypothesis St : forall k, w_stat w "" <> Ok k.
  Variable r : runner.
  Hypothesis Hr : here r = abs_path here_comps.
  Variable args args' : list string.
  Hypothesis T : same_target w here_comps (Exec_Spec.target args) (Exec_Spec.target args').

  Lemma clean_place p : p <> "" -> abs_clean (here r) p = abs_path (place here_comps p).
  Proof.
    intros N. rewrite <- abs_place by assumption. unfold abs_clean, path_abs. rewrite Hr. destruct p; [contradiction|]. cbn [is_empty]. destruct (is_abs (String a p)); reflexivity.
  Qed.
  Lemma provider_place disk p q : p <> "" -> q <> "" -> place here_comps p = place here_comps q ->
    match provider w r disk (here r) p, provider w r disk (here r) q with Ok a, Ok b => a = b | Err _, Err _ => True | _, _ => False end.
  Proof.
    intros P Q E. destruct T as (_ & _ & _ & Sl). unfold provider, provider_get_for_dir, get_multiple_for_dir. rewrite (clean_place p P), (clean_place q Q), E.
    destruct (if is_empty (r_config_data r) then _ else _) as [root|]; [|exact I]. cbn [bind]. destruct (walk_and_get_all_proto_files _ _ _ _ _ _ _ _) as [fs|]; [|exact I]. cbn [bind].
    destruct (base_proto_sets _ _ _ _ _ _ _ _ _ _ _) as [sets|]; [|exact I]. cbn [bind]. destruct (mapM _ _); [|exact I]. cbn [bind].
    destruct sets as [|x [|y sets]]; cbn [map]; try exact I. cbn [bind]. destruct (_ =? 0)%Z; [reflexivity|]. specialize (Sl (r_walk_timeout r) p q E).
    destruct (w_too_slow w _ p), (w_too_slow w _ q); try reflexivity; try exact I; [|]; exfalso; destruct Sl as (A & B); [specialize (B eq_refl)|specialize (A eq_refl)]; discriminate.
  Qed.
  Definition twins (m m' : meta) : Prop := exists ps a b, m = mk_meta ps a /\ m' = mk_meta ps b /\ ((a = "" /\ b = "") \/ (a <> "" /\ b <> "" /\ abs_clean (here r) a = abs_clean (here r) b)).
  Lemma meta_alike {B} disk (k k' : meta -> cmd B) s : (forall m m' t, twins m m' -> k m t = k' m' t) ->
    alike_from s (and_then (get_meta (here r) (w_stat w) (provider w r disk) args) k s) (and_then (get_meta (here r) (w_stat w) (provider w r disk) args') k' s).
  Proof.
    intros K. pose proof T as (P & S & N & _). unfold get_meta. change (match args with [a] => a | _ => "." end) with (Exec_Spec.target args). change (match args' with [a] => a | _ => "." end) with (Exec_Spec.target args').
    set (a := Exec_Spec.target args) in *. set (b := Exec_Spec.target args') in *. rewrite <- S.
    destruct (w_stat w a) as [kd|e] eqn:Sa; [|left; reflexivity].
    assert (Na : a <> "") by (intros X; rewrite X in Sa; now apply St in Sa). assert (Nb : b <> "") by (intros X; rewrite X in S; symmetry in S; now apply St in S).
    destruct kd.
    - pose proof (provider_place disk a b Na Nb P) as Q. unfold and_then, Exec_Model.check. cbn [ret].
      destruct (provider w r disk (here r) a) as [p1|e1], (provider w r disk (here r) b) as [p2|e2]; try contradiction.
      + left. subst p2. apply K. exists p1, "", "". auto.
      + right. exists e1, e2. split; reflexivity.
    - destruct (N eq_refl) as (N1 & N2). assert (Q : match provider w r disk (here r) (path_dir a), provider w r disk (here r) (path_dir b) with Ok a, Ok b => a = b | Err _, Err _ => True | _, _ => False end).
      { apply provider_place; [apply Main_Proofs7.path_clean_not_empty..|]. rewrite !place_dir by assumption. now rewrite P. }
      unfold and_then, Exec_Model.check. cbn [ret].
      destruct (provider w r disk (here r) (path_dir a)) as [p1|e1], (provider w r disk (here r) (path_dir b)) as [p2|e2]; try contradiction.
      + left. subst p2. apply K. exists p1, a, b. split; [reflexivity|]. split; [reflexivity|]. right. split; [exact Na|]. split; [exact Nb|]. rewrite !clean_place by assumption. now rewrite P.
      + right. exists e1, e2. split; reflexivity.
    - right. do 2 eexists. split; reflexivity.
  Qed.

  (** The calls that look for files, with other words for where. *)
  Definition elsewhere (k : Cmd_Model.call) : option Cmd_Model.call :=
    match k with
    | Cmd_Model.CallAll _ a b c => Some (Cmd_Model.CallAll args' a b c)
    | Cmd_Model.CallBreakDescriptorSet _ a => Some (Cmd_Model.CallBreakDescriptorSet args' a)
    | Cmd_Model.CallBreakCheck _ a b => if is_empty b then None else Some (Cmd_Model.CallBreakCheck args' a b)
    | Cmd_Model.CallCacheUpdate _ => Some (Cmd_Model.CallCacheUpdate args')
    | Cmd_Model.CallCompile _ a => Some (Cmd_Model.CallCompile args' a)
    | Cmd_Model.CallDescriptorSet _ a b c d => Some (Cmd_Model.CallDescriptorSet args' a b c d)
    | Cmd_Model.CallFiles _ => Some (Cmd_Model.CallFiles args')
    | Cmd_Model.CallFormat _ a b c d => Some (Cmd_Model.CallFormat args' a b c d)
    | Cmd_Model.CallGen _ a => Some (Cmd_Model.CallGen args' a)
    | Cmd_Model.CallGRPC _ a b c d e f g h i j k l m n o => Some (Cmd_Model.CallGRPC args' a b c d e f g h i j k l m n o)
    | Cmd_Model.CallLint _ a b c d e f => Some (Cmd_Model.CallLint args' a b c d e f)
    | Cmd_Model.CallInspectPackages _ => Some (Cmd_Model.CallInspectPackages args')
    | Cmd_Model.CallInspectPackageDeps _ a => Some (Cmd_Model.CallInspectPackageDeps args' a)
    | Cmd_Model.CallInspectPackageImporters _ a => Some (Cmd_Model.CallInspectPackageImporters args' a)
    | _ => None
    end.
  Definition of_args (k : Cmd_Model.call) : Prop :=
    match k with
    | Cmd_Model.CallAll x _ _ _ | Cmd_Model.CallBreakDescriptorSet x _ | Cmd_Model.CallCacheUpdate x | Cmd_Model.CallCompile x _ | Cmd_Model.CallDescriptorSet x _ _ _ _ | Cmd_Model.CallFiles x
    | Cmd_Model.CallFormat x _ _ _ _ | Cmd_Model.CallGen x _ | Cmd_Model.CallGRPC x _ _ _ _ _ _ _ _ _ _ _ _ _ _ _ | Cmd_Model.CallLint x _ _ _ _ _ _ | Cmd_Model.CallInspectPackages x
    | Cmd_Model.CallInspectPackageDeps x _ | Cmd_Model.CallInspectPackageImporters x _ | Cmd_Model.CallBreakCheck x _ _ => x = args
    | _ => True
    end.
  Ltac meta := apply meta_alike; intros ? ? ? (? & ? & ? & -> & -> & Tw).
  Lemma descriptor_alike a b c d s : let get := provider w r (io_disk s) in
    let go := fun x => PackageCmd_Model.descriptor_set (here r) (here r) (r_error_format r) (r_json r) Json_Model.failure_json (w_stat w) get (the_compiler w r) (w_sha256 w) (w_marshal w) (w_set_json w) (w_write_error w) (w_temp_file w) x a b c d s in
    alike_from s (go args) (go args').
  Proof.
    cbv zeta. unfold PackageCmd_Model.descriptor_set. destruct (_ && _); [left; reflexivity|]. meta. apply and_then_ext; [now apply do_compile_same|reflexivity].
  Qed.
  Lemma packages_alike s t : io_disk s = io_disk t -> let go := fun x => PackageCmd_Model.get_package_set_and_config (here r) (r_error_format r) (r_json r) Json_Model.failure_json (w_stat w) (provider w r (io_disk s)) (the_compiler w r) (the_commands w r) (here r) x t in
    alike_from t (go args) (go args').
  Proof. cbv zeta. intros _. unfold PackageCmd_Model.get_package_set_and_config. meta. apply and_then_ext; [now apply compile_same|reflexivity]. Qed.
  Lemma package_alike name s : let go := fun x => PackageCmd_Model.get_package (here r) (here r) (r_error_format r) (r_json r) Json_Model.failure_json (w_stat w) (provider w r (io_disk s)) (the_compiler w r) (the_commands w r) x name s in
    alike_from s (go args) (go args').
  Proof. cbv zeta. unfold PackageCmd_Model.get_package. destruct (is_empty name); [left; reflexivity|]. apply alike_then; [now apply packages_alike|reflexivity]. Qed.
  Lemma method_alike k k' s : of_args k -> elsewhere k = Some k' -> alike_from s (method w r k s) (method w r k' s).
  Proof.
    destruct k; try discriminate; cbn [of_args elsewhere]; intros ->; try (intros [= <-]); unfold Main_Model.method; cbv zeta.
    - meta. reflexivity.
    - meta. reflexivity.
    - meta. apply and_then_ext; [now apply compile_same|reflexivity].
    - meta. apply and_then_ext; [now apply compile_same|reflexivity].
    - unfold lint_cmd. destruct (more_than_one_set _); [left; reflexivity|]. destruct list_all_lint_groups; [left; reflexivity|]. destruct (negb (is_empty diff_lint_groups)); [left; reflexivity|].
      meta. destruct list_all_linters; [reflexivity|]. destruct list_linters; [reflexivity|]. destruct (negb (is_empty list_lint_group)); [reflexivity|].
      apply and_then_ext; [now apply compile_same|]. intros _ u. destruct generate_ignores; [reflexivity|]. now apply lint_same.
    - unfold format_cmd. destruct (more_than_one_set _); [left; reflexivity|]. meta. apply and_then_ext; [now apply compile_same|]. intros _ u. now apply format_same.
    - unfold all_cmd. meta. apply and_then_ext; [now apply compile_same|]. intros _ u. apply and_then_ext; [destruct disable_format; [reflexivity|now apply format_same]|]. intros _ v.
      apply and_then_ext; [now apply compile_same|]. intros _ ?. destruct disable_lint; [reflexivity|]. now apply lint_same.
    - unfold Grpc_Model.grpc. destruct (Grpc_Model.check_flags _); [left; reflexivity|]. do 4 (apply checked_first; intros ?). meta. apply and_then_ext; [now apply compile_same|reflexivity].
    - unfold PackageCmd_Model.inspect_packages. apply alike_then; [now apply packages_alike|reflexivity].
    - unfold PackageCmd_Model.inspect_package_deps. apply alike_then; [apply package_alike|reflexivity].
    - unfold PackageCmd_Model.inspect_package_importers. apply alike_then; [apply package_alike|reflexivity].
    - destruct (is_empty descriptor_set_path) eqn:De; [discriminate|]. intros [= <-]. unfold PackageCmd_Model.break_check. rewrite De. cbn [negb]. destruct (negb (is_empty git_branch) && true); [left; reflexivity|].
      apply alike_then; [now apply packages_alike|reflexivity].
    - unfold PackageCmd_Model.break_descriptor_set. destruct (is_empty output_path); [left; reflexivity|]. apply descriptor_alike.
    - apply descriptor_alike.
  Qed.
End Method.
