(** What maps, schedules and slices cannot change: the methods. *)
From Coq Require Import Permutation Lia.
From Verif Require Import GoStrFacts GoMapFacts Lint_Spec Exec_Model Exec_Spec Exec_Proofs Exec_Proofs2 Settings_Model File_Model LintCmd_Model Create_Model.
From Verif Require Import Main_Model Main_Proofs7 Main_Proofs10 Chance_Spec Chance_Proofs Chance_Proofs2.

(** ** The longest configured directory *)
Lemma prefix_length_eq a b s : has_prefix s a = true -> has_prefix s b = true -> String.length a = String.length b -> a = b.
Proof.
  revert b s. induction a as [|x a IH]; intros [|y b] s A B L; try discriminate L; [reflexivity|]. destruct s as [|z s]; [discriminate A|].
  cbn [has_prefix] in A, B. apply andb_true_iff in A as (A1 & A2). apply andb_true_iff in B as (B1 & B2). apply Ascii.eqb_eq in A1, B1. subst.
  f_equal. injection L as L. eapply IH; eassumption.
Qed.
Lemma longest_is dir m : let r := longest_match dir m in
  (r = ("", "") /\ forall e, In e m -> has_prefix dir (fst e) = true -> fst e = "") \/
  (In r m /\ fst r <> "" /\ has_prefix dir (fst r) = true /\ forall e, In e m -> has_prefix dir (fst e) = true -> String.length (fst e) <= String.length (fst r)).
Proof.
  cbv zeta. induction m as [|e m IH] using rev_ind; [left; split; [reflexivity|intros ? []]|].
  unfold longest_match in *. rewrite fold_left_app. cbn [fold_left]. set (r := fold_left _ m ("", "")) in *.
  destruct (has_prefix dir (fst e)) eqn:P; cbn [negb].
  - destruct (Nat.ltb (String.length (fst r)) (String.length (fst e))) eqn:L.
    + apply Nat.ltb_lt in L. right. split; [apply in_or_app; right; now left|]. split; [intros E; rewrite E in L; cbn in L; lia|]. split; [exact P|].
      intros x Hx Px. apply in_app_or in Hx as [Hx|[<-|[]]]; [|lia].
      destruct IH as [(_ & Z)|(_ & _ & _ & Z)]; [rewrite (Z x Hx Px); cbn; lia|]. specialize (Z x Hx Px). lia.
    + apply Nat.ltb_ge in L. destruct IH as [(E & Z)|(A & B & C & Z)].
      * left. split; [exact E|]. intros x Hx Px. apply in_app_or in Hx as [Hx|[<-|[]]]; [now apply Z|]. rewrite E in L. cbn in L. destruct (fst e); [reflexivity|cbn in L; lia].
      * right. split; [apply in_or_app; now left|]. split; [exact B|]. split; [exact C|]. intros x Hx Px. apply in_app_or in Hx as [Hx|[<-|[]]]; [now apply Z|exact L].
  - destruct IH as [(E & Z)|(A & B & C & Z)].
    + left. split; [exact E|]. intros x Hx Px. apply in_app_or in Hx as [Hx|[<-|[]]]; [now apply Z|congruence].
    + right. split; [apply in_or_app; now left|]. split; [exact B|]. split; [exact C|]. intros x Hx Px. apply in_app_or in Hx as [Hx|[<-|[]]]; [now apply Z|congruence].
Qed.
Lemma longest_perm dir m m' : NoDup (map fst m) -> Permutation m m' -> longest_match dir m = longest_match dir m'.
Proof.
  intros N P. assert (I : forall e, In e m <-> In e m') by (intros e; split; apply Permutation_in; [assumption|now symmetry]).
  pose proof (longest_is dir m) as A. pose proof (longest_is dir m') as B. cbv zeta in A, B.
  destruct A as [(A & ZA)|(A & A1 & A2 & ZA)], B as [(B & ZB)|(B & B1 & B2 & ZB)].
  - congruence.
  - exfalso. apply B1. apply ZA; [now apply I|exact B2].
  - exfalso. apply A1. apply ZB; [now apply I|exact A2].
  - assert (F : fst (longest_match dir m) = fst (longest_match dir m')).
    { apply (prefix_length_eq _ _ dir A2 B2). pose proof (ZA _ (proj2 (I _) B) B2). pose proof (ZB _ (proj1 (I _) A) A2). lia. }
    apply I in B. revert A B F. generalize (longest_match dir m), (longest_match dir m'). intros [k v] [k' v'] A B F. cbn in F. subst k'. f_equal.
    apply (In_gget _ _ _ N) in A. apply (In_gget _ _ _ N) in B. congruence.
Qed.
Lemma converted_create read look sort devel e dir c : external_config_to_config read look sort devel e dir = Ok c -> NoDup (map fst (cr_dir_to_base (cfg_create c))).
Proof.
  unfold external_config_to_config. destruct (get_exclude_prefixes _ _); [|discriminate]. cbn [bind]. destruct (mapM _ _); [|discriminate]. cbn [bind].
  destruct (mapM _ _); [|discriminate]. cbn [bind]. destruct (convert_header _ _ _); [|discriminate]. cbn [bind]. destruct (_ && _); [discriminate|].
  destruct (mapM _ _); [|discriminate]. cbn [bind]. destruct (intersection _ _); [|discriminate]. intros [= <-]. cbn [cfg_create cr_dir_to_base]. apply build_NoDup.
Qed.
Lemma config_create ex read dj dy look sort devel dir c : get_config_for_dir ex read dj dy look sort devel dir = Ok c -> NoDup (map fst (cr_dir_to_base (cfg_create c))).
Proof.
  unfold get_config_for_dir, get_for_dir. destruct (get_file_path_for_dir _ _) as [f|]; [|discriminate]. cbn [bind]. destruct (is_empty f); [apply converted_create|].
  unfold get_for_file. destruct (negb _); [discriminate|]. destruct (get_external_config _ _ _ _); [|discriminate]. cbn [bind]. apply converted_create.
Qed.
Lemma data_create read dj look sort devel dir data c : get_config_for_data read dj look sort devel dir data = Ok c -> NoDup (map fst (cr_dir_to_base (cfg_create c))).
Proof. unfold get_config_for_data, get_for_data. destruct (negb _); [discriminate|]. destruct (dj data); [|discriminate]. cbn [bind]. apply converted_create. Qed.

Lemma compiled_aux (X Y : Protoc_Model.compiled file_set) :
  match X, Y with
  | Protoc_Model.Sets _ a, Protoc_Model.Sets _ b => a = [] /\ b = []
  | Protoc_Model.Failures _ a, Protoc_Model.Failures _ b => a = b
  | Protoc_Model.Error _ _, Protoc_Model.Error _ _ => True
  | Protoc_Model.Crash _, Protoc_Model.Crash _ => True
  | _, _ => False
  end ->
  let f x := match x with
    | Protoc_Model.Sets _ ds => Ok ([], map (@Protoc_Model.ds_set file_set) ds)
    | Protoc_Model.Failures _ fs => Ok (fs, [])
    | Protoc_Model.Error _ m => Err m
    | Protoc_Model.Crash _ => Err "runtime error: invalid memory address or nil pointer dereference"
    end in
  match f X, f Y with Ok a, Ok b => a = b | Err _, Err _ => True | _, _ => False end.
Proof. destruct X, Y; cbn; try contradiction; try trivial; [intros (-> & ->); reflexivity|congruence]. Qed.
Lemma each_eqv {A} (f : A -> string) l : forall s, exists es, each (fun a => println (f a)) l s = (mk_io (io_disk s) (io_done s ++ es), Value tt) /\ es = concat (map (fun a => if is_empty (f a) then [] else [Printed (f a +++ String newline "")]) l).
Proof.
  induction l as [|a l IH]; intros s.
  - exists []. cbn. rewrite app_nil_r. now destruct s.
  - cbn [each map concat]. unfold and_then. unfold println at 1. destruct (is_empty (f a)); cbn [ret].
    + apply IH.
    + unfold print, emit. destruct (IH (mk_io (io_disk s) (io_done s ++ [Printed (f a +++ String newline "")]))) as (es & -> & ->). eexists. split; [|reflexivity].
      cbn [io_disk io_done]. now rewrite <- app_assoc.
Qed.
Lemma lines_eqv l l' s : Permutation l l' -> ends_same eqv (each println l s) (each println l' s).
Proof.
  intros P. destruct (each_eqv (fun x => x) l s) as (es & A & ->). destruct (each_eqv (fun x => x) l' s) as (es & B & ->). 
  change (each (fun a => println a)) with (each println) in A, B. rewrite A, B. split; [reflexivity|]. split; [reflexivity|]. cbn [io_done]. apply Permutation_app_head.
  clear - P. induction P; cbn [map concat]; [reflexivity|now apply Permutation_app_head| |etransitivity; eassumption].
  rewrite !app_assoc. apply Permutation_app_tail, Permutation_app_comm.
Qed.

Section Chance.
  Variable w : world.
  Variable o : map_order.
  Variable e : nat -> list nat.
  Variable g : nat -> nat -> nat.
  Hypothesis V : visits_all (w_order w).
  Hypothesis V' : visits_all o.
  Hypothesis E : ends_once (w_ended w).
  Hypothesis E' : ends_once e.
  Hypothesis T : forall n f, w_protoc_temp w n = Ok f -> f <> "".
  Hypothesis Nm : forall p, File_Spec.named (w_node_at w p).
  Hypothesis St : forall k, w_stat w "" <> Ok k.
  Notation w' := (other_chance w o e g).
  Variable r : runner.
  Hypothesis Cl : clean_abs (here r).

  Lemma provider_same disk work dir : match provider w r disk work dir, provider w' r disk work dir with Ok a, Ok b => a = b | Err _, Err _ => True | _, _ => False end.
  Proof.
    unfold provider. cbn [other_chance w_order w_node_at w_decode_json w_decode_yaml w_look_path w_sort_plugins w_too_slow]. change (exists_at w' disk) with (exists_at w disk).
    pose proof (provide_same (w_order w) o (here r) (w_node_at w) (exists_at w disk) disk (w_decode_json w) (w_decode_yaml w) (w_look_path w) (w_sort_plugins w) false (r_config_data r) work dir) as A.
    pose proof (provide_same o (w_order w) (here r) (w_node_at w) (exists_at w disk) disk (w_decode_json w) (w_decode_yaml w) (w_look_path w) (w_sort_plugins w) false (r_config_data r) work dir) as B.
    destruct (provider_get_for_dir (w_order w) _ _ _ _ _ _ _ _ _ _ _ _) as [s|m], (provider_get_for_dir o _ _ _ _ _ _ _ _ _ _ _ _) as [s'|m']; cbn [bind].
    - specialize (A s V V' eq_refl). injection A as ->. destruct (_ =? 0)%Z; [reflexivity|]. destruct (w_too_slow w _ _); reflexivity.
    - specialize (A s V V' eq_refl). discriminate A.
    - specialize (B s' V' V eq_refl). discriminate B.
    - exact I.
  Qed.
  Notation getm v := (get_meta (here r) (w_stat w) (provider v r _)).
  Lemma meta_same disk args s : ends_same eq (get_meta (here r) (w_stat w) (provider w r disk) args s) (get_meta (here r) (w_stat w) (provider w' r disk) args s).
  Proof.
    unfold get_meta. apply same_then. intros [| |] t; [..|apply same_cmd].
    - apply ends_then; [apply check_same, provider_same|]. intros a u u' <-. apply same_cmd.
    - apply ends_then; [apply check_same, provider_same|]. intros a u u' <-. apply same_cmd.
  Qed.
  (** Whatever comes after it may use that the meta was found. *)
  Lemma meta_then {B} (R : io -> io -> Prop) disk args (k k' : meta -> cmd B) s : (forall t, R t t) ->
    (forall m t, found (here r) (w_stat w) (provider w r disk) args m -> ends_same R (k m t) (k' m t)) ->
    ends_same R (and_then (get_meta (here r) (w_stat w) (provider w r disk) args) k s) (and_then (get_meta (here r) (w_stat w) (provider w' r disk) args) k' s).
  Proof.
    intros Rr K. pose proof (meta_same disk args s) as M. destruct (get_meta_pure (here r) (w_stat w) (provider w r disk) args) as (x & X & F). unfold and_then. rewrite X in *.
    unfold ends_same in M. cbn [fst snd] in M. destruct (get_meta (here r) (w_stat w) (provider w' r disk) args s) as [s2 [a|a|a]]; cbn [fst snd] in M; destruct x as [m|m|m]; try contradiction; try exact I.
    - destruct M as (-> & <-). destruct F as [(m' & [= <-] & F)|((u & U) & _)]; [now apply K|discriminate U].
    - destruct M as (-> & <-). unfold ends_same. cbn [fst snd]. auto.
  Qed.
  Lemma compiler_same disk ps : match the_compiler w r false false None disk ps, the_compiler w' r false false None disk ps with Ok a, Ok b => a = b | Err _, Err _ => True | _, _ => False end.
  Proof.
    pose proof (plain_compile (w_order w) o (w_grow w) g (with_downloader w r ps (fun _ => Ok tt)) (with_downloader w r ps (fun d => do _ <- cached w r d; Ok tt))
      (with_downloader w r ps (fun d => Download_Model.wkt_include_path d (cached w r d))) (with_downloader w r ps (fun d => Download_Model.protoc_path d (cached w r d))) (w_protoc_temp w) ps
      (w_mkdir_all w) (w_mkdir_all w) _
      (w_protoc_set w disk (match the_cmd_metas w r false false None ps with Ok ms => map Protoc_Model.cm_args ms | Err _ => [] end))
      (w_protoc_set w disk (match the_cmd_metas w' r false false None ps with Ok ms => map Protoc_Model.cm_args ms | Err _ => [] end))
      (w_protoc w disk) (w_ended w) e Protoc_Model.state_0 V V' T E E') as P.
    exact (compiled_aux _ _ P).
  Qed.
  Lemma commands_same ps : match the_commands w r false ps, the_commands w' r false ps with Ok a, Ok b => Permutation a b | Err _, Err _ => True | _, _ => False end.
  Proof.
    pose proof (plain_metas (w_order w) o (w_grow w) g (with_downloader w r ps (fun _ => Ok tt)) (with_downloader w r ps (fun d => do _ <- cached w r d; Ok tt))
      (with_downloader w r ps (fun d => Download_Model.wkt_include_path d (cached w r d))) (with_downloader w r ps (fun d => Download_Model.protoc_path d (cached w r d))) (w_protoc_temp w) ps
      Protoc_Model.state_0 Protoc_Model.state_0 V V' T) as P.
    unfold the_commands, Protoc_Model.protoc_commands. cbn [other_chance w_order w_grow w_protoc_temp].
    change (@with_downloader w' r) with (@with_downloader w r). change (cached w' r) with (cached w r).
    destruct (Protoc_Model.get_cmd_metas (w_order w) _ _ _ _ _ _ _ _ _ _ _ _ _) as [x [a|a]], (Protoc_Model.get_cmd_metas o _ _ _ _ _ _ _ _ _ _ _ _ _) as [y [b|b]]; cbn [snd] in *; try contradiction; [|exact I].
    apply Permutation_map, P.
  Qed.
  Notation compile_of v := (Exec_Model.compile (here r) (r_error_format r) (r_json r) Json_Model.failure_json file_set (the_compiler v r) (the_commands v r)).
  Lemma compile_same m s : ends_same eq (compile_of w false false false m s) (compile_of w' false false false m s).
  Proof.
    unfold Exec_Model.compile, do_compile. apply same_then. intros _ t. apply ends_then.
    - apply check_same, compiler_same.
    - intros a u u' <-. apply same_cmd.
  Qed.
  Lemma dry_same m s : ends_same eqv (compile_of w false false true m s) (compile_of w' false false true m s).
  Proof.
    unfold Exec_Model.compile. pose proof (commands_same (m_set m)) as C. unfold and_then at 1. unfold and_then at 2. unfold Exec_Model.check.
    destruct (the_commands w r false (m_set m)) as [a|a], (the_commands w' r false (m_set m)) as [b|b]; try contradiction; [|exact I].
    apply ends_then; [now apply lines_eqv|]. intros _ u u' H. split; [reflexivity|exact H].
  Qed.
  Lemma eqv_eq {A} (x y : io * outcome A) : ends_same eq x y -> ends_same eqv x y.
  Proof. apply ends_same_weak. intros a b <-. apply eqv_refl. Qed.
  Lemma found_keys disk args m : found (here r) (w_stat w) (provider w r disk) args m -> NoDup (map fst (ps_files (m_set m))).
  Proof.
    assert (K : forall dir ps, provider w r disk (here r) dir = Ok ps -> NoDup (map fst (ps_files ps))).
    { intros dir ps H. unfold provider in H.
      destruct (provider_get_for_dir _ _ _ _ _ _ _ _ _ _ _ _ _) as [s|] eqn:P; [|discriminate H]. cbn [bind] in H.
      assert (s = ps) as -> by (destruct (_ =? 0)%Z; [now injection H|]; destruct (w_too_slow _ _ _); [discriminate H|now injection H]).
      apply File_Proofs3.provide_ok in P; [|exact V]. destruct P as (_ & _ & root & fs & _ & _ & (G & _) & _). exact G. }
    intros [ps S G|ps S G]; cbn [m_set]; eapply K; exact G.
  Qed.
  Notation files_of v s := (files_cmd (w_order v) (here r) (w_stat v) (provider v r (io_disk s))).
  Lemma files_same args s : ends_same eq (files_of w s args s) (files_of w' s args s).
  Proof.
    unfold files_cmd. cbn [other_chance w_stat w_order]. apply meta_then; [reflexivity|]. intros m t F. cbv zeta.
    match goal with |- ends_same _ (each _ ?a _) (each _ ?b _) => replace b with a; [apply same_cmd|] end.
    change (isort str_leb) with sort_strings. apply sort_strings_unique. apply Exec_Proofs3.concat_map_perm, LintRun_Proofs.filter_perm.
    now rewrite <- (V "Files" _ (ps_files (m_set m))), <- (V' "Files" _ (ps_files (m_set m))).
  Qed.
  Notation lint_of v s := (lint_cmd (w_order v) (here r) (here r) (r_error_format r) (r_json r) Json_Model.failure_json (w_stat v) (provider v r (io_disk s)) file_set (the_compiler v r) (the_commands v r)
    (w_parse v) (w_singularize v) (Lint_Purpose.purpose_of (all_linters (w_order v) (w_singularize v))) (w_encode_ignores v)).
  Lemma lint_same args a b c d f h s : ends_same eq (lint_of w s args a b c d f h s) (lint_of w' s args a b c d f h s).
  Proof.
    unfold lint_cmd. cbn [other_chance w_stat w_order w_parse w_singularize w_encode_ignores]. destruct (more_than_one_set _); [apply same_cmd|].
    destruct c; [exact (list_groups_same _ _ V V' _)|]. destruct (negb (is_empty f)); [exact (diff_groups_same _ _ V V' _ _)|].
    apply meta_then; [reflexivity|]. intros m t F. pose proof (found_keys _ _ _ F) as K.
    destruct a; [exact (list_all_same _ _ _ _ _)|]. destruct b; [exact (list_linters_same _ _ V V' "" (w_parse w) _ _ _)|]. destruct (negb (is_empty d)); [exact (list_group_same _ _ _ _ _ _)|].
    apply ends_then; [apply compile_same|]. intros _ u u' <-. destruct h; [now apply generate_same|].
    unfold lint. apply ends_then; [|intros x v v' <-; apply same_cmd]. apply check_same. now apply run_lint_same.
  Qed.
  Notation format_of v s := (format_cmd (w_order v) (here r) (here r) (r_error_format r) (r_json r) Json_Model.failure_json (w_stat v) (provider v r (io_disk s)) file_set (the_compiler v r) (the_commands v r)
    (the_transform v) (w_diff v) (w_write_error v)).
  Lemma format_cmd_same args a b c d s : ends_same eqv (format_of w s args a b c d s) (format_of w' s args a b c d s).
  Proof.
    unfold format_cmd. cbn [other_chance w_stat w_order w_diff w_write_error]. change (the_transform w') with (the_transform w).
    destruct (more_than_one_set _); [apply eqv_eq, same_cmd|]. apply meta_then; [apply eqv_refl|]. intros m t F.
    pose proof (proj1 (found_files w V Nm St r Cl _ _ _ F)) as D. pose proof (compile_same m t) as C.
    unfold and_then. unfold ends_same in C. destruct (compile_of w false false false m t) as [t1 [x|x|x]], (compile_of w' false false false m t) as [t2 [y|y|y]]; cbn [fst snd] in C; try contradiction.
    - destruct C as (_ & <-). now apply format_same.
    - destruct C as (-> & <-). apply eqv_eq. split; reflexivity.
    - exact I.
  Qed.
  Lemma create_same files pkg s : ends_same eq (create_cmd w r files pkg s) (create_cmd w' r files pkg s).
  Proof.
    unfold create_cmd. cbn [other_chance w_stat w_order w_decode_json w_decode_yaml w_look_path w_sort_plugins w_write_error]. change (exists_at w') with (exists_at w). change (files_now w') with (files_now w).
    set (fd := get_config_for_dir _ _ _ _ _ _ _). set (fa := get_config_for_data _ _ _ _ _).
    apply same_then. intros _ t. revert t. induction files as [|f files IH]; intros t; cbn [each]; [apply same_cmd|].
    apply ends_then; [|intros _ u u' <-; apply IH].
    assert (C : create_data (w_order w) (here r) fd fa pkg (r_config_data r) f = create_data o (here r) fd fa pkg (r_config_data r) f).
    { unfold create_data. destruct (create_is_v2 _ _ _ _ _) as [v2|]; [|reflexivity]. cbn [bind]. destruct (get_file_header _ _ _ _ _) as [h|]; [|reflexivity]. cbn [bind].
      assert (P : forall d, get_pkg (w_order w) (here r) fd fa pkg (r_config_data r) f d = get_pkg o (here r) fd fa pkg (r_config_data r) f d); [|now rewrite P].
      intros d. unfold get_pkg. destruct (negb (is_empty pkg)); [reflexivity|]. destruct (create_get_config _ _ _ _ _) as [c|] eqn:Q; [|reflexivity]. cbn [bind].
      assert (N : NoDup (map fst (cr_dir_to_base (cfg_create c)))). { unfold create_get_config in Q. destruct (negb _); [apply data_create in Q|apply config_create in Q]; exact Q. }
      rewrite (longest_perm _ (w_order w "DirPathToBasePackage" _ (cr_dir_to_base (cfg_create c))) (o "DirPathToBasePackage" _ (cr_dir_to_base (cfg_create c)))); [reflexivity| |].
      - eapply Permutation_NoDup; [apply Permutation_map, V|exact N].
      - now rewrite <- (V "DirPathToBasePackage" _ _), <- (V' "DirPathToBasePackage" _ _). }
    rewrite C. apply same_cmd.
  Qed.
  Lemma update_same args s : ends_same eq (cache_update w r args s) (cache_update w' r args s).
  Proof. unfold cache_update. cbn [other_chance w_stat]. apply meta_then; [reflexivity|]. intros m t _. apply same_cmd. Qed.
  Lemma delete_same s : ends_same eq (cache_delete_cmd w r s) (cache_delete_cmd w' r s).
  Proof. unfold cache_delete_cmd. cbn [other_chance w_stat]. apply meta_then; [reflexivity|]. intros m t _. apply same_cmd. Qed.
  Notation compile_cmd_of v s := (compile_cmd (here r) (here r) (r_error_format r) (r_json r) Json_Model.failure_json (w_stat v) (provider v r (io_disk s)) file_set (the_compiler v r) (the_commands v r)).
  Lemma compile_cmd_same args s : ends_same eq (compile_cmd_of w s args false s) (compile_cmd_of w' s args false s).
  Proof.
    unfold compile_cmd. cbn [other_chance w_stat]. apply meta_then; [reflexivity|]. intros m t _. apply ends_then; [apply compile_same|]. intros _ u u' <-. apply same_cmd.
  Qed.
  Lemma compile_dry_same args s : ends_same eqv (compile_cmd_of w s args true s) (compile_cmd_of w' s args true s).
  Proof.
    unfold compile_cmd. cbn [other_chance w_stat]. apply meta_then; [apply eqv_refl|]. intros m t _. apply ends_then; [apply dry_same|]. intros _ u u' H. split; [reflexivity|exact H].
  Qed.

  (** The methods that end in the same way. *)
  Definition settled (k : Cmd_Model.call) : bool :=
    match k with
    | Cmd_Model.CallInit _ _ _ | Cmd_Model.CallCreate _ _ | Cmd_Model.CallVersion | Cmd_Model.CallCacheUpdate _ | Cmd_Model.CallCacheDelete | Cmd_Model.CallFiles _
    | Cmd_Model.CallCompile _ false | Cmd_Model.CallLint _ _ _ _ _ _ _ => true
    | _ => false
    end.
  Lemma method_same k s : settled k = true -> ends_same eq (method w r k s) (method w' r k s).
  Proof.
    destruct k; try discriminate; intros K.
    - apply same_cmd.
    - apply create_same.
    - apply same_cmd.
    - apply update_same.
    - apply delete_same.
    - apply files_same.
    - destruct dry_run; [discriminate K|]. apply compile_cmd_same.
    - apply lint_same.
  Qed.
End Chance.
