(** create in the whole program. *)
From Coq Require Import Permutation.
From Verif Require Settings_Proofs Create_Proofs CreateOut_Proofs.
From Verif Require Import GoStrFacts GoPathFacts Settings_Spec File_Spec Exec_Spec Exec_Proofs Create_Model Create_Spec CreateOut_Spec Main_Model Main_Spec Main_Spec2 Main_Spec3
  Main_Proofs10.

Section Loop.
  Variable w : world.
  Variable cwd : string.
  Variable ord : order.
  Variable cdir : string -> result config.
  Variable cdata : string -> string -> result config.
  Variable pkg cd : string.
  Definition wr (_ : string) : write_outcome := WriteOk.
  Let one (f : string) : cmd unit := run d <- Exec_Model.check (create_data ord cwd cdir cdata pkg cd f); write_file (w_write_error w) (path_abs cwd f) d.
  Lemma loop_creates files : forall s s' fs, (forall p, fs p = files_now w s p) -> each one files s = (s', Value tt) ->
    exists fs', create_files ord cwd cdir cdata pkg cd wr fs files = (fs', Ok tt) /\ forall p, fs' p = files_now w s' p.
  Proof.
    induction files as [|f files IH]; intros s s' fs E H; [injection H as <-; exists fs; split; [reflexivity|exact E]|].
    cbn [each] in H. unfold and_then at 1 in H. destruct (one f s) as [s1 [[]|?|?]] eqn:O; [|discriminate..]. cbn [create_files]. unfold create_file.
    unfold one, and_then in O. destruct (create_data ord cwd cdir cdata pkg cd f) as [d|]; [|discriminate O]. cbn [Exec_Model.check ret] in O. unfold write_file in O.
    destruct (w_write_error w (path_abs cwd f) d) as [[? ?]|]; [discriminate O|]. injection O as <-. cbn [wr]. eapply IH; [|exact H].
    intros p. unfold fput, files_now. cbn [io_disk]. destruct (String.eqb p (path_abs cwd f)); [reflexivity|]. rewrite E. reflexivity.
  Qed.
End Loop.
Lemma mapM_err {A B} (f : A -> result B) l x m : In x l -> f x = Err m -> exists e, mapM f l = Err e.
Proof.
  induction l as [|y l IH]; intros I E; [destruct I|]. cbn [mapM]. destruct I as [->|I]; [rewrite E; eexists; reflexivity|].
  destruct (f y); [|eexists; reflexivity]. cbn [bind]. destruct (IH I E) as (e & ->). eexists. reflexivity.
Qed.
Lemma in_the_way_err w cwd s f : in_the_way w (io_disk s) cwd f -> exists m, check_file_path cwd (files_now w s) f = Err m.
Proof.
  intros H. unfold check_file_path. destruct (is_empty f) eqn:Ef; [eauto|]. apply is_empty_false in Ef. unfold files_now.
  destruct H as [H|[(data & H)|[H|[(data & H & N)|(m & k & H & K)]]]].
  - contradiction.
  - rewrite H. eauto.
  - destruct (io_disk s (path_abs cwd (path_dir f))); [eauto|]. destruct (w_stat w (path_abs cwd (path_dir f))) as [[]|]; try (now destruct H); eauto.
  - destruct (io_disk s (path_abs cwd (path_dir f))); [eauto|]. destruct (w_stat w (path_abs cwd (path_dir f))) as [[]|]; eauto. rewrite H.
    apply is_empty_false in N. rewrite N. eauto.
  - destruct (io_disk s (path_abs cwd (path_dir f))); [eauto|]. destruct (w_stat w (path_abs cwd (path_dir f))) as [[]|]; eauto. rewrite H, K. destruct k; eauto.
Qed.

Section Create.
  Variable w : world.
  Hypothesis V : visits_all (w_order w).
  Hypothesis So : sorts (w_sort_plugins w).
  Variable r : runner.
  Hypothesis Cl : clean_abs (here r).
  Lemma create_blocked args pkg s f : In f args -> in_the_way w (io_disk s) (here r) f -> exists m, create_cmd w r args pkg s = (s, Fail m).
  Proof.
    intros I H. destruct (in_the_way_err _ _ _ _ H) as (m & E). destruct (mapM_err _ _ _ _ I E) as (e & X).
    unfold create_cmd, and_then. rewrite X. exists e. reflexivity.
  Qed.
  Lemma create_made args pkg s s' f ds : create_cmd w r args pkg s = (s', Value tt) -> In f args -> NoDup (map (path_abs (here r)) args) ->
    ok_comps ds -> path_dir (path_abs (here r) f) = abs_path ds ->
    f <> "" /\ exists c p, in_force_for_new w (io_disk s) (r_config_data r) ds c /\
      io_disk s' (path_abs (here r) f) = Ok (CreateOut_Proofs.created_text (header_of_config c) p (created_settings (in_uber2 c) p f (prefix_of c))) /\
      (pkg <> "" -> p = pkg) /\
      (pkg = "" -> r_config_data r = "" -> (forall d base, ok_comps d -> In (abs_path d, base) (cr_dir_to_base (cfg_create c)) -> no_sibling d ds) ->
        exists cd default, searched (exists_at w (io_disk s)) ds cd /\ default_of c default /\ package_for (cr_dir_to_base (cfg_create c)) cd ds default p).
  Proof.
    intros H If N Hds Ed. unfold create_cmd in H. unfold and_then at 1 in H. destruct (mapM (check_file_path (here r) (files_now w s)) args) as [us|] eqn:M; [|discriminate H].
    cbn [Exec_Model.check ret] in H.
    destruct (loop_creates w (here r) (w_order w) _ _ pkg (r_config_data r) args s s' (files_now w s) (fun p => eq_refl) H) as (fs' & R & E').
    assert (C : create (w_order w) (here r)
      (get_for_dir (exists_at w (io_disk s)) (io_disk s) (w_decode_json w) (w_decode_yaml w) (w_look_path w) (w_sort_plugins w) false)
      (get_for_data (io_disk s) (w_decode_json w) (w_look_path w) (w_sort_plugins w) false) pkg (r_config_data r) wr (files_now w s) args = (fs', Ok tt)).
    { unfold create. rewrite M. exact R. }
    destruct (CreateOut_Proofs.made_package _ _ _ _ _ _ _ _ _ So _ _ _ _ _ _ _ _ C If N Hds Ed) as (Fn & c & p & Ec & _ & Ep & Ew).
    split; [exact Fn|]. exists c, p. split; [|split; [|split]].
    - unfold create_get_config in Ec. rewrite Ed in Ec. destruct (is_empty (r_config_data r)) eqn:Ei; cbn [negb] in Ec.
      + left. apply is_empty_true in Ei. split; [exact Ei|]. now apply (dir_configured w So).
      + right. apply is_empty_false in Ei. split; [exact Ei|]. unfold get_for_data in Ec. rewrite is_abs_abs_path in Ec. cbn [negb] in Ec.
        destruct (w_decode_json w (r_config_data r)) as [e|]; [|discriminate Ec]. cbn [bind] in Ec. exists e. split; [reflexivity|].
        rewrite clean_abs_path in Ec by exact Hds. apply (Settings_Proofs.accepted _ _ _ _ So) in Ec; [exact Ec|exists ds; auto].
    - rewrite E' in Ew. unfold files_now in Ew. destruct (io_disk s' (path_abs (here r) f)) as [t|]; [injection Ew as ->; reflexivity|].
      destruct (w_stat w (path_abs (here r) f)) as [[]|]; discriminate Ew.
    - intros Hp. unfold get_pkg in Ep. apply is_empty_false in Hp. rewrite Hp in Ep. now injection Ep.
    - intros Hp Hd Ns. assert (Ec' := Ec). unfold create_get_config in Ec'. rewrite Ed, Hd in Ec'. cbn [is_empty negb] in Ec'.
      destruct (Create_Proofs.config_facts _ _ _ _ _ _ _ So _ _ Hds Ec') as (cd & rs & S & Hcd & Ers & Ecd & Nd & Clc & Lo).
      exists cd, (if in_uber2 c then default_package_v2 else default_package). split; [exact S|]. split.
      + unfold default_of, in_uber2. destruct (String.eqb _ _) eqn:Eq; [left; apply String.eqb_eq in Eq; auto|]. apply seqb_neq in Eq. right. auto.
      + eapply (Create_Proofs.package_spec (w_order w) V (here r) _ _ pkg (r_config_data r) f _ ds c cd); try eassumption.
        * rewrite Ers. apply Create_Proofs.no_sibling_prefix.
        * intros k b Hkb. rewrite Forall_forall in Clc. destruct (Clc _ Hkb) as (d & Hd' & Ek). cbn in Ek. subst k. exists d. eauto.
  Qed.
End Create.
