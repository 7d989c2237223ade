(** What create writes, however it ends. *)
From Verif Require Settings_Proofs Create_Proofs CreateOut_Proofs.
From Verif Require Import GoStrFacts GoPathFacts Settings_Spec File_Spec Exec_Spec Exec_Proofs Exec_Proofs3 Create_Model Create_Spec CreateOut_Spec Main_Model Main_Spec Main_Spec2 Main_Spec3
  Main_Proofs10 Main_Proofs14.

Lemma mapM_all {A B} (f : A -> result B) l us x : mapM f l = Ok us -> In x l -> exists u, f x = Ok u.
Proof.
  revert us. induction l as [|y l IH]; intros us M I; [destruct I|]. cbn [mapM] in M. destruct (f y) as [u|] eqn:E; [|discriminate M]. cbn [bind] in M.
  destruct (mapM f l) as [vs|]; [|discriminate M]. destruct I as [<-|I]; [eauto|]. now apply (IH vs).
Qed.
Section Loop.
  Variable w : world.
  Variable cwd : string.
  Variable data_for : string -> result string.
  Let one (f : string) : cmd unit := run d <- Exec_Model.check (data_for f); write_file (w_write_error w) (path_abs cwd f) d.
  Lemma loop_writes files : forall s s' o, each one files s = (s', o) ->
    exists es, io_done s' = io_done s ++ es /\ (exists k, map fst (written es) = firstn k (map (path_abs cwd) files)) /\
      forall p data, In (p, data) (written es) -> exists f, In f files /\ p = path_abs cwd f /\ data_for f = Ok data.
  Proof.
    induction files as [|f files IH]; intros s s' o H.
    - injection H as <- _. exists []. rewrite app_nil_r. split; [reflexivity|]. split; [exists 0; reflexivity|intros p d []].
    - cbn [each] in H. unfold and_then at 1 in H. destruct (one f s) as [s1 o1] eqn:O. unfold one, and_then in O. destruct (data_for f) as [d|] eqn:D; cbn [Exec_Model.check ret] in O.
      2:{ injection O as <- <-. injection H as <- _. exists []. rewrite app_nil_r. split; [reflexivity|]. split; [exists 0; reflexivity|intros p d []]. }
      assert (X : io_done s1 = io_done s ++ [Wrote (path_abs cwd f) d]).
      { unfold write_file in O. destruct (w_write_error w (path_abs cwd f) d) as [[? ?]|]; injection O as <- _; reflexivity. }
      assert (Stop : s' = s1 -> exists es, io_done s' = io_done s ++ es /\ (exists k, map fst (written es) = firstn k (map (path_abs cwd) (f :: files))) /\
        forall p data, In (p, data) (written es) -> exists g, In g (f :: files) /\ p = path_abs cwd g /\ data_for g = Ok data).
      { intros ->. exists [Wrote (path_abs cwd f) d]. split; [exact X|]. split; [exists 1; reflexivity|]. intros p data [[= <- <-]|[]]. exists f. cbn. auto. }
      destruct o1 as [[]|e|e]; [|injection H as <- _; now apply Stop..].
      destruct (IH _ _ _ H) as (es & E & (k & K) & P). exists (Wrote (path_abs cwd f) d :: es). split; [rewrite E, X, <- app_assoc; reflexivity|]. split.
      + exists (S k). cbn. unfold written in K. now rewrite K.
      + intros p data [[= <- <-]|I]; [exists f; cbn; auto|]. destruct (P _ _ I) as (g & G & R). exists g. cbn. auto.
  Qed.
End Loop.

Section Create.
  Variable w : world.
  Hypothesis V : visits_all (w_order w).
  Hypothesis So : sorts (w_sort_plugins w).
  Variable r : runner.
  Hypothesis Cl : clean_abs (here r).
  Variable s : io.
  Let cdir := get_for_dir (exists_at w (io_disk s)) (io_disk s) (w_decode_json w) (w_decode_yaml w) (w_look_path w) (w_sort_plugins w) false.
  Let cdata := get_for_data (io_disk s) (w_decode_json w) (w_look_path w) (w_sort_plugins w) false.
  Lemma data_made pkg f ds data : check_file_path (here r) (files_now w s) f = Ok tt ->
    create_data (w_order w) (here r) cdir cdata pkg (r_config_data r) f = Ok data -> ok_comps ds -> path_dir (path_abs (here r) f) = abs_path ds ->
    exists c p, in_force_for_new w (io_disk s) (r_config_data r) ds c /\
      data = CreateOut_Proofs.created_text (header_of_config c) p (created_settings (in_uber2 c) p f (prefix_of c)) /\
      (pkg <> "" -> p = pkg) /\
      (pkg = "" -> r_config_data r = "" -> (forall d base, ok_comps d -> In (abs_path d, base) (cr_dir_to_base (cfg_create c)) -> no_sibling d ds) ->
        exists cd default, searched (exists_at w (io_disk s)) ds cd /\ default_of c default /\ package_for (cr_dir_to_base (cfg_create c)) cd ds default p).
  Proof.
    intros Ck Cd Hds Ed.
    assert (C : exists fs', create (w_order w) (here r) cdir cdata pkg (r_config_data r) wr (files_now w s) [f] = (fs', Ok tt) /\ fs' (path_abs (here r) f) = Create_Model.Regular data).
    { unfold create. cbn [mapM]. rewrite Ck. cbn [bind create_files]. unfold create_file. rewrite Cd. cbn [wr]. eexists. split; [reflexivity|]. unfold fput. now rewrite String.eqb_refl. }
    destruct C as (fs' & C & Fd). assert (N : NoDup (map (path_abs (here r)) [f])) by (repeat constructor; intros []).
    destruct (CreateOut_Proofs.made_package _ _ _ _ _ _ _ _ _ So _ _ _ _ _ _ _ _ C (or_introl eq_refl) N Hds Ed) as (_ & c & p & Ec & _ & Ep & Ew).
    rewrite Fd in Ew. injection Ew as ->. exists c, p. split; [|split; [reflexivity|split]].
    - unfold create_get_config in Ec. rewrite Ed in Ec. destruct (is_empty (r_config_data r)) eqn:Ei; cbn [negb] in Ec.
      + left. apply is_empty_true in Ei. split; [exact Ei|]. now apply (dir_configured w So).
      + right. apply is_empty_false in Ei. split; [exact Ei|]. unfold get_for_data in Ec. rewrite is_abs_abs_path in Ec. cbn [negb] in Ec.
        destruct (w_decode_json w (r_config_data r)) as [e|]; [|discriminate Ec]. cbn [bind] in Ec. exists e. split; [reflexivity|].
        rewrite clean_abs_path in Ec by exact Hds. apply (Settings_Proofs.accepted _ _ _ _ So) in Ec; [exact Ec|exists ds; auto].
    - intros Hp. unfold get_pkg in Ep. apply is_empty_false in Hp. rewrite Hp in Ep. now injection Ep.
    - intros Hp Hd Ns. assert (Ec' := Ec). unfold create_get_config in Ec'. rewrite Ed, Hd in Ec'. cbn [is_empty negb] in Ec'.
      destruct (Create_Proofs.config_facts _ _ _ _ _ _ _ So _ _ Hds Ec') as (cd & rs & S & Hcd & Ers & Ecd & Nd & Clc & Lo).
      exists cd, (if in_uber2 c then default_package_v2 else default_package). split; [exact S|]. split.
      + unfold default_of, in_uber2. destruct (String.eqb _ _) eqn:Eq; [left; apply String.eqb_eq in Eq; auto|]. apply seqb_neq in Eq. right. auto.
      + eapply (Create_Proofs.package_spec (w_order w) V (here r) _ _ pkg (r_config_data r) f _ ds c cd); try eassumption.
        * rewrite Ers. apply Create_Proofs.no_sibling_prefix.
        * intros k b Hkb. rewrite Forall_forall in Clc. destruct (Clc _ Hkb) as (d & Hd' & Ek). cbn in Ek. subst k. exists d. eauto.
  Qed.
  Lemma create_writes args pkg s' o : create_cmd w r args pkg s = (s', o) ->
    exists es, io_done s' = io_done s ++ es /\ (exists k, map fst (written es) = firstn k (map (path_abs (here r)) args)) /\
      forall p data, In (p, data) (written es) -> (forall g, In g args -> check_file_path (here r) (files_now w s) g = Ok tt) /\
        exists f, In f args /\ p = path_abs (here r) f /\ create_data (w_order w) (here r) cdir cdata pkg (r_config_data r) f = Ok data.
  Proof.
    unfold create_cmd. cbv zeta. unfold and_then at 1. destruct (mapM (check_file_path (here r) (files_now w s)) args) as [us|] eqn:M; cbn [Exec_Model.check ret].
    2:{ intros [= <- _]. exists []. rewrite app_nil_r. split; [reflexivity|]. split; [exists 0; reflexivity|intros p d []]. }
    intros H. apply (loop_writes w (here r)) in H. destruct H as (es & E & K & P). exists es. split; [exact E|]. split; [exact K|]. intros p data I. split; [|now apply P].
    intros g G. destruct (mapM_all _ _ _ _ M G) as ([] & X). exact X.
  Qed.
End Create.
