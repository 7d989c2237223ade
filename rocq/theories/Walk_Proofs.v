(** The walk with a timeout returns the complete list or an error. *)
From Coq Require Import Lia.
From Verif Require Import GoStrFacts GoPathFacts Settings_Model File_Model File_Proofs Walk_Model.

Section Machine.
  Variable ex : string -> bool.
  Variable read : string -> result string.
  Variable dj dy : string -> result external_config.
  Variable data work root : string.
  Variable timeout : bool.
  Notation walkp := (walk ex read dj dy data work root).
  Notation step := (step ex read dj dy data work root timeout).
  Notation steps := (steps ex read dj dy data work root timeout).
  (** The rest of the walk, without a timeout. *)
  Fixpoint run (todo : list (string * node)) (st : walk_state) : result walk_state :=
    match todo with
    | [] => Ok st
    | (path, n) :: todo' => do st' <- walkp path n st; run todo' st'
    end.
  Lemma run_app a b st : run (a ++ b) st = do st' <- run a st; run b st'.
  Proof.
    revert st. induction a as [|[p n] a IH]; intros st; [reflexivity|]. cbn [app run].
    destruct (walkp p n st); [|reflexivity]. cbn [bind]. apply IH.
  Qed.
  Lemma walk_dir_run path es st : walkp path (NDir es) st =
    do r <- visit_path ex read dj dy data work root path true st;
    match r with (VSkipDir, st) => Ok st | (VContinue, st) => run (map (fun e => (path_join [path; fst e], snd e)) es) st end.
  Proof.
    cbn [walk]. destruct (visit_path ex read dj dy data work root path true st) as [[[] st1]|]; [|reflexivity|reflexivity]. cbn [bind].
    revert st1. induction es as [|[name c] es IH]; intros st1; [reflexivity|]. cbn [map run fst snd].
    destruct (walkp (path_join [path; name]) c st1) as [st2|]; [|reflexivity]. cbn [bind]. apply IH.
  Qed.
  Definition outcome (w : walker) : option (result walk_state) :=
    match w with Walking todo st => Some (run todo st) | Sending r => Some r | Sent => None end.
  Lemma walk_step_unseen path n todo st : outcome (walk_step ex read dj dy data work root false path n todo st) = Some (run ((path, n) :: todo) st).
  Proof.
    cbn [run]. destruct n as [|es| |]; cbn [walk_step].
    - cbn [walk]. destruct (visit_path ex read dj dy data work root path false st) as [[v st']|]; reflexivity.
    - rewrite walk_dir_run. destruct (visit_path ex read dj dy data work root path true st) as [[[] st']|]; cbn [bind outcome]; [|reflexivity|reflexivity].
      now rewrite run_app.
    - reflexivity.
    - reflexivity.
  Qed.
  Lemma walk_step_seen path n todo st : exists m, walk_step ex read dj dy data work root true path n todo st = Sending (Err m).
  Proof. destruct n; cbn [walk_step]; eauto. Qed.

  Variable n : node.
  Variable excludes : list string.
  Notation total := (walkp root n (mk_walk_state excludes [])).
  Definition good (s : machine) : Prop :=
    match ms_caller s with
    | Selecting => ms_timed_out s = false /\ outcome (ms_walker s) = Some total
    | AfterTimeout => timeout = true /\ ms_timed_out s = true /\
        (outcome (ms_walker s) = Some total \/ exists m, outcome (ms_walker s) = Some (Err m))
    | Returned (Ok fs) => exists st, total = Ok st /\ fs = w_files st
    | Returned (Err m) => timeout = true \/ total = Err m
    end.
  Lemma good_start : good (start root n excludes).
  Proof. unfold good, start. cbn [ms_caller ms_timed_out ms_walker outcome run]. split; [reflexivity|]. now destruct total. Qed.
  Lemma good_step s s' : good s -> step s s' -> good s'.
  Proof.
    intros G H. destruct H as [seen path nd todo st t c Hs|st t c|r t|w t Ht|r t]; unfold good in *; cbn [ms_caller ms_timed_out ms_walker] in *.
    - destruct c as [| |[fs|m]]; auto.
      + destruct G as [-> G]. destruct seen; [now specialize (Hs eq_refl)|]. split; [reflexivity|]. now rewrite walk_step_unseen.
      + destruct G as (G1 & G2 & G3). split; [assumption|]. split; [assumption|]. destruct seen.
        * right. destruct (walk_step_seen path nd todo st) as (m & ->). cbn. eauto.
        * rewrite walk_step_unseen. exact G3.
    - destruct c as [| |[fs|m]]; auto.
    - destruct G as [-> G]. cbn [outcome] in G. injection G as <-. destruct r as [st|m]; [eauto|]. now right.
    - destruct G as [-> G]. auto.
    - destruct G as (G1 & _). destruct r; now left.
  Qed.
  Lemma good_steps s : steps (start root n excludes) s -> good s.
  Proof.
    intros H. remember (start root n excludes) as s0 eqn:E. induction H as [s|s s' s'' H IH H1]; [subst; apply good_start|].
    eapply good_step; [|exact H1]. auto.
  Qed.
  Theorem timeout_complete t w r : steps (start root n excludes) (mk_machine w t (Returned r)) ->
    match r with
    | Ok fs => exists st, total = Ok st /\ fs = w_files st
    | Err m => timeout = true \/ total = Err m
    end.
  Proof. intros H. apply good_steps in H. exact H. Qed.
  (** Once the timer branch is taken the answer is an error. *)
  Lemma late_step s s' : ms_caller s = AfterTimeout \/ (exists m, ms_caller s = Returned (Err m)) -> step s s' ->
    ms_caller s' = AfterTimeout \/ (exists m, ms_caller s' = Returned (Err m)).
  Proof.
    intros G H. destruct H as [seen path nd todo st t c Hs|st t c|r t|w t Ht|r t]; cbn [ms_caller] in *; auto.
    - destruct G as [G|(m & G)]; discriminate.
    - right. destruct r; eauto.
  Qed.
  Theorem timeout_late s w r t : ms_caller s = AfterTimeout -> steps s (mk_machine w t (Returned r)) -> exists m, r = Err m.
  Proof.
    intros Hs H. enough (forall s2, steps s s2 -> ms_caller s2 = AfterTimeout \/ exists m, ms_caller s2 = Returned (Err m)) as K.
    { apply K in H. cbn in H. destruct H as [H|(m & H)]; [discriminate|]. injection H as ->. eauto. }
    clear w r t H. intros s2 H. induction H as [s|s s' s'' H IH H1]; [auto|]. eapply late_step; eauto.
  Qed.

  (** ** No execution gets stuck or goes on for ever *)
  Fixpoint weight (n : node) : nat :=
    match n with
    | NDir es => S ((fix go (l : list (string * node)) : nat := match l with [] => 0 | e :: l' => weight (snd e) + go l' end) es)
    | _ => 1
    end.
  Fixpoint weights (l : list (string * node)) : nat := match l with [] => 0 | e :: l' => weight (snd e) + weights l' end.
  Lemma weight_dir es : weight (NDir es) = S (weights es).
  Proof. cbn [weight]. f_equal. Qed.
  Lemma weights_app a b : weights (a ++ b) = weights a + weights b.
  Proof. induction a as [|x a IH]; [reflexivity|]. cbn [app weights]. lia. Qed.
  Lemma weights_map path es : weights (map (fun e => (path_join [path; fst e], snd e)) es) = weights es.
  Proof. induction es as [|e es IH]; [reflexivity|]. cbn [map weights snd]. lia. Qed.
  Definition measure (s : machine) : nat :=
    (match ms_walker s with Walking todo _ => 2 + weights todo | Sending _ => 1 | Sent => 0 end) +
    (match ms_caller s with Selecting => 1 | AfterTimeout => 0 | Returned _ => 0 end).
  Theorem step_measure s s' : step s s' -> measure s' < measure s.
  Proof.
    intros H. destruct H as [seen path nd todo st t c Hs|st t c|r t|w t Ht|r t]; unfold measure; cbn [ms_walker ms_caller weights snd]; try lia.
    destruct nd as [|es| |]; cbn [walk_step]; [| |cbn [weight]; lia|cbn [weight]; lia].
    - destruct seen; [cbn [weight]; lia|].
      destruct (visit_path ex read dj dy data work root path false st) as [[v st']|]; cbn [weight]; lia.
    - destruct seen; [lia|]. rewrite weight_dir.
      destruct (visit_path ex read dj dy data work root path true st) as [[[] st']|]; [|lia|lia].
      rewrite weights_app, weights_map. lia.
  Qed.
  Definition alive (s : machine) : Prop :=
    match ms_caller s, ms_walker s with
    | Returned _, _ => True
    | _, Sent => False
    | _, _ => True
    end.
  Lemma alive_step s s' : alive s -> step s s' -> alive s'.
  Proof.
    intros G H. destruct H as [seen path nd todo st t c Hs|st t c|r t|w t Ht|r t]; unfold alive in *; cbn [ms_walker ms_caller] in *; auto.
    destruct c; auto; destruct (walk_step _ _ _ _ _ _ _ _ _ _ _ _) eqn:E; auto;
      destruct nd as [|es| |]; cbn [walk_step] in E; try discriminate; destruct seen; try discriminate;
      destruct (visit_path _ _ _ _ _ _ _ _ _ _) as [[[] ?]|]; discriminate.
  Qed.
  Theorem progress s : steps (start root n excludes) s -> (exists r, ms_caller s = Returned r) \/ exists s', step s s'.
  Proof.
    intros H. assert (alive s) as A.
    { remember (start root n excludes) as s0 eqn:E. induction H as [s|s s' s'' H IH H1]; [subst; exact I|]. eapply alive_step; eauto. }
    destruct s as [w t c]. destruct c as [| |r]; [right|right|left; cbn; eauto]; cbn in A.
    - destruct w as [[|[p nd] todo] st|r|]; [eexists; apply s_walked| |eexists; apply s_receive|contradiction].
      eexists. apply (s_walk ex read dj dy data work root timeout false). discriminate.
    - destruct w as [[|[p nd] todo] st|r|]; [eexists; apply s_walked| |eexists; apply s_receive_late|contradiction].
      eexists. apply (s_walk ex read dj dy data work root timeout false). discriminate.
  Qed.
End Machine.
Lemma timed_walk ex read dj dy data work root timeout node_at excludes w t r :
  initial_excludes dj data work = Ok excludes ->
  steps ex read dj dy data work root timeout (start root (node_at root) excludes) (mk_machine w t (Returned r)) ->
  match r with
  | Ok fs => walk_and_get_all_proto_files node_at ex read dj dy data work root = Ok fs
  | Err m => timeout = true \/ walk_and_get_all_proto_files node_at ex read dj dy data work root = Err m
  end.
Proof.
  intros E H. apply timeout_complete in H. unfold walk_and_get_all_proto_files. rewrite E. cbn [bind].
  destruct r as [fs|m].
  - destruct H as (st & -> & ->). reflexivity.
  - destruct H as [H| ->]; [now left|now right].
Qed.
