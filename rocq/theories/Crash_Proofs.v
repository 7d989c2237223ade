(** What format and all write, however they end. *)
From Verif Require Import GoStrFacts GoPathFacts Settings_Spec File_Model File_Spec Exec_Spec Exec_Proofs Exec_Proofs2 Exec_Proofs3 Props_Exec
  Main_Model Main_Spec Main_Proofs Main_Proofs2 Main_Proofs4 Main_Proofs6 Main_Proofs7.

(** Commands that write no file. *)
Definition quiet {A} (c : cmd A) : Prop := forall s, exists es o, c s = (adds s es, o) /\ written es = [].
Lemma quiet_ret {A} (a : A) : quiet (ret a).
Proof. intros s. exists [], (Value a). rewrite adds_nil. split; reflexivity. Qed.
Lemma quiet_check {A} (x : result A) : quiet (Exec_Model.check x).
Proof. destruct x as [a|e]; [apply quiet_ret|]. intros s. exists [], (Fail e). rewrite adds_nil. split; reflexivity. Qed.
Lemma quiet_then {A B} (c : cmd A) (k : A -> cmd B) : quiet c -> (forall a, quiet (k a)) -> quiet (and_then c k).
Proof.
  intros C K s. destruct (C s) as (es & o & E & W). unfold and_then. rewrite E. destruct o as [a|e|e]; [|now exists es, (Exit e)|now exists es, (Fail e)].
  destruct (K a (adds s es)) as (es' & o & E' & W'). exists (es ++ es'), o. rewrite E', adds_adds, written_app, W, W'. split; reflexivity.
Qed.
Lemma quiet_report cwd f j tj m fs : quiet (report cwd f j tj m fs).
Proof. intros s. destruct (report_pure cwd f j tj m fs) as (es & o & E & O & _). exists es, o. split; [apply E|now apply only_prints_written]. Qed.
Lemma quiet_compile cwd f j tj D compiler commands gen set m : quiet (Exec_Model.compile cwd f j tj D compiler commands gen set false m).
Proof.
  unfold Exec_Model.compile, do_compile. apply quiet_then; [intros s; exists [Compiled gen], (Value tt); split; reflexivity|]. intros _. apply quiet_then; [intros s; apply quiet_check|].
  intros x. apply quiet_then; [apply quiet_report|]. intros _. apply quiet_ret.
Qed.
Lemma quiet_lint cwd f j tj lr m : quiet (lint cwd f j tj lr m).
Proof. unfold lint. apply quiet_then; [intros s; apply quiet_check|]. intros fs. apply quiet_report. Qed.

Section Writes.
  Variable w : world.
  Hypothesis V : visits_all (w_order w).
  Hypothesis Nm : forall p, named (w_node_at w p).
  Hypothesis St : forall k, w_stat w "" <> Ok k.
  Variable r : runner.
  Hypothesis Cr : clean_abs (here r).
  Variable args : list string.
  (** Each file is written at most once, with what the formatter makes of it. *)
  Definition writes (x : bool) (s s' : io) : Prop := exists es, io_done s' = io_done s ++ es /\ NoDup (map fst (written es)) /\
    (forall p data, In (p, data) (written es) -> exists m g input, found (here r) (w_stat w) (provider w r (io_disk s)) args m /\ Exec_Spec.asked (here r) m g /\ p = pf_path g /\
       io_disk s p = Ok input /\ formatter (the_transform w) x m p input = Ok (data, []) /\ data <> input) /\
    (forall q, ~ In q (map fst (written es)) -> io_disk s' q = io_disk s q).
  Lemma writes_quiet x s es : written es = [] -> writes x s (adds s es).
  Proof. intros W. exists es. split; [reflexivity|]. rewrite W. split; [constructor|]. split; [intros p d []|reflexivity]. Qed.
  Lemma writes_more x s s' es : writes x s s' -> written es = [] -> writes x s (adds s' es).
  Proof.
    intros (es0 & A & B & C & D) W. exists (es0 ++ es). rewrite written_app, W, app_nil_r. split; [cbn [adds io_done]; now rewrite A, app_assoc|]. auto.
  Qed.
  Lemma format_writes o d l x s s' z : method w r (CallFormat args o d l x) s = (s', z) -> writes x s s' /\ (o = false -> exists es, io_done s' = io_done s ++ es /\ written es = []).
  Proof.
    intros E. destruct (Exec_Proofs.get_meta_pure (here r) (w_stat w) (provider w r (io_disk s)) args) as (oc & Eo & [(m & -> & F)|((e & ->) & _)]).
    - destruct (found_files w V Nm St r Cr _ _ _ F) as (N & _).
      destruct (method_framed w r (CallFormat args o d l x) (io_disk s)) as (es & d' & o' & Q & _).
      pose proof (Q (io_done s)) as Q1. destruct s as [dk dn]. cbn [io_disk io_done] in *. rewrite Q1 in E. injection E as <- <-. specialize (Q []). cbn [app] in Q.
      destruct (C27_writes (w_order w) (here r) (here r) (r_error_format r) (r_json r) Json_Model.failure_json (w_stat w) (provider w r dk) file_set (the_compiler w r) (the_commands w r)
            (the_transform w) (w_diff w) (w_write_error w) V args m o d l x dk _ _ F N Q) as (A & B & C). cbn [io_done io_disk] in *.
      split.
      + exists es. split; [reflexivity|]. split; [exact A|]. split; [|exact C]. intros p data I. destruct (B p data I) as (_ & g & input & As & G). exists m, g, input. split; [exact F|]. split; [exact As|exact G].
      + intros Of. exists es. split; [reflexivity|]. destruct (written es) as [|[p data] l0]; [reflexivity|]. destruct (B p data (or_introl eq_refl)) as (X & _). congruence.
    - assert (exists es, s' = adds s es /\ written es = []) as (es & -> & W).
      { revert E. unfold Main_Model.method, format_cmd. cbv zeta. destruct (more_than_one_set _).
        - intros [= <- _]. exists []. rewrite adds_nil. split; reflexivity.
        - unfold and_then at 1. rewrite Eo. intros [= <- _]. exists []. rewrite adds_nil. split; reflexivity. }
      split; [now apply writes_quiet|]. intros _. exists es. split; [reflexivity|exact W].
  Qed.
  Lemma all_writes df dl x s s' z : method w r (CallAll args df dl x) s = (s', z) -> writes x s s' /\ (df = true -> exists es, io_done s' = io_done s ++ es /\ written es = []).
  Proof.
    unfold Main_Model.method. cbv zeta. unfold all_cmd.
    destruct (Exec_Proofs.get_meta_pure (here r) (w_stat w) (provider w r (io_disk s)) args) as (oc & Eo & [(m & -> & F)|((e & ->) & _)]).
    2:{ unfold and_then at 1. rewrite Eo. intros [= <- _]. split; [rewrite <- (adds_nil s) at 2; now apply writes_quiet|]. intros _. exists []. rewrite app_nil_r. split; reflexivity. }
    unfold and_then at 1. rewrite Eo. set (comp := Exec_Model.compile _ _ _ _ _ _ _ false _ _ m). set (gen := Exec_Model.compile _ _ _ _ _ _ _ true _ _ m). set (lt := if dl then _ else _).
    assert (Qc : quiet comp) by apply quiet_compile. assert (Qg : quiet (gen ;; lt)). { apply quiet_then; [apply quiet_compile|]. intros _. unfold lt. destruct dl; [apply quiet_ret|apply quiet_lint]. }
    destruct df.
    - assert (Q : quiet (comp ;; ret tt ;; gen ;; lt)). { apply quiet_then; [exact Qc|]. intros _. apply quiet_then; [apply quiet_ret|]. intros _. exact Qg. }
      destruct (Q s) as (es & o & E & W). rewrite E. intros [= <- _]. split; [now apply writes_quiet|]. intros _. exists es. split; [reflexivity|exact W].
    - destruct (Qc s) as (es & o & E & W). unfold and_then at 1. rewrite E. destruct o as [a|e|e]; [|intros [= <- _]; split; [now apply writes_quiet|discriminate]..].
      set (fm := format _ _ _ _ _ _ _ _ _ _ _ _ m). destruct (fm (adds s es)) as [s1 o1] eqn:Ef.
      assert (Wf : writes x s s1).
      { apply (format_writes true false false x s s1 o1). unfold Main_Model.method. cbv zeta. unfold format_cmd. change (more_than_one_set [true; false; false]) with false. cbv iota.
        unfold and_then at 1. rewrite Eo. unfold and_then at 1. fold comp. rewrite E. fold fm. exact Ef. }
      unfold and_then at 1. rewrite Ef. destruct o1 as [b|e|e]; [|intros [= <- _]; split; [exact Wf|discriminate]..].
      destruct (Qg s1) as (es1 & o1 & E1 & W1). rewrite E1. intros [= <- _]. split; [now apply writes_more|discriminate].
  Qed.
End Writes.
