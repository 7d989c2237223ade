(** The goroutines: proofs. *)
From Verif Require Import Pool_Model.
From Coq Require Import Lia Permutation.

Section Pool.
  Variable ncpu total : nat.
  Variable result : nat -> list failure * list string.
  Notation step := (step ncpu total result).
  Notation steps := (steps ncpu total result).

  Definition holds (w : phase) : bool := match w with Locked | Loaded _ _ | Stored => true | _ => false end.
  Definition stored (w : phase) : bool := match w with Stored | Unlocked | Released | Finished => true | _ => false end.
  Definition occupies (w : phase) : bool := match w with Released | Finished => false | _ => true end.
  Definition unfinished (w : phase) : bool := match w with Finished => false | _ => true end.
  Definition count (f : phase -> bool) (ws : list phase) : nat := length (filter f ws).

  Lemma update_length ws i w : length (update ws i w) = length ws.
  Proof. revert i; induction ws as [|x ws IH]; intros [|i]; cbn; auto. Qed.
  Lemma update_same ws i w x : nth_error ws i = Some x -> nth_error (update ws i w) i = Some w.
  Proof. revert i; induction ws as [|y ws IH]; intros [|i]; cbn; try discriminate; auto. Qed.
  Lemma update_other ws i j w : i <> j -> nth_error (update ws i w) j = nth_error ws j.
  Proof. revert i j; induction ws as [|y ws IH]; intros [|i] [|j]; cbn; auto; try contradiction. Qed.
  Lemma update_at ws i w j y : nth_error (update ws i w) j = Some y -> (j = i /\ y = w) \/ (j <> i /\ nth_error ws j = Some y).
  Proof.
    intros H. destruct (Nat.eq_dec j i) as [->|Hn].
    - left. split; [auto|]. assert (exists x, nth_error ws i = Some x) as (x & E).
      { assert (i < length ws) as L. { rewrite <- (update_length ws i w). apply nth_error_Some. congruence. }
        apply nth_error_Some in L. destruct (nth_error ws i); [eauto|contradiction]. }
      rewrite (update_same _ _ _ _ E) in H. congruence.
    - right. split; [auto|]. now rewrite update_other in H by auto.
  Qed.
  Lemma count_update f ws i x w : nth_error ws i = Some x ->
    count f (update ws i w) + (if f x then 1 else 0) = count f ws + (if f w then 1 else 0).
  Proof.
    unfold count. revert i; induction ws as [|y ws IH]; intros [|i]; cbn; try discriminate.
    - intros [= ->]. destruct (f x), (f w); cbn; lia.
    - intros H. apply IH in H. destruct (f y); cbn [length]; lia.
  Qed.
  Lemma count_zero f ws i x : count f ws = 0 -> nth_error ws i = Some x -> f x = false.
  Proof.
    unfold count. revert i; induction ws as [|y ws IH]; intros [|i]; cbn; try discriminate.
    - intros H [= ->]. destruct (f x); [discriminate|reflexivity].
    - intros H. destruct (f y); [discriminate|]. now apply IH.
  Qed.

  Record invariant (p : pool) : Prop := {
    inv_total : length (p_workers p) <= total;
    inv_slots : p_slots p = count occupies (p_workers p);
    inv_ncpu : p_slots p <= ncpu;
    inv_waiting : p_waiting p = count unfinished (p_workers p);
    inv_lock : count holds (p_workers p) = if p_lock p then 1 else 0;
    inv_loaded : forall i fs es, nth_error (p_workers p) i = Some (Loaded fs es) -> fs = p_failures p /\ es = p_errors p;
    inv_order : exists ended, NoDup ended /\
      (forall i, In i ended <-> exists w, nth_error (p_workers p) i = Some w /\ stored w = true) /\
      p_failures p = concat (map (fun i => fst (result i)) ended) /\ p_errors p = concat (map (fun i => snd (result i)) ended);
    inv_returned : p_returned p = true -> length (p_workers p) = total /\ p_waiting p = 0
  }.
  (** Only one goroutine holds the lock. *)
  Lemma one_holds ws i j x y : count holds ws <= 1 -> nth_error ws i = Some x -> holds x = true -> nth_error ws j = Some y -> holds y = true -> i = j.
  Proof.
    unfold count. revert i j; induction ws as [|w ws IH]; intros [|i] [|j]; cbn; try discriminate; auto.
    - intros H [= ->] Hx Hj Hy. rewrite Hx in H. cbn in H. exfalso. assert (count holds ws = 0) as Hc by (unfold count; lia).
      pose proof (count_zero _ _ _ _ Hc Hj). congruence.
    - intros H Hi Hx [= ->] Hy. rewrite Hy in H. cbn in H. exfalso. assert (count holds ws = 0) as Hc by (unfold count; lia).
      pose proof (count_zero _ _ _ _ Hc Hi). congruence.
    - intros H Hi Hx Hj Hy. f_equal. apply (IH i j); auto. destruct (holds w); cbn in H; lia.
  Qed.
  Lemma same_order (ws ws' : list phase) (ended : list nat) : (forall i, (exists w, nth_error ws i = Some w /\ stored w = true) <-> (exists w, nth_error ws' i = Some w /\ stored w = true)) ->
    (forall i, In i ended <-> exists w, nth_error ws i = Some w /\ stored w = true) -> forall i, In i ended <-> exists w, nth_error ws' i = Some w /\ stored w = true.
  Proof. intros H1 H2 i. now rewrite H2. Qed.
  Lemma stored_update ws i x w : nth_error ws i = Some x -> stored x = stored w ->
    forall j, (exists y, nth_error ws j = Some y /\ stored y = true) <-> (exists y, nth_error (update ws i w) j = Some y /\ stored y = true).
  Proof.
    intros Hx Hs j. destruct (Nat.eq_dec i j) as [<-|Hn].
    - rewrite (update_same _ _ _ _ Hx), Hx. split; intros (y & [= <-] & Hy); eexists; split; eauto; congruence.
    - now rewrite update_other.
  Qed.
  Lemma loaded_update ws i w (fs0 : list failure) (es0 : list string) : (forall fs es, w <> Loaded fs es) ->
    (forall j fs es, nth_error ws j = Some (Loaded fs es) -> fs = fs0 /\ es = es0) ->
    forall j fs es, nth_error (update ws i w) j = Some (Loaded fs es) -> fs = fs0 /\ es = es0.
  Proof. intros Hw H j fs es Hj. apply update_at in Hj as [[_ Hj]|[_ Hj]]; [now destruct (Hw fs es)|eauto]. Qed.

  Lemma invariant_0 : invariant (pool_0).
  Proof.
    constructor; cbn; try lia; try discriminate; auto.
    - intros [|i]; discriminate.
    - exists []. split; [constructor|]. split; [|auto]. intros i. split; [intros []|]. intros (w & H & _). now destruct i.
  Qed.
  Lemma count_snoc f ws w : count f (ws ++ [w]) = count f ws + if f w then 1 else 0.
  Proof. unfold count. rewrite filter_app, app_length. cbn. now destruct (f w). Qed.
  Ltac counts H := repeat match goal with |- context [count ?f (update ?ws ?i ?w)] =>
    let E := fresh in pose proof (count_update f ws i _ w H) as E; cbn [occupies unfinished holds] in E; revert E; generalize (count f (update ws i w)); intros ? E end.
  Lemma invariant_step p q : invariant p -> step p q -> invariant q.
  Proof.
    intros I S. destruct I as [It Is In Iw Il Ild Io Ir].
    destruct S as [ws n k lock fs es Hl Hk|ws n k fs es ret i H|ws n k lock fs es ret i H|ws n k lock fs es ret i fs' es' H|ws n k fs es ret i H|ws n k lock fs es ret i H|ws n k lock fs es ret i H|ws k lock fs es H]; cbn [p_workers p_waiting p_slots p_lock p_failures p_errors p_returned] in *.
    - constructor; cbn [p_workers p_waiting p_slots p_lock p_failures p_errors p_returned].
      + rewrite app_length. cbn. lia.
      + rewrite count_snoc. cbn [occupies unfinished holds]. lia.
      + lia.
      + rewrite count_snoc. cbn [occupies unfinished holds]. lia.
      + rewrite count_snoc. cbn [occupies unfinished holds]. lia.
      + intros i fs0 es0 Hi. destruct (Nat.lt_ge_cases i (length ws)) as [L|L]; [rewrite nth_error_app1 in Hi by auto; eauto|].
        rewrite nth_error_app2 in Hi by auto. destruct (i - length ws) as [|[|?]]; discriminate.
      + destruct Io as (ended & Nd & Hi & Hf & He). exists ended. split; [auto|]. split; [|auto]. intros i. rewrite Hi.
        destruct (Nat.lt_ge_cases i (length ws)) as [L|L]; [now rewrite nth_error_app1 by auto|]. rewrite nth_error_app2 by auto.
        assert (nth_error ws i = None) as -> by now apply nth_error_None. split; [intros (w & ? & _); discriminate|].
        intros (w & Hw & Hs). destruct (i - length ws) as [|[|?]]; try discriminate. cbn in Hw. injection Hw as <-. discriminate.
      + discriminate.
    - constructor; cbn [p_workers p_waiting p_slots p_lock p_failures p_errors p_returned]; rewrite ?update_length; auto; try (counts H; lia).
      + apply loaded_update; [discriminate|auto].
      + destruct Io as (ended & Nd & Hi & Hf & He). exists ended. split; [auto|]. split; [|auto]. eapply same_order; [|exact Hi]. now apply (stored_update _ _ Running).
    - constructor; cbn [p_workers p_waiting p_slots p_lock p_failures p_errors p_returned]; rewrite ?update_length; auto; try (counts H; lia).
      + intros j fs0 es0 Hj. apply update_at in Hj as [[_ [= -> ->]]|[_ Hj]]; [auto|eauto].
      + destruct Io as (ended & Nd & Hi & Hf & He). exists ended. split; [auto|]. split; [|auto]. eapply same_order; [|exact Hi]. now apply (stored_update _ _ Locked).
    - destruct (Ild _ _ _ H) as [-> ->]. constructor; cbn [p_workers p_waiting p_slots p_lock p_failures p_errors p_returned]; rewrite ?update_length; auto; try (counts H; lia).
      + intros j fs0 es0 Hj. apply update_at in Hj as [[_ ?]|[Hn Hj]]; [discriminate|]. exfalso. apply Hn.
        refine (one_holds ws j i _ _ _ Hj eq_refl H eq_refl). destruct lock; lia.
      + destruct Io as (ended & Nd & Hi & Hf & He). exists (ended ++ [i]). split; [|split; [|split]].
        * apply (Permutation_NoDup (Permutation_cons_append ended i)). constructor; [|auto]. intros Hin. apply Hi in Hin as (w & Hw & Hs). rewrite H in Hw. injection Hw as <-. discriminate.
        * intros j. rewrite in_app_iff, Hi. cbn. split.
          -- intros [(w & Hw & Hs)|[<-|[]]]; [|exists Stored; split; [now apply (update_same _ _ _ _ H)|reflexivity]].
             exists w. split; [|auto]. rewrite update_other; [auto|]. intros <-. rewrite H in Hw. injection Hw as <-. discriminate.
          -- intros (w & Hw & Hs). apply update_at in Hw as [[-> _]|[_ Hw]]; [right; now left|left; eauto].
        * now rewrite map_app, concat_app, Hf; cbn; rewrite app_nil_r.
        * now rewrite map_app, concat_app, He; cbn; rewrite app_nil_r.
    - constructor; cbn [p_workers p_waiting p_slots p_lock p_failures p_errors p_returned]; rewrite ?update_length; auto; try (counts H; lia).
      + apply loaded_update; [discriminate|auto].
      + destruct Io as (ended & Nd & Hi & Hf & He). exists ended. split; [auto|]. split; [|auto]. eapply same_order; [|exact Hi]. now apply (stored_update _ _ Stored).
    - constructor; cbn [p_workers p_waiting p_slots p_lock p_failures p_errors p_returned]; rewrite ?update_length; auto; try (counts H; lia).
      + apply loaded_update; [discriminate|auto].
      + destruct Io as (ended & Nd & Hi & Hf & He). exists ended. split; [auto|]. split; [|auto]. eapply same_order; [|exact Hi]. now apply (stored_update _ _ Unlocked).
    - constructor; cbn [p_workers p_waiting p_slots p_lock p_failures p_errors p_returned]; rewrite ?update_length; auto; try (counts H; lia).
      + apply loaded_update; [discriminate|auto].
      + destruct Io as (ended & Nd & Hi & Hf & He). exists ended. split; [auto|]. split; [|auto]. eapply same_order; [|exact Hi]. now apply (stored_update _ _ Released).
      + intros E. destruct (Ir E). lia.
    - constructor; cbn [p_workers p_waiting p_slots p_lock p_failures p_errors p_returned]; auto.
  Qed.
  Lemma invariant_steps p : steps pool_0 p -> invariant p.
  Proof. intros H. remember pool_0 as p0 eqn:E. induction H as [|p q r H IH S]; subst; [apply invariant_0|]. eapply invariant_step; [|exact S]. auto. Qed.

  Lemma returned_order p : steps pool_0 p -> p_returned p = true ->
    exists ended, Permutation ended (seq 0 total) /\
      p_failures p = concat (map (fun i => fst (result i)) ended) /\ p_errors p = concat (map (fun i => snd (result i)) ended).
  Proof.
    intros H Hr. apply invariant_steps in H as [It Is In Iw Il Ild Io Ir]. destruct (Ir Hr) as [Hl Hw]. destruct Io as (ended & Nd & Hi & Hf & He).
    exists ended. split; [|auto]. apply NoDup_Permutation; [auto|apply seq_NoDup|]. intros i. rewrite Hi, in_seq. cbn. split.
    - intros (w & E & _). split; [lia|]. rewrite <- Hl. apply nth_error_Some. congruence.
    - intros [_ L]. rewrite <- Hl in L. apply nth_error_Some in L. destruct (nth_error (p_workers p) i) as [w|] eqn:E; [|contradiction].
      exists w. split; [auto|]. rewrite Hw in Iw. symmetry in Iw. pose proof (count_zero _ _ _ _ Iw E). now destruct w.
  Qed.
  Lemma bounded p : steps pool_0 p -> count (fun w => match w with Running => true | _ => false end) (p_workers p) <= ncpu.
  Proof.
    intros H. apply invariant_steps in H as [It Is In Iw Il Ild Io Ir]. rewrite Is in In. refine (Nat.le_trans _ _ _ _ In).
    unfold count. clear. induction (p_workers p) as [|w ws IH]; [apply le_n|]. cbn. destruct w; cbn; lia.
  Qed.
  (** Nobody waits for ever. *)
  Lemma find_phase f ws : count f ws > 0 -> exists i w, nth_error ws i = Some w /\ f w = true.
  Proof.
    unfold count. induction ws as [|x ws IH]; cbn; [lia|]. destruct (f x) eqn:E; [now exists 0, x|]. intros H. destruct (IH H) as (i & w & ? & ?). now exists (S i), w.
  Qed.
  Lemma progress p : ncpu > 0 -> steps pool_0 p -> p_returned p = false -> exists q, step p q.
  Proof.
    intros Hn H Hr. apply invariant_steps in H as [It Is In Iw Il Ild Io Ir]. destruct p as [ws n k lock fs es ret]. cbn [p_workers p_waiting p_slots p_lock p_failures p_errors p_returned] in *. subst ret.
    destruct lock.
    - destruct (find_phase holds ws) as (i & w & Hi & Hw); [lia|]. destruct w; try discriminate; eexists.
      + now apply (Load _ _ _ _ _ _ _ _ _ _ i).
      + now apply (Store _ _ _ _ _ _ _ _ _ _ i fs0 es0).
      + now apply (Unlock _ _ _ _ _ _ _ _ _ i).
    - destruct n as [|n].
      + destruct (Nat.lt_ge_cases (length ws) total) as [L|L].
        * eexists. apply Start; [auto|]. enough (k = 0) by lia. rewrite Is. symmetry in Iw. unfold count in *. clear - Iw.
          induction ws as [|w ws IH]; [reflexivity|]. cbn in *. destruct w; cbn in *; try discriminate; auto.
        * eexists. apply Return. lia.
      + destruct (find_phase unfinished ws) as (i & w & Hi & Hw); [lia|]. symmetry in Il. destruct w; try discriminate.
        * eexists. now apply (Lock _ _ _ _ _ _ _ _ _ i).
        * pose proof (count_zero holds ws i _ (eq_sym Il) Hi). discriminate.
        * pose proof (count_zero holds ws i _ (eq_sym Il) Hi). discriminate.
        * pose proof (count_zero holds ws i _ (eq_sym Il) Hi). discriminate.
        * destruct k as [|k]; [pose proof (count_zero occupies ws i _ (eq_sym Is) Hi); discriminate|]. eexists. now apply (Release _ _ _ _ _ _ _ _ _ _ i).
        * eexists. now apply (Finish _ _ _ _ _ _ _ _ _ _ i).
  Qed.
  Definition weight (w : phase) : nat := match w with Running => 6 | Locked => 5 | Loaded _ _ => 4 | Stored => 3 | Unlocked => 2 | Released => 1 | Finished => 0 end.
  Definition measure (p : pool) : nat :=
    8 * (total - length (p_workers p)) + list_sum (map weight (p_workers p)) + if p_returned p then 0 else 1.
  Lemma weight_update ws i x w : nth_error ws i = Some x -> list_sum (map weight (update ws i w)) + weight x = list_sum (map weight ws) + weight w.
  Proof.
    revert i; induction ws as [|y ws IH]; intros [|i]; cbn; try discriminate; [intros [= ->]; lia|]. intros H. apply IH in H. unfold list_sum in H. lia.
  Qed.
  Lemma step_measure p q : step p q -> measure q < measure p.
  Proof.
    intros S. destruct S as [ws n k lock fs es Hl Hk|ws n k fs es ret i H|ws n k lock fs es ret i H|ws n k lock fs es ret i fs' es' H|ws n k fs es ret i H|ws n k lock fs es ret i H|ws n k lock fs es ret i H|ws k lock fs es H];
      unfold measure; cbn [p_workers p_returned]; rewrite ?update_length;
      try (match goal with |- context [update ws i ?w] => pose proof (weight_update ws i _ w H) as E; cbn [weight] in E end; lia).
    - rewrite app_length, map_app, list_sum_app. cbn. lia.
    - lia.
  Qed.
  (** Every schedule ends, with [wg.Wait] having returned. *)
  Lemma ends p : ncpu > 0 -> steps pool_0 p -> Acc (fun q r => step r q) p.
  Proof.
    intros _ _. remember (measure p) as m eqn:E. revert p E. induction m as [m IH] using lt_wf_ind. intros p ->. constructor. intros q Hq. apply (IH (measure q)); [now apply step_measure|reflexivity].
  Qed.
  Lemma steps_length p n : (exists f, f 0 = p /\ forall i, i < n -> step (f i) (f (S i))) -> n <= measure p.
  Proof.
    intros (f & <- & Hf). enough (measure (f n) + n <= measure (f 0)) by lia. induction n as [|n IH]; [lia|].
    pose proof (step_measure _ _ (Hf n (Nat.lt_succ_diag_r n))). assert (measure (f n) + n <= measure (f 0)) by (apply IH; auto). lia.
  Qed.
End Pool.
