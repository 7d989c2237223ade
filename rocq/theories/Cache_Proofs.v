(** The download cache: exclusion, completeness, recovery. *)
From Verif Require Import Cache_Model Cache_Spec GoStrFacts.
From Coq Require Import Lia.

Lemma set_call_length cs k p : length (set_call cs k p) = length cs.
Proof. revert k; induction cs as [|c cs IH]; intros [|k]; cbn; auto. Qed.
Lemma set_call_same cs k p q : nth_error cs k = Some q -> nth_error (set_call cs k p) k = Some p.
Proof. revert k; induction cs as [|c cs IH]; intros [|k]; cbn; try discriminate; auto. Qed.
Lemma set_call_other cs k j p : k <> j -> nth_error (set_call cs k p) j = nth_error cs j.
Proof. revert k j; induction cs as [|c cs IH]; intros [|k] [|j] H; cbn; auto; try congruence. Qed.
Lemma set_call_at cs k p j q : nth_error (set_call cs k p) j = Some q -> (j = k /\ q = p) \/ (j <> k /\ nth_error cs j = Some q).
Proof.
  intros H. destruct (Nat.eq_dec k j) as [->|n].
  - left. split; [reflexivity|]. assert (Hk : exists x, nth_error cs j = Some x).
    { destruct (nth_error cs j) eqn:E; [eauto|]. exfalso. apply nth_error_None in E. rewrite <- (set_call_length cs j p) in E. apply nth_error_None in E. congruence. }
    destruct Hk as (x & Hx). rewrite (set_call_same _ _ _ _ Hx) in H. congruence.
  - right. rewrite set_call_other in H by auto. auto.
Qed.
Lemma nth_snoc (cs : list phase) p j q : nth_error (cs ++ [p]) j = Some q -> (j = length cs /\ q = p) \/ nth_error cs j = Some q.
Proof.
  intros H. destruct (Nat.lt_trichotomy j (length cs)) as [L|[->|L]].
  - right. now rewrite nth_error_app1 in H by auto.
  - left. rewrite nth_error_app2, Nat.sub_diag in H by auto. cbn in H. split; congruence.
  - exfalso. assert (nth_error (cs ++ [p]) j = None); [|congruence]. apply nth_error_None. rewrite app_length. cbn. lia.
Qed.
Lemma set_file_same f p v : set_file f p v p = v.
Proof. unfold set_file. now rewrite String.eqb_refl. Qed.
Lemma set_file_other f p v q : q <> p -> set_file f p v q = f q.
Proof. intros H. unfold set_file. now apply String.eqb_neq in H as ->. Qed.
Lemma set_holder_same h i v : set_holder h i v i = v.
Proof. unfold set_holder. now rewrite Nat.eqb_refl. Qed.
Lemma set_holder_other h i v j : j <> i -> set_holder h i v j = h j.
Proof. intros H. unfold set_holder. now apply Nat.eqb_neq in H as ->. Qed.

Section Exclusion.
  Variable entries : list (string * string).
  Variable bin : string.
  Variable answers : string -> bool.
  Notation step := (step entries bin answers false).
  Notation steps := (steps entries bin answers false).

  (** The lock file that a call has open. *)
  Definition lock_of (p : phase) : option nat := match p with Opened i => Some i | p => holds p end.
  Definition locks (w : world) : Prop :=
    (forall k p i, nth_error (w_calls w) k = Some p -> lock_of p = Some i -> w_lock w = Some i) /\
    (forall k p i, nth_error (w_calls w) k = Some p -> holds p = Some i -> w_holder w i = Some k) /\
    (forall k p, nth_error (w_calls w) k = Some p -> p <> Deleting).
  Lemma holds_lock p i : holds p = Some i -> lock_of p = Some i.
  Proof. destruct p; cbn; congruence. Qed.
  (** A call goes on without touching the lock. *)
  Lemma locks_move fs fs' l n h cs k p q : locks (mk_world fs l n h cs) -> nth_error cs k = Some p -> lock_of p = lock_of q -> holds p = holds q -> q <> Deleting ->
    locks (mk_world fs' l n h (set_call cs k q)).
  Proof.
    intros (H1 & H2 & H3) Hk Hl Hh Hq. unfold locks in *. cbn [w_calls w_lock w_holder] in *. repeat split.
    - intros j x i Hj Hi. apply set_call_at in Hj as [(-> & ->)|(_ & Hj)]; [|eauto]. rewrite <- Hl in Hi. eauto.
    - intros j x i Hj Hi. apply set_call_at in Hj as [(-> & ->)|(_ & Hj)]; [|eauto]. rewrite <- Hh in Hi. eauto.
    - intros j x Hj. apply set_call_at in Hj as [(-> & ->)|(_ & Hj)]; [exact Hq|eauto].
  Qed.
  Lemma locks_release fs l n h cs k p q i : locks (mk_world fs l n h cs) -> nth_error cs k = Some p -> holds p = Some i -> lock_of q = None -> q <> Deleting ->
    locks (mk_world fs l n (set_holder h i None) (set_call cs k q)).
  Proof.
    intros (H1 & H2 & H3) Hk Hp Hq Hd. unfold locks in *. cbn [w_calls w_lock w_holder] in *. repeat split.
    - intros j x i' Hj Hi. apply set_call_at in Hj as [(-> & ->)|(_ & Hj)]; [congruence|eauto].
    - intros j x i' Hj Hi. apply set_call_at in Hj as [(-> & ->)|(Hn & Hj)]; [apply holds_lock in Hi; congruence|].
      destruct (Nat.eq_dec i' i) as [->|ni]; [|rewrite set_holder_other by auto; eauto].
      assert (E1 := H2 _ _ _ Hj Hi). assert (E2 := H2 _ _ _ Hk Hp). congruence.
    - intros j x Hj. apply set_call_at in Hj as [(-> & ->)|(_ & Hj)]; [exact Hd|eauto].
  Qed.
  Lemma locks_drop fs l n h cs k p q : locks (mk_world fs l n h cs) -> nth_error cs k = Some p -> holds p = None -> lock_of q = None -> q <> Deleting ->
    locks (mk_world fs l n h (set_call cs k q)).
  Proof.
    intros (H1 & H2 & H3) Hk Hp Hq Hd. unfold locks in *. cbn [w_calls w_lock w_holder] in *. repeat split.
    - intros j x i' Hj Hi. apply set_call_at in Hj as [(-> & ->)|(_ & Hj)]; [congruence|eauto].
    - intros j x i' Hj Hi. apply set_call_at in Hj as [(-> & ->)|(Hn & Hj)]; [apply holds_lock in Hi; congruence|eauto].
    - intros j x Hj. apply set_call_at in Hj as [(-> & ->)|(_ & Hj)]; [exact Hd|eauto].
  Qed.
  Lemma locks_step w w' : locks w -> step w w' -> locks w'.
  Proof.
    intros HL S. destruct S; try (eapply locks_move; [exact HL|eassumption|reflexivity|reflexivity|discriminate]); try discriminate.
    - destruct HL as (L1 & L2 & L3). unfold locks in *. cbn [w_calls w_lock w_holder] in *. repeat split.
      + intros j x i Hj Hi. apply nth_snoc in Hj as [(-> & ->)|Hj]; [discriminate|eauto].
      + intros j x i Hj Hi. apply nth_snoc in Hj as [(-> & ->)|Hj]; [discriminate|eauto].
      + intros j x Hj. apply nth_snoc in Hj as [(-> & ->)|Hj]; [discriminate|eauto].
    - destruct HL as (L1 & L2 & L3). unfold locks in *. cbn [w_calls w_lock w_holder] in *. repeat split.
      + intros j x i' Hj Hi. apply set_call_at in Hj as [(-> & ->)|(_ & Hj)]; [cbn in Hi; congruence|eauto].
      + intros j x i' Hj Hi. apply set_call_at in Hj as [(-> & ->)|(_ & Hj)]; [discriminate|eauto].
      + intros j x Hj. apply set_call_at in Hj as [(-> & ->)|(_ & Hj)]; [discriminate|eauto].
    - destruct HL as (L1 & L2 & L3). unfold locks in *. cbn [w_calls w_lock w_holder] in *. repeat split.
      + intros j x i' Hj Hi. apply set_call_at in Hj as [(-> & ->)|(_ & Hj)]; [cbn in Hi; congruence|]. specialize (L1 _ _ _ Hj Hi). discriminate.
      + intros j x i' Hj Hi. apply set_call_at in Hj as [(-> & ->)|(_ & Hj)]; [discriminate|eauto].
      + intros j x Hj. apply set_call_at in Hj as [(-> & ->)|(_ & Hj)]; [discriminate|eauto].
    - destruct HL as (L1 & L2 & L3). unfold locks in *. cbn [w_calls w_lock w_holder] in *. repeat split.
      + intros j x i' Hj Hi. apply set_call_at in Hj as [(-> & ->)|(_ & Hj)]; [|eauto]. cbn in Hi. injection Hi as <-. eapply L1; [eassumption|reflexivity].
      + intros j x i' Hj Hi. apply set_call_at in Hj as [(-> & ->)|(Hn & Hj)]; [cbn in Hi; injection Hi as <-; now rewrite set_holder_same|].
        destruct (Nat.eq_dec i' i) as [->|ni]; [|rewrite set_holder_other by auto; eauto]. specialize (L2 _ _ _ Hj Hi). congruence.
      + intros j x Hj. apply set_call_at in Hj as [(-> & ->)|(_ & Hj)]; [discriminate|eauto].
    - eapply locks_drop; [exact HL|eassumption|reflexivity|reflexivity|discriminate].
    - eapply locks_release; [exact HL|eassumption|reflexivity|reflexivity|discriminate].
    - destruct (holds p) as [i|] eqn:E; [eapply locks_release|eapply locks_drop]; try exact HL; try eassumption; try reflexivity; discriminate.
    - destruct HL as (_ & _ & L3). exfalso. cbn [w_calls] in L3. eapply L3; [eassumption|reflexivity].
    - destruct HL as (_ & _ & L3). exfalso. cbn [w_calls] in L3. eapply L3; [eassumption|reflexivity].
  Qed.
  Lemma locks_0 fs : locks (world_0 fs).
  Proof. unfold locks, world_0. cbn. repeat split; intros [|k]; discriminate. Qed.
  Lemma locks_steps w w' : locks w -> steps w w' -> locks w'.
  Proof. intros H S. induction S; [auto|]. eapply locks_step; [apply IHS; exact H|eassumption]. Qed.
  (** At most one call has the lock. *)
  Lemma one_holder w j k p q : locks w -> nth_error (w_calls w) j = Some p -> nth_error (w_calls w) k = Some q ->
    holds p <> None -> holds q <> None -> j = k.
  Proof.
    intros (H1 & H2 & _) Hj Hk Hp Hq. destruct (holds p) as [a|] eqn:Ea; [|congruence]. destruct (holds q) as [b|] eqn:Eb; [|congruence].
    assert (E1 := H1 _ _ _ Hj (holds_lock _ _ Ea)). assert (E2 := H1 _ _ _ Hk (holds_lock _ _ Eb)).
    assert (F1 := H2 _ _ _ Hj Ea). assert (F2 := H2 _ _ _ Hk Eb). congruence.
  Qed.

  Section Content.
    Variable pre post : list (string * string).
    Variable data : string.
    Hypothesis Hentries : entries = pre ++ (bin, data) :: post.
    Hypothesis Hdistinct : NoDup (map fst entries).
    (** Only the whole program answers. *)
    Hypothesis Hanswers : forall c, answers c = true -> c = data.
    Notation checked := (checked bin answers).
    Definition needed : list (string * string) := pre ++ [(bin, data)].
    Definition sound (fs : string -> option string) : Prop := checked fs = true -> complete fs needed.
    (** What is known in a phase. *)
    Definition known (fs : string -> option string) (p : phase) : Prop :=
      match p with
      | Fetching _ => checked fs = false
      | Writing _ todo => exists d, entries = d ++ todo /\ complete fs d /\ (In bin (map fst todo) -> checked fs = false)
      | Filling _ p rest todo => exists d c a, entries = d ++ (p, c) :: todo /\ complete fs d /\ (In bin (map fst todo) -> checked fs = false) /\ c = a +++ rest /\ fs p = Some a
      | Rechecking _ => complete fs entries
      | Ending _ true | Returned true => checked fs = true
      | _ => True
      end.
    (** A phase in which files are written or will be. *)
    Definition busy (p : phase) : bool := match p with Fetching _ | Writing _ _ | Filling _ _ _ _ => true | _ => false end.
    Definition got (p : phase) : bool := match p with Ending _ true | Returned true => true | _ => false end.
    Definition contents (w : world) : Prop :=
      sound (w_files w) /\
      (forall k p, nth_error (w_calls w) k = Some p -> known (w_files w) p) /\
      (forall j k p q, nth_error (w_calls w) j = Some p -> nth_error (w_calls w) k = Some q -> got p = true -> busy q = false).
    Lemma checked_bin fs : checked fs = true -> fs bin = Some data.
    Proof. unfold Cache_Model.checked. destruct (fs bin) as [c|]; [|discriminate]. intros H. now rewrite (Hanswers _ H). Qed.
    Lemma checked_same fs fs' : fs bin = fs' bin -> checked fs = checked fs'.
    Proof. unfold Cache_Model.checked. now intros ->. Qed.
    (** A phase change that leaves the files alone. *)
    Lemma contents_move fs l n h cs l' n' h' k p q : contents (mk_world fs l n h cs) -> nth_error cs k = Some p -> known fs q ->
      (got q = true -> got p = true \/ forall j x, nth_error cs j = Some x -> j <> k -> busy x = false) ->
      (busy q = true -> busy p = true \/ forall j x, nth_error cs j = Some x -> j <> k -> got x = false) ->
      (got q = true -> busy q = false) ->
      contents (mk_world fs l' n' h' (set_call cs k q)).
    Proof.
      intros (H1 & H2 & H3) Hk Hq Hg Hb Hgb. unfold contents in *. cbn [w_files w_calls] in *. split; [exact H1|]. split.
      - intros j x Hj. apply set_call_at in Hj as [(-> & ->)|(_ & Hj)]; [exact Hq|eauto].
      - intros j j' x y Hj Hj' Gx. apply set_call_at in Hj as [(-> & ->)|(Nj & Hj)]; apply set_call_at in Hj' as [(-> & ->)|(Nj' & Hj')].
        + now apply Hgb.
        + destruct (Hg Gx) as [Gp|Ho]; [eauto|]. eapply Ho; eauto.
        + destruct (busy q) eqn:Bq; [|reflexivity]. destruct (Hb eq_refl) as [Bp|Ho].
          * assert (busy p = false) by eauto. congruence.
          * specialize (Ho _ _ Hj Nj). congruence.
        + eauto.
    Qed.
    Lemma others_free fs l n h cs k p : locks (mk_world fs l n h cs) -> nth_error cs k = Some p -> holds p <> None ->
      forall j x, nth_error cs j = Some x -> j <> k -> busy x = false.
    Proof.
      intros L Hk Hp j x Hj Hn. destruct (busy x) eqn:E; [|reflexivity]. exfalso. apply Hn. eapply (one_holder _ j k x p); eauto. destruct x; try discriminate; cbn; discriminate.
    Qed.
    (** Before the check failed, no call had succeeded. *)
    Lemma none_got fs l n h cs : contents (mk_world fs l n h cs) -> checked fs = false -> forall j x, nth_error cs j = Some x -> got x = false.
    Proof.
      intros (_ & H2 & _) Hc j x Hj. destruct (got x) eqn:E; [|reflexivity]. exfalso. specialize (H2 _ _ Hj). cbn [w_files] in H2.
      destruct x as [| | | | | | |i ok|ok| |]; try discriminate; destruct ok; try discriminate; cbn in H2; congruence.
    Qed.
    Lemma split_at_bin d p c todo : entries = d ++ (p, c) :: todo -> ~ In bin (map fst ((p, c) :: todo)) -> exists r, d = pre ++ (bin, data) :: r.
    Proof.
      intros E Hn. assert (Hb : In (bin, data) d).
      { assert (Hi : In (bin, data) entries) by (rewrite Hentries; apply in_elt). rewrite E in Hi. apply in_app_or in Hi as [Hi|Hi]; [exact Hi|].
        exfalso. apply Hn. apply (in_map fst) in Hi. exact Hi. }
      apply in_split in Hb as (d1 & d2 & ->). exists d2. f_equal. rewrite Hentries in E, Hdistinct. rewrite <- app_assoc in E. cbn [app] in E.
      clear - E Hdistinct. revert d1 E. induction pre as [|[a b] pr IH]; intros [|[a' b'] d1] E; cbn [app] in E.
      - reflexivity.
      - injection E as E1 E2 E. subst. exfalso. cbn in Hdistinct. apply NoDup_cons_iff in Hdistinct as (Hn & _). apply Hn. rewrite map_app. apply in_or_app. right. now left.
      - injection E as E1 E2 E. subst. exfalso. cbn in Hdistinct. apply NoDup_cons_iff in Hdistinct as (Hn & _). apply Hn. rewrite map_app. apply in_or_app. right. now left.
      - injection E as E1 E2 E. subst. f_equal. apply IH; [|exact E]. cbn in Hdistinct. now apply NoDup_cons_iff in Hdistinct.
    Qed.
    Lemma split_at_first d c todo p : entries = d ++ (p, c) :: todo -> p = bin -> d = pre /\ c = data.
    Proof.
      intros E ->. rewrite E in Hentries. rewrite E in Hdistinct. clear E. revert Hentries Hdistinct. generalize pre. induction d as [|[a b] d IH]; intros [|[a' b'] pr] E N; cbn [app] in E.
      - injection E as -> _. auto.
      - injection E as E1 E2 E. subst. exfalso. cbn in N. apply NoDup_cons_iff in N as (N & _). apply N. rewrite map_app. apply in_or_app. right. now left.
      - injection E as E1 E2 E. subst. exfalso. cbn in N. apply NoDup_cons_iff in N as (N & _). apply N. rewrite map_app. apply in_or_app. right. now left.
      - injection E as E1 E2 E. subst. destruct (IH pr E) as (-> & ->); [|auto]. cbn in N. now apply NoDup_cons_iff in N.
    Qed.
    Lemma split_end d : entries = d -> exists r, d = pre ++ (bin, data) :: r.
    Proof. intros <-. eauto. Qed.
    Lemma needed_in d r : d = pre ++ (bin, data) :: r -> forall x, In x needed -> In x d.
    Proof. intros -> x Hx. unfold needed in Hx. apply in_app_or in Hx as [Hx|[<-|[]]]; [apply in_or_app; auto|apply in_elt]. Qed.
    Lemma bin_in_needed : In (bin, data) needed.
    Proof. apply in_or_app. right. now left. Qed.
    Lemma path_unique d p c todo a : entries = d ++ (p, c) :: todo -> In a d -> fst a <> p.
    Proof.
      intros E Ha Hp. rewrite E, map_app in Hdistinct. cbn [map fst] in Hdistinct. apply NoDup_remove_2 in Hdistinct. apply Hdistinct. apply in_or_app. left. rewrite <- Hp. now apply in_map.
    Qed.
    (** Which of the needed files come before [p], when p is not bin and bin is not to come. *)
    Lemma contents_step w w' : locks w -> contents w -> step w w' -> contents w'.
    Proof.
      intros L C S. assert (C0 := C). destruct S.
      - (* Begin *) destruct C as (C1 & C2 & C3). unfold contents in *. cbn [w_files w_calls] in *. split; [exact C1|]. split.
        + intros j x Hj. apply nth_snoc in Hj as [(-> & ->)|Hj]; [exact I|eauto].
        + intros j k x y Hj Hk. apply nth_snoc in Hj as [(-> & ->)|Hj]; [discriminate|]. apply nth_snoc in Hk as [(-> & ->)|Hk]; [reflexivity|eauto].
      - eapply contents_move; [exact C|eassumption|exact I| | |]; discriminate.
      - eapply contents_move; [exact C|eassumption|exact I| | |]; discriminate.
      - eapply contents_move; [exact C|eassumption|exact I| | |]; discriminate.
      - eapply contents_move; [exact C|eassumption|exact I| | |]; discriminate.
      - eapply contents_move; [exact C|eassumption|assumption| |discriminate|reflexivity].
        intros _. right. eapply others_free; [exact L|eassumption|discriminate].
      - eapply contents_move; [exact C|eassumption|assumption|discriminate| |discriminate].
        intros _. right. intros j x Hj _. eapply none_got; eauto.
      - (* Fetch *) destruct C as (C1 & C2 & C3). eapply contents_move; [exact C0|eassumption| |discriminate|auto|discriminate].
        exists []. split; [reflexivity|]. split; [intros ? ? []|]. intros _. exact (C2 _ _ H).
      - eapply contents_move; [exact C|eassumption|exact I| | |]; discriminate.
      - (* OpenFile *)
        destruct C as (C1 & C2 & C3). pose proof (C2 _ _ H) as (d & E & Hd & Hb). cbn [w_files w_calls] in *.
        assert (Hng : forall j x, nth_error cs j = Some x -> got x = false).
        { intros j x Hj. destruct (got x) eqn:G; [|reflexivity]. specialize (C3 _ _ _ _ Hj H G). discriminate. }
        assert (Hs : sound (set_file fs p (Some ""))).
        { intros Hc. assert (Hcb := checked_bin _ Hc). destruct (String.eqb_spec p bin) as [->|Np].
          - rewrite set_file_same in Hcb. injection Hcb as Hcb. intros q v Hq.
            assert (Hdp : d = pre). { now apply split_at_first in E as (-> & _). }
            unfold needed in Hq. apply in_app_or in Hq as [Hq|[[= <- <-]|[]]]; [|now rewrite set_file_same, Hcb].
            rewrite set_file_other; [apply Hd; now rewrite Hdp|]. rewrite <- Hdp in Hq. exact (path_unique _ _ _ _ _ E Hq).
          - rewrite set_file_other in Hcb by auto. assert (Hc' : checked fs = true).
            { rewrite <- Hc. apply checked_same. now rewrite set_file_other by auto. }
            assert (Hnb : ~ In bin (map fst ((p, c) :: todo))) by (intros Hi; specialize (Hb Hi); congruence).
            destruct (split_at_bin _ _ _ _ E Hnb) as (r & Hr). intros q v Hq. apply (needed_in _ _ Hr) in Hq. rewrite set_file_other; [now apply Hd|].
            exact (path_unique _ _ _ _ _ E Hq). }
        unfold contents. cbn [w_files w_calls]. split; [exact Hs|]. split.
        + intros j x Hj. apply set_call_at in Hj as [(-> & ->)|(Nj & Hj)].
          * exists d, c, "". split; [exact E|]. split; [intros q v Hq; rewrite set_file_other; [now apply Hd|exact (path_unique _ _ _ _ _ E Hq)]|].
            split; [|split; [reflexivity|apply set_file_same]]. intros Hi. assert (Np : p <> bin).
            { intros ->. rewrite E, map_app in Hdistinct. cbn [map fst] in Hdistinct. apply NoDup_remove_2 in Hdistinct. apply Hdistinct. apply in_or_app. now right. }
            rewrite <- Hb by (right; exact Hi). apply checked_same. now rewrite set_file_other by auto.
          * assert (Hbx : busy x = false) by (eapply others_free; [exact L|exact H|discriminate|exact Hj|auto]).
            assert (Hgx := Hng _ _ Hj). destruct x as [| | | | | | |i' ok|ok| |]; try discriminate Hbx; try exact I; try (destruct ok; [discriminate Hgx|exact I]).
            exfalso. apply Nj. eapply (one_holder _ j k); [exact L|exact Hj|exact H|discriminate|discriminate].
        + intros j j' x y Hj Hj' Gx. apply set_call_at in Hj as [(-> & ->)|(Nj & Hj)]; [discriminate|]. specialize (Hng _ _ Hj). congruence.
      - eapply contents_move; [exact C|eassumption|exact I| | |]; discriminate.
      - (* WriteSome *)
        destruct C as (C1 & C2 & C3). pose proof (C2 _ _ H) as (d & c & a' & E & Hd & Hb & Hc & Hp). cbn [w_files w_calls] in *. rewrite Hp.
        assert (Hng : forall j x, nth_error cs j = Some x -> got x = false).
        { intros j x Hj. destruct (got x) eqn:G; [|reflexivity]. specialize (C3 _ _ _ _ Hj H G). discriminate. }
        assert (Hs : sound (set_file fs p (Some (a' +++ a)))).
        { intros Hk. assert (Hcb := checked_bin _ Hk). destruct (String.eqb_spec p bin) as [->|Np].
          - rewrite set_file_same in Hcb. injection Hcb as Hcb. intros q v Hq.
            assert (Hdp : d = pre). { now apply split_at_first in E as (-> & _). }
            unfold needed in Hq. apply in_app_or in Hq as [Hq|[[= <- <-]|[]]]; [|now rewrite set_file_same, Hcb].
            rewrite set_file_other; [apply Hd; now rewrite Hdp|]. rewrite <- Hdp in Hq. exact (path_unique _ _ _ _ _ E Hq).
          - rewrite set_file_other in Hcb by auto. assert (Hc' : checked fs = true).
            { rewrite <- Hk. apply checked_same. now rewrite set_file_other by auto. }
            assert (Hnb : ~ In bin (map fst ((p, c) :: todo))) by (intros [Hi|Hi]; [now apply Np|specialize (Hb Hi); congruence]).
            destruct (split_at_bin _ _ _ _ E Hnb) as (r & Hr). intros q v Hq. apply (needed_in _ _ Hr) in Hq. rewrite set_file_other; [now apply Hd|].
            exact (path_unique _ _ _ _ _ E Hq). }
        unfold contents. cbn [w_files w_calls]. split; [exact Hs|]. split.
        + intros j x Hj. apply set_call_at in Hj as [(-> & ->)|(Nj & Hj)].
          * exists d, c, (a' +++ a). split; [exact E|]. split; [intros q v Hq; rewrite set_file_other; [now apply Hd|exact (path_unique _ _ _ _ _ E Hq)]|].
            split; [|split; [now rewrite sapp_assoc|apply set_file_same]]. intros Hi. assert (Np : p <> bin).
            { intros ->. rewrite E, map_app in Hdistinct. cbn [map fst] in Hdistinct. apply NoDup_remove_2 in Hdistinct. apply Hdistinct. apply in_or_app. now right. }
            rewrite <- Hb by exact Hi. apply checked_same. now rewrite set_file_other by auto.
          * assert (Hbx : busy x = false) by (eapply others_free; [exact L|exact H|discriminate|exact Hj|auto]).
            assert (Hgx := Hng _ _ Hj). destruct x as [| | | | | | |i' ok|ok| |]; try discriminate Hbx; try exact I; try (destruct ok; [discriminate Hgx|exact I]).
            exfalso. apply Nj. eapply (one_holder _ j k); [exact L|exact Hj|exact H|discriminate|discriminate].
        + intros j j' x y Hj Hj' Gx. apply set_call_at in Hj as [(-> & ->)|(Nj & Hj)]; [discriminate|]. specialize (Hng _ _ Hj). congruence.
      - eapply contents_move; [exact C|eassumption|exact I| | |]; discriminate.
      - (* WriteDone *)
        destruct C as (C1 & C2 & C3). pose proof (C2 _ _ H) as (d & c & a' & E & Hd & Hb & Hc & Hp). cbn [w_files w_calls] in *.
        eapply contents_move; [exact C0|eassumption| |discriminate|auto|discriminate].
        exists (d ++ [(p, c)]). rewrite <- app_assoc. split; [exact E|]. split; [|exact Hb].
        intros q v Hq. apply in_app_or in Hq as [Hq|[[= <- <-]|[]]]; [now apply Hd|]. rewrite Hp, Hc. now rewrite sapp_nil_r.
      - (* Written *)
        destruct C as (C1 & C2 & C3). pose proof (C2 _ _ H) as (d & E & Hd & Hb). cbn [w_files w_calls] in *.
        eapply contents_move; [exact C0|eassumption| |discriminate|discriminate|discriminate].
        rewrite app_nil_r in E. cbn. now rewrite E.
      - (* Recheck *)
        eapply contents_move; [exact C|eassumption| | |destruct (checked fs); discriminate|destruct (checked fs); reflexivity].
        + cbn [known]. destruct (checked fs) eqn:E; [reflexivity|exact I].
        + intros _. right. eapply others_free; [exact L|eassumption|discriminate].
      - (* Unlock *)
        destruct C as (C1 & C2 & C3). specialize (C2 _ _ H). eapply contents_move; [exact C0|eassumption| | |discriminate|]; destruct ok; try discriminate; auto.
      - (* Crash *) eapply contents_move; [exact C|eassumption|exact I| | |]; discriminate.
      - discriminate.
      - exfalso. destruct L as (_ & _ & L). eapply L; [eassumption|reflexivity].
      - exfalso. destruct L as (_ & _ & L). eapply L; [eassumption|reflexivity].
      - exfalso. destruct L as (_ & _ & L). eapply L; [eassumption|reflexivity].
    Qed.
    Lemma contents_steps fs w : sound fs -> steps (world_0 fs) w -> locks w /\ contents w.
    Proof.
      intros Hs S. remember (world_0 fs) as w0 eqn:E0. induction S as [|w0 x y S IH S1]; subst.
      - split; [apply locks_0|]. unfold contents, world_0. cbn. split; [exact Hs|]. split; intros [|?]; discriminate.
      - destruct (IH eq_refl) as (L & C). split; [eapply locks_step; eauto|eapply contents_step; eauto].
    Qed.
  End Content.
End Exclusion.

Section Recovery.
  Variable entries : list (string * string).
  Variable bin : string.
  Variable answers : string -> bool.
  Variable deletes : bool.
  Notation step := (step entries bin answers deletes).
  Notation steps := (steps entries bin answers deletes).
  Lemma steps_trans w x y : steps w x -> steps x y -> steps w y.
  Proof. intros S T. induction T; [exact S|]. eapply More; [apply IHT; exact S|eassumption]. Qed.
  Lemma steps_one w x : step w x -> steps w x.
  Proof. intros S. eapply More; [apply Stay|exact S]. Qed.

  (** Who is said to have a lock has it. *)
  Definition held (w : world) : Prop := forall i k, w_holder w i = Some k -> exists p, nth_error (w_calls w) k = Some p /\ holds p = Some i.
  Lemma held_move fs fs' l l' n n' h cs k p q : held (mk_world fs l n h cs) -> nth_error cs k = Some p -> holds p = holds q -> held (mk_world fs' l' n' h (set_call cs k q)).
  Proof.
    unfold held. cbn [w_holder w_calls]. intros H Hk Hq i j Hj. destruct (H _ _ Hj) as (x & Hx & Hi). destruct (Nat.eq_dec k j) as [->|N].
    - exists q. split; [eapply set_call_same; eauto|congruence].
    - exists x. rewrite set_call_other by auto. auto.
  Qed.
  Lemma held_drop fs l n h cs k p q i : held (mk_world fs l n h cs) -> nth_error cs k = Some p -> holds p = Some i -> holds q = None -> held (mk_world fs l n (set_holder h i None) (set_call cs k q)).
  Proof.
    unfold held. cbn [w_holder w_calls]. intros H Hk Hp Hq i' j Hj. destruct (Nat.eq_dec i' i) as [->|N]; [rewrite set_holder_same in Hj; discriminate|].
    rewrite set_holder_other in Hj by auto. destruct (H _ _ Hj) as (x & Hx & Hi). destruct (Nat.eq_dec k j) as [->|Nk]; [congruence|].
    exists x. rewrite set_call_other by auto. auto.
  Qed.
  Lemma held_step w w' : held w -> step w w' -> held w'.
  Proof.
    intros H S. destruct S; try (eapply held_move; [exact H|eassumption|reflexivity]).
    - unfold held in *. cbn [w_holder w_calls] in *. intros i j Hj. destruct (H _ _ Hj) as (x & Hx & Hi). exists x. split; [|exact Hi].
      rewrite nth_error_app1; [exact Hx|]. apply nth_error_Some. congruence.
    - unfold held in *. cbn [w_holder w_calls] in *. intros i' j Hj. destruct (Nat.eq_dec i' i) as [->|N].
      + rewrite set_holder_same in Hj. injection Hj as <-. exists (Checking i). split; [eapply set_call_same; eauto|reflexivity].
      + rewrite set_holder_other in Hj by auto. destruct (H _ _ Hj) as (x & Hx & Hi). destruct (Nat.eq_dec k j) as [->|Nk].
        * rewrite Hx in H0. injection H0 as ->. discriminate.
        * exists x. rewrite set_call_other by auto. auto.
    - eapply held_drop; [exact H|eassumption|reflexivity|reflexivity].
    - destruct (holds p) as [i|] eqn:E; [eapply held_drop|eapply held_move]; try exact H; try eassumption; reflexivity.
    - exact H.
    - exact H.
  Qed.
  Lemma held_steps fs w : steps (world_0 fs) w -> held w.
  Proof.
    intros S. remember (world_0 fs) as w0 eqn:E0. induction S as [|w0 x y S IH S1]; subst.
    - intros i k. cbn. discriminate.
    - eapply held_step; [apply IH; reflexivity|exact S1].
  Qed.

  Lemma write_all l n h k i todo : forall fs cs, nth_error cs k = Some (Writing i todo) -> NoDup (map fst todo) ->
    exists fs', steps (mk_world fs l n h cs) (mk_world fs' l n h (set_call cs k (Writing i []))) /\ complete fs' todo /\ (forall q, ~ In q (map fst todo) -> fs' q = fs q).
  Proof.
    induction todo as [|[p c] todo IH]; intros fs cs Hk Hn.
    - exists fs. split; [|split; [intros ? ? []|auto]]. assert (E : set_call cs k (Writing i []) = cs).
      { revert k Hk. induction cs as [|x cs IHc]; intros [|k] Hk; try discriminate; cbn in *; [congruence|]. f_equal. now apply IHc. }
      rewrite E. apply Stay.
    - cbn [map fst] in Hn. apply NoDup_cons_iff in Hn as (Hp & Hn).
      assert (Ht : forall x y, set_call (set_call cs k x) k y = set_call cs k y).
      { clear. intros x y. revert k. induction cs as [|z cs IHc]; intros [|k]; cbn; auto. now rewrite IHc. }
      assert (Hsame : forall x, nth_error (set_call cs k x) k = Some x) by (intros x; eapply set_call_same; eauto).
      assert (S : steps (mk_world fs l n h cs) (mk_world (set_file fs p (Some "")) l n h (set_call cs k (Filling i p c todo)))) by (apply steps_one; eapply OpenFile; eassumption).
      assert (S2 : exists fs2, steps (mk_world (set_file fs p (Some "")) l n h (set_call cs k (Filling i p c todo))) (mk_world fs2 l n h (set_call cs k (Filling i p "" todo))) /\
        fs2 p = Some c /\ forall q, q <> p -> fs2 q = fs q).
      { destruct c as [|x c].
        - exists (set_file fs p (Some "")). split; [apply Stay|]. split; [apply set_file_same|intros q Hq; now apply set_file_other].
        - exists (set_file (set_file fs p (Some "")) p (Some (String x c))). split.
          + apply steps_one. rewrite <- (Ht (Filling i p (String x c) todo) (Filling i p "" todo)).
            assert (W := WriteSome entries bin answers deletes (set_file fs p (Some "")) l n h (set_call cs k (Filling i p (String x c) todo)) k i p (String x c) "" todo).
            rewrite sapp_nil_r, set_file_same in W. apply W; [apply Hsame|discriminate].
          + split; [apply set_file_same|]. intros q Hq. now rewrite !set_file_other by auto. }
      destruct S2 as (fs2 & S2 & Hfp & Hfo).
      assert (S3 : steps (mk_world fs2 l n h (set_call cs k (Filling i p "" todo))) (mk_world fs2 l n h (set_call cs k (Writing i todo)))).
      { apply steps_one. rewrite <- (Ht (Filling i p "" todo) (Writing i todo)). eapply WriteDone. apply Hsame. }
      destruct (IH fs2 (set_call cs k (Writing i todo)) (Hsame _) Hn) as (fs' & S4 & Hc & Ho). rewrite Ht in S4. exists fs'. split.
      + eapply steps_trans; [exact S|]. eapply steps_trans; [exact S2|]. eapply steps_trans; [exact S3|exact S4].
      + split.
        * intros q v [[= <- <-]|Hq]; [rewrite Ho by exact Hp; exact Hfp|now apply Hc].
        * intros q Hq. rewrite Ho by (intros Hi; apply Hq; now right). apply Hfo. intros ->. apply Hq. now left.
  Qed.

  (** With no other call under way, a new one succeeds if the archive can be had. *)
  Lemma recovers data w : held w -> (forall k p, nth_error (w_calls w) k = Some p -> over p) -> NoDup (map fst entries) -> In (bin, data) entries -> answers data = true ->
    exists w', steps w w' /\ nth_error (w_calls w') (length (w_calls w)) = Some (Returned true).
  Proof.
    intros Hh Ho Hn Hi Ha. destruct w as [fs l n h cs]. cbn [w_calls] in *. set (k := length cs).
    assert (Hfree : forall i, h i = None).
    { intros i. destruct (h i) as [j|] eqn:E; [|reflexivity]. exfalso. destruct (Hh i j E) as (p & Hp & Hpi). cbn [w_calls] in Hp. apply Ho in Hp. destruct p; try destruct Hp; discriminate. }
    assert (Ht : forall x y, set_call (cs ++ [x]) k y = cs ++ [y]).
    { clear. unfold k. intros x y. induction cs as [|z cs IHc]; cbn; auto. now rewrite IHc. }
    assert (Hsame : forall x, nth_error (cs ++ [x]) k = Some x) by (intros x; unfold k; rewrite nth_error_app2, Nat.sub_diag by auto; reflexivity).
    assert (S1 : steps (mk_world fs l n h cs) (mk_world fs l n h (cs ++ [Begun]))) by (apply steps_one, Begin).
    assert (S2 : exists i l' n', steps (mk_world fs l n h (cs ++ [Begun])) (mk_world fs l' n' h (cs ++ [Opened i]))).
    { destruct l as [i|].
      - exists i, (Some i), n. apply steps_one. rewrite <- (Ht Begun (Opened i)). apply OpenLock, Hsame.
      - exists n, (Some n), (S n). apply steps_one. rewrite <- (Ht Begun (Opened n)). apply MakeLock, Hsame. }
    destruct S2 as (i & l' & n' & S2). set (h' := set_holder h i (Some k)).
    assert (S3 : steps (mk_world fs l' n' h (cs ++ [Opened i])) (mk_world fs l' n' h' (cs ++ [Checking i]))).
    { apply steps_one. rewrite <- (Ht (Opened i) (Checking i)). apply TakeLock; [apply Hsame|apply Hfree]. }
    assert (S4 : exists fs', steps (mk_world fs l' n' h' (cs ++ [Checking i])) (mk_world fs' l' n' h' (cs ++ [Ending i true]))).
    { destruct (checked bin answers fs) eqn:E.
      - exists fs. apply steps_one. rewrite <- (Ht (Checking i) (Ending i true)). now apply CheckOk; [apply Hsame|].
      - destruct (write_all l' n' h' k i entries fs (cs ++ [Writing i entries]) (Hsame _) Hn) as (fs' & SW & Hc & _). rewrite Ht in SW. exists fs'.
        eapply steps_trans; [apply steps_one|].
        + eapply (CheckFails _ _ _ _ fs l' n' h' (cs ++ [Checking i]) k i); [apply Hsame|exact E].
        + rewrite Ht. eapply steps_trans; [apply steps_one|].
          * eapply (Fetch _ _ _ _ fs l' n' h' (cs ++ [Fetching i]) k i). apply Hsame.
          * rewrite Ht. eapply steps_trans; [exact SW|]. eapply steps_trans; [apply steps_one|].
            { eapply (Written _ _ _ _ fs' l' n' h' (cs ++ [Writing i []]) k i). apply Hsame. }
            rewrite Ht. apply steps_one. assert (Hk : checked bin answers fs' = true) by (unfold checked; now rewrite (Hc _ _ Hi)).
            rewrite <- (Ht (Rechecking i) (Ending i true)), <- Hk. apply Recheck. apply Hsame. }
    destruct S4 as (fs' & S4). eexists. split.
    - eapply steps_trans; [exact S1|]. eapply steps_trans; [exact S2|]. eapply steps_trans; [exact S3|]. eapply steps_trans; [exact S4|].
      apply steps_one. apply (Unlock _ _ _ _ fs' l' n' h' (cs ++ [Ending i true]) k i true). apply Hsame.
    - cbn [w_calls]. rewrite Ht. apply Hsame.
  Qed.
End Recovery.
