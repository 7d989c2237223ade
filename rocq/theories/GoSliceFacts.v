(** Facts about [GoSlice]. *)
From Verif Require Import GoSlice.
From Coq Require Import Lia.

(** The slice is within its array. *)
Definition valid (h : heap) (s : slice) : Prop :=
  match sl_array s with
  | None => sl_len s = 0
  | Some i => i < length h /\ sl_len s <= length (nth i h [])
  end.
(** Appending to [s] leaves [a] alone. *)
Definition clear_of (a s : slice) : Prop := sl_array s = sl_array a -> sl_len a <= sl_len s.

Lemma valid_nil h : valid h nil_slice.
Proof. reflexivity. Qed.
Lemma elements_nil h : sl_elements h nil_slice = [].
Proof. reflexivity. Qed.
Lemma clear_refl a : clear_of a a.
Proof. intros _. lia. Qed.
Lemma set_nth_length i a h : length (set_nth i a h) = length h.
Proof. revert i; induction h; intros [|i]; cbn; auto. Qed.
Lemma set_nth_same i a h d : i < length h -> nth i (set_nth i a h) d = a.
Proof. revert i; induction h; intros [|i] H; cbn in *; try lia; auto. apply IHh. lia. Qed.
Lemma set_nth_other i j a h d : i <> j -> nth j (set_nth i a h) d = nth j h d.
Proof. revert i j; induction h; intros [|i] [|j] H; cbn; auto; try lia; try now destruct H. Qed.
Lemma firstn_firstn_le {A} n m (l : list A) : n <= m -> firstn n (firstn m l) = firstn n l.
Proof. intros. rewrite firstn_firstn. f_equal. lia. Qed.

Section Append.
  Variable grow : nat -> nat -> nat.
  Lemma append_spec h s xs h' s' : valid h s -> sl_append grow h s xs = (h', s') ->
    valid h' s' /\ sl_elements h' s' = sl_elements h s ++ xs /\
    forall a, valid h a -> clear_of a s ->
      valid h' a /\ sl_elements h' a = sl_elements h a /\ clear_of a s'.
  Proof.
    unfold sl_append. intros Hv. destruct (sl_len s + length xs <=? length (array_of h s)) eqn:E.
    - apply Nat.leb_le in E. destruct (sl_array s) as [i|] eqn:Ei.
      + intros [= <- <-]. unfold valid in Hv. rewrite Ei in Hv. destruct Hv as [Hi Hl]. unfold array_of in *. rewrite Ei in *.
        set (new := firstn (sl_len s) (nth i h []) ++ xs ++ skipn (sl_len s + length xs) (nth i h [])).
        assert (Hln : length (firstn (sl_len s) (nth i h [])) = sl_len s) by (rewrite firstn_length; lia).
        split; [|split].
        * unfold valid; cbn [sl_array sl_len]. rewrite set_nth_length, set_nth_same by auto. split; [auto|]. unfold new.
          rewrite !app_length, Hln. lia.
        * unfold sl_elements, array_of; cbn [sl_array sl_len]. rewrite set_nth_same by auto. rewrite Ei. unfold new.
          rewrite app_assoc, firstn_app, app_length, Hln, Nat.sub_diag. cbn [firstn]. rewrite app_nil_r.
          apply firstn_all2. rewrite app_length, Hln. lia.
        * intros a Ha Hc. unfold valid, sl_elements, array_of, clear_of in *. cbn [sl_array sl_len].
          destruct (sl_array a) as [j|] eqn:Ej; [|split; [auto|split; [auto|discriminate]]].
          destruct (Nat.eq_dec i j) as [<-|Hij].
          -- rewrite Ei in Hc. specialize (Hc eq_refl). rewrite set_nth_length, set_nth_same by auto. split; [split; [auto|]|split].
             ++ unfold new. rewrite !app_length, Hln. lia.
             ++ unfold new. rewrite firstn_app, Hln. replace (sl_len a - sl_len s) with 0 by lia. cbn [firstn]. rewrite app_nil_r.
                now apply firstn_firstn_le.
             ++ intros _. lia.
          -- rewrite set_nth_length, set_nth_other by auto. split; [auto|split; [auto|]]. intros [= ->]. contradiction.
      + intros [= <- <-]. unfold array_of in E. rewrite Ei in E. cbn in E.
        assert (xs = []) as -> by (destruct xs; [reflexivity|cbn in E; lia]). rewrite app_nil_r.
        split; [exact Hv|split; [reflexivity|]]. intros a Ha Hc. auto.
    - intros [= <- <-]. apply Nat.leb_gt in E.
      set (new := firstn (sl_len s) (array_of h s) ++ xs ++ repeat "" (grow (length (array_of h s)) (sl_len s + length xs))).
      assert (Hl : sl_len s <= length (array_of h s)).
      { unfold valid, array_of in *. destruct (sl_array s); [apply Hv|]. cbn. lia. }
      assert (Hln : length (firstn (sl_len s) (array_of h s)) = sl_len s) by (rewrite firstn_length; lia).
      assert (Hnew : nth (length h) (h ++ [new]) [] = new) by (rewrite app_nth2, Nat.sub_diag by lia; reflexivity).
      split; [|split].
      + unfold valid; cbn [sl_array sl_len]. rewrite Hnew, app_length. cbn. split; [lia|]. unfold new. rewrite !app_length, Hln. lia.
      + unfold sl_elements at 1, array_of at 1; cbn [sl_array sl_len]. rewrite Hnew. unfold new.
        rewrite app_assoc, firstn_app, app_length, Hln, Nat.sub_diag. cbn [firstn]. rewrite app_nil_r.
        unfold sl_elements. apply firstn_all2. rewrite app_length, Hln. lia.
      + intros a Ha Hc. unfold valid, sl_elements, array_of, clear_of in *. cbn [sl_array sl_len].
        destruct (sl_array a) as [j|] eqn:Ej; [|split; [auto|split; [auto|discriminate]]].
        destruct Ha as [Hj Hal]. rewrite app_nth1 by auto. rewrite app_length. cbn. split; [split; [lia|auto]|split; [auto|]].
        intros [= Eq]. lia.
  Qed.
End Append.
