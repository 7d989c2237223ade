(** Facts about the map model. *)
From Verif Require Export GoMap GoStrFacts.

Section Facts.
  Context {K V : Type} {key : Key K}.
  Implicit Types (m l : list (K * V)) (k : K) (v : V).

  Lemma keqb_refl k : keqb k k = true.
  Proof. now apply keqb_eq. Qed.
  Lemma keqb_neq a b : keqb a b = false <-> a <> b.
  Proof. rewrite <- keqb_eq. destruct (keqb a b); split; congruence. Qed.
  Lemma key_dec (a b : K) : {a = b} + {a <> b}.
  Proof. destruct (keqb a b) eqn:E; [left|right]; [now apply keqb_eq|now apply keqb_neq]. Qed.

  Lemma gget_gput_eq k v m : gget k (gput k v m) = Some v.
  Proof.
    induction m as [|[k' v'] m IH]; simpl; [now rewrite keqb_refl|].
    destruct (keqb k k') eqn:E; simpl; [now rewrite keqb_refl|now rewrite E].
  Qed.
  Lemma gget_gput_neq k k' v m : k <> k' -> gget k (gput k' v m) = gget k m.
  Proof.
    intros H. induction m as [|[k2 v2] m IH]; simpl.
    - apply keqb_neq in H. now rewrite H.
    - destruct (keqb k' k2) eqn:E; simpl; [|now rewrite IH].
      apply keqb_eq in E as <-. apply keqb_neq in H. now rewrite H.
  Qed.
  Lemma gput_keys k v m x : In x (map fst (gput k v m)) <-> x = k \/ In x (map fst m).
  Proof.
    induction m as [|[k' v'] m IH]; simpl; [intuition congruence|].
    destruct (keqb k k') eqn:E; simpl.
    - apply keqb_eq in E as ->. intuition congruence.
    - rewrite IH. intuition congruence.
  Qed.
  Lemma gput_NoDup k v m : NoDup (map fst m) -> NoDup (map fst (gput k v m)).
  Proof.
    induction m as [|[k' v'] m IH]; simpl; intros H.
    - constructor; [easy|constructor].
    - inversion H as [|? ? Hn Hr]; subst. destruct (keqb k k') eqn:E; simpl.
      + apply keqb_eq in E as ->. now constructor.
      + constructor; [|auto]. rewrite gput_keys. intros [->|Hi]; [|auto].
        now rewrite keqb_refl in E.
  Qed.
  Lemma gget_In k v m : gget k m = Some v -> In (k, v) m.
  Proof.
    induction m as [|[k' v'] m IH]; simpl; [discriminate|].
    destruct (keqb k k') eqn:E; [|auto]. apply keqb_eq in E as ->. intros H; left; congruence.
  Qed.
  Lemma In_gget k v m : NoDup (map fst m) -> In (k, v) m -> gget k m = Some v.
  Proof.
    induction m as [|[k' v'] m IH]; simpl; [easy|]. intros H.
    inversion H as [|? ? Hn Hr]; subst. intros [E|Hi].
    - injection E as -> ->. now rewrite keqb_refl.
    - destruct (keqb k k') eqn:E; [|auto]. apply keqb_eq in E as ->.
      exfalso. apply Hn. apply in_map_iff. now exists (k', v).
  Qed.
  Lemma gget_None k m : gget k m = None <-> ~ In k (map fst m).
  Proof.
    induction m as [|[k' v'] m IH]; simpl; [easy|].
    destruct (keqb k k') eqn:E.
    - apply keqb_eq in E as ->. split; [discriminate|intros H; exfalso; auto].
    - apply keqb_neq in E. rewrite IH. intuition congruence.
  Qed.
  Lemma gget_Some_key k m : (exists v, gget k m = Some v) <-> In k (map fst m).
  Proof.
    destruct (gget k m) as [v|] eqn:E.
    - split; [|intros _; now exists v]. intros _. apply gget_In in E. apply in_map_iff. now exists (k, v).
    - apply gget_None in E. split; [intros [v H]; congruence|easy].
  Qed.
  Lemma gget_app k m m' : gget k (m ++ m') = match gget k m with Some v => Some v | None => gget k m' end.
  Proof.
    induction m as [|[k' v'] m IH]; simpl; [reflexivity|]. now destruct (keqb k k').
  Qed.

  Lemma fold_gput_gget l : forall m k,
    gget k (fold_left (fun m kv => gput (fst kv) (snd kv) m) l m)
    = match gget k (rev l) with Some v => Some v | None => gget k m end.
  Proof.
    induction l as [|[k' v'] l IH]; intros m k; [reflexivity|]. cbn [fold_left rev fst snd].
    rewrite IH, gget_app. destruct (gget k (rev l)); [reflexivity|]. simpl.
    destruct (keqb k k') eqn:E.
    - apply keqb_eq in E as ->. apply gget_gput_eq.
    - apply gget_gput_neq. now apply keqb_neq.
  Qed.
  Lemma fold_put_NoDup l : forall m, NoDup (map fst m) ->
    NoDup (map fst (fold_left (fun m kv => gput (fst kv) (snd kv) m) l m)).
  Proof. induction l as [|x l IH]; intros m H; [assumption|]. apply IH. now apply gput_NoDup. Qed.
  Lemma gget_build k l : gget k (build l) = gget k (rev l).
  Proof. unfold build. rewrite fold_gput_gget. now destruct (gget k (rev l)). Qed.
  Lemma build_NoDup l : NoDup (map fst (build l)).
  Proof. apply fold_put_NoDup. constructor. Qed.
  Lemma build_In k v l : In (k, v) (build l) <-> gget k (rev l) = Some v.
  Proof.
    rewrite <- gget_build. split; [apply In_gget, build_NoDup|apply gget_In].
  Qed.
  Lemma has_true k m : has k m = true <-> exists v, gget k m = Some v.
  Proof. unfold has. destruct (gget k m) as [v|]; split; try easy; [intros _; now exists v|intros [v H]; discriminate]. Qed.
  Lemma has_false k m : has k m = false <-> gget k m = None.
  Proof. unfold has. now destruct (gget k m). Qed.
End Facts.

Section ConcatM.
  Context {A B : Type} (f : A -> result (list B)).
  Lemma concatM_cons x l : concatM f (x :: l) = do a <- f x; do b <- concatM f l; Ok (a ++ b).
  Proof. reflexivity. Qed.
  Lemma concatM_Ok l : forall r, concatM f l = Ok r ->
    (forall x, In x l -> exists a, f x = Ok a) /\
    (forall b, In b r <-> exists x a, In x l /\ f x = Ok a /\ In b a).
  Proof.
    induction l as [|x l IH]; intros r H.
    - injection H as <-. split; [easy|]. intros b; split; [easy|]. intros (x & a & [] & _).
    - rewrite concatM_cons in H. destruct (f x) as [a|] eqn:Ea; [|discriminate]. cbn [bind] in H.
      destruct (concatM f l) as [b|]; [|discriminate]. injection H as <-.
      destruct (IH _ eq_refl) as [IH1 IH2]. split.
      + intros y [<-|Hy]; [now exists a|auto].
      + intros c. rewrite in_app_iff, IH2. split.
        * intros [Hc|(y & a' & Hy & Hf & Hc)]; [exists x, a|exists y, a']; intuition.
        * intros (y & a' & [<-|Hy] & Hf & Hc); [left; congruence|right; now exists y, a'].
  Qed.
  Lemma concatM_all_Ok l : (forall x, In x l -> exists a, f x = Ok a) -> exists r, concatM f l = Ok r.
  Proof.
    induction l as [|x l IH]; intros H; [now exists []|].
    destruct (H x (or_introl eq_refl)) as [a Ha]. destruct IH as [b Hb]; [intros y Hy; apply H; now right|].
    exists (a ++ b). now rewrite concatM_cons, Ha, Hb.
  Qed.
  Lemma concatM_ext g l : (forall x, In x l -> f x = g x) -> concatM f l = concatM g l.
  Proof.
    induction l as [|x l IH]; intros H; [reflexivity|].
    rewrite concatM_cons, (H x (or_introl eq_refl)), IH; [reflexivity|intros; apply H; now right].
  Qed.
End ConcatM.
