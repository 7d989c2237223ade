(** The break check reports exactly the deletions and changes of Breaking_Spec. *)
From Verif Require Import GoMapFacts Extract_Model Breaking_Model Breaking_Spec Protostrs_Proofs Extract_Proofs.
From Coq Require Import Lia.

Definition ok {A} (r : result A) : Prop := exists l, r = Ok l.
Definition emits {A} (r : result (list A)) (s : A) : Prop := exists l, r = Ok l /\ In s l.
Lemma emits_Ok {A} (l : list A) s : emits (Ok l) s <-> In s l.
Proof. split; [intros (l' & E & H); congruence|intros H; now exists l]. Qed.
Lemma emits_nil {A} (s : A) : ~ emits (Ok []) s.
Proof. now rewrite emits_Ok. Qed.
Lemma emits_one {A} (x s : A) : emits (Ok [x]) s <-> s = x.
Proof. rewrite emits_Ok. simpl. intuition congruence. Qed.
Lemma ok_Ok {A} (l : A) : ok (Ok l).
Proof. now exists l. Qed.
Lemma emits_app {A} (r1 r2 : result (list A)) s :
  ok (do a <- r1; do b <- r2; Ok (a ++ b)) ->
  ok r1 /\ ok r2 /\ (emits (do a <- r1; do b <- r2; Ok (a ++ b)) s <-> emits r1 s \/ emits r2 s).
Proof.
  destruct r1 as [a|]; [|intros [? E]; discriminate]. destruct r2 as [b|]; [|intros [? E]; discriminate].
  intros _. repeat split; try apply ok_Ok; cbn [bind]; rewrite !emits_Ok, in_app_iff; auto.
Qed.
Lemma ok_app {A} (r1 r2 : result (list A)) : ok r1 -> ok r2 -> ok (do a <- r1; do b <- r2; Ok (a ++ b)).
Proof. intros [a ->] [b ->]. now exists (a ++ b). Qed.

Section ForEach.
  Context {K V : Type} {key : Key K}.
  Lemma for_each_pair_emits (f : V -> V -> result (list string)) from to s :
    NoDup (map fst from) -> ok (for_each_pair f from to) ->
    (forall k v w, gget k from = Some v -> gget k to = Some w -> ok (f v w)) /\
    (emits (for_each_pair f from to) s <->
     exists k v w, gget k from = Some v /\ gget k to = Some w /\ emits (f v w) s).
  Proof.
    intros ND [l Hl]. pose proof Hl as H. apply concatM_Ok in H as [H1 H2]. split.
    - intros k v w Hv Hw. destruct (H1 (k, v)) as [a Ha]; [now apply gget_In|]. cbn in Ha. rewrite Hw in Ha. now exists a.
    - rewrite Hl, emits_Ok, H2. split.
      + intros ([k v] & a & Hi & Ha & Hs). cbn in Ha. destruct (gget k to) as [w|] eqn:Ew; [|injection Ha as <-; easy].
        exists k, v, w. repeat split; auto; [now apply In_gget|now exists a].
      + intros (k & v & w & Hv & Hw & a & Ha & Hs). exists (k, v), a. split; [now apply gget_In|].
        cbn. rewrite Hw. auto.
  Qed.
  Lemma for_each_pair_ok (f : V -> V -> result (list string)) from to :
    NoDup (map fst from) ->
    (forall k v w, gget k from = Some v -> gget k to = Some w -> ok (f v w)) -> ok (for_each_pair f from to).
  Proof.
    intros ND H. apply concatM_all_Ok. intros [k v] Hi. cbn. destruct (gget k to) as [w|] eqn:E; [|apply ok_Ok].
    apply (H k v w); [now apply In_gget|assumption].
  Qed.
  Lemma for_each_missing_ok (msg : K -> V -> string) from to : ok (for_each_missing msg from to).
  Proof. apply concatM_all_Ok. intros x _. destruct (has _ _); apply ok_Ok. Qed.
  Lemma for_each_missing_emits (msg : K -> V -> string) from to s : NoDup (map fst from) ->
    (emits (for_each_missing msg from to) s <->
     exists k v, gget k from = Some v /\ gget k to = None /\ s = msg k v).
  Proof.
    intros ND. destruct (for_each_missing_ok msg from to) as [l Hl]. rewrite Hl, emits_Ok.
    apply concatM_Ok in Hl as [_ H]. rewrite H. split.
    - intros ([k v] & a & Hi & Ha & Hs). cbn in Ha. destruct (has k to) eqn:E; injection Ha as <-; [easy|].
      destruct Hs as [<-|[]]. apply has_false in E. exists k, v. repeat split; auto. now apply In_gget.
    - intros (k & v & Hk & Hn & ->). exists (k, v), [msg k v]. split; [now apply gget_In|]. cbn.
      apply has_false in Hn. rewrite Hn. split; [reflexivity|now left].
  Qed.
End ForEach.

(** ** Nested message pairs *)
Lemma x_message_ind' (P : x_message -> Prop) :
  (forall fqn enums nested fields oneofs, Forall (fun nm => P (snd nm)) nested ->
     P (mk_x_message fqn enums nested fields oneofs)) -> forall m, P m.
Proof.
  intros H. fix IH 1. intros [fqn enums nested fields oneofs]. apply H.
  induction nested as [|[n m] l IHl]; constructor; [apply IH|exact IHl].
Qed.
Inductive xwf : x_message -> Prop :=
| xwf_intro : forall fqn enums nested fields oneofs,
    NoDup (map fst nested) -> NoDup (map fst fields) -> NoDup (map fst enums) -> NoDup (map fst oneofs) ->
    Forall (fun nm => xwf (snd nm)) nested ->
    xwf (mk_x_message fqn enums nested fields oneofs).
Lemma new_message_wf m : forall encl x, new_message m encl = Ok x -> xwf x.
Proof.
  induction m as [name fields oneofs nested enums IH] using message_ind'. intros encl x H.
  pose proof (new_message_rep _ _ _ H) as [_ He (l & Hl & Hn) Ho Hf _ _].
  destruct x as [fqn xes xns xfs xos]. cbn [xm_enums xm_nested xm_fields xm_oneofs xm_fqn] in *. subst.
  constructor; try apply build_NoDup; [assumption|].
  rewrite Forall_forall in IH |- *. intros [n x] Hi. cbn [snd].
  apply In_gget in Hi; [|apply build_NoDup].
  apply (x_message_list_spec _ _ _ Hl) in Hi as (m & Hm & Hx). apply declares_In in Hm as [Hm _].
  eapply IH; eassumption.
Qed.

Inductive xmsgs : list (string * x_message) -> list string -> list (string * x_message) -> Prop :=
| xmsgs_here : forall xms, xmsgs xms [] xms
| xmsgs_down : forall xms n x path xms', gget n xms = Some x -> xmsgs (xm_nested x) path xms' ->
    xmsgs xms (n :: path) xms'.
(** The same message in two maps, at the same place. *)
Definition reach (a b : list (string * x_message)) (path : list string) (n : string) (x y : x_message) : Prop :=
  exists a' b', xmsgs a path a' /\ xmsgs b path b' /\ gget n a' = Some x /\ gget n b' = Some y.
Lemma reach_here a b n x y : gget n a = Some x -> gget n b = Some y -> reach a b [] n x y.
Proof. intros H1 H2. exists a, b. repeat split; auto; constructor. Qed.
Lemma reach_down a b k x y path n x' y' : gget k a = Some x -> gget k b = Some y ->
  reach (xm_nested x) (xm_nested y) path n x' y' -> reach a b (k :: path) n x' y'.
Proof. intros H1 H2 (a' & b' & H3 & H4 & H5 & H6). exists a', b'. repeat split; auto; econstructor; eassumption. Qed.
Lemma reach_inv a b path n x y : reach a b path n x y ->
  match path with
  | [] => gget n a = Some x /\ gget n b = Some y
  | k :: path' => exists x' y', gget k a = Some x' /\ gget k b = Some y' /\
                    reach (xm_nested x') (xm_nested y') path' n x y
  end.
Proof.
  intros (a' & b' & Ha & Hb & Hx & Hy). destruct path as [|k path'].
  - inversion Ha; inversion Hb; subst. auto.
  - inversion Ha as [|? ? x' ? ? Hgx Hsx]; inversion Hb as [|? ? y' ? ? Hgy Hsy]; subst.
    exists x', y'. repeat split; auto. exists a', b'. auto.
Qed.
Section MessagePairs.
  Variable f : x_message -> x_message -> result (list string).
  Lemma message_pair_rec_eq m t :
    message_pair_rec f m t =
    do a <- f m t; do b <- for_each_message_pair_rec f (xm_nested m) (xm_nested t); Ok (a ++ b).
  Proof.
    destruct m as [fqn enums nested fields oneofs]. cbn [message_pair_rec xm_nested].
    destruct (f _ t) as [a|]; [|reflexivity]. cbn [bind].
    match goal with |- bind ?x _ = bind ?y _ => assert (E : x = y) end.
    { unfold for_each_message_pair_rec, for_each_pair.
      induction nested as [|[n m'] l IH]; [reflexivity|]. rewrite concatM_cons. cbn [fst snd]. now rewrite IH. }
    now rewrite E.
  Qed.
  Lemma message_pairs_emits_wf a : NoDup (map fst a) -> Forall (fun nm => xwf (snd nm)) a ->
    (forall nm, In nm a -> forall t s, xwf (snd nm) -> ok (message_pair_rec f (snd nm) t) ->
       (ok (f (snd nm) t) /\ forall path n x y, reach (xm_nested (snd nm)) (xm_nested t) path n x y -> ok (f x y)) /\
       (emits (message_pair_rec f (snd nm) t) s <->
        emits (f (snd nm) t) s \/
        exists path n x y, reach (xm_nested (snd nm)) (xm_nested t) path n x y /\ emits (f x y) s)) ->
    forall b s, ok (for_each_message_pair_rec f a b) ->
    (forall path n x y, reach a b path n x y -> ok (f x y)) /\
    (emits (for_each_message_pair_rec f a b) s <->
     exists path n x y, reach a b path n x y /\ emits (f x y) s).
  Proof.
    intros ND WF IH b s Hok. destruct (for_each_pair_emits _ _ _ s ND Hok) as [Hall Hem].
    rewrite Forall_forall in WF. split.
    - intros path n x y Hr. apply reach_inv in Hr. destruct path as [|k path'].
      + destruct Hr as [Hx Hy]. pose proof (gget_In _ _ _ Hx) as Hi.
        apply (IH _ Hi y s (WF _ Hi)). now apply (Hall n).
      + destruct Hr as (x' & y' & Hx & Hy & Hr). pose proof (gget_In _ _ _ Hx) as Hi.
        eapply (IH _ Hi y' s (WF _ Hi)); [now apply (Hall k)|exact Hr].
    - unfold for_each_message_pair_rec. rewrite Hem. split.
      + intros (k & v & w & Hv & Hw & He). pose proof (gget_In _ _ _ Hv) as Hi.
        apply (IH _ Hi w s (WF _ Hi)) in He; [|now apply (Hall k)].
        destruct He as [He|(path & n & x & y & Hr & He)].
        * exists [], k, v, w. split; [now apply reach_here|assumption].
        * exists (k :: path), n, x, y. split; [eapply reach_down; eassumption|assumption].
      + intros (path & n & x & y & Hr & He). apply reach_inv in Hr. destruct path as [|k path'].
        * destruct Hr as [Hx Hy]. exists n, x, y. repeat split; auto.
          pose proof (gget_In _ _ _ Hx) as Hi. apply (IH _ Hi y s (WF _ Hi)); [now apply (Hall n)|now left].
        * destruct Hr as (x' & y' & Hx & Hy & Hr). exists k, x', y'. repeat split; auto.
          pose proof (gget_In _ _ _ Hx) as Hi. apply (IH _ Hi y' s (WF _ Hi)); [now apply (Hall k)|].
          right. exists path', n, x, y. auto.
  Qed.
  Lemma message_pair_rec_emits m : forall t s, xwf m -> ok (message_pair_rec f m t) ->
    (ok (f m t) /\ forall path n x y, reach (xm_nested m) (xm_nested t) path n x y -> ok (f x y)) /\
    (emits (message_pair_rec f m t) s <->
     emits (f m t) s \/ exists path n x y, reach (xm_nested m) (xm_nested t) path n x y /\ emits (f x y) s).
  Proof.
    induction m as [fqn enums nested fields oneofs IH] using x_message_ind'. intros t s WF.
    inversion WF as [? ? ? ? ? ND _ _ _ WFn]; subst. rewrite message_pair_rec_eq. intros Hok.
    destruct (emits_app _ _ s Hok) as (O1 & O2 & E). cbn [xm_nested] in O2, E |- *.
    rewrite Forall_forall in IH.
    destruct (message_pairs_emits_wf nested ND WFn IH (xm_nested t) s O2) as [A1 A2].
    split; [split; [assumption|exact A1]|]. rewrite E, A2. reflexivity.
  Qed.
  Lemma message_pairs_emits a b s : NoDup (map fst a) -> Forall (fun nm => xwf (snd nm)) a ->
    ok (for_each_message_pair_rec f a b) ->
    (forall path n x y, reach a b path n x y -> ok (f x y)) /\
    (emits (for_each_message_pair_rec f a b) s <->
     exists path n x y, reach a b path n x y /\ emits (f x y) s).
  Proof.
    intros ND WF Hok. apply message_pairs_emits_wf; auto. intros nm Hi t s' Hw. now apply message_pair_rec_emits.
  Qed.
  Lemma message_pair_rec_ok m : forall t, xwf m -> ok (f m t) ->
    (forall path n x y, reach (xm_nested m) (xm_nested t) path n x y -> ok (f x y)) -> ok (message_pair_rec f m t).
  Proof.
    induction m as [fqn enums nested fields oneofs IH] using x_message_ind'. intros t WF H1 H2.
    inversion WF as [? ? ? ? ? ND _ _ _ WFn]; subst. rewrite message_pair_rec_eq. apply ok_app; [assumption|].
    cbn [xm_nested] in *. apply for_each_pair_ok; [assumption|]. intros k v w Hv Hw.
    rewrite Forall_forall in IH, WFn. pose proof (gget_In _ _ _ Hv) as Hi.
    apply (IH _ Hi); [now apply WFn in Hi| |].
    - apply (H2 [] k). now apply reach_here.
    - intros path n x y Hr. apply (H2 (k :: path) n). eapply reach_down; eassumption.
  Qed.
  Lemma message_pairs_ok a b : NoDup (map fst a) -> Forall (fun nm => xwf (snd nm)) a ->
    (forall path n x y, reach a b path n x y -> ok (f x y)) -> ok (for_each_message_pair_rec f a b).
  Proof.
    intros ND WF H. apply for_each_pair_ok; [assumption|]. intros k v w Hv Hw. rewrite Forall_forall in WF.
    apply message_pair_rec_ok; [now apply gget_In, WF in Hv| |].
    - apply (H [] k). now apply reach_here.
    - intros path n x y Hr. apply (H (k :: path) n). eapply reach_down; eassumption.
  Qed.
End MessagePairs.

(** The recursion of MESSAGES_NOT_DELETED visits the same scopes. *)
Definition gone_messages (a b : list (string * x_message)) : result (list string) :=
  for_each_missing (fun _ m => "Message " +++ quote (xm_fqn m) +++ " was deleted.") a b.
Lemma messages_not_deleted_emits_aux m : xwf m -> forall t s,
  ok (messages_not_deleted_rec m t) /\
  (emits (messages_not_deleted_rec m t) s <->
   exists path a b, xmsgs (xm_nested m) path a /\ xmsgs (xm_nested t) path b /\ emits (gone_messages a b) s).
Proof.
  induction m as [fqn enums nested fields oneofs IH] using x_message_ind'. intros WF t s.
  inversion WF as [? ? ? ? ? ND _ _ _ WFn]; subst.
  set (g := fun nm : string * x_message => match gget (fst nm) (xm_nested t) with
                | None => Ok ["Message " +++ quote (xm_fqn (snd nm)) +++ " was deleted."]
                | Some t' => messages_not_deleted_rec (snd nm) t' end).
  assert (Eq : messages_not_deleted_rec (mk_x_message fqn enums nested fields oneofs) t = concatM g nested).
  { cbn [messages_not_deleted_rec xm_nested]. clear IH WF ND WFn.
    induction nested as [|[n m'] l IHl]; [reflexivity|]. rewrite concatM_cons. unfold g at 1. cbn [fst snd].
    destruct (gget n (xm_nested t)); cbn [bind]; now rewrite IHl. }
  rewrite Forall_forall in IH, WFn.
  assert (Hok : ok (concatM g nested)).
  { apply concatM_all_Ok. intros [n m'] Hi. unfold g. cbn [fst snd]. destruct (gget n (xm_nested t)) as [t'|]; [|eauto].
    apply (IH _ Hi (WFn _ Hi) t' s). }
  rewrite Eq. split; [assumption|]. destruct Hok as [l Hl]. rewrite Hl, emits_Ok. apply concatM_Ok in Hl as [_ H].
  rewrite H. cbn [xm_nested]. split.
  - intros ([n m'] & a & Hi & Ha & Hs). unfold g in Ha. cbn [fst snd] in Ha.
    destruct (gget n (xm_nested t)) as [t'|] eqn:Et.
    + assert (He : emits (messages_not_deleted_rec m' t') s) by (now exists a).
      apply (IH _ Hi (WFn _ Hi) t' s) in He as (path & a' & b' & Ha' & Hb' & He). cbn [snd] in Ha'.
      exists (n :: path), a', b'. repeat split; auto; econstructor; eauto. now apply In_gget.
    + exists [], nested, (xm_nested t). repeat split; try constructor. injection Ha as <-.
      apply for_each_missing_emits; [assumption|]. exists n, m'. repeat split; [now apply In_gget|assumption|].
      destruct Hs as [<-|[]]. reflexivity.
  - intros (path & a' & b' & Ha & Hb & He). destruct path as [|k path'].
    + inversion Ha; inversion Hb; subst. apply for_each_missing_emits in He as (k & v & Hk & Hn & ->); [|assumption].
      exists (k, v). eexists. split; [now apply gget_In|]. unfold g. cbn [fst snd]. rewrite Hn.
      split; [reflexivity|now left].
    + inversion Ha as [|? ? x' ? ? Hgx Hsx]; inversion Hb as [|? ? y' ? ? Hgy Hsy]; subst.
      pose proof (gget_In _ _ _ Hgx) as Hi.
      assert (He' : emits (messages_not_deleted_rec x' y') s).
      { apply (IH _ Hi (WFn _ Hi) y' s). exists path', a', b'. auto. }
      destruct He' as (l' & Hl' & Hs). exists (k, x'), l'. split; [assumption|]. unfold g. cbn [fst snd].
      rewrite Hgy. auto.
Qed.
Lemma messages_not_deleted_emits a b s : NoDup (map fst a) -> Forall (fun nm => xwf (snd nm)) a ->
  ok (messages_not_deleted_map a b) /\
  (emits (messages_not_deleted_map a b) s <->
   exists path a' b', xmsgs a path a' /\ xmsgs b path b' /\ emits (gone_messages a' b') s).
Proof.
  intros ND WF. rewrite Forall_forall in WF.
  assert (Hok : ok (messages_not_deleted_map a b)).
  { apply concatM_all_Ok. intros [n m'] Hi. cbn [fst snd]. destruct (gget n b) as [t'|]; [|eauto].
    apply (messages_not_deleted_emits_aux m' (WF _ Hi) t' s). }
  split; [assumption|]. destruct Hok as [l Hl]. rewrite Hl, emits_Ok. apply concatM_Ok in Hl as [_ H].
  rewrite H. split.
  - intros ([n m'] & a0 & Hi & Ha & Hs). cbn [fst snd] in Ha. destruct (gget n b) as [t'|] eqn:Et.
    + assert (He : emits (messages_not_deleted_rec m' t') s) by (now exists a0).
      apply (messages_not_deleted_emits_aux m' (WF _ Hi) t' s) in He as (path & a' & b' & Ha' & Hb' & He).
      exists (n :: path), a', b'. repeat split; auto; econstructor; eauto. now apply In_gget.
    + exists [], a, b. repeat split; try constructor. injection Ha as <-.
      apply for_each_missing_emits; [assumption|]. exists n, m'. repeat split; [now apply In_gget|assumption|].
      destruct Hs as [<-|[]]. reflexivity.
  - intros (path & a' & b' & Ha & Hb & He). destruct path as [|k path'].
    + inversion Ha; inversion Hb; subst. apply for_each_missing_emits in He as (k & v & Hk & Hn & ->); [|assumption].
      exists (k, v). eexists. split; [now apply gget_In|]. cbn [fst snd]. rewrite Hn.
      split; [reflexivity|now left].
    + inversion Ha as [|? ? x' ? ? Hgx Hsx]; inversion Hb as [|? ? y' ? ? Hgy Hsy]; subst.
      pose proof (gget_In _ _ _ Hgx) as Hi.
      assert (He' : emits (messages_not_deleted_rec x' y') s).
      { apply (messages_not_deleted_emits_aux x' (WF _ Hi) y' s). exists path', a', b'. auto. }
      destruct He' as (l' & Hl' & Hs). exists (k, x'), l'. split; [assumption|]. cbn [fst snd].
      rewrite Hgy. auto.
Qed.

(** ** From wrappers to declarations *)
Lemma xmsgs_xscope a path a' : xmsgs a path a' -> forall xes, exists b', xscope a xes path a' b'.
Proof.
  induction 1 as [a|a n x path a' Hg Hs IH]; intros xes; [exists xes; constructor|].
  destruct (IH (xm_enums x)) as [b' Hb]. exists b'. econstructor; eassumption.
Qed.
Lemma xscope_xmsgs a xes path a' b' : xscope a xes path a' b' -> xmsgs a path a'.
Proof. induction 1; [constructor|econstructor; eassumption]. Qed.
(** A scope below the top is the inside of a message. *)
Lemma xscope_snoc a xes path n a' b' x : xscope a xes path a' b' -> gget n a' = Some x ->
  xscope a xes (path ++ [n]) (xm_nested x) (xm_enums x).
Proof.
  induction 1 as [a xes|a xes k y path a' b' Hg Hs IH]; intros Hn; cbn [app]; econstructor; eauto. constructor.
Qed.
Lemma xscope_snoc_inv a xes path n a2 b2 : xscope a xes (path ++ [n]) a2 b2 ->
  exists a' b' x, xscope a xes path a' b' /\ gget n a' = Some x /\ a2 = xm_nested x /\ b2 = xm_enums x.
Proof.
  revert a xes. induction path as [|k path IH]; intros a xes H; cbn [app] in H.
  - inversion H as [|? ? ? x ? ? ? Hg Hs]; subst. inversion Hs; subst. exists a, xes, x. repeat split; auto. constructor.
  - inversion H as [|? ? ? x ? ? ? Hg Hs]; subst. apply IH in Hs as (a' & b' & y & H1 & H2 & H3 & H4).
    exists a', b', y. repeat split; auto. econstructor; eassumption.
Qed.

Definition xscope_at (xs : x_package_set) (pkg : string) (path : list string)
  (a : list (string * x_message)) (b : list (string * x_enum)) : Prop :=
  exists xp, gget pkg xs = Some xp /\ xscope (xp_messages xp) (xp_enums xp) path a b.

Definition set_rep (F : packages) (xs : x_package_set) : Prop :=
  NoDup (map fst xs) /\
  (forall n xp, gget n xs = Some xp -> exists p, F n p /\ package_rep n p xp) /\
  (forall n p, F n p -> exists xp, gget n xs = Some xp /\ package_rep n p xp).

Section OneSet.
  Variables (F : packages) (xs : x_package_set).
  Hypothesis REP : set_rep F xs.
  Lemma scope_at_bwd pkg path a b : xscope_at xs pkg path a b ->
    exists ms es, scope_at F pkg path ms es /\ scope_rep (qualify pkg path) ms es a b.
  Proof.
    intros (xp & Hg & Hs). apply REP in Hg as (p & Hp & [Hpr Hsc _]).
    destruct (scope_bwd _ _ _ _ _ Hs _ _ _ Hsc) as (ms & es & H1 & H2).
    exists ms, es. split; [|assumption]. exists p. auto.
  Qed.
  Lemma scope_at_fwd pkg path ms es : scope_at F pkg path ms es ->
    exists a b, xscope_at xs pkg path a b /\ scope_rep (qualify pkg path) ms es a b.
  Proof.
    intros (p & Hp & Hs). apply REP in Hp as (xp & Hg & [Hpr Hsc _]).
    destruct (scope_fwd _ _ _ _ _ Hs _ _ _ Hsc) as (a & b & H1 & H2).
    exists a, b. split; [|assumption]. exists xp. auto.
  Qed.
  Lemma xp_messages_wf n xp : gget n xs = Some xp ->
    NoDup (map fst (xp_messages xp)) /\ Forall (fun nm => xwf (snd nm)) (xp_messages xp) /\
    NoDup (map fst (xp_enums xp)) /\ NoDup (map fst (xp_services xp)).
  Proof.
    intros H. apply REP in H as (p & Hp & [_ Hs Hsv]). rewrite Hsv. destruct Hs as (-> & l & Hl & ->).
    split; [apply build_NoDup|]. split; [|split; apply build_NoDup].
    rewrite Forall_forall. intros [k x] Hi. apply In_gget in Hi; [|apply build_NoDup].
    apply (x_message_list_spec _ _ _ Hl) in Hi as (m & _ & Hx). now apply new_message_wf in Hx.
  Qed.
  Lemma xscope_nodup pkg path a b : xscope_at xs pkg path a b -> NoDup (map fst a) /\ NoDup (map fst b).
  Proof. intros H. apply scope_at_bwd in H as (ms & es & _ & -> & l & _ & ->). split; apply build_NoDup. Qed.
End OneSet.

Section TwoSets.
  Variables (F T : packages) (xs ys : x_package_set).
  Hypothesis RF : set_rep F xs.
  Hypothesis RT : set_rep T ys.

  (** The same message, enum, service on both sides. *)
  Definition message_both (Q : string -> list string -> string -> message -> message -> x_message -> x_message -> Prop) : Prop :=
    exists pkg path n m t x y, message_at F pkg path n m /\ message_at T pkg path n t /\
      new_message m (qualify pkg path) = Ok x /\ new_message t (qualify pkg path) = Ok y /\ Q pkg path n m t x y.

  Lemma package_pairs_emits f s : ok (for_each_package_pair f xs ys) ->
    (forall pkg xp yp, gget pkg xs = Some xp -> gget pkg ys = Some yp -> ok (f xp yp)) /\
    (emits (for_each_package_pair f xs ys) s <->
     exists pkg xp yp, gget pkg xs = Some xp /\ gget pkg ys = Some yp /\ emits (f xp yp) s).
  Proof. apply for_each_pair_emits. apply RF. Qed.

  Lemma message_pair_emits_x f s : ok (for_each_message_pair f xs ys) ->
    emits (for_each_message_pair f xs ys) s <->
    exists pkg path a b a' b' n x y, xscope_at xs pkg path a b /\ xscope_at ys pkg path a' b' /\
      gget n a = Some x /\ gget n a' = Some y /\ emits (f x y) s.
  Proof.
    intros Hok. destruct (package_pairs_emits _ s Hok) as [Hall ->]. split.
    - intros (pkg & xp & yp & Hx & Hy & He).
      destruct (xp_messages_wf _ _ RF _ _ Hx) as (ND & WF & _ & _).
      apply (message_pairs_emits f _ _ s ND WF) in He; [|now apply (Hall pkg)].
      destruct He as (path & n & x & y & (a & a' & Ha & Ha' & Hgx & Hgy) & He).
      destruct (xmsgs_xscope _ _ _ Ha (xp_enums xp)) as [b Hb].
      destruct (xmsgs_xscope _ _ _ Ha' (xp_enums yp)) as [b' Hb'].
      exists pkg, path, a, b, a', b', n, x, y. repeat split; auto; [exists xp|exists yp]; auto.
    - intros (pkg & path & a & b & a' & b' & n & x & y & (xp & Hx & Ha) & (yp & Hy & Hb) & Hgx & Hgy & He).
      exists pkg, xp, yp. repeat split; auto.
      destruct (xp_messages_wf _ _ RF _ _ Hx) as (ND & WF & _ & _).
      apply (message_pairs_emits f _ _ s ND WF); [now apply (Hall pkg)|].
      exists path, n, x, y. split; [|assumption]. exists a, a'.
      repeat split; auto; eapply xscope_xmsgs; eassumption.
  Qed.
  Lemma message_pair_ok f :
    (forall pkg path n m t x y, message_at F pkg path n m -> message_at T pkg path n t ->
       new_message m (qualify pkg path) = Ok x -> new_message t (qualify pkg path) = Ok y -> ok (f x y)) ->
    ok (for_each_message_pair f xs ys).
  Proof.
    intros H. apply for_each_pair_ok; [apply RF|]. intros pkg xp yp Hx Hy.
    destruct (xp_messages_wf _ _ RF _ _ Hx) as (ND & WF & _ & _).
    apply message_pairs_ok; [assumption|assumption|]. intros path n x y (a & a' & Ha & Ha' & Hgx & Hgy).
    destruct (xmsgs_xscope _ _ _ Ha (xp_enums xp)) as [b Hb].
    destruct (xmsgs_xscope _ _ _ Ha' (xp_enums yp)) as [b' Hb'].
    destruct (scope_at_bwd _ _ RF pkg path a b) as (ms & es & S1 & R1); [now exists xp|].
    destruct (scope_at_bwd _ _ RT pkg path a' b') as (ms' & es' & S2 & R2); [now exists yp|].
    apply (scope_rep_get _ _ _ _ _ R1) in Hgx as (m & Hm & Hxm).
    apply (scope_rep_get _ _ _ _ _ R2) in Hgy as (t & Ht & Hyt).
    apply (H pkg path n m t x y); auto; [exists ms, es|exists ms', es']; auto.
  Qed.
  Lemma message_pair_emits f s : ok (for_each_message_pair f xs ys) ->
    emits (for_each_message_pair f xs ys) s <-> message_both (fun _ _ _ _ _ x y => emits (f x y) s).
  Proof.
    intros Hok. rewrite message_pair_emits_x by assumption. split.
    - intros (pkg & path & a & b & a' & b' & n & x & y & Ha & Hb & Hgx & Hgy & He).
      destruct (scope_at_bwd _ _ RF _ _ _ _ Ha) as (ms & es & S1 & R1).
      destruct (scope_at_bwd _ _ RT _ _ _ _ Hb) as (ms' & es' & S2 & R2).
      apply (scope_rep_get _ _ _ _ _ R1) in Hgx as (m & Hm & Hxm).
      apply (scope_rep_get _ _ _ _ _ R2) in Hgy as (t & Ht & Hyt).
      exists pkg, path, n, m, t, x, y. repeat split; auto; [exists ms, es|exists ms', es']; auto.
    - intros (pkg & path & n & m & t & x & y & (ms & es & S1 & Hm) & (ms' & es' & S2 & Ht) & Hx & Hy & He).
      destruct (scope_at_fwd _ _ RF _ _ _ _ S1) as (a & b & A & R1).
      destruct (scope_at_fwd _ _ RT _ _ _ _ S2) as (a' & b' & B & R2).
      exists pkg, path, a, b, a', b', n, x, y. repeat split; auto.
      + apply (scope_rep_get _ _ _ _ _ R1). now exists m.
      + apply (scope_rep_get _ _ _ _ _ R2). now exists t.
  Qed.

  (** Package level plus message level together visit every scope. *)
  Lemma scope_pairs_emits (g : list (string * x_enum) -> list (string * x_enum) -> result (list string)) s :
    let r := do a <- for_each_package_pair (fun p t => g (xp_enums p) (xp_enums t)) xs ys;
             do b <- for_each_message_pair (fun m t => g (xm_enums m) (xm_enums t)) xs ys; Ok (a ++ b) in
    ok r ->
    emits r s <-> exists pkg path a b a' b', xscope_at xs pkg path a b /\ xscope_at ys pkg path a' b' /\ emits (g b b') s.
  Proof.
    intros r Hok. destruct (emits_app _ _ s Hok) as (O1 & O2 & E). unfold r. rewrite E. clear E.
    destruct (package_pairs_emits _ s O1) as [_ ->]. rewrite message_pair_emits_x by assumption. split.
    - intros [(pkg & xp & yp & Hx & Hy & He)|(pkg & path & a & b & a' & b' & n & x & y & (xp & Hx & Ha) & (yp & Hy & Hb) & Hgx & Hgy & He)].
      + exists pkg, [], (xp_messages xp), (xp_enums xp), (xp_messages yp), (xp_enums yp).
        repeat split; auto; [exists xp|exists yp]; split; auto; constructor.
      + exists pkg, (path ++ [n]), (xm_nested x), (xm_enums x), (xm_nested y), (xm_enums y).
        repeat split; auto; [exists xp|exists yp]; (split; [assumption|]); eapply xscope_snoc; eassumption.
    - intros (pkg & path & a & b & a' & b' & (xp & Hx & Ha) & (yp & Hy & Hb) & He).
      destruct (rev path) as [|n rp] eqn:Er.
      + apply (f_equal (@rev string)) in Er. rewrite rev_involutive in Er. cbn in Er. subst path.
        inversion Ha; inversion Hb; subst. left. now exists pkg, xp, yp.
      + apply (f_equal (@rev string)) in Er. rewrite rev_involutive in Er. cbn in Er. subst path.
        apply xscope_snoc_inv in Ha as (a1 & b1 & x & A1 & A2 & -> & ->).
        apply xscope_snoc_inv in Hb as (a2 & b2 & y & B1 & B2 & -> & ->).
        right. exists pkg, (rev rp), a1, b1, a2, b2, n, x, y. repeat split; auto; [exists xp|exists yp]; auto.
  Qed.
  Definition enum_both (Q : string -> list string -> string -> enum -> enum -> Prop) : Prop :=
    exists pkg path n e t, enum_at F pkg path n e /\ enum_at T pkg path n t /\ Q pkg path n e t.
  Lemma enum_pair_emits f s : ok (for_each_enum_pair f xs ys) ->
    emits (for_each_enum_pair f xs ys) s <->
    enum_both (fun pkg path n e t => emits (f (new_enum e (qualify pkg path)) (new_enum t (qualify pkg path))) s).
  Proof.
    intros Hok. unfold for_each_enum_pair in *.
    rewrite (scope_pairs_emits (fun b b' => for_each_pair f b b')) by assumption.
    assert (OK : forall pkg path a b a' b', xscope_at xs pkg path a b -> xscope_at ys pkg path a' b' ->
              ok (for_each_pair f b b')).
    { destruct (emits_app _ _ s Hok) as (O1 & O2 & _).
      intros pkg path a b a' b' (xp & Hx & Ha) (yp & Hy & Hb).
      destruct (rev path) as [|n rp] eqn:Er.
      - apply (f_equal (@rev string)) in Er. rewrite rev_involutive in Er. cbn in Er. subst path.
        inversion Ha; inversion Hb; subst. destruct (package_pairs_emits _ s O1) as [H _]. now apply (H pkg).
      - apply (f_equal (@rev string)) in Er. rewrite rev_involutive in Er. cbn in Er. subst path.
        apply xscope_snoc_inv in Ha as (a1 & b1 & x & A1 & A2 & -> & ->).
        apply xscope_snoc_inv in Hb as (a2 & b2 & y & B1 & B2 & -> & ->).
        destruct (package_pairs_emits _ s O2) as [H _].
        destruct (xp_messages_wf _ _ RF _ _ Hx) as (ND & WF & _ & _).
        destruct (message_pairs_emits _ _ _ s ND WF (H pkg xp yp Hx Hy)) as [H' _].
        apply (H' (rev rp) n). exists a1, a2. repeat split; auto; eapply xscope_xmsgs; eassumption. }
    split.
    - intros (pkg & path & a & b & a' & b' & Ha & Hb & He).
      pose proof (xscope_nodup _ _ RF _ _ _ _ Ha) as [_ ND].
      apply (for_each_pair_emits _ _ _ _ ND) in He; [|eapply OK; eassumption].
      destruct He as (n & v & w & Hv & Hw & He).
      destruct (scope_at_bwd _ _ RF _ _ _ _ Ha) as (ms & es & S1 & R1).
      destruct (scope_at_bwd _ _ RT _ _ _ _ Hb) as (ms' & es' & S2 & R2).
      apply (scope_rep_enum _ _ _ _ _ R1) in Hv as (e & Hd & ->).
      apply (scope_rep_enum _ _ _ _ _ R2) in Hw as (t & Ht & ->).
      exists pkg, path, n, e, t. repeat split; auto; [exists ms, es|exists ms', es']; auto.
    - intros (pkg & path & n & e & t & (ms & es & S1 & Hd) & (ms' & es' & S2 & Ht) & He).
      destruct (scope_at_fwd _ _ RF _ _ _ _ S1) as (a & b & A & R1).
      destruct (scope_at_fwd _ _ RT _ _ _ _ S2) as (a' & b' & B & R2).
      exists pkg, path, a, b, a', b'. repeat split; auto.
      pose proof (xscope_nodup _ _ RF _ _ _ _ A) as [_ ND].
      apply (for_each_pair_emits _ _ _ _ ND); [eapply OK; eassumption|].
      exists n, (new_enum e (qualify pkg path)), (new_enum t (qualify pkg path)). repeat split; auto.
      + apply (scope_rep_enum _ _ _ _ _ R1). now exists e.
      + apply (scope_rep_enum _ _ _ _ _ R2). now exists t.
  Qed.
  Lemma enum_pair_ok f : (forall pkg path n e t, enum_at F pkg path n e -> enum_at T pkg path n t ->
      ok (f (new_enum e (qualify pkg path)) (new_enum t (qualify pkg path)))) -> ok (for_each_enum_pair f xs ys).
  Proof.
    intros H.
    assert (OK : forall pkg path a b a' b', xscope_at xs pkg path a b -> xscope_at ys pkg path a' b' ->
              ok (for_each_pair f b b')).
    { intros pkg path a b a' b' Ha Hb. pose proof (xscope_nodup _ _ RF _ _ _ _ Ha) as [_ ND].
      apply for_each_pair_ok; [assumption|]. intros n v w Hv Hw.
      destruct (scope_at_bwd _ _ RF _ _ _ _ Ha) as (ms & es & S1 & R1).
      destruct (scope_at_bwd _ _ RT _ _ _ _ Hb) as (ms' & es' & S2 & R2).
      apply (scope_rep_enum _ _ _ _ _ R1) in Hv as (e & Hd & ->).
      apply (scope_rep_enum _ _ _ _ _ R2) in Hw as (t & Ht & ->).
      apply (H pkg path n); [exists ms, es|exists ms', es']; auto. }
    apply ok_app.
    - apply for_each_pair_ok; [apply RF|]. intros pkg xp yp Hx Hy.
      apply (OK pkg [] (xp_messages xp) _ (xp_messages yp)); [exists xp|exists yp]; split; auto; constructor.
    - apply for_each_pair_ok; [apply RF|]. intros pkg xp yp Hx Hy.
      destruct (xp_messages_wf _ _ RF _ _ Hx) as (ND & WF & _ & _).
      apply message_pairs_ok; [assumption|assumption|]. intros path n x y (a & a' & Ha & Ha' & Hgx & Hgy).
      destruct (xmsgs_xscope _ _ _ Ha (xp_enums xp)) as [b Hb].
      destruct (xmsgs_xscope _ _ _ Ha' (xp_enums yp)) as [b' Hb'].
      apply (OK pkg (path ++ [n]) (xm_nested x) _ (xm_nested y)); [exists xp|exists yp]; (split; [assumption|]);
        eapply xscope_snoc; eassumption.
  Qed.

  Definition service_both (Q : string -> string -> service -> service -> Prop) : Prop :=
    exists pkg n s t, service_at F pkg n s /\ service_at T pkg n t /\ Q pkg n s t.
  Lemma service_get (P : packages) zs : set_rep P zs -> forall pkg n y,
    (exists zp, gget pkg zs = Some zp /\ gget n (xp_services zp) = Some y) <->
    exists sv, service_at P pkg n sv /\ y = new_service sv pkg.
  Proof.
    intros R pkg n y. split.
    - intros (zp & Hz & Hy). apply R in Hz as (p & Hp & [_ _ Hs]). rewrite Hs in Hy.
      apply (gget_build_declares sv_name (fun s => new_service s pkg)) in Hy as (sv & Hsv & ->).
      exists sv. split; [|reflexivity]. now exists p.
    - intros (sv & (p & Hp & Hsv) & ->). apply R in Hp as (zp & Hz & [_ _ Hs]). exists zp. split; [assumption|].
      rewrite Hs. apply (gget_build_declares sv_name (fun s => new_service s pkg)). now exists sv.
  Qed.
  Lemma service_pair_ok f :
    (forall pkg n sv t, service_at F pkg n sv -> service_at T pkg n t -> ok (f (new_service sv pkg) (new_service t pkg))) ->
    ok (for_each_service_pair f xs ys).
  Proof.
    intros H. apply for_each_pair_ok; [apply RF|]. intros pkg xp yp Hx Hy.
    destruct (xp_messages_wf _ _ RF _ _ Hx) as (_ & _ & _ & ND).
    apply for_each_pair_ok; [assumption|]. intros n v w Hv Hw.
    destruct (proj1 (service_get _ _ RF pkg n v)) as (sv & Hsv & ->); [eauto|].
    destruct (proj1 (service_get _ _ RT pkg n w)) as (t & Ht & ->); [eauto|]. eapply H; eassumption.
  Qed.
  Lemma service_pair_emits f s : ok (for_each_service_pair f xs ys) ->
    emits (for_each_service_pair f xs ys) s <->
    service_both (fun pkg n sv t => emits (f (new_service sv pkg) (new_service t pkg)) s).
  Proof.
    intros Hok. destruct (package_pairs_emits _ s Hok) as [Hall E]. unfold for_each_service_pair. rewrite E. split.
    - intros (pkg & xp & yp & Hx & Hy & He). destruct (xp_messages_wf _ _ RF _ _ Hx) as (_ & _ & _ & ND).
      apply (for_each_pair_emits _ _ _ _ ND) in He; [|now apply (Hall pkg)].
      destruct He as (n & v & w & Hv & Hw & He).
      destruct (proj1 (service_get _ _ RF pkg n v)) as (sv & Hsv & ->); [eauto|].
      destruct (proj1 (service_get _ _ RT pkg n w)) as (t & Ht & ->); [eauto|].
      exists pkg, n, sv, t. auto.
    - intros (pkg & n & sv & t & Hsv & Ht & He).
      destruct (proj2 (service_get _ _ RF pkg n (new_service sv pkg))) as (xp & Hx & Hv); [eauto|].
      destruct (proj2 (service_get _ _ RT pkg n (new_service t pkg))) as (yp & Hy & Hw); [eauto|].
      exists pkg, xp, yp. repeat split; auto. destruct (xp_messages_wf _ _ RF _ _ Hx) as (_ & _ & _ & ND).
      apply (for_each_pair_emits _ _ _ _ ND); [now apply (Hall pkg)|]. eauto 6.
  Qed.
End TwoSets.

(** ** Each check *)
Section Keyed.
  Context {A K V : Type} {key0 : Key K} (key : A -> K) (g h : A -> V).
  Lemma missing_keyed msg l l' s :
    emits (for_each_missing msg (build (map (fun x => (key x, g x)) l)) (build (map (fun x => (key x, h x)) l'))) s <->
    exists k x, declares key l k x /\ absent key l' k /\ s = msg k (g x).
  Proof.
    rewrite for_each_missing_emits by apply build_NoDup. split.
    - intros (k & v & Hv & Hn & ->). apply (gget_build_declares key g) in Hv as (x & Hx & ->).
      apply (gget_build_None key h) in Hn. eauto.
    - intros (k & x & Hx & Hn & ->). exists k, (g x). split; [|split; [|reflexivity]].
      + apply (gget_build_declares key g). eauto.
      + now apply (gget_build_None key h).
  Qed.
  Lemma pair_keyed f l l' s :
    ok (for_each_pair f (build (map (fun x => (key x, g x)) l)) (build (map (fun x => (key x, h x)) l'))) ->
    emits (for_each_pair f (build (map (fun x => (key x, g x)) l)) (build (map (fun x => (key x, h x)) l'))) s <->
    exists k x y, declares key l k x /\ declares key l' k y /\ emits (f (g x) (h y)) s.
  Proof.
    intros Hok. destruct (for_each_pair_emits _ _ _ s (build_NoDup _) Hok) as [_ ->]. split.
    - intros (k & v & w & Hv & Hw & He). apply (gget_build_declares key g) in Hv as (x & Hx & ->).
      apply (gget_build_declares key h) in Hw as (y & Hy & ->). eauto 6.
    - intros (k & x & y & Hx & Hy & He). exists k, (g x), (h y). repeat split; auto.
      + apply (gget_build_declares key g). eauto.
      + apply (gget_build_declares key h). eauto.
  Qed.
  Lemma pair_keyed_ok f l l' : (forall k x y, declares key l k x -> declares key l' k y -> ok (f (g x) (h y))) ->
    ok (for_each_pair f (build (map (fun x => (key x, g x)) l)) (build (map (fun x => (key x, h x)) l'))).
  Proof.
    intros H. apply for_each_pair_ok; [apply build_NoDup|]. intros k v w Hv Hw.
    apply (gget_build_declares key g) in Hv as (x & Hx & ->).
    apply (gget_build_declares key h) in Hw as (y & Hy & ->). eauto.
  Qed.
End Keyed.

Lemma num_text z : num z = number_text z.
Proof. reflexivity. Qed.
Lemma oneof_numbers_missing msg l l' s :
  emits (for_each_missing msg (build (map (fun n : Z => (n, tt)) l)) (build (map (fun n => (n, tt)) l'))) s <->
  exists n, In n l /\ ~ In n l' /\ s = msg n tt.
Proof.
  rewrite (missing_keyed (fun n : Z => n) (fun _ => tt) (fun _ => tt)). split.
  - intros (k & x & Hx & Ha & ->). apply declares_In in Hx as [Hi <-]. exists x. repeat split; auto.
    intros H. now apply Ha in H.
  - intros (n & Hi & Hn & ->). apply (In_declares (fun n : Z => n)) in Hi as [y Hy].
    pose proof (declares_In _ _ _ _ Hy) as [_ E]. cbn in E. subst y. exists n, n. repeat split; auto.
    intros x Hx ->. contradiction.
Qed.

Section Checks.
  Variables (F T : packages) (xs ys : x_package_set).
  Hypothesis RF : set_rep F xs.
  Hypothesis RT : set_rep T ys.
  Hypothesis NAMED : forall n p, F n p -> n <> "".

  Lemma message_new (P : packages) zs : set_rep P zs -> forall pkg path n m, message_at P pkg path n m ->
    exists x, new_message m (qualify pkg path) = Ok x.
  Proof.
    intros R pkg path n m (ms & es & S & D). destruct (scope_at_fwd _ _ R _ _ _ _ S) as (a & b & _ & Rp).
    destruct (scope_rep_msg _ _ _ _ _ Rp _ _ D) as (x & _ & H). now exists x.
  Qed.
  Lemma scope_named pkg path ms es : scope_at F pkg path ms es -> pkg <> "".
  Proof. intros (p & Hp & _). eapply NAMED, Hp. Qed.
  Lemma message_fqn pkg path n m x : message_at F pkg path n m -> new_message m (qualify pkg path) = Ok x ->
    xm_fqn x = full_name pkg path n.
  Proof.
    intros (ms & es & S & D) H. apply new_message_rep in H as [Hf _ _ _ _ _ _]. rewrite Hf.
    apply declares_In in D as [_ <-]. apply qualify_full. eapply scope_named; eassumption.
  Qed.
  Lemma enum_fqn pkg path n e : enum_at F pkg path n e -> xe_fqn (new_enum e (qualify pkg path)) = full_name pkg path n.
  Proof.
    intros (ms & es & S & D). apply declares_In in D as [_ <-]. apply qualify_full. eapply scope_named; eassumption.
  Qed.
  Lemma service_fqn pkg n sv : service_at F pkg n sv -> xs_fqn (new_service sv pkg) = full_name pkg [] n.
  Proof.
    intros (p & Hp & D). apply declares_In in D as [_ <-]. apply (qualify_full pkg []). now apply NAMED in Hp.
  Qed.

  Ltac by_message Hok := rewrite (message_pair_emits F T xs ys RF RT _ _ Hok); unfold message_both.

  Lemma packages_not_deleted_spec s :
    emits (check_packages_not_deleted xs ys) s <-> deleted F T "PACKAGES_NOT_DELETED" s.
  Proof.
    unfold check_packages_not_deleted. rewrite for_each_missing_emits by apply RF. split.
    - intros (n & xp & Hx & Hn & ->). apply RF in Hx as (p & Hp & _). apply (del_package F T n p Hp).
      intros t Ht. apply RT in Ht as (yp & Hy & _). congruence.
    - intros H. inversion H as [n p Hp Hn| | | | | | |]; subst. apply RF in Hp as (xp & Hx & _).
      exists n, xp. repeat split; auto. destruct (gget n ys) as [yp|] eqn:E; [|reflexivity].
      apply RT in E as (t & Ht & _). now apply Hn in Ht.
  Qed.
  Lemma packages_not_deleted_ok : ok (check_packages_not_deleted xs ys).
  Proof. apply for_each_missing_ok. Qed.

  Lemma enums_not_deleted_ok : ok (check_enums_not_deleted xs ys).
  Proof.
    apply ok_app.
    - apply for_each_pair_ok; [apply RF|]. intros. apply for_each_missing_ok.
    - apply message_pair_ok with (F := F) (T := T); auto. intros. apply for_each_missing_ok.
  Qed.
  Lemma enums_not_deleted_spec s :
    emits (check_enums_not_deleted xs ys) s <-> deleted F T "ENUMS_NOT_DELETED" s.
  Proof.
    unfold check_enums_not_deleted.
    rewrite (scope_pairs_emits F xs ys RF enums_not_deleted_map s enums_not_deleted_ok).
    split.
    - intros (pkg & path & a & b & a' & b' & Ha & Hb & He).
      destruct (scope_at_bwd _ _ RF _ _ _ _ Ha) as (ms & es & S1 & R1).
      destruct (scope_at_bwd _ _ RT _ _ _ _ Hb) as (ms' & es' & S2 & R2).
      destruct R1 as [-> _]. destruct R2 as [-> _].
      apply (missing_keyed en_name (fun e => new_enum e (qualify pkg path)) (fun e => new_enum e (qualify pkg path)))
        in He as (n & e & He & Hn & ->).
      assert (E : enum_at F pkg path n e) by (exists ms, es; auto).
      rewrite (enum_fqn _ _ _ _ E). eapply del_enum; eassumption.
    - intros H. inversion H as [| |pkg path n e ms es E S2 Ha| | | | |]; subst.
      pose proof (enum_fqn _ _ _ _ E) as EF. destruct E as (ms1 & es1 & S1 & D).
      destruct (scope_at_fwd _ _ RF _ _ _ _ S1) as (a & b & A & R1).
      destruct (scope_at_fwd _ _ RT _ _ _ _ S2) as (a' & b' & B & R2).
      exists pkg, path, a, b, a', b'. split; [assumption|split; [assumption|]].
      destruct R1 as [-> _]. destruct R2 as [-> _].
      apply (missing_keyed en_name (fun e => new_enum e (qualify pkg path)) (fun e => new_enum e (qualify pkg path))).
      exists n, e. rewrite EF. auto.
  Qed.

  Lemma messages_not_deleted_ok : ok (check_messages_not_deleted xs ys).
  Proof.
    apply for_each_pair_ok; [apply RF|]. intros pkg xp yp Hx Hy.
    destruct (xp_messages_wf _ _ RF _ _ Hx) as (ND & WF & _ & _). apply (messages_not_deleted_emits _ _ "" ND WF).
  Qed.
  Lemma messages_not_deleted_spec s :
    emits (check_messages_not_deleted xs ys) s <-> deleted F T "MESSAGES_NOT_DELETED" s.
  Proof.
    destruct (package_pairs_emits F xs ys RF _ s messages_not_deleted_ok) as [_ E].
    unfold check_messages_not_deleted. rewrite E. clear E. split.
    - intros (pkg & xp & yp & Hx & Hy & He).
      destruct (xp_messages_wf _ _ RF _ _ Hx) as (ND & WF & _ & _).
      apply (messages_not_deleted_emits _ _ s ND WF) in He as (path & a & a' & Ha & Ha' & He).
      destruct (xmsgs_xscope _ _ _ Ha (xp_enums xp)) as [b Hb].
      destruct (xmsgs_xscope _ _ _ Ha' (xp_enums yp)) as [b' Hb'].
      destruct (scope_at_bwd _ _ RF pkg path a b) as (ms & es & S1 & R1); [now exists xp|].
      destruct (scope_at_bwd _ _ RT pkg path a' b') as (ms' & es' & S2 & R2); [now exists yp|].
      apply for_each_missing_emits in He as (n & x & Hn & Hm & ->).
      2:{ apply (xscope_nodup _ _ RF pkg path a b). now exists xp. }
      apply (scope_rep_get _ _ _ _ _ R1) in Hn as (m & D & Hx').
      assert (M : message_at F pkg path n m) by (exists ms, es; auto).
      rewrite (message_fqn _ _ _ _ _ M Hx'). eapply del_message; [eassumption|eassumption|].
      apply absent_declares. intros t Ht. destruct (scope_rep_msg _ _ _ _ _ R2 _ _ Ht) as (y & Hy' & _). congruence.
    - intros H. inversion H as [|pkg path n m ms' es' M S2 Ha| | | | | |]; subst.
      destruct M as (ms & es & S1 & D). pose proof (scope_named _ _ _ _ S1) as NP.
      destruct (scope_at_fwd _ _ RF _ _ _ _ S1) as (a & b & A & R1).
      destruct (scope_at_fwd _ _ RT _ _ _ _ S2) as (a' & b' & B & R2).
      destruct A as (xp & Hx & A). destruct B as (yp & Hy & B).
      exists pkg, xp, yp. split; [assumption|split; [assumption|]].
      destruct (xp_messages_wf _ _ RF _ _ Hx) as (ND & WF & _ & _).
      apply (messages_not_deleted_emits _ _ _ ND WF). exists path, a, a'.
      split; [eapply xscope_xmsgs; eassumption|]. split; [eapply xscope_xmsgs; eassumption|].
      destruct (scope_rep_msg _ _ _ _ _ R1 _ _ D) as (x & Hg & Hx').
      apply for_each_missing_emits; [apply (xscope_nodup _ _ RF pkg path a b); now exists xp|].
      exists n, x. split; [assumption|]. split.
      + destruct (gget n a') as [y|] eqn:E; [|reflexivity].
        apply (scope_rep_get _ _ _ _ _ R2) in E as (t & Ht & _). apply declares_In in Ht as [Hi Hk]. now apply Ha in Hi.
      + rewrite <- (message_fqn pkg path n m x); [reflexivity| |assumption]. exists ms, es; auto.
  Qed.

  Lemma fields_missing m t x y encl : new_message m encl = Ok x -> new_message t encl = Ok y -> forall msg s,
    emits (for_each_missing (fun n (_ : x_field) => msg n) (xm_fields x) (xm_fields y)) s <->
    exists f, In f (msg_fields m) /\ absent fd_number (msg_fields t) (fd_number f) /\ s = msg (fd_number f).
  Proof.
    intros Hx Hy msg s. apply new_message_rep in Hx as [_ _ _ _ ND F1 F2]. apply new_message_rep in Hy as [_ _ _ _ _ G1 G2].
    rewrite for_each_missing_emits by assumption. split.
    - intros (k & [f oo] & Hk & Hn & ->). apply F1 in Hk as [D _]. apply declares_In in D as [Hi Hf].
      exists f. split; [assumption|]. rewrite Hf. split; [|reflexivity].
      apply absent_declares. intros g Hg. apply G2 in Hg as [oo' Hg]. congruence.
    - intros (f & Hi & Ha & ->). apply (In_declares fd_number) in Hi as [g Hg]. pose proof Hg as Hg'.
      apply F2 in Hg as [oo Hg]. exists (fd_number f), (g, oo). repeat split; auto.
      destruct (gget (fd_number f) (xm_fields y)) as [[h oo']|] eqn:E; [|reflexivity].
      apply G1 in E as [D _]. apply declares_In in D as [Hi Hk]. now apply Ha in Hi.
  Qed.
  Lemma message_fields_not_deleted_ok : ok (check_message_fields_not_deleted xs ys).
  Proof. apply message_pair_ok with (F := F) (T := T); auto. intros. apply for_each_missing_ok. Qed.
  Lemma message_fields_not_deleted_spec s :
    emits (check_message_fields_not_deleted xs ys) s <-> deleted F T "MESSAGE_FIELDS_NOT_DELETED" s.
  Proof.
    unfold check_message_fields_not_deleted. by_message message_fields_not_deleted_ok. split.
    - intros (pkg & path & n & m & t & x & y & M & M' & Hx & Hy & He).
      apply (fields_missing _ _ _ _ _ Hx Hy (fun n => "Message field " +++ num n +++ " on message " +++ quote (xm_fqn x) +++ " was deleted."))
        in He as (f & Hf & Ha & ->).
      rewrite (message_fqn _ _ _ _ _ M Hx). eapply del_field; eassumption.
    - intros H. inversion H as [| | |pkg path n m t f M M' Hf Ha| | | |]; subst.
      destruct (message_new _ _ RF _ _ _ _ M) as [x Hx]. destruct (message_new _ _ RT _ _ _ _ M') as [y Hy].
      exists pkg, path, n, m, t, x, y. repeat split; auto.
      apply (fields_missing _ _ _ _ _ Hx Hy (fun n => "Message field " +++ num n +++ " on message " +++ quote (xm_fqn x) +++ " was deleted.")).
      exists f. rewrite (message_fqn _ _ _ _ _ M Hx). auto.
  Qed.
  Lemma message_oneofs_not_deleted_ok : ok (check_message_oneofs_not_deleted xs ys).
  Proof. apply message_pair_ok with (F := F) (T := T); auto. intros. apply for_each_missing_ok. Qed.
  Lemma message_oneofs_not_deleted_spec s :
    emits (check_message_oneofs_not_deleted xs ys) s <-> deleted F T "MESSAGE_ONEOFS_NOT_DELETED" s.
  Proof.
    unfold check_message_oneofs_not_deleted. by_message message_oneofs_not_deleted_ok. split.
    - intros (pkg & path & n & m & t & x & y & M & M' & Hx & Hy & He).
      pose proof (message_fqn _ _ _ _ _ M Hx) as EF. apply new_message_rep in Hx as [_ _ _ Ho _ _ _].
      apply new_message_rep in Hy as [_ _ _ Ho' _ _ _]. rewrite Ho, Ho' in He.
      apply (missing_keyed oo_name (fun o => o) (fun o => o)) in He as (k & o & D & Ha & ->).
      apply declares_In in D as [Hi <-]. rewrite EF. eapply del_oneof; eassumption.
    - intros H. inversion H as [| | | |pkg path n m t o M M' Hi Ha| | |]; subst.
      destruct (message_new _ _ RF _ _ _ _ M) as [x Hx]. destruct (message_new _ _ RT _ _ _ _ M') as [y Hy].
      exists pkg, path, n, m, t, x, y. repeat split; auto. rewrite (message_fqn _ _ _ _ _ M Hx).
      apply new_message_rep in Hx as [_ _ _ Ho _ _ _].
      apply new_message_rep in Hy as [_ _ _ Ho' _ _ _]. rewrite Ho, Ho'.
      apply (missing_keyed oo_name (fun o => o) (fun o => o)).
      apply (In_declares oo_name) in Hi as [o' Ho2]. exists (oo_name o), o'. auto.
  Qed.
  Lemma message_oneofs_fields_not_removed_ok : ok (check_message_oneofs_fields_not_removed xs ys).
  Proof.
    apply message_pair_ok with (F := F) (T := T); auto. intros pkg path n m t x y M M' Hx Hy.
    apply new_message_rep in Hx as [_ _ _ Ho _ _ _]. rewrite Ho. apply for_each_pair_ok; [apply build_NoDup|].
    intros. apply for_each_missing_ok.
  Qed.
  Lemma message_oneofs_fields_not_removed_spec s :
    emits (check_message_oneofs_fields_not_removed xs ys) s <-> changed F T "MESSAGE_ONEOFS_FIELDS_NOT_REMOVED" s.
  Proof.
    unfold check_message_oneofs_fields_not_removed, for_each_message_oneof_pair.
    by_message message_oneofs_fields_not_removed_ok. split.
    - intros (pkg & path & n & m & t & x & y & M & M' & Hx & Hy & He).
      pose proof (message_fqn _ _ _ _ _ M Hx) as EF. apply new_message_rep in Hx as [_ _ _ Ho _ _ _].
      apply new_message_rep in Hy as [_ _ _ Ho' _ _ _]. rewrite Ho, Ho' in He.
      apply (pair_keyed oo_name (fun o => o) (fun o => o)) in He as (k & o & o' & D & D' & He).
      2:{ apply pair_keyed_ok. intros. apply for_each_missing_ok. }
      apply oneof_numbers_missing in He as (z & Hz & Hn & ->). rewrite EF.
      pose proof (declares_In _ _ _ _ D) as [_ ->]. eapply ch_oneof_field_removed; eassumption.
    - intros H. inversion H as [| | | | |pkg path n m t name o o' z M M' D D' Hi Ha| | | | |]; subst.
      destruct (message_new _ _ RF _ _ _ _ M) as [x Hx]. destruct (message_new _ _ RT _ _ _ _ M') as [y Hy].
      exists pkg, path, n, m, t, x, y. repeat split; auto. rewrite (message_fqn _ _ _ _ _ M Hx).
      apply new_message_rep in Hx as [_ _ _ Ho _ _ _].
      apply new_message_rep in Hy as [_ _ _ Ho' _ _ _]. rewrite Ho, Ho'.
      apply (pair_keyed oo_name (fun o => o) (fun o => o)); [apply pair_keyed_ok; intros; apply for_each_missing_ok|].
      exists name, o, o'. repeat split; auto. apply oneof_numbers_missing. exists z.
      pose proof (declares_In _ _ _ _ D) as [_ ->]. auto.
  Qed.

  Lemma enum_values_not_deleted_ok : ok (check_enum_values_not_deleted xs ys).
  Proof. apply enum_pair_ok with (F := F) (T := T); auto. intros. apply for_each_missing_ok. Qed.
  Lemma enum_values_not_deleted_spec s :
    emits (check_enum_values_not_deleted xs ys) s <-> deleted F T "ENUM_VALUES_NOT_DELETED" s.
  Proof.
    unfold check_enum_values_not_deleted. rewrite (enum_pair_emits F T xs ys RF RT _ s enum_values_not_deleted_ok).
    unfold enum_both. split.
    - intros (pkg & path & n & e & t & E & E' & He). cbn [xe_values new_enum] in He.
      apply (missing_keyed ev_number (fun v => v) (fun v => v)) in He as (k & v & D & Ha & ->).
      apply declares_In in D as [Hi <-]. rewrite (enum_fqn _ _ _ _ E). eapply del_enum_value; eassumption.
    - intros H. inversion H as [| | | | |pkg path n e t v E E' Hi Ha| |]; subst.
      exists pkg, path, n, e, t. repeat split; auto. cbn [xe_values new_enum].
      apply (missing_keyed ev_number (fun v => v) (fun v => v)).
      apply (In_declares ev_number) in Hi as [v' Hv]. exists (ev_number v), v'.
      rewrite (enum_fqn _ _ _ _ E). auto.
  Qed.
  Lemma enum_values_same_name_ok : ok (check_enum_values_same_name xs ys).
  Proof.
    apply enum_pair_ok with (F := F) (T := T); auto. intros. apply (pair_keyed_ok ev_number (fun v => v) (fun v => v)).
    intros. destruct (String.eqb _ _); apply ok_Ok.
  Qed.
  Lemma enum_values_same_name_spec s :
    emits (check_enum_values_same_name xs ys) s <-> changed F T "ENUM_VALUES_SAME_NAME" s.
  Proof.
    unfold check_enum_values_same_name, for_each_enum_value_pair.
    rewrite (enum_pair_emits F T xs ys RF RT _ s enum_values_same_name_ok). unfold enum_both.
    split.
    - intros (pkg & path & n & e & t & E & E' & He). cbn [xe_values new_enum] in He.
      apply (pair_keyed ev_number (fun v => v) (fun v => v)) in He as (k & v & w & D & D' & He).
      2:{ apply pair_keyed_ok. intros. destruct (String.eqb _ _); apply ok_Ok. }
      destruct (String.eqb (ev_name v) (ev_name w)) eqn:Eq; [now apply emits_nil in He|].
      apply emits_one in He as ->. apply String.eqb_neq in Eq.
      rewrite (enum_fqn _ _ _ _ E). pose proof (declares_In _ _ _ _ D) as [_ ->]. eapply ch_enum_value_name; eassumption.
    - intros H. inversion H as [| | | | | |pkg path n e t z v w E E' D D' Hn| | | |]; subst.
      exists pkg, path, n, e, t. repeat split; auto. cbn [xe_values new_enum].
      apply (pair_keyed ev_number (fun v => v) (fun v => v)).
      { apply pair_keyed_ok. intros. destruct (String.eqb _ _); apply ok_Ok. }
      exists z, v, w. repeat split; auto. apply String.eqb_neq in Hn. rewrite Hn. apply emits_one.
      rewrite (enum_fqn _ _ _ _ E). pose proof (declares_In _ _ _ _ D) as [_ ->]. reflexivity.
  Qed.

  Lemma services_not_deleted_ok : ok (check_services_not_deleted xs ys).
  Proof. apply for_each_pair_ok; [apply RF|]. intros. apply for_each_missing_ok. Qed.
  Lemma services_not_deleted_spec s :
    emits (check_services_not_deleted xs ys) s <-> deleted F T "SERVICES_NOT_DELETED" s.
  Proof.
    destruct (package_pairs_emits F xs ys RF _ s services_not_deleted_ok) as [_ E].
    unfold check_services_not_deleted. rewrite E. clear E. split.
    - intros (pkg & xp & yp & Hx & Hy & He).
      apply RF in Hx as (p & Hp & [_ _ Hs]). apply RT in Hy as (t & Ht & [_ _ Hs']). rewrite Hs, Hs' in He.
      apply (missing_keyed sv_name (fun s => new_service s pkg) (fun s => new_service s pkg)) in He as (k & sv & D & Ha & ->).
      rewrite (service_fqn pkg k sv) by (exists p; auto). apply declares_In in D as [Hi <-]. eapply del_service; eassumption.
    - intros H. inversion H as [| | | | | |pkg p t sv Hp Ht Hi Ha|]; subst.
      pose proof Hp as Hp'. apply RF in Hp' as (xp & Hx & [_ _ Hs]). apply RT in Ht as (yp & Hy & [_ _ Hs']).
      exists pkg, xp, yp. repeat split; auto. rewrite Hs, Hs'.
      apply (missing_keyed sv_name (fun s => new_service s pkg) (fun s => new_service s pkg)).
      apply (In_declares sv_name) in Hi as [sv' Hv]. exists (sv_name sv), sv'.
      rewrite (service_fqn pkg (sv_name sv) sv') by (exists p; auto). auto.
  Qed.
  Lemma service_methods_not_deleted_ok : ok (check_service_methods_not_deleted xs ys).
  Proof. apply service_pair_ok with (F := F) (T := T); auto. intros. apply for_each_missing_ok. Qed.
  Lemma service_methods_not_deleted_spec s :
    emits (check_service_methods_not_deleted xs ys) s <-> deleted F T "SERVICE_METHODS_NOT_DELETED" s.
  Proof.
    unfold check_service_methods_not_deleted. rewrite (service_pair_emits F T xs ys RF RT _ s service_methods_not_deleted_ok).
    unfold service_both. split.
    - intros (pkg & n & sv & t & S & S' & He). cbn [xs_methods new_service] in He.
      apply (missing_keyed mt_name (fun v => v) (fun v => v)) in He as (k & v & D & Ha & ->).
      apply declares_In in D as [Hi <-]. rewrite (service_fqn _ _ _ S). eapply del_method; eassumption.
    - intros H. inversion H as [| | | | | | |pkg n sv t m S S' Hi Ha]; subst.
      exists pkg, n, sv, t. repeat split; auto. cbn [xs_methods new_service].
      apply (missing_keyed mt_name (fun v => v) (fun v => v)).
      apply (In_declares mt_name) in Hi as [v' Hv]. exists (mt_name m), v'.
      rewrite (service_fqn _ _ _ S). auto.
  Qed.

  (** Method checks all have this form. *)
  Lemma method_check_ok (same : method -> method -> bool) (text : method -> method -> string) :
    ok (for_each_service_method_pair (fun s m t => if same m t then Ok [] else Ok [method_changed s m (text m t)]) xs ys).
  Proof.
    apply service_pair_ok with (F := F) (T := T); auto. intros. apply (pair_keyed_ok mt_name (fun v => v) (fun v => v)).
    intros. destruct (same _ _); apply ok_Ok.
  Qed.
  Lemma method_check_spec (same : method -> method -> bool) (text : method -> method -> string) s :
    emits (for_each_service_method_pair (fun s m t => if same m t then Ok [] else Ok [method_changed s m (text m t)]) xs ys) s <->
    exists pkg n name m t, method_pair F T pkg n name m t /\ same m t = false /\
      s = method_text name (full_name pkg [] n) (text m t).
  Proof.
    unfold for_each_service_method_pair.
    rewrite (service_pair_emits F T xs ys RF RT _ s (method_check_ok same text)). unfold service_both. split.
    - intros (pkg & n & sv & t & S & S' & He). cbn [xs_methods new_service] in He.
      apply (pair_keyed mt_name (fun v => v) (fun v => v)) in He as (k & v & w & D & D' & He).
      2:{ apply pair_keyed_ok. intros. destruct (same _ _); apply ok_Ok. }
      destruct (same v w) eqn:Eq; [now apply emits_nil in He|]. apply emits_one in He as ->.
      exists pkg, n, k, v, w. repeat split; [exists sv, t; auto|assumption|].
      unfold method_changed. rewrite (service_fqn _ _ _ S). pose proof (declares_In _ _ _ _ D) as [_ ->]. reflexivity.
    - intros (pkg & n & name & v & w & (sv & t & S & S' & D & D') & Eq & ->).
      exists pkg, n, sv, t. repeat split; auto. cbn [xs_methods new_service].
      apply (pair_keyed mt_name (fun v => v) (fun v => v)).
      { apply pair_keyed_ok. intros k x y _ _. destruct (same x y); apply ok_Ok. }
      exists name, v, w. repeat split; auto. rewrite Eq. apply emits_one.
      unfold method_changed. rewrite (service_fqn _ _ _ S). pose proof (declares_In _ _ _ _ D) as [_ ->]. reflexivity.
  Qed.
  Lemma client_streaming_spec s : emits (check_service_methods_same_client_streaming xs ys) s <->
    changed F T "SERVICE_METHODS_SAME_CLIENT_STREAMING" s.
  Proof.
    unfold check_service_methods_same_client_streaming.
    rewrite (method_check_spec (fun m t => Bool.eqb (mt_client_streaming m) (mt_client_streaming t))
               (fun m _ => streaming_change "client" (mt_client_streaming m))).
    split.
    - intros (pkg & n & name & m & t & P & E & ->). apply Bool.eqb_false_iff in E. now apply (ch_client_streaming F T pkg n name m t).
    - intros H. inversion H as [| | | | | | | | |pkg n name m t P E|]; subst. exists pkg, n, name, m, t.
      split; [assumption|]. split; [now apply Bool.eqb_false_iff|reflexivity].
  Qed.
  Lemma server_streaming_spec s : emits (check_service_methods_same_server_streaming xs ys) s <->
    changed F T "SERVICE_METHODS_SAME_SERVER_STREAMING" s.
  Proof.
    unfold check_service_methods_same_server_streaming.
    rewrite (method_check_spec (fun m t => Bool.eqb (mt_server_streaming m) (mt_server_streaming t))
               (fun m _ => streaming_change "server" (mt_server_streaming m))).
    split.
    - intros (pkg & n & name & m & t & P & E & ->). apply Bool.eqb_false_iff in E. now apply (ch_server_streaming F T pkg n name m t).
    - intros H. inversion H as [| | | | | | | | | |pkg n name m t P E]; subst. exists pkg, n, name, m, t.
      split; [assumption|]. split; [now apply Bool.eqb_false_iff|reflexivity].
  Qed.
  Lemma request_spec s : emits (check_service_methods_same_request_type xs ys) s <->
    changed F T "SERVICE_METHODS_SAME_REQUEST_TYPE" s.
  Proof.
    unfold check_service_methods_same_request_type.
    rewrite (method_check_spec (fun m t => String.eqb (mt_request m) (mt_request t))
               (fun m t => "request type from " +++ quote (mt_request m) +++ " to " +++ quote (mt_request t))).
    split.
    - intros (pkg & n & name & m & t & P & E & ->). apply String.eqb_neq in E. now apply (ch_request F T pkg n name m t).
    - intros H. inversion H as [| | | | | | |pkg n name m t P E| | |]; subst. exists pkg, n, name, m, t.
      split; [assumption|]. split; [now apply String.eqb_neq|reflexivity].
  Qed.
  Lemma response_spec s : emits (check_service_methods_same_response_type xs ys) s <->
    changed F T "SERVICE_METHODS_SAME_RESPONSE_TYPE" s.
  Proof.
    unfold check_service_methods_same_response_type.
    rewrite (method_check_spec (fun m t => String.eqb (mt_response m) (mt_response t))
               (fun m t => "response type from " +++ quote (mt_response m) +++ " to " +++ quote (mt_response t))).
    split.
    - intros (pkg & n & name & m & t & P & E & ->). apply String.eqb_neq in E. now apply (ch_response F T pkg n name m t).
    - intros H. inversion H as [| | | | | | | |pkg n name m t P E| |]; subst. exists pkg, n, name, m, t.
      split; [assumption|]. split; [now apply String.eqb_neq|reflexivity].
  Qed.

  (** ** Field checks *)
  Definition linked_to (m : message) (number : Z) (oo : option oneof) : Prop :=
    match oo with Some o => in_oneof m number o | None => forall o, ~ in_oneof m number o end.
  Lemma field_visited f s : emits (for_each_message_field_pair f xs ys) s ->
    exists pkg path n m t x number a b oo oo', field_pair F T pkg path n m t number a b /\
      xm_fqn x = full_name pkg path n /\ fd_number a = number /\
      linked_to m number oo /\ linked_to t number oo' /\ emits (f x (a, oo) (b, oo')) s.
  Proof.
    intros He. assert (Hok : ok (for_each_message_field_pair f xs ys)) by (destruct He as (l & Hl & _); now exists l).
    unfold for_each_message_field_pair in *. rewrite (message_pair_emits F T xs ys RF RT _ _ Hok) in He.
    destruct He as (pkg & path & n & m & t & x & y & M & M' & Hx & Hy & He).
    pose proof (message_fqn _ _ _ _ _ M Hx) as EF.
    apply new_message_rep in Hx as [_ _ _ _ ND F1 _]. apply new_message_rep in Hy as [_ _ _ _ _ G1 _].
    pose proof He as He0.
    apply for_each_pair_emits in He as (k & [a oo] & [b oo'] & Ha & Hb & He); [|assumption|].
    2:{ destruct He0 as (l & Hl & _); now exists l. }
    apply F1 in Ha as [D L]. apply G1 in Hb as [D' L'].
    exists pkg, path, n, m, t, x, k, a, b, oo, oo'. repeat split; auto. now apply declares_In in D.
  Qed.
  Lemma field_visit f pkg path n m t number a b : ok (for_each_message_field_pair f xs ys) ->
    field_pair F T pkg path n m t number a b ->
    exists x oo oo', xm_fqn x = full_name pkg path n /\ fd_number a = number /\
      linked_to m number oo /\ linked_to t number oo' /\ ok (f x (a, oo) (b, oo')) /\
      forall s, emits (f x (a, oo) (b, oo')) s -> emits (for_each_message_field_pair f xs ys) s.
  Proof.
    intros Hok (M & M' & D & D').
    destruct (message_new _ _ RF _ _ _ _ M) as [x Hx]. destruct (message_new _ _ RT _ _ _ _ M') as [y Hy].
    pose proof (message_fqn _ _ _ _ _ M Hx) as EF.
    pose proof Hx as Rx. pose proof Hy as Ry.
    apply new_message_rep in Rx as [_ _ _ _ ND F1 F2]. apply new_message_rep in Ry as [_ _ _ _ _ G1 G2].
    destruct (F2 _ _ D) as [oo Ha]. destruct (G2 _ _ D') as [oo' Hb].
    destruct (F1 _ _ _ Ha) as [_ L]. destruct (G1 _ _ _ Hb) as [_ L'].
    assert (Hv : ok (for_each_pair (f x) (xm_fields x) (xm_fields y))).
    { unfold for_each_message_field_pair, for_each_message_pair in Hok.
      destruct (package_pairs_emits F xs ys RF _ "" Hok) as [Hall _].
      destruct M as (ms & es & S1 & D1). destruct M' as (ms' & es' & S2 & D2).
      destruct (scope_at_fwd _ _ RF _ _ _ _ S1) as (aa & bb & (xp & Hxp & A) & R1).
      destruct (scope_at_fwd _ _ RT _ _ _ _ S2) as (aa' & bb' & (yp & Hyp & B) & R2).
      destruct (xp_messages_wf _ _ RF _ _ Hxp) as (NDm & WF & _ & _).
      destruct (message_pairs_emits _ _ _ "" NDm WF (Hall pkg xp yp Hxp Hyp)) as [H' _].
      apply (H' path n). exists aa, aa'. repeat split; [eapply xscope_xmsgs; eassumption|eapply xscope_xmsgs; eassumption| |].
      - apply (scope_rep_get _ _ _ _ _ R1). eauto.
      - apply (scope_rep_get _ _ _ _ _ R2). eauto. }
    destruct (for_each_pair_emits _ _ _ "" ND Hv) as [Hok2 _].
    exists x, oo, oo'. repeat split; auto; [now apply declares_In in D|now apply (Hok2 number)|].
    intros s He. unfold for_each_message_field_pair in *. rewrite (message_pair_emits F T xs ys RF RT _ _ Hok).
    exists pkg, path, n, m, t, x, y. repeat split; auto.
    apply (for_each_pair_emits _ _ _ s ND Hv). eauto 6.
  Qed.
  Lemma field_check_ok f :
    (forall pkg path n m t x number a b oo oo', field_pair F T pkg path n m t number a b -> ok (f x (a, oo) (b, oo'))) ->
    ok (for_each_message_field_pair f xs ys).
  Proof.
    intros H. apply message_pair_ok with (F := F) (T := T); auto. intros pkg path n m t x y M M' Hx Hy.
    apply new_message_rep in Hx as [_ _ _ _ ND F1 _]. apply new_message_rep in Hy as [_ _ _ _ _ G1 _].
    apply for_each_pair_ok; [assumption|]. intros k [a oo] [b oo'] Ha Hb.
    apply F1 in Ha as [D _]. apply G1 in Hb as [D' _]. apply (H pkg path n m t x k). repeat split; auto.
  Qed.

  Lemma same_name_ok : ok (check_message_fields_same_name xs ys).
  Proof. apply field_check_ok. intros. destruct (String.eqb _ _); apply ok_Ok. Qed.
  Lemma same_name_spec s : emits (check_message_fields_same_name xs ys) s <-> changed F T "MESSAGE_FIELDS_SAME_NAME" s.
  Proof.
    split.
    - intros H. apply field_visited in H as (pkg & path & n & m & t & x & z & a & b & oo & oo' & P & EF & Ez & _ & _ & He).
      cbn [fst snd] in He. destruct (String.eqb (fd_name a) (fd_name b)) eqn:E; [now apply emits_nil in He|].
      apply emits_one in He as ->. apply String.eqb_neq in E. unfold field_changed. rewrite EF, Ez.
      now apply (ch_field_name F T pkg path n m t z a b).
    - intros H. inversion H as [pkg path n m t z a b P E| | | | | | | | | |]; subst.
      destruct (field_visit _ _ _ _ _ _ _ _ _ same_name_ok P) as (x & oo & oo' & EF & Ez & _ & _ & _ & He).
      apply He. cbn [fst snd]. apply String.eqb_neq in E. rewrite E. apply emits_one. unfold field_changed. now rewrite EF, Ez.
  Qed.
  Lemma label_string_name z r : label_string z = Ok r -> r = label_name z.
  Proof.
    destruct z as [|p|p]; try discriminate. unfold label_string.
    do 2 (try destruct p as [p|p|]); try discriminate; intros [= <-]; reflexivity.
  Qed.
  Lemma type_string_name z r : type_string z = Ok r -> r = type_name z.
  Proof.
    destruct z as [|p|p]; try discriminate. unfold type_string.
    do 5 (try destruct p as [p|p|]); try discriminate; intros [= <-]; reflexivity.
  Qed.
  Lemma same_label_spec s : ok (check_message_fields_same_label xs ys) ->
    emits (check_message_fields_same_label xs ys) s <-> changed F T "MESSAGE_FIELDS_SAME_LABEL" s.
  Proof.
    intros Hok. split.
    - intros H. apply field_visited in H as (pkg & path & n & m & t & x & z & a & b & oo & oo' & P & EF & Ez & _ & _ & He).
      cbn [fst snd] in He. destruct (fd_label a =? fd_label b)%Z eqn:E; [now apply emits_nil in He|].
      destruct (label_string (fd_label a)) as [la|] eqn:Ea; [|now destruct He as (? & ? & _)].
      destruct (label_string (fd_label b)) as [lb|] eqn:Eb; [|now destruct He as (? & ? & _)].
      cbn [bind] in He. apply emits_one in He as ->. apply Z.eqb_neq in E.
      apply label_string_name in Ea as ->. apply label_string_name in Eb as ->. unfold field_changed. rewrite EF, Ez.
      now apply (ch_field_label F T pkg path n m t z a b).
    - intros H. inversion H as [|pkg path n m t z a b P E| | | | | | | | |]; subst.
      destruct (field_visit _ _ _ _ _ _ _ _ _ Hok P) as (x & oo & oo' & EF & Ez & _ & _ & [l Ho] & He).
      apply He. cbn [fst snd] in *. apply Z.eqb_neq in E. rewrite E in *.
      destruct (label_string (fd_label a)) as [la|] eqn:Ea; [|discriminate].
      destruct (label_string (fd_label b)) as [lb|] eqn:Eb; [|discriminate]. cbn [bind]. apply emits_one.
      apply label_string_name in Ea as ->. apply label_string_name in Eb as ->. unfold field_changed. now rewrite EF, Ez.
  Qed.
  Lemma same_type_spec s : ok (check_message_fields_same_type xs ys) ->
    emits (check_message_fields_same_type xs ys) s <-> changed F T "MESSAGE_FIELDS_SAME_TYPE" s.
  Proof.
    intros Hok. split.
    - intros H. apply field_visited in H as (pkg & path & n & m & t & x & z & a & b & oo & oo' & P & EF & Ez & _ & _ & He).
      cbn [fst snd] in He. cbv zeta in He. destruct (fd_type a =? fd_type b)%Z eqn:E; cbn [negb] in He.
      + destruct ((fd_type a =? 14) || (fd_type a =? 10) || (fd_type a =? 11))%Z eqn:N; [|now apply emits_nil in He].
        destruct (is_empty (fd_type_name a)); [now destruct He as (? & ? & _)|].
        destruct (is_empty (fd_type_name b)); [now destruct He as (? & ? & _)|].
        destruct (String.eqb (fd_type_name a) (fd_type_name b)) eqn:En; [now apply emits_nil in He|].
        apply emits_one in He as ->. apply Z.eqb_eq in E. apply String.eqb_neq in En. unfold field_changed. rewrite EF, Ez.
        apply (ch_field_type_name F T pkg path n m t z a b); auto. unfold named_type.
        rewrite !orb_true_iff, !Z.eqb_eq in N. tauto.
      + destruct (type_string (fd_type a)) as [la|] eqn:Ea; [|now destruct He as (? & ? & _)].
        destruct (type_string (fd_type b)) as [lb|] eqn:Eb; [|now destruct He as (? & ? & _)].
        cbn [bind] in He. apply emits_one in He as ->. apply Z.eqb_neq in E.
        apply type_string_name in Ea as ->. apply type_string_name in Eb as ->. unfold field_changed. rewrite EF, Ez.
        now apply (ch_field_type F T pkg path n m t z a b).
    - intros H. inversion H as [| |pkg path n m t z a b P E|pkg path n m t z a b P E N En| | | | | | |]; subst.
      + destruct (field_visit _ _ _ _ _ _ _ _ _ Hok P) as (x & oo & oo' & EF & Ez & _ & _ & [l Ho] & He).
        apply He. cbn [fst snd] in *. cbv zeta in *. apply Z.eqb_neq in E. rewrite E in *. cbn [negb] in *.
        destruct (type_string (fd_type a)) as [la|] eqn:Ea; [|discriminate].
        destruct (type_string (fd_type b)) as [lb|] eqn:Eb; [|discriminate]. cbn [bind]. apply emits_one.
        apply type_string_name in Ea as ->. apply type_string_name in Eb as ->. unfold field_changed. now rewrite EF, Ez.
      + destruct (field_visit _ _ _ _ _ _ _ _ _ Hok P) as (x & oo & oo' & EF & Ez & _ & _ & [l Ho] & He).
        apply He. cbn [fst snd] in *. cbv zeta in *. apply Z.eqb_eq in E. rewrite E in *. cbn [negb] in *.
        assert (N' : ((fd_type a =? 14) || (fd_type a =? 10) || (fd_type a =? 11))%Z = true).
        { rewrite !orb_true_iff, !Z.eqb_eq. unfold named_type in N. tauto. }
        rewrite N' in *. destruct (is_empty (fd_type_name a)); [discriminate|].
        destruct (is_empty (fd_type_name b)); [discriminate|]. apply String.eqb_neq in En. rewrite En.
        apply emits_one. unfold field_changed. now rewrite EF, Ez.
  Qed.
  Lemma same_oneof_ok : ok (check_message_fields_same_oneof xs ys).
  Proof. apply field_check_ok. intros. cbn [snd]. destruct oo, oo'; apply ok_Ok. Qed.
  Lemma same_oneof_sound s :
    emits (check_message_fields_same_oneof xs ys) s -> changed F T "MESSAGE_FIELDS_SAME_ONEOF" s.
  Proof.
    intros H. apply field_visited in H as (pkg & path & n & m & t & x & z & a & b & oo & oo' & P & EF & Ez & L & L' & He).
    cbn [fst snd] in He. destruct oo as [o|]; [now apply emits_nil in He|].
    destruct oo' as [o'|]; [|now apply emits_nil in He]. apply emits_one in He as ->. rewrite EF, Ez.
    now apply (ch_field_into_oneof F T pkg path n m t z a b o').
  Qed.
  Lemma same_oneof_complete s : changed F T "MESSAGE_FIELDS_SAME_ONEOF" s ->
    exists s', emits (check_message_fields_same_oneof xs ys) s' /\ (oneofs_disjoint T -> s' = s).
  Proof.
    intros H. inversion H as [| | | |pkg path n m t z a b o P L L'| | | | | |]; subst.
    destruct (field_visit _ _ _ _ _ _ _ _ _ same_oneof_ok P) as (x & oo & oo' & EF & Ez & M & M' & _ & He).
    destruct oo as [o1|]; [now apply L in M|]. destruct oo' as [o2|]; [|now apply M' in L'].
    eexists. split; [apply He; cbn [fst snd]; now apply emits_one|].
    intros DIS. rewrite (DIS pkg path n t z o o2); auto; [|apply P]. now rewrite EF, Ez.
  Qed.
  Lemma label_string_ok z : (1 <= z <= 3)%Z -> ok (label_string z).
  Proof.
    intros H. assert (E : (z = 1 \/ z = 2 \/ z = 3)%Z) by lia.
    repeat destruct E as [->|E]; [..|rewrite E]; apply ok_Ok.
  Qed.
  Lemma type_string_ok z : (1 <= z <= 18)%Z -> ok (type_string z).
  Proof.
    intros H. assert (E : (z = 1 \/ z = 2 \/ z = 3 \/ z = 4 \/ z = 5 \/ z = 6 \/ z = 7 \/ z = 8 \/ z = 9 \/ z = 10 \/
      z = 11 \/ z = 12 \/ z = 13 \/ z = 14 \/ z = 15 \/ z = 16 \/ z = 17 \/ z = 18)%Z) by lia.
    repeat destruct E as [->|E]; [..|rewrite E]; apply ok_Ok.
  Qed.
  Definition fields_valid (P : packages) : Prop :=
    forall pkg path n m f, message_at P pkg path n m -> In f (msg_fields m) -> valid_field f.
  Lemma pair_valid pkg path n m t z a b : fields_valid F -> fields_valid T ->
    field_pair F T pkg path n m t z a b -> valid_field a /\ valid_field b.
  Proof.
    intros VF VT (M & M' & D & D'). apply declares_In in D as [D _]. apply declares_In in D' as [D' _]. eauto.
  Qed.
  Lemma same_label_ok : fields_valid F -> fields_valid T -> ok (check_message_fields_same_label xs ys).
  Proof.
    intros VF VT. apply field_check_ok. intros pkg path n m t x z a b oo oo' P. cbn [fst].
    destruct (pair_valid _ _ _ _ _ _ _ _ VF VT P) as [[Va _] [Vb _]].
    destruct (fd_label a =? fd_label b)%Z; [apply ok_Ok|].
    destruct (label_string_ok _ Va) as [la ->]. destruct (label_string_ok _ Vb) as [lb ->]. apply ok_Ok.
  Qed.
  Lemma same_type_ok : fields_valid F -> fields_valid T -> ok (check_message_fields_same_type xs ys).
  Proof.
    intros VF VT. apply field_check_ok. intros pkg path n m t x z a b oo oo' P. cbn [fst]. cbv zeta.
    destruct (pair_valid _ _ _ _ _ _ _ _ VF VT P) as [(_ & Va & Na) (_ & Vb & Nb)].
    destruct (fd_type a =? fd_type b)%Z eqn:E; cbn [negb].
    - destruct ((fd_type a =? 14) || (fd_type a =? 10) || (fd_type a =? 11))%Z eqn:N; [|apply ok_Ok].
      rewrite !orb_true_iff, !Z.eqb_eq in N. apply Z.eqb_eq in E.
      assert (NT : named_type (fd_type a)) by (unfold named_type; tauto).
      apply Na in NT as H1. rewrite E in NT. apply Nb in NT as H2.
      apply is_empty_false in H1. apply is_empty_false in H2. rewrite H1, H2.
      destruct (String.eqb _ _); apply ok_Ok.
    - destruct (type_string_ok _ Va) as [la ->]. destruct (type_string_ok _ Vb) as [lb ->]. apply ok_Ok.
  Qed.

  (** ** Beta dependencies *)
  Lemma beta_version d : (match major_beta_version d with Some (_, beta) => (0 <? beta)%N | None => false end) = true <-> beta_name d.
  Proof. pose proof (ignore_package_spec true d) as H. unfold ignore_package in H. cbn [andb] in H. tauto. Qed.
  Lemma no_beta_deps_ok : ok (check_packages_no_beta_deps xs ys).
  Proof.
    apply concatM_all_Ok. intros [n xp] _. apply concatM_all_Ok. intros d _.
    destruct (major_beta_version d) as [[? beta]|]; [destruct (0 <? beta)%N|]; eauto.
  Qed.
  Lemma no_beta_deps_spec s : (forall n p, T n p -> pk_name p = n) ->
    emits (check_packages_no_beta_deps xs ys) s <-> beta_dependency T "PACKAGES_NO_BETA_DEPS" s.
  Proof.
    intros NT.
    set (msg := fun n d => "Package " +++ quote n +++ " depends on beta package " +++ quote d +++ " which is not allowed.").
    assert (S : forall n d, emits (match major_beta_version d with
      | Some (_, beta) => if (0 <? beta)%N then Ok [msg n d] else Ok [] | None => Ok [] end) s <-> beta_name d /\ s = msg n d).
    { intros n d. rewrite <- beta_version. destruct (major_beta_version d) as [[? beta]|].
      - destruct (0 <? beta)%N; [rewrite emits_one; tauto|]. split; [intros H; now apply emits_nil in H|now intros [? _]].
      - split; [intros H; now apply emits_nil in H|now intros [? _]]. }
    destruct no_beta_deps_ok as [l Hl]. rewrite Hl, emits_Ok. unfold check_packages_no_beta_deps in Hl.
    apply concatM_Ok in Hl as [Hall Hin]. rewrite Hin. split.
    - intros ([n xp] & a & Hi & Ha & Hs). cbn [snd] in Ha. apply In_gget in Hi; [|apply RT].
      apply RT in Hi as (p & Hp & [Hpr _ _]). unfold xp_fqn in Ha. rewrite Hpr in Ha. rewrite (NT _ _ Hp) in Ha.
      apply concatM_Ok in Ha as [_ Ha]. apply Ha in Hs as (d & b & Hd & Hb & Hs).
      assert (He : emits (Ok b) s) by now apply emits_Ok. rewrite <- Hb in He. apply (S n d) in He as [B ->].
      now apply (beta_dep T n p d).
    - intros H. inversion H as [n p d Hp Hd B]; subst. pose proof Hp as Hp0. apply RT in Hp0 as (yp & Hy & [Hpr _ _]).
      exists (n, yp). apply gget_In in Hy. destruct (Hall _ Hy) as [a Ha]. exists a. split; [assumption|]. split; [assumption|].
      cbn [snd] in Ha. unfold xp_fqn in Ha. rewrite Hpr in Ha. rewrite (NT _ _ Hp) in Ha. apply concatM_Ok in Ha as [Ha1 Ha].
      apply Ha. destruct (Ha1 d Hd) as [b Hb]. exists d, b. split; [assumption|]. split; [assumption|].
      apply emits_Ok. rewrite <- Hb. apply (S n d). auto.
  Qed.
End Checks.
