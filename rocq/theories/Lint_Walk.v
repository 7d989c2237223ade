(** Facts about the traversal of a file. *)
From Verif Require Import GoStrFacts GoMapFacts Strs_Proofs.
From Verif Require Export Lint_Spec.

Lemma element_contents_ind (P : element -> Prop) :
  (forall e, Forall P (contents e) -> P e) -> forall e, P e.
Proof.
  intros H.
  assert (Ho : forall o, P (EOption o)) by (intros o; apply H; constructor).
  induction e using element_ind'; apply H; simpl; try constructor; try assumption.
  induction (fd_options f); simpl; constructor; auto.
Qed.

Definition entered (ks : list kind) (e : element) : bool :=
  match e with
  | EField _ _ => into ks KField
  | EEnumField _ _ => into ks KEnumField
  | EEnum _ _ => into ks KEnum
  | EMessage _ _ _ => into ks KMessage
  | EOneof _ _ => into ks KOneof
  | EGroup _ _ _ _ => into ks KGroup
  | EService _ _ => into ks KService
  | ERPC _ _ => into ks KRPC
  | _ => false
  end.
Lemma walk_options ks ctx os :
  flat_map (walk ks ctx) (map EOption os) = map (fun o => (ctx, EOption o)) os.
Proof. induction os; simpl; [reflexivity|]. now rewrite IHos. Qed.
Lemma walk_post_options ks ctx os :
  flat_map (walk_post ks ctx) (map EOption os) = map (fun o => (ctx, EOption o)) os.
Proof. induction os; simpl; [reflexivity|]. now rewrite IHos. Qed.
Lemma walk_eq ks ctx e :
  walk ks ctx e = (ctx, e) :: (if entered ks e then flat_map (walk ks (e :: ctx)) (contents e) else []).
Proof. destruct e; cbn [walk entered contents]; try reflexivity. now rewrite walk_options. Qed.
Lemma walk_post_eq ks ctx e :
  walk_post ks ctx e = (if entered ks e then flat_map (walk_post ks (e :: ctx)) (contents e) else []) ++ [(ctx, e)].
Proof. destruct e; cbn [walk_post entered contents]; try reflexivity. now rewrite walk_post_options. Qed.

(** Reaching [x], inside [c], from [e], inside [ctx], through entered elements. *)
Inductive reach (ks : list kind) (ctx : list element) (e : element) : list element -> element -> Prop :=
| reach_here : reach ks ctx e ctx e
| reach_in : forall c p x, reach ks ctx e c p -> entered ks p = true -> In x (contents p) -> reach ks ctx e (p :: c) x.
Lemma reach_front ks ctx e x c y :
  entered ks e = true -> In x (contents e) -> reach ks (e :: ctx) x c y -> reach ks ctx e c y.
Proof.
  intros He Hx H. induction H; [|econstructor; eauto].
  econstructor; eauto. constructor.
Qed.
Lemma reach_inv ks ctx e c y : reach ks ctx e c y ->
  (c = ctx /\ y = e) \/ exists x, entered ks e = true /\ In x (contents e) /\ reach ks (e :: ctx) x c y.
Proof.
  intros H. induction H as [|c p x H IH Hp Hx]; [left; auto|right].
  destruct IH as [[-> ->]|(z & He & Hz & IH)].
  - exists x. repeat split; auto. constructor.
  - exists z. repeat split; auto. econstructor; eauto.
Qed.
Lemma walk_reach ks : forall e ctx c y, In (c, y) (walk ks ctx e) <-> reach ks ctx e c y.
Proof.
  induction e as [e IH] using element_contents_ind. intros ctx c y.
  rewrite walk_eq. rewrite Forall_forall in IH. split.
  - intros [E|H].
    + injection E as <- <-. constructor.
    + destruct (entered ks e) eqn:He; [|contradiction].
      apply in_flat_map in H as (x & Hx & H). apply (IH x Hx) in H.
      eapply reach_front; eauto.
  - intros H. apply reach_inv in H as [[-> ->]|(x & He & Hx & H)]; [now left|right].
    rewrite He. apply in_flat_map. exists x. split; [assumption|]. now apply (IH x Hx).
Qed.
Lemma walk_post_reach ks : forall e ctx c y, In (c, y) (walk_post ks ctx e) <-> reach ks ctx e c y.
Proof.
  induction e as [e IH] using element_contents_ind. intros ctx c y.
  rewrite walk_post_eq, in_app_iff. rewrite Forall_forall in IH. split.
  - intros [H|[E|[]]].
    + destruct (entered ks e) eqn:He; [|contradiction].
      apply in_flat_map in H as (x & Hx & H). apply (IH x Hx) in H.
      eapply reach_front; eauto.
    + injection E as <- <-. constructor.
  - intros H. apply reach_inv in H as [[-> ->]|(x & He & Hx & H)]; [right; now left|left].
    rewrite He. apply in_flat_map. exists x. split; [assumption|]. now apply (IH x Hx).
Qed.
Lemma reach_located ks file c y :
  (exists e, In e file /\ reach ks [] e c y) <-> located file c y /\ Forall (fun p => entered ks p = true) c.
Proof.
  split.
  - intros (e & He & H). induction H as [|c p x H [IH1 IH2] Hp Hx].
    + split; constructor; assumption.
    + split; [econstructor; eauto|constructor; assumption].
  - intros [H HF]. induction H as [e He|ctx p e H IH He].
    + exists e. split; [assumption|constructor].
    + inversion HF; subst. destruct (IH H3) as (z & Hz & Hr). exists z. split; [assumption|].
      econstructor; eauto.
Qed.
Theorem visited_iff ks d c y :
  In (c, y) (visited ks d) <-> located (d_elements d) c y /\ Forall (fun p => entered ks p = true) c.
Proof.
  unfold visited. rewrite in_flat_map, <- reach_located.
  split; intros (e & He & H); exists e; (split; [assumption|]); now apply walk_reach.
Qed.
Theorem visited_post_iff ks d c y :
  In (c, y) (visited_post ks d) <-> located (d_elements d) c y /\ Forall (fun p => entered ks p = true) c.
Proof.
  unfold visited_post. rewrite in_flat_map, <- reach_located.
  split; intros (e & He & H); exists e; (split; [assumption|]); now apply walk_post_reach.
Qed.

(** ** Contexts in well formed files *)
Definition not_group (e : element) : bool := match e with EGroup _ _ _ _ => false | _ => true end.
Lemma outside_groups_iff ctx : outside_groups ctx <-> Forall (fun g => not_group g = true) ctx.
Proof.
  unfold outside_groups. rewrite Forall_forall. split; intros H g Hg.
  - specialize (H g Hg). destruct g; try reflexivity. exfalso. apply H. red. eauto.
  - specialize (H g Hg). intros (h & o & n & es & ->). discriminate.
Qed.
Definition in_message (e : element) : bool :=
  match e with EEnum _ _ | EMessage _ _ _ | EOneof _ _ | EGroup _ _ _ _ => true | _ => false end.
Definition top_only (e : element) : bool :=
  match e with ESyntax _ | EPackage _ | EImport _ | EService _ _ => true | _ => false end.

Section WF.
  Variable file : list element.
  Hypothesis WF : well_formed file.

  Lemma top_ctx ctx e : located file ctx e -> top_only e = true -> ctx = [].
  Proof.
    intros H He. destruct H as [|ctx p e H Hin]; [reflexivity|].
    pose proof (proj2 WF ctx p e (nested _ _ _ _ H Hin)) as M.
    destruct p, e; simpl in *; try contradiction; discriminate.
  Qed.
  Lemma messages_ctx ctx e : located file ctx e -> in_message e = true -> outside_groups ctx ->
    Forall (fun p => exists h x es, p = EMessage h x es) ctx \/
    exists h es outer, ctx = EOneof h es :: outer /\ not_group e = false.
  Proof.
    intros H He HO. apply outside_groups_iff in HO. revert He HO.
    induction H as [|ctx p e H IH Hin]; intros He HO; [left; constructor|].
    pose proof (proj2 WF ctx p e (nested _ _ _ _ H Hin)) as M.
    apply Forall_cons_iff in HO as [HO1 HO2].
    destruct p; simpl in *; try contradiction; try discriminate;
      try solve [destruct e; simpl in *; try contradiction; discriminate].
    - left. constructor; [eauto|]. destruct (IH eq_refl HO2) as [HI|(h' & es' & outer & -> & E)]; [exact HI|discriminate].
    - right. exists h, es, ctx. split; [reflexivity|]. destruct e; simpl in *; try contradiction; try discriminate; reflexivity.
  Qed.
  Definition is_msg (p : element) : Prop := exists h x es, p = EMessage h x es.
  Lemma plain_ctx ctx e : located file ctx e -> outside_groups ctx ->
    (is_enum e \/ is_message_or_extend e \/ is_oneof e) -> Forall is_msg ctx.
  Proof.
    intros H HO He. destruct (messages_ctx ctx e H) as [|(h & es & outer & -> & E)]; auto.
    - destruct He as [(h & es & ->)|[(h & x & es & ->)|(h & es & ->)]]; reflexivity.
    - destruct He as [(h' & es' & ->)|[(h' & x & es' & ->)|(h' & es' & ->)]]; discriminate.
  Qed.
  Lemma located_tail ctx p e : located file (p :: ctx) e -> located file ctx p.
  Proof. intros H. inversion H; subst. assumption. Qed.
  Lemma outside_tail ctx p : outside_groups (p :: ctx) -> outside_groups ctx.
  Proof. intros H g Hg. apply H. now right. Qed.
  Lemma enum_value_ctx ctx e : located file ctx e -> outside_groups ctx -> is_enum_value e ->
    exists h es outer, ctx = EEnum h es :: outer /\ Forall is_msg outer.
  Proof.
    intros H HO (f & es & ->). inversion H as [e' Hin|c p e' Hl Hin]; subst.
    - pose proof (proj1 WF _ Hin). contradiction.
    - pose proof (proj2 WF _ _ _ H) as M.
      destruct p; simpl in M; try contradiction. exists h, es0, c. split; [reflexivity|].
      eapply plain_ctx; [exact Hl|eapply outside_tail; eassumption|left; red; eauto].
  Qed.
  Lemma field_ctx ctx e : located file ctx e -> outside_groups ctx -> is_field e ->
    exists outer, Forall is_msg outer /\ (ctx = outer \/ exists h es, ctx = EOneof h es :: outer).
  Proof.
    intros H HO (k & f & ->). inversion H as [e' Hin|c p e' Hl Hin]; subst.
    - pose proof (proj1 WF _ Hin). contradiction.
    - pose proof (proj2 WF _ _ _ H) as M. pose proof (outside_tail _ _ HO) as HO'.
      destruct p; simpl in M; try contradiction.
      + exists (EMessage h extend es :: c). split; [|now left]. constructor; [red; eauto|].
        eapply plain_ctx; [exact Hl|assumption|right; left; red; eauto].
      + exists c. split; [|right; eauto].
        eapply plain_ctx; [exact Hl|assumption|right; right; red; eauto].
      + exfalso. apply (HO (EGroup h optional seq es)); [now left|red; eauto].
  Qed.
  Lemma rpc_ctx ctx e : located file ctx e -> is_rpc e -> exists h es, ctx = [EService h es].
  Proof.
    intros H (r & es & ->). inversion H as [e' Hin|c p e' Hl Hin]; subst.
    - pose proof (proj1 WF _ Hin). contradiction.
    - pose proof (proj2 WF _ _ _ H) as M. destruct p; simpl in M; try contradiction.
      apply top_ctx in Hl; [|reflexivity]. subst. eauto.
  Qed.
  Lemma reserved_ctx ctx e : located file ctx e -> outside_groups ctx -> is_reserved e ->
    exists p outer, ctx = p :: outer /\ (is_msg p \/ is_enum p) /\ Forall is_msg outer.
  Proof.
    intros H HO (k & ->). inversion H as [e' Hin|c p e' Hl Hin]; subst.
    - pose proof (proj1 WF _ Hin). contradiction.
    - pose proof (proj2 WF _ _ _ H) as M. pose proof (outside_tail _ _ HO) as HO'.
      exists p, c. split; [reflexivity|].
      destruct p; simpl in M; try contradiction.
      + split; [right; red; eauto|]. eapply plain_ctx; [exact Hl|assumption|left; red; eauto].
      + split; [left; red; eauto|]. eapply plain_ctx; [exact Hl|assumption|right; left; red; eauto].
      + exfalso. apply (HO (EGroup h optional seq es)); [now left|red; eauto].
  Qed.
End WF.

Lemma entered_msgs ks ctx : into ks KMessage = true -> Forall is_msg ctx ->
  Forall (fun p => entered ks p = true) ctx.
Proof. intros H HF. eapply Forall_impl; [|exact HF]. intros p (h & x & es & ->). exact H. Qed.
Lemma entered_no_group ks ctx : into ks KGroup = false -> Forall (fun p => entered ks p = true) ctx -> outside_groups ctx.
Proof.
  intros H HF. apply outside_groups_iff. eapply Forall_impl; [|exact HF].
  intros p Hp. destruct p; try reflexivity. simpl in Hp. congruence.
Qed.
Lemma everywhere_entered file ctx e : located file ctx e -> Forall (fun p => entered everywhere p = true) ctx.
Proof.
  intros H. induction H; constructor; [|assumption].
  destruct p; simpl in *; try reflexivity; contradiction.
Qed.
