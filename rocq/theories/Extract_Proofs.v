(** What the extraction produces, in terms of the declarations of the reflected
    package set. *)
From Verif Require Import GoMapFacts Extract_Model Breaking_Spec Protostrs_Proofs.
From Coq Require Import Lia.

(** ** declares *)
Section Declares.
  Context {A K : Type} {kk : Key K} (key : A -> K).
  Lemma declares_nil k x : ~ declares key [] k x.
  Proof. intros (b & a & H & _). now destruct b. Qed.
  Lemma declares_In l k x : declares key l k x -> In x l /\ key x = k.
  Proof. intros (b & a & -> & Hk & _). split; [apply in_elt|assumption]. Qed.
  Lemma declares_cons y l k x :
    declares key (y :: l) k x <-> declares key l k x \/ (absent key l k /\ key y = k /\ x = y).
  Proof.
    split.
    - intros (b & a & E & Hk & Ha). destruct b as [|z b]; injection E as -> ->.
      + right. repeat split; auto. intros z Hz. rewrite Forall_forall in Ha. auto.
      + left. now exists b, a.
    - intros [(b & a & -> & Hk & Ha)|(Hab & Hk & ->)].
      + exists (y :: b), a. auto.
      + exists [], l. repeat split; auto. apply Forall_forall. exact Hab.
  Qed.
  Lemma absent_dec l k : {absent key l k} + {exists x, In x l /\ key x = k}.
  Proof.
    induction l as [|y l IH]; [left; now intros x []|].
    destruct (key_dec (key y) k) as [E|E]; [right; exists y; split; [now left|assumption]|].
    destruct IH as [IH|IH].
    - left. intros x [<-|Hx]; auto.
    - right. destruct IH as (x & Hx & Hk). exists x. split; [now right|assumption].
  Qed.
  Lemma declares_or_absent l k : (exists x, declares key l k x) \/ absent key l k.
  Proof.
    induction l as [|y l [[x IH]|IH]]; [right; now intros x []| |].
    - left. exists x. apply declares_cons. now left.
    - destruct (key_dec (key y) k) as [E|E].
      + left. exists y. apply declares_cons. right. auto.
      + right. intros x [<-|Hx]; auto.
  Qed.
  Lemma In_declares l x : In x l -> exists y, declares key l (key x) y.
  Proof. intros H. destruct (declares_or_absent l (key x)) as [?|Ha]; [assumption|]. now apply Ha in H. Qed.
  Lemma declares_fun l k x y : declares key l k x -> declares key l k y -> x = y.
  Proof.
    revert x y. induction l as [|z l IH]; intros x y Hx Hy; [now apply declares_nil in Hx|].
    apply declares_cons in Hx as [Hx|(Ax & _ & ->)]; apply declares_cons in Hy as [Hy|(Ay & _ & ->)]; auto.
    - apply declares_In in Hx as [Hi Hk]. now apply Ay in Hi.
    - apply declares_In in Hy as [Hi Hk]. now apply Ax in Hi.
  Qed.
  Lemma declares_NoDup l k x : NoDup (map key l) -> (declares key l k x <-> In x l /\ key x = k).
  Proof.
    intros H. split; [apply declares_In|]. revert H. induction l as [|z l IH]; [now intros _ [[] _]|].
    cbn [map]. intros H. inversion H as [|? ? Hn Hr]; subst. intros [[<-|Hi] Hk].
    - apply declares_cons. right. repeat split; auto. intros y Hy E. apply Hn. apply in_map_iff. exists y. split; congruence.
    - apply declares_cons. left. auto.
  Qed.
  Lemma absent_declares l k : absent key l k <-> forall x, ~ declares key l k x.
  Proof.
    split.
    - intros H x Hd. apply declares_In in Hd as [Hi Hk]. now apply H in Hi.
    - intros H. destruct (declares_or_absent l k) as [[x Hx]|?]; [now apply H in Hx|assumption].
  Qed.
  (** A map filled from a list. *)
  Lemma gget_rev_declares {V} (g : A -> V) l k v :
    gget k (rev (map (fun x => (key x, g x)) l)) = Some v <-> exists x, declares key l k x /\ v = g x.
  Proof.
    revert v. induction l as [|y l IH]; intros v; cbn [map rev].
    - split; [discriminate|]. intros (x & H & _). now apply declares_nil in H.
    - rewrite gget_app. destruct (gget k (rev _)) as [w|] eqn:E.
      + destruct (proj1 (IH w) eq_refl) as (x' & Hx' & Ew). split.
        * intros H. injection H as <-. exists x'. split; [|assumption]. apply declares_cons. now left.
        * intros (x & Hx & ->). apply declares_cons in Hx as [Hx|(Ha & _ & ->)].
          -- now rewrite Ew, (declares_fun _ _ _ _ Hx Hx').
          -- apply declares_In in Hx' as [Hi Hk]. now apply Ha in Hi.
      + assert (Hno : absent key l k).
        { destruct (declares_or_absent l k) as [[x Hx]|?]; [|assumption]. exfalso.
          assert (H : None = Some (g x)) by (apply IH; now exists x). discriminate. }
        simpl. destruct (keqb k (key y)) eqn:Ek.
        * apply keqb_eq in Ek. split.
          -- intros H. injection H as <-. exists y. split; [|reflexivity]. apply declares_cons. right. auto.
          -- intros (x & Hx & ->). apply declares_cons in Hx as [Hx|(_ & _ & ->)]; [|reflexivity].
             apply declares_In in Hx as [Hi Hk]. now apply Hno in Hi.
        * apply keqb_neq in Ek. split; [discriminate|]. intros (x & Hx & ->).
          apply declares_cons in Hx as [Hx|(_ & Hk & ->)]; [|congruence].
          apply declares_In in Hx as [Hi Hk]. now apply Hno in Hi.
  Qed.
  Lemma gget_build_declares {V} (g : A -> V) l k v :
    gget k (build (map (fun x => (key x, g x)) l)) = Some v <-> exists x, declares key l k x /\ v = g x.
  Proof. rewrite gget_build. apply gget_rev_declares. Qed.
  Lemma gget_build_None {V} (g : A -> V) l k :
    gget k (build (map (fun x => (key x, g x)) l)) = None <-> absent key l k.
  Proof.
    rewrite absent_declares. split.
    - intros H x Hx. assert (E : gget k (build (map (fun x => (key x, g x)) l)) = Some (g x)).
      { apply gget_build_declares. now exists x. } congruence.
    - intros H. destruct (gget k _) eqn:E; [|reflexivity].
      apply gget_build_declares in E as (x & Hx & _). now apply H in Hx.
  Qed.
  Lemma declares_filter f l k x :
    (forall a b, key a = key b -> f a = f b) ->
    (declares key (filter f l) k x <-> declares key l k x /\ f x = true).
  Proof.
    intros Hf. induction l as [|y l IH]; cbn [filter].
    - split; [intros H; now apply declares_nil in H|intros [H _]; now apply declares_nil in H].
    - assert (Habs : f y = true -> key y = k -> absent key (filter f l) k -> absent key l k).
      { intros Hy Hk Ha z Hz E. apply (Ha z); [|assumption]. apply filter_In. split; [assumption|].
        rewrite (Hf z y); congruence. }
      destruct (f y) eqn:Ey.
      + rewrite !declares_cons, IH. split.
        * intros [[H1 H2]|(Ha & Hk & ->)]; [tauto|]. split; [|assumption]. right. repeat split; auto.
        * intros [[H|(Ha & Hk & ->)] Hx]; [tauto|]. right. repeat split; auto.
          intros z Hz. apply filter_In in Hz as [Hz _]. auto.
      + rewrite declares_cons, IH. split; [tauto|]. intros [[H|(Ha & Hk & ->)] Hx]; [tauto|congruence].
  Qed.
End Declares.

(** ** beta names *)
Lemma ignore_package_spec wb n : ignore_package wb n = true <-> wb = true /\ beta_name n.
Proof.
  unfold ignore_package, beta_name. rewrite andb_true_iff. split.
  - intros [-> H]. split; [reflexivity|]. destruct (major_beta_version n) as [[maj beta]|] eqn:E; [|discriminate].
    apply major_beta_version_spec in E as (base & part & H1 & H2). exists base, part, maj, beta.
    now apply N.ltb_lt in H.
  - intros (-> & base & part & maj & beta & H1 & H2 & H3). split; [reflexivity|].
    rewrite (proj2 (major_beta_version_spec n maj beta)); [now apply N.ltb_lt|]. now exists base, part.
Qed.
Lemma beta_name_dec n : {beta_name n} + {~ beta_name n}.
Proof.
  destruct (ignore_package true n) eqn:E; [left|right].
  - now apply ignore_package_spec in E.
  - intros H. assert (ignore_package true n = true) by (apply ignore_package_spec; auto). congruence.
Qed.

(** ** Messages *)
Definition x_message_list (ms : list message) (encl : string) : result (list (string * x_message)) :=
  mapM (fun m => do x <- new_message m encl; Ok (msg_name m, x)) ms.
Lemma new_message_eq name fields oneofs nested enums encl :
  new_message (mk_message name fields oneofs nested enums) encl =
  let fqn := fully_qualified_name encl name in
  do nested_list <- x_message_list nested fqn;
  do linked <- link_message_fields_oneofs (build (map (fun f => (fd_number f, (f, None))) fields))
                 (build (map (fun o => (oo_name o, o)) oneofs));
  Ok (mk_x_message fqn (build (map (fun e => (en_name e, new_enum e fqn)) enums)) (build nested_list) linked
        (build (map (fun o => (oo_name o, o)) oneofs))).
Proof.
  cbn [new_message]. cbv zeta.
  match goal with |- bind ?a _ = bind ?b _ => assert (E : a = b) end.
  { unfold x_message_list. induction nested as [|n l IH]; [reflexivity|]. cbn [mapM].
    destruct (new_message n _); [|reflexivity]. cbn [bind]. now rewrite IH. }
  now rewrite E.
Qed.

(** mapM over messages keeps keys aligned. *)
Lemma x_message_list_spec ms encl l : x_message_list ms encl = Ok l ->
  (forall m, In m ms -> exists x, new_message m encl = Ok x) /\
  (forall k x, gget k (build l) = Some x <-> exists m, declares msg_name ms k m /\ new_message m encl = Ok x).
Proof.
  intros H. set (g m := match new_message m encl with Ok x => x | Err _ => mk_x_message "" [] [] [] [] end).
  assert (Hall : (forall m, In m ms -> exists x, new_message m encl = Ok x)
                 /\ l = map (fun m => (msg_name m, g m)) ms).
  { revert l H. unfold x_message_list. induction ms as [|m ms IH]; intros l H; cbn [mapM] in H.
    - injection H as <-. split; [easy|reflexivity].
    - destruct (new_message m encl) as [x|] eqn:E; [|discriminate]. cbn [bind] in H.
      destruct (mapM _ ms) as [l'|]; [|discriminate]. injection H as <-.
      destruct (IH _ eq_refl) as [IH1 IH2]. split.
      + intros m' [<-|Hm]; [now exists x|auto].
      + cbn [map]. rewrite <- IH2. unfold g. now rewrite E. }
  destruct Hall as [Hall ->]. split; [assumption|]. intros k x.
  rewrite (gget_build_declares msg_name). split.
  - intros (m & Hm & ->). exists m. split; [assumption|]. unfold g.
    destruct (Hall m) as [x Hx]; [now apply declares_In in Hm|]. now rewrite Hx.
  - intros (m & Hm & Hx). exists m. split; [assumption|]. unfold g. now rewrite Hx.
Qed.

(** Induction on messages. *)
Lemma message_ind' (P : message -> Prop) :
  (forall name fields oneofs nested enums, Forall P nested -> P (mk_message name fields oneofs nested enums)) ->
  forall m, P m.
Proof.
  intros H. fix IH 1. intros [name fields oneofs nested enums]. apply H.
  induction nested as [|n l IHl]; constructor; [apply IH|exact IHl].
Qed.

(** ** Linking fields and oneofs *)
Lemma link_oneof_spec o numbers : forall fields fields',
  link_oneof o numbers fields = Ok fields' ->
  NoDup (map fst fields) ->
  NoDup (map fst fields') /\
  (forall n, In n numbers -> exists f oo, gget n fields = Some (f, oo)) /\
  (forall n f oo, gget n fields = Some (f, oo) ->
     gget n fields' = Some (f, if in_dec Z.eq_dec n numbers then Some o else oo)) /\
  (forall n, gget n fields = None -> gget n fields' = None).
Proof.
  induction numbers as [|z rest IH]; intros fields fields' H ND; cbn [link_oneof] in H.
  - injection H as <-. repeat split; auto. now intros n [].
  - destruct (gget z fields) as [[f oo]|] eqn:E; [|discriminate].
    destruct (IH _ _ H) as (ND' & H1 & H2 & H3); [now apply gput_NoDup|].
    split; [assumption|]. split; [|split].
    + intros n [<-|Hn]; [now exists f, oo|].
      destruct (Z.eq_dec n z) as [->|Hne]; [now exists f, oo|].
      destruct (H1 n Hn) as (f' & oo' & Hf). rewrite gget_gput_neq in Hf by assumption. now exists f', oo'.
    + intros n g og Hg. destruct (Z.eq_dec n z) as [->|Hne].
      * rewrite (H2 z f (Some o)); [|apply gget_gput_eq].
        rewrite E in Hg. injection Hg as -> ->.
        destruct (in_dec Z.eq_dec z rest); destruct (in_dec Z.eq_dec z (z :: rest)) as [|Hc]; auto;
          exfalso; apply Hc; now left.
      * rewrite (H2 n g og); [|now rewrite gget_gput_neq].
        destruct (in_dec Z.eq_dec n rest) as [Hi|Hi]; destruct (in_dec Z.eq_dec n (z :: rest)) as [Hi'|Hi']; auto.
        -- exfalso; apply Hi'; now right.
        -- destruct Hi' as [->|Hi']; [congruence|contradiction].
    + intros n Hn. apply H3. rewrite gget_gput_neq; [assumption|]. intros ->. congruence.
Qed.
Lemma link_fields_spec oneofs : forall fields fields',
  link_message_fields_oneofs fields oneofs = Ok fields' ->
  NoDup (map fst fields) ->
  NoDup (map fst fields') /\
  (forall n f oo, gget n fields = Some (f, oo) -> exists oo', gget n fields' = Some (f, oo') /\
     ((oo' = oo /\ forall k o, In (k, o) oneofs -> ~ In n (oo_numbers o)) \/
      exists k o, In (k, o) oneofs /\ oo' = Some o /\ In n (oo_numbers o))) /\
  (forall n, gget n fields = None -> gget n fields' = None).
Proof.
  induction oneofs as [|[k o] rest IH]; intros fields fields' H ND; cbn [link_message_fields_oneofs] in H.
  - injection H as <-. split; [assumption|]. split; [|auto]. intros n f oo Hf. exists oo.
    split; [assumption|]. left. split; [reflexivity|]. intros k o [].
  - destruct (link_oneof o (oo_numbers o) fields) as [mid|] eqn:E; [|discriminate]. cbn [bind] in H.
    destruct (link_oneof_spec _ _ _ _ E ND) as (ND1 & A1 & A2 & A3).
    destruct (IH _ _ H ND1) as (ND2 & B1 & B2). split; [assumption|]. split.
    + intros n f oo Hf. specialize (A2 n f oo Hf). destruct (B1 _ _ _ A2) as (oo' & Hoo' & Hcase).
      exists oo'. split; [assumption|]. destruct Hcase as [[-> Hnone]|(k' & o' & Hin & -> & Hn)].
      * destruct (in_dec Z.eq_dec n (oo_numbers o)) as [Hi|Hi].
        -- right. exists k, o. split; [now left|auto].
        -- left. split; [reflexivity|]. intros k' o' [Ei|Hi']; [injection Ei as <- <-; assumption|].
           now apply (Hnone k').
      * right. exists k', o'. split; [now right|auto].
    + auto.
Qed.

(** ** A message and its wrapper *)
Lemma build_map_In {A V} (key : A -> string) (g : A -> V) l k v :
  In (k, v) (build (map (fun x => (key x, g x)) l)) <-> exists x, declares key l k x /\ v = g x.
Proof. rewrite build_In. apply gget_rev_declares. Qed.

Record message_rep (m : message) (encl : string) (x : x_message) : Prop := {
  mr_fqn : xm_fqn x = fully_qualified_name encl (msg_name m);
  mr_enums : xm_enums x = build (map (fun e => (en_name e, new_enum e (xm_fqn x))) (msg_enums m));
  mr_nested : exists l, x_message_list (msg_nested m) (xm_fqn x) = Ok l /\ xm_nested x = build l;
  mr_oneofs : xm_oneofs x = build (map (fun o => (oo_name o, o)) (msg_oneofs m));
  mr_fields_nodup : NoDup (map fst (xm_fields x));
  mr_fields : forall k f oo, gget k (xm_fields x) = Some (f, oo) ->
     declares fd_number (msg_fields m) k f /\
     match oo with Some o => in_oneof m k o | None => forall o, ~ in_oneof m k o end;
  mr_fields' : forall k f, declares fd_number (msg_fields m) k f ->
     exists oo, gget k (xm_fields x) = Some (f, oo)
}.
Lemma new_message_rep m encl x : new_message m encl = Ok x -> message_rep m encl x.
Proof.
  destruct m as [name fields oneofs nested enums]. rewrite new_message_eq. cbv zeta.
  set (fqn := fully_qualified_name encl name).
  destruct (x_message_list nested fqn) as [l|] eqn:El; [|discriminate]. cbn [bind].
  destruct (link_message_fields_oneofs _ _) as [linked|] eqn:Ek; [|discriminate]. cbn [bind].
  intros H. injection H as <-.
  destruct (link_fields_spec _ _ _ Ek) as (ND & A1 & A2); [apply build_NoDup|].
  assert (Hoo : forall k o, In (k, o) (build (map (fun o => (oo_name o, o)) oneofs)) -> declares oo_name oneofs (oo_name o) o).
  { intros k o Hin. apply (build_map_In oo_name (fun o => o)) in Hin as (o' & Ho & ->).
    pose proof (proj2 (declares_In _ _ _ _ Ho)) as E. now rewrite E. }
  constructor; cbn [xm_fqn xm_enums xm_nested xm_fields xm_oneofs msg_name msg_enums msg_nested msg_oneofs msg_fields].
  - reflexivity.
  - reflexivity.
  - now exists l.
  - reflexivity.
  - assumption.
  - intros k f oo Hf.
    destruct (gget k (build (map (fun f => (fd_number f, (f, @None oneof))) fields))) as [[f0 oo0]|] eqn:E0;
      [|rewrite (A2 _ E0) in Hf; discriminate].
    pose proof E0 as E1. apply (gget_build_declares fd_number (fun f => (f, None))) in E1 as (f1 & Hd & Ef).
    injection Ef as -> ->. destruct (A1 _ _ _ E0) as (oo' & Hoo' & Hc). rewrite Hf in Hoo'. injection Hoo' as -> ->.
    split; [assumption|]. destruct Hc as [[-> Hnone]|(k' & o & Hin & -> & Hn)].
    + intros o [Ho Hn]. apply (Hnone (oo_name o) o); [|assumption].
      apply (build_map_In oo_name (fun o => o)). now exists o.
    + split; [|assumption]. cbn [msg_oneofs]. now apply (Hoo k').
  - intros k f Hd. assert (E0 : gget k (build (map (fun f => (fd_number f, (f, @None oneof))) fields)) = Some (f, None)).
    { apply (gget_build_declares fd_number (fun f => (f, None))). now exists f. }
    destruct (A1 _ _ _ E0) as (oo' & H & _). now exists oo'.
Qed.

(** ** Scopes *)
Definition scope_rep (encl : string) (ms : list message) (es : list enum)
  (xms : list (string * x_message)) (xes : list (string * x_enum)) : Prop :=
  xes = build (map (fun e => (en_name e, new_enum e encl)) es) /\
  exists l, x_message_list ms encl = Ok l /\ xms = build l.
Inductive xscope : list (string * x_message) -> list (string * x_enum) -> list string ->
  list (string * x_message) -> list (string * x_enum) -> Prop :=
| xscope_here : forall xms xes, xscope xms xes [] xms xes
| xscope_down : forall xms xes n x path xms' xes',
    gget n xms = Some x -> xscope (xm_nested x) (xm_enums x) path xms' xes' ->
    xscope xms xes (n :: path) xms' xes'.
Lemma scope_rep_get encl ms es xms xes : scope_rep encl ms es xms xes ->
  forall n x, gget n xms = Some x <-> exists m, declares msg_name ms n m /\ new_message m encl = Ok x.
Proof. intros (_ & l & Hl & ->). now apply x_message_list_spec. Qed.
Lemma scope_rep_msg encl ms es xms xes : scope_rep encl ms es xms xes ->
  forall n m, declares msg_name ms n m -> exists x, gget n xms = Some x /\ new_message m encl = Ok x.
Proof.
  intros H n m Hd. pose proof H as (_ & l & Hl & ->). destruct (x_message_list_spec _ _ _ Hl) as [Hall Hg].
  destruct (Hall m) as [x Hx]; [now apply declares_In in Hd|]. exists x. split; [|assumption].
  apply Hg. now exists m.
Qed.
Lemma scope_rep_enum encl ms es xms xes : scope_rep encl ms es xms xes ->
  forall n y, gget n xes = Some y <-> exists e, declares en_name es n e /\ y = new_enum e encl.
Proof. intros (-> & _) n y. apply (gget_build_declares en_name (fun e => new_enum e encl)). Qed.
Lemma scope_rep_nested m encl x n :
  new_message m encl = Ok x -> msg_name m = n ->
  scope_rep (fully_qualified_name encl n) (msg_nested m) (msg_enums m) (xm_nested x) (xm_enums x).
Proof.
  intros H <-. apply new_message_rep in H as [Hf He Hn _ _ _ _]. rewrite <- Hf. split; assumption.
Qed.
Fixpoint qualify (encl : string) (path : list string) : string :=
  match path with [] => encl | n :: rest => qualify (fully_qualified_name encl n) rest end.
Lemma scope_fwd ms es path ms' es' : scope_in ms es path ms' es' -> forall encl xms xes,
  scope_rep encl ms es xms xes -> exists xms' xes', xscope xms xes path xms' xes' /\
    scope_rep (qualify encl path) ms' es' xms' xes'.
Proof.
  induction 1 as [ms es|ms es n m path ms' es' Hd Hs IH]; intros encl xms xes Hr.
  - exists xms, xes. split; [constructor|assumption].
  - destruct (scope_rep_msg _ _ _ _ _ Hr _ _ Hd) as (x & Hg & Hx).
    destruct (IH (fully_qualified_name encl n) (xm_nested x) (xm_enums x)) as (xms' & xes' & H1 & H2).
    { apply scope_rep_nested; [assumption|]. now apply declares_In in Hd. }
    exists xms', xes'. split; [|assumption]. econstructor; eassumption.
Qed.
Lemma scope_bwd xms xes path xms' xes' : xscope xms xes path xms' xes' -> forall encl ms es,
  scope_rep encl ms es xms xes -> exists ms' es', scope_in ms es path ms' es' /\
    scope_rep (qualify encl path) ms' es' xms' xes'.
Proof.
  induction 1 as [xms xes|xms xes n x path xms' xes' Hg Hs IH]; intros encl ms es Hr.
  - exists ms, es. split; [constructor|assumption].
  - apply (scope_rep_get _ _ _ _ _ Hr) in Hg as (m & Hd & Hx).
    destruct (IH (fully_qualified_name encl n) (msg_nested m) (msg_enums m)) as (ms' & es' & H1 & H2).
    { apply scope_rep_nested; [assumption|]. now apply declares_In in Hd. }
    exists ms', es'. split; [|assumption]. econstructor; eassumption.
Qed.
Lemma fqn_nonempty encl n : encl <> "" -> fully_qualified_name encl n = encl +++ "." +++ n.
Proof. intros H. unfold fully_qualified_name. apply is_empty_false in H. now rewrite H. Qed.
Lemma fqn_ne encl n : encl <> "" -> fully_qualified_name encl n <> "".
Proof. intros H. rewrite fqn_nonempty by assumption. now destruct encl. Qed.
Lemma qualify_join path : forall encl, encl <> "" -> qualify encl path = join "." (encl :: path).
Proof.
  induction path as [|n path IH]; intros encl H; [reflexivity|]. cbn [qualify].
  rewrite IH by now apply fqn_ne. rewrite fqn_nonempty by assumption.
  destruct path as [|n' path]; [reflexivity|].
  rewrite (join_cons2 _ encl), !join_cons2. now rewrite !sapp_assoc.
Qed.
Lemma qualify_full pkg path n : pkg <> "" ->
  fully_qualified_name (qualify pkg path) n = full_name pkg path n.
Proof.
  intros H. unfold full_name.
  transitivity (qualify pkg (path ++ [n])); [|now apply qualify_join].
  clear H. revert pkg. induction path as [|a path IH]; intros pkg; [reflexivity|]. cbn [qualify app]. apply IH.
Qed.

(** ** Packages *)
Record package_rep (n : string) (p : package) (xp : x_package) : Prop := {
  pr_proto : xp_proto xp = p;
  pr_scope : scope_rep n (pk_messages p) (pk_enums p) (xp_messages xp) (xp_enums xp);
  pr_services : xp_services xp = build (map (fun s => (sv_name s, new_service s n)) (pk_services p))
}.

(** What linking does to the map: keys and proto messages stay, and the
    dependency and importer maps record exactly the links made. *)
Definition same_shape (xs ys : x_package_set) : Prop :=
  map fst xs = map fst ys /\
  forall n, option_map xp_proto (gget n xs) = option_map xp_proto (gget n ys).
Lemma same_shape_refl xs : same_shape xs xs.
Proof. now split. Qed.
Lemma same_shape_trans a b c : same_shape a b -> same_shape b c -> same_shape a c.
Proof. intros [H1 H2] [H3 H4]. split; [congruence|]. intros n. now rewrite H2. Qed.
Lemma gput_keys_present {V} k (v : V) (m : list (string * V)) :
  In k (map fst m) -> map fst (gput k v m) = map fst m.
Proof.
  induction m as [|[k' v'] m IH]; simpl; [easy|]. destruct (String.eqb k k') eqn:E.
  - apply String.eqb_eq in E as ->. reflexivity.
  - intros [->|H]; [now rewrite String.eqb_refl in E|]. simpl. now rewrite IH.
Qed.
Lemma modify_get_eq {V} k (f : V -> V) m : gget k (modify k f m) = option_map f (gget k m).
Proof.
  unfold modify. destruct (gget k m) eqn:E; [|now rewrite E]. apply gget_gput_eq.
Qed.
Lemma modify_get_neq {V} k k' (f : V -> V) m : k <> k' -> gget k (modify k' f m) = gget k m.
Proof. intros H. unfold modify. destruct (gget k' m); [|reflexivity]. now apply gget_gput_neq. Qed.
Lemma modify_keys {V} k (f : V -> V) m : map fst (modify k f m) = map fst m.
Proof.
  unfold modify. destruct (gget k m) eqn:E; [|reflexivity]. apply gput_keys_present.
  apply gget_Some_key. eauto.
Qed.
Lemma modify_shape k f (xs : x_package_set) : (forall p, xp_proto (f p) = xp_proto p) -> same_shape (modify k f xs) xs.
Proof.
  intros Hf. split; [apply modify_keys|]. intros n. destruct (string_dec n k) as [->|Hn].
  - rewrite modify_get_eq. destruct (gget k xs); simpl; [now rewrite Hf|reflexivity].
  - now rewrite modify_get_neq.
Qed.
Lemma link_deps_shape wb name deps : forall xs ys, link_deps wb name deps xs = Ok ys -> same_shape ys xs.
Proof.
  induction deps as [|d rest IH]; intros xs ys H; cbn [link_deps] in H.
  - injection H as <-. apply same_shape_refl.
  - destruct (gget d xs); [|destruct (ignore_package wb d); [|discriminate]]; [|now apply IH].
    apply IH in H. eapply same_shape_trans; [exact H|]. eapply same_shape_trans; apply modify_shape; reflexivity.
Qed.
Lemma link_packages_shape wb entries : forall xs ys, link_packages wb entries xs = Ok ys -> same_shape ys xs.
Proof.
  induction entries as [|[n p] rest IH]; intros xs ys H; cbn [link_packages] in H.
  - injection H as <-. apply same_shape_refl.
  - destruct (link_deps wb n (pk_deps (xp_proto p)) xs) as [mid|] eqn:E; [|discriminate]. cbn [bind] in H.
    apply link_deps_shape in E. apply IH in H. eapply same_shape_trans; eassumption.
Qed.

Lemma base_packages_get ps wb n xp :
  gget n (base_packages ps wb) = Some xp <->
  exists p, packages_of (negb wb) ps n p /\ xp = mk_x_package p [] [] [] [] [].
Proof.
  unfold base_packages. rewrite (gget_build_declares pk_name (fun p => mk_x_package p [] [] [] [] [])).
  assert (HB : forall p, negb (ignore_package wb (pk_name p)) = true <-> (negb wb = true \/ ~ beta_name (pk_name p))).
  { intros p. rewrite negb_true_iff. pose proof (ignore_package_spec wb (pk_name p)) as HI.
    destruct (ignore_package wb (pk_name p)).
    - destruct (proj1 HI eq_refl) as [-> Hb]. simpl. split; [discriminate|]. intros [?|Hn]; [discriminate|contradiction].
    - split; [|reflexivity]. intros _. destruct wb; [right|now left]. intros Hb.
      assert (false = true) by (apply HI; auto). discriminate. }
  split; intros (p & Hp & ->); exists p; split; try reflexivity.
  - apply declares_filter in Hp as [Hd Hf]; [|intros a b ->; reflexivity].
    split; [assumption|]. apply HB in Hf. pose proof (proj2 (declares_In _ _ _ _ Hd)) as E. now rewrite E in Hf.
  - destruct Hp as [Hd Hb]. apply declares_filter; [intros a b ->; reflexivity|]. split; [assumption|].
    apply HB. pose proof (proj2 (declares_In _ _ _ _ Hd)) as E. now rewrite E.
Qed.
Lemma base_packages_NoDup ps wb : NoDup (map fst (base_packages ps wb)).
Proof. apply build_NoDup. Qed.

Lemma mapM_keys_get (f : string -> x_package -> result x_package) xs : forall ys,
  mapM (fun np => do p <- f (fst np) (snd np); Ok (fst np, p)) xs = Ok ys ->
  map fst ys = map fst xs /\
  forall n, match gget n xs with
            | Some p => exists q, f n p = Ok q /\ gget n ys = Some q
            | None => gget n ys = None
            end.
Proof.
  induction xs as [|[k p] xs IH]; intros ys H; cbn [mapM fst snd] in H.
  - injection H as <-. split; [reflexivity|]. reflexivity.
  - destruct (f k p) as [q|] eqn:E; [|discriminate]. cbn [bind] in H.
    destruct (mapM _ xs) as [ys'|]; [|discriminate]. injection H as <-.
    destruct (IH _ eq_refl) as [IH1 IH2]. split; [cbn [map fst]; now rewrite IH1|].
    intros n. cbn [gget]. destruct (keqb n k) eqn:Ek; [|apply IH2].
    apply keqb_eq in Ek as ->. now exists q.
Qed.

Theorem new_package_set_spec ps wb xs : new_package_set ps wb = Ok xs ->
  NoDup (map fst xs) /\
  (forall n xp, gget n xs = Some xp -> exists p, packages_of (negb wb) ps n p /\ package_rep n p xp) /\
  (forall n p, packages_of (negb wb) ps n p -> exists xp, gget n xs = Some xp /\ package_rep n p xp).
Proof.
  unfold new_package_set. cbv zeta.
  destruct (link_packages wb (base_packages ps wb) (base_packages ps wb)) as [linked|] eqn:E; [|discriminate].
  cbn [bind]. unfold fill_packages. intros H. apply mapM_keys_get in H as [Hk Hg].
  apply link_packages_shape in E as [Ek Ep].
  assert (Hfill : forall n p q, fill_package n p = Ok q -> package_rep n (xp_proto p) q).
  { intros n p q. unfold fill_package. fold (x_message_list (pk_messages (xp_proto p)) n).
    destruct (x_message_list _ n) as [l|] eqn:El; [|discriminate]. cbn [bind]. intros Hq. injection Hq as <-.
    constructor; cbn; [reflexivity| |reflexivity]. split; [reflexivity|]. now exists l. }
  assert (Hget : forall n xp, gget n xs = Some xp -> exists p, packages_of (negb wb) ps n p /\ package_rep n p xp).
  { intros n xp Hx. specialize (Hg n). specialize (Ep n). destruct (gget n linked) as [p|]; [|congruence].
    destruct Hg as (q' & Hq & Hgq). rewrite Hx in Hgq. injection Hgq as <-.
    destruct (gget n (base_packages ps wb)) as [b|] eqn:Eb; [|discriminate]. cbn in Ep. injection Ep as Ep.
    apply base_packages_get in Eb as (p0 & Hp0 & ->). exists p0. split; [assumption|].
    cbn in Ep. rewrite <- Ep. now apply Hfill. }
  split; [rewrite Hk, Ek; apply base_packages_NoDup|]. split; [exact Hget|].
  intros n p Hp.
  assert (Hb : gget n (base_packages ps wb) = Some (mk_x_package p [] [] [] [] [])).
  { apply base_packages_get. now exists p. }
  specialize (Ep n). rewrite Hb in Ep. destruct (gget n linked) as [pl|] eqn:El; [|discriminate].
  cbn in Ep. injection Ep as Ep. specialize (Hg n). rewrite El in Hg. destruct Hg as (q' & Hq & Hgq).
  exists q'. split; [assumption|]. rewrite <- Ep. now apply Hfill.
Qed.

(** ** Dependencies and importers *)
(** [dep_of xs a b]: the dependency map of [a] has [b]. *)
Definition dep_of (xs : x_package_set) (a b : string) : Prop :=
  exists p, gget a xs = Some p /\ gget b (xp_deps p) = Some tt.
Definition importer_of (xs : x_package_set) (b a : string) : Prop :=
  exists p, gget b xs = Some p /\ gget a (xp_importers p) = Some tt.
Lemma dep_modify_importer xs k i a b : dep_of (modify k (add_importer i) xs) a b <-> dep_of xs a b.
Proof.
  unfold dep_of. destruct (string_dec a k) as [->|Hn].
  - rewrite modify_get_eq. destruct (gget k xs) as [p|]; cbn [option_map].
    + split; intros (q & Hq & Hd); injection Hq as <-; eexists; (split; [reflexivity|]); exact Hd.
    + split; intros (q & Hq & Hd); discriminate.
  - now rewrite modify_get_neq.
Qed.
Lemma importer_modify_dep xs k d a b : importer_of (modify k (add_dep d) xs) b a <-> importer_of xs b a.
Proof.
  unfold importer_of. destruct (string_dec b k) as [->|Hn].
  - rewrite modify_get_eq. destruct (gget k xs) as [p|]; cbn [option_map].
    + split; intros (q & Hq & Hd); injection Hq as <-; eexists; (split; [reflexivity|]); exact Hd.
    + split; intros (q & Hq & Hd); discriminate.
  - now rewrite modify_get_neq.
Qed.
Lemma dep_modify_dep xs k d a b : (exists p, gget k xs = Some p) ->
  dep_of (modify k (add_dep d) xs) a b <-> dep_of xs a b \/ (a = k /\ b = d).
Proof.
  intros [p0 Hp0]. unfold dep_of. destruct (string_dec a k) as [->|Hn].
  - rewrite modify_get_eq, Hp0. cbn [option_map]. split.
    + intros (q & Hq & Hd). injection Hq as <-. cbn in Hd. destruct (string_dec b d) as [->|Hb]; [now right|].
      left. exists p0. split; [reflexivity|]. now rewrite gget_gput_neq in Hd.
    + intros [(q & Hq & Hd)|[_ ->]]; (eexists; split; [reflexivity|]); cbn.
      * injection Hq as <-. destruct (string_dec b d) as [->|Hb]; [apply gget_gput_eq|now rewrite gget_gput_neq].
      * apply gget_gput_eq.
  - rewrite modify_get_neq by assumption. split; [auto|]. intros [?|[? _]]; [assumption|contradiction].
Qed.
Lemma importer_modify_importer xs k i a b : (exists p, gget k xs = Some p) ->
  importer_of (modify k (add_importer i) xs) b a <-> importer_of xs b a \/ (b = k /\ a = i).
Proof.
  intros [p0 Hp0]. unfold importer_of. destruct (string_dec b k) as [->|Hn].
  - rewrite modify_get_eq, Hp0. cbn [option_map]. split.
    + intros (q & Hq & Hd). injection Hq as <-. cbn in Hd. destruct (string_dec a i) as [->|Hb]; [now right|].
      left. exists p0. split; [reflexivity|]. now rewrite gget_gput_neq in Hd.
    + intros [(q & Hq & Hd)|[_ ->]]; (eexists; split; [reflexivity|]); cbn.
      * injection Hq as <-. destruct (string_dec a i) as [->|Hb]; [apply gget_gput_eq|now rewrite gget_gput_neq].
      * apply gget_gput_eq.
  - rewrite modify_get_neq by assumption. split; [auto|]. intros [?|[? _]]; [assumption|contradiction].
Qed.
Lemma shape_present xs ys n : same_shape xs ys -> (exists p, gget n xs = Some p) <-> (exists p, gget n ys = Some p).
Proof. intros [Hk _]. rewrite !gget_Some_key. now rewrite Hk. Qed.
Lemma link_deps_links wb name deps : forall xs ys, link_deps wb name deps xs = Ok ys ->
  (exists p, gget name xs = Some p) ->
  (forall a b, dep_of ys a b <-> dep_of xs a b \/ (a = name /\ In b deps /\ exists p, gget b xs = Some p)) /\
  (forall a b, importer_of ys b a <-> importer_of xs b a \/ (a = name /\ In b deps /\ exists p, gget b xs = Some p)).
Proof.
  induction deps as [|d rest IH]; intros xs ys H Hname; cbn [link_deps] in H.
  - injection H as <-. split; intros a b; (split; [auto|]); intros [?|(_ & [] & _)]; assumption.
  - destruct (gget d xs) as [pd|] eqn:Ed.
    + set (zs := modify d (add_importer name) (modify name (add_dep d) xs)) in H.
      assert (Hshape : same_shape zs xs).
      { eapply same_shape_trans; apply modify_shape; reflexivity. }
      destruct (IH zs ys H) as [IH1 IH2]; [now apply (shape_present zs xs)|].
      assert (Hd' : exists p, gget d (modify name (add_dep d) xs) = Some p).
      { apply (shape_present (modify name (add_dep d) xs) xs); [now apply modify_shape|]. now exists pd. }
      split; intros a b.
      * rewrite IH1, (shape_present zs xs b Hshape). unfold zs at 1.
        rewrite dep_modify_importer, dep_modify_dep by assumption. cbn [In]. split.
        -- intros [[?|[-> ->]]|(-> & Hi & Hp)]; [now left| |]; right; repeat split; auto. now exists pd.
        -- intros [?|(-> & [<-|Hi] & Hp)]; [now left; left|now left; right|right; auto].
      * rewrite IH2, (shape_present zs xs b Hshape). unfold zs at 1.
        rewrite importer_modify_importer, importer_modify_dep by assumption. cbn [In]. split.
        -- intros [[?|[-> ->]]|(-> & Hi & Hp)]; [now left| |]; right; repeat split; auto. now exists pd.
        -- intros [?|(-> & [<-|Hi] & Hp)]; [now left; left|now left; right|right; auto].
    + destruct (ignore_package wb d); [|discriminate]. destruct (IH xs ys H Hname) as [IH1 IH2].
      split; intros a b; [rewrite IH1|rewrite IH2]; cbn [In]; split;
        (intros [?|(-> & Hi & Hp)]; [now left|]); right; repeat split; auto;
        destruct Hi as [<-|Hi]; auto; destruct Hp as [p Hp]; congruence.
Qed.
Lemma link_packages_links wb entries : forall xs ys, link_packages wb entries xs = Ok ys ->
  (forall n p, In (n, p) entries -> exists q, gget n xs = Some q) ->
  (forall a b, dep_of ys a b <->
     dep_of xs a b \/ ((exists p, In (a, p) entries /\ In b (pk_deps (xp_proto p))) /\ exists p, gget b xs = Some p)) /\
  (forall a b, importer_of ys b a <->
     importer_of xs b a \/ ((exists p, In (a, p) entries /\ In b (pk_deps (xp_proto p))) /\ exists p, gget b xs = Some p)).
Proof.
  induction entries as [|[n p] rest IH]; intros xs ys H Hall; cbn [link_packages] in H.
  - injection H as <-. split; intros a b; (split; [auto|]); intros [?|[(p & [] & _) _]]; assumption.
  - destruct (link_deps wb n (pk_deps (xp_proto p)) xs) as [mid|] eqn:E; [|discriminate]. cbn [bind] in H.
    destruct (link_deps_links _ _ _ _ _ E) as [L1 L2]; [apply (Hall n p); now left|].
    apply link_deps_shape in E.
    destruct (IH mid ys H) as [IH1 IH2].
    { intros n' p' Hi. apply (shape_present mid xs); [assumption|]. apply (Hall n' p'). now right. }
    split; intros a b; [rewrite IH1, L1|rewrite IH2, L2]; rewrite (shape_present mid xs b E); cbn [In]; split.
    + intros [[?|(-> & Hi & Hp)]|[(p' & Hi & Hd) Hp]]; [now left| |]; right; (split; [|assumption]);
        [exists p|exists p']; auto.
    + intros [?|[(p' & [Ei|Hi] & Hd) Hp]]; [now left; left| |].
      * injection Ei as <- <-. left. right. auto.
      * right. split; [|assumption]. now exists p'.
    + intros [[?|(-> & Hi & Hp)]|[(p' & Hi & Hd) Hp]]; [now left| |]; right; (split; [|assumption]);
        [exists p|exists p']; auto.
    + intros [?|[(p' & [Ei|Hi] & Hd) Hp]]; [now left; left| |].
      * injection Ei as <- <-. left. right. auto.
      * right. split; [|assumption]. now exists p'.
Qed.
Theorem new_package_set_links ps wb xs : new_package_set ps wb = Ok xs ->
  forall a b,
  (dep_of xs a b <-> exists p, packages_of (negb wb) ps a p /\ In b (pk_deps p) /\ exists p', packages_of (negb wb) ps b p') /\
  (importer_of xs b a <-> exists p, packages_of (negb wb) ps a p /\ In b (pk_deps p) /\ exists p', packages_of (negb wb) ps b p').
Proof.
  unfold new_package_set. cbv zeta.
  destruct (link_packages wb (base_packages ps wb) (base_packages ps wb)) as [linked|] eqn:E; [|discriminate].
  cbn [bind]. unfold fill_packages. intros H a b. apply mapM_keys_get in H as [Hk Hg].
  destruct (link_packages_links _ _ _ _ E) as [L1 L2].
  { intros n p Hi. exists p. apply In_gget; [apply base_packages_NoDup|assumption]. }
  assert (Hfd : forall n p q, fill_package n p = Ok q -> xp_deps q = xp_deps p /\ xp_importers q = xp_importers p).
  { intros n p q'. unfold fill_package. destruct (mapM _ _); [|discriminate]. cbn [bind].
    intros Hq. injection Hq as <-. now split. }
  assert (D : dep_of xs a b <-> dep_of linked a b).
  { unfold dep_of. specialize (Hg a). destruct (gget a linked) as [pl|].
    - destruct Hg as (q & Hq & ->). apply Hfd in Hq as [Hd _].
      split; intros (r & Hr & Hb); injection Hr as <-; eexists; (split; [reflexivity|congruence]).
    - rewrite Hg. split; intros (r & Hr & _); discriminate. }
  assert (I : importer_of xs b a <-> importer_of linked b a).
  { unfold importer_of. specialize (Hg b). destruct (gget b linked) as [pl|].
    - destruct Hg as (q & Hq & ->). apply Hfd in Hq as [_ Hd].
      split; intros (r & Hr & Hb); injection Hr as <-; eexists; (split; [reflexivity|congruence]).
    - rewrite Hg. split; intros (r & Hr & _); discriminate. }
  assert (NB : forall n p, gget n (base_packages ps wb) = Some p -> xp_deps p = [] /\ xp_importers p = []).
  { intros n p Hp. apply base_packages_get in Hp as (p0 & _ & ->). now split. }
  assert (R : ((exists p, In (a, p) (base_packages ps wb) /\ In b (pk_deps (xp_proto p))) /\
               exists p, gget b (base_packages ps wb) = Some p) <->
              exists p, packages_of (negb wb) ps a p /\ In b (pk_deps p) /\ exists p', packages_of (negb wb) ps b p').
  { split.
    - intros [(p & Hi & Hd) (pb & Hb)]. apply In_gget in Hi; [|apply base_packages_NoDup].
      apply base_packages_get in Hi as (p0 & Hp0 & ->). apply base_packages_get in Hb as (pb0 & Hpb & _).
      exists p0. repeat split; eauto; apply Hp0.
    - intros (p & Hp & Hd & p' & Hp'). split.
      + exists (mk_x_package p [] [] [] [] []). split; [|assumption]. apply gget_In, base_packages_get. now exists p.
      + exists (mk_x_package p' [] [] [] [] []). apply base_packages_get. now exists p'. }
  split.
  - rewrite D, L1, R. split; [|auto]. intros [(p & Hp & Hd)|?]; [|assumption].
    apply NB in Hp as [E0 _]. rewrite E0 in Hd. discriminate.
  - rewrite I, L2, R. split; [|auto]. intros [(p & Hp & Hd)|?]; [|assumption].
    apply NB in Hp as [_ E0]. rewrite E0 in Hd. discriminate.
Qed.

(** ** When extraction succeeds *)
Lemma link_deps_Ok wb name deps : forall xs,
  (forall d, In d deps -> (exists p, gget d xs = Some p) \/ ignore_package wb d = true) ->
  exists ys, link_deps wb name deps xs = Ok ys.
Proof.
  induction deps as [|d rest IH]; intros xs H; [now exists xs|]. cbn [link_deps].
  destruct (gget d xs) eqn:E.
  - apply IH. intros d' Hd'. destruct (H d' (or_intror Hd')) as [Hp|?]; [left|now right].
    apply (shape_present _ xs); [|assumption]. eapply same_shape_trans; apply modify_shape; reflexivity.
  - destruct (H d (or_introl eq_refl)) as [[p Hp]| -> ]; [congruence|]. apply IH. intros d' Hd'. apply H. now right.
Qed.
Lemma link_packages_Ok wb entries : forall xs,
  (forall n p d, In (n, p) entries -> In d (pk_deps (xp_proto p)) ->
     (exists p', gget d xs = Some p') \/ ignore_package wb d = true) ->
  exists ys, link_packages wb entries xs = Ok ys.
Proof.
  induction entries as [|[n p] rest IH]; intros xs H; [now exists xs|]. cbn [link_packages].
  destruct (link_deps_Ok wb n (pk_deps (xp_proto p)) xs) as [mid Hm].
  { intros d Hd. apply (H n p); [now left|assumption]. }
  rewrite Hm. cbn [bind]. apply link_deps_shape in Hm. apply IH. intros n' p' d Hi Hd.
  destruct (H n' p' d (or_intror Hi) Hd) as [Hp|?]; [left|now right]. now apply (shape_present mid xs).
Qed.
Lemma link_oneof_Ok o numbers : forall fields,
  (forall n, In n numbers -> exists v, gget n fields = Some v) ->
  exists fields', link_oneof o numbers fields = Ok fields' /\
    (forall n, (exists v, gget n fields = Some v) -> exists v, gget n fields' = Some v).
Proof.
  induction numbers as [|z rest IH]; intros fields H; cbn [link_oneof].
  - exists fields. auto.
  - destruct (H z (or_introl eq_refl)) as [[f oo] E]. rewrite E.
    assert (Hp : forall n, (exists v, gget n fields = Some v) -> exists v, gget n (gput z (f, Some o) fields) = Some v).
    { intros n [v Hv]. destruct (Z.eq_dec n z) as [->|Hn]; [rewrite gget_gput_eq|rewrite gget_gput_neq by assumption]; eauto. }
    destruct (IH (gput z (f, Some o) fields)) as (fields' & H1 & H2).
    { intros n Hn. apply Hp, H. now right. }
    exists fields'. split; [assumption|]. auto.
Qed.
Lemma link_fields_Ok oneofs : forall fields,
  (forall k o n, In (k, o) oneofs -> In n (oo_numbers o) -> exists v, gget n fields = Some v) ->
  exists fields', link_message_fields_oneofs fields oneofs = Ok fields'.
Proof.
  induction oneofs as [|[k o] rest IH]; intros fields H; [now exists fields|]. cbn [link_message_fields_oneofs].
  destruct (link_oneof_Ok o (oo_numbers o) fields) as (mid & H1 & H2).
  { intros n Hn. apply (H k o); [now left|assumption]. }
  rewrite H1. cbn [bind]. apply IH. intros k' o' n Hi Hn. apply H2. apply (H k' o'); [now right|assumption].
Qed.
Lemma mapM_all_Ok {A B} (f : A -> result B) l : Forall (fun x => exists y, f x = Ok y) l -> exists r, mapM f l = Ok r.
Proof.
  induction 1 as [|x l [y Hy] H [r IH]]; [now exists []|]. exists (y :: r). cbn [mapM]. now rewrite Hy, IH.
Qed.
Lemma new_message_Ok m : valid_message m -> forall encl, exists x, new_message m encl = Ok x.
Proof.
  induction m as [name fields oneofs nested enums IH] using message_ind'. intros HV encl.
  inversion HV as [? ? ? ? ? Hf Ho Hn]; subst. rewrite new_message_eq. cbv zeta.
  destruct (mapM_all_Ok (fun m => do x <- new_message m (fully_qualified_name encl name); Ok (msg_name m, x)) nested) as [l Hl].
  { rewrite Forall_forall in *. intros m Hm. destruct (IH m Hm (Hn m Hm) (fully_qualified_name encl name)) as [x Hx].
    rewrite Hx. cbn [bind]. eauto. }
  unfold x_message_list. rewrite Hl. cbn [bind].
  match goal with |- context [link_message_fields_oneofs ?a ?b] => destruct (link_fields_Ok b a) as [linked Hk] end.
  { intros k o n Hi Hnn. apply (build_map_In oo_name (fun o => o)) in Hi as (o' & Ho' & ->).
    apply declares_In in Ho' as [Hi _]. destruct (Ho _ _ Hi Hnn) as (f & Hff & <-).
    apply In_declares with (key := fd_number) in Hff as [g Hg]. exists (g, None).
    apply (gget_build_declares fd_number (fun f => (f, None))). now exists g. }
  rewrite Hk. cbn [bind]. eauto.
Qed.
Theorem new_package_set_Ok ps wb : valid_set ps -> exists xs, new_package_set ps wb = Ok xs.
Proof.
  intros HV. unfold valid_set in HV. rewrite Forall_forall in HV.
  unfold new_package_set. cbv zeta.
  destruct (link_packages_Ok wb (base_packages ps wb) (base_packages ps wb)) as [linked Hl].
  { intros n p d Hi Hd. apply In_gget in Hi; [|apply base_packages_NoDup].
    apply base_packages_get in Hi as (p0 & [Hp0 _] & ->). cbn in Hd.
    apply declares_In in Hp0 as [Hp0 _]. destruct (HV _ Hp0) as (_ & _ & Hdeps).
    destruct (Hdeps _ Hd) as (q & Hq & <-). destruct (ignore_package wb (pk_name q)) eqn:E; [now right|left].
    apply (In_declares pk_name) in Hq as [q' Hq']. exists (mk_x_package q' [] [] [] [] []).
    apply base_packages_get. exists q'. split; [|reflexivity]. split; [assumption|].
    destruct wb; [|now left]. right. intros Hb.
    assert (ignore_package true (pk_name q) = true) by (apply ignore_package_spec; auto). congruence. }
  rewrite Hl. cbn [bind]. pose proof (link_packages_shape _ _ _ _ Hl) as [Hk Hp].
  unfold fill_packages. apply mapM_all_Ok. rewrite Forall_forall. intros [n xp] Hi. cbn [fst snd].
  assert (Hx : gget n linked = Some xp). { apply In_gget; [|assumption]. rewrite Hk. apply base_packages_NoDup. }
  specialize (Hp n). rewrite Hx in Hp. destruct (gget n (base_packages ps wb)) as [b|] eqn:Eb; [|discriminate].
  cbn in Hp. injection Hp as Hp. apply base_packages_get in Eb as (p0 & [Hp0 _] & ->). cbn in Hp.
  apply declares_In in Hp0 as [Hp0 _]. destruct (HV _ Hp0) as (_ & Hms & _).
  unfold fill_package. rewrite Hp.
  destruct (mapM_all_Ok (fun m => do x <- new_message m n; Ok (msg_name m, x)) (pk_messages p0)) as [l Hml].
  { rewrite Forall_forall in *. intros m Hm. destruct (new_message_Ok m (Hms m Hm) n) as [x Hxm]. rewrite Hxm. cbn [bind]. eauto. }
  rewrite Hml. cbn [bind]. eauto.
Qed.
