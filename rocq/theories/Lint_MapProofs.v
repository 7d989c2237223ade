(** Rules whose visitors collect messages in maps, and rules about directories. *)
From Verif Require Import GoStrFacts GoMapFacts Strs_Proofs Protostrs_Proofs.
From Verif Require Export Lint_RuleProofs2 Lint_FileProofs.

(** ** The last entry with a key survives *)
Lemma build_sub {V} (l : list (string * V)) k v : In (k, v) (build l) -> In (k, v) l.
Proof. intros H. apply build_In in H. apply gget_In in H. now apply in_rev. Qed.
Lemma build_unique {V} (l : list (string * V)) k v : In (k, v) l -> (forall v', In (k, v') l -> v' = v) -> In (k, v) (build l).
Proof.
  intros H Hu. apply build_In. destruct (gget k (rev l)) as [v'|] eqn:E.
  - f_equal. apply Hu. apply in_rev. now apply gget_In.
  - apply gget_None in E. exfalso. apply E. apply in_map_iff. exists (k, v). split; [reflexivity|]. now apply in_rev in H.
Qed.
Lemma build_key {V} (l : list (string * V)) k v : In (k, v) l -> exists v', In (k, v') (build l).
Proof.
  intros H. destruct (gget k (rev l)) as [v'|] eqn:E.
  - exists v'. now apply build_In.
  - apply gget_None in E. exfalso. apply E. apply in_map_iff. exists (k, v). split; [reflexivity|]. now apply in_rev in H.
Qed.

(** ** Qualified names *)
Lemma message_key_eq ctx n : Forall is_msg ctx -> message_key ctx n = qualified_name ctx n.
Proof.
  intros H. unfold message_key.
  assert (E : nested_message_names ctx = rev (map name_of ctx)).
  { unfold nested_message_names. f_equal. induction H as [|e ctx (h & x & es & ->) H IH]; [reflexivity|]. simpl. now rewrite IH. }
  rewrite E. clear E H. revert n. induction ctx as [|p outer IH]; intros n; [reflexivity|].
  cbn [qualified_name]. rewrite <- IH. cbn [map rev].
  destruct outer as [|p' outer]; [reflexivity|].
  assert (N : rev (map name_of (p' :: outer)) <> []).
  { cbn [map rev]. intros E. apply app_eq_nil in E as [_ E]. discriminate. }
  destruct (rev (map name_of (p' :: outer))) as [|a l] eqn:E; [congruence|].
  cbn [app]. change (a :: l ++ [name_of p]) with ((a :: l) ++ [name_of p]). rewrite join_snoc by assumption.
  now rewrite !sapp_assoc.
Qed.
Lemma message_ctx file ctx e : well_formed file -> located file ctx e -> outside_groups ctx -> is_message_or_extend e -> Forall is_msg ctx.
Proof. intros HWF Hl HO He. eapply plain_ctx; eauto. Qed.

(** ** RPCs *)
Definition pick_rpc (e : element) : list rpc := match e with ERPC r _ => [r] | _ => [] end.
Lemma service_rpcs h ctx es : (forall c, In c es -> may_contain (EService h []) c) ->
  flat_map (fun ce : list element * element => pick_rpc (snd ce)) (flat_map (walk [KService] ctx) es) = flat_map pick_rpc es.
Proof.
  induction es as [|c es IH]; intros H; [reflexivity|]. cbn [flat_map]. rewrite flat_map_app.
  rewrite IH by (intros x Hx; apply H; now right). f_equal.
  specialize (H c (or_introl eq_refl)). rewrite walk_eq. destruct c; try contradiction; reflexivity.
Qed.
Lemma rpcs_of_eq d : well_formed (d_elements d) -> rpcs_of d = file_rpcs d.
Proof.
  intros [Ht Hn].
  assert (G : forall l, (forall e, In e l -> In e (d_elements d)) ->
    flat_map (fun ce : list element * element => pick_rpc (snd ce)) (flat_map (walk [KService] []) l) =
    flat_map pick_rpc (flat_map (fun e => match e with EService _ es => es | _ => [] end) l)).
  { induction l as [|e l IH]; intros Hl; [reflexivity|]. cbn [flat_map].
    rewrite !flat_map_app. rewrite IH by (intros; apply Hl; now right). f_equal.
    pose proof (Hl e (or_introl eq_refl)) as He. pose proof (Ht e He) as Hm.
    rewrite walk_eq. destruct e; try contradiction; try reflexivity.
    cbn [entered into existsb kind_eqb orb contents]. cbn [flat_map snd pick_rpc app].
    apply (service_rpcs h). intros c Hc.
    assert (C : may_contain (EService h es) c) by (apply (Hn []); constructor; [now constructor|assumption]).
    exact C. }
  apply (G (d_elements d)). auto.
Qed.
Lemma rpc_types_iff d t : well_formed (d_elements d) -> (mem t (request_response_types d) = true <-> rpc_type d t).
Proof.
  intros H. rewrite mem_In. unfold request_response_types, rpc_type. rewrite rpcs_of_eq by assumption.
  rewrite in_flat_map. split.
  - intros (r & Hr & [<- | [<- | []]]); eauto.
  - intros (r & Hr & [-> | ->]); exists r; simpl; auto.
Qed.

Section MapTables.
  Variables (ord : order) (sing : string -> string).
  Hypothesis Hord : reorders ord.
  Lemma ord_in {A} k (l : list A) x : In x (ord k A l) <-> In x l.
  Proof. split; apply Permutation_in; [apply Permutation_sym|]; apply Hord. Qed.

  (** From rules about files to rules about elements. *)
  Lemma files_elements assume id V : Files_reported_exactly ord sing assume id (fun d p => exists ctx e, located (d_elements d) ctx e /\ V d ctx e p) ->
    Reports_exactly ord sing assume id V.
  Proof.
    intros (l & Hl & Hid & H). exists l. split; [assumption|]. split; [assumption|]. intros ds Hds.
    destruct (H ds Hds) as (fs & E & Hi & Hp). exists fs. split; [assumption|]. split; [assumption|].
    intros file p. rewrite Hp. split.
    - intros (d & Hd & Hf & ctx & e & Hloc & Hv). exists d, ctx, e. auto.
    - intros (d & ctx & e & Hd & Hf & Hloc & Hv). exists d. split; [assumption|]. split; [assumption|]. eauto.
  Qed.

  Definition message_entries (ks : list kind) (d : descriptor) : list (string * element) :=
    flat_map (fun ce => match snd ce with
                        | EMessage h _ _ => [(message_key (fst ce) (h_name h), snd ce)]
                        | _ => [] end) (visited_post ks d).
  Lemma message_entries_iff ks d k e : into ks KGroup = false -> into ks KMessage = true -> well_formed (d_elements d) ->
    (In (k, e) (message_entries ks d) <->
     exists ctx, located (d_elements d) ctx e /\ outside_groups ctx /\ is_message_or_extend e /\ k = qualified_name ctx (name_of e)).
  Proof.
    intros HG HM HWF. unfold message_entries. rewrite in_flat_map. split.
    - intros ([ctx x] & Hv & Hx). simpl in Hx. destruct x; try contradiction. destruct Hx as [E|[]]. injection E as <- <-.
      apply visited_post_iff in Hv as [Hloc HF]. exists ctx. pose proof (entered_no_group _ _ HG HF) as HO.
      assert (He : is_message_or_extend (EMessage h extend es)) by (red; eauto).
      repeat split; auto. apply message_key_eq. eapply message_ctx; eauto.
    - intros (ctx & Hloc & HO & He & ->). pose proof (message_ctx _ _ _ HWF Hloc HO He) as HF.
      exists (ctx, e). split; [apply visited_post_iff; split; [assumption|now apply entered_msgs]|].
      destruct He as (h & x & es & ->). simpl. left. now rewrite message_key_eq.
  Qed.

  (** A check that looks at the entries of the map one by one. *)
  Lemma map_rule l id (assume : descriptor -> Prop) (kind : element -> Prop) bad ks key (hook : descriptor -> string * element -> list raw) :
    In l (all_linters ord sing) -> ln_id l = id ->
    (forall ds, ln_check l ds = per_file_ok (fun d => flat_map (hook d) (ord (key d) _ (build (message_entries ks d)))) ds) ->
    into ks KGroup = false -> into ks KMessage = true ->
    (forall e, kind e -> is_message_or_extend e) ->
    (forall d, assume d -> forall c1 e1 c2 e2, located (d_elements d) c1 e1 -> located (d_elements d) c2 e2 ->
       kind e1 -> is_message_or_extend e2 -> qualified_name c1 (name_of e1) = qualified_name c2 (name_of e2) -> c1 = c2 /\ e1 = e2) ->
    (forall d ctx e, well_formed (d_elements d) -> assume d -> located (d_elements d) ctx e -> outside_groups ctx -> is_message_or_extend e ->
       reported d (hook d (qualified_name ctx (name_of e), e)) (fun p => kind e /\ bad d ctx e /\ p = position_of e)) ->
    Reports_exactly ord sing assume id (Breaks kind bad).
  Proof.
    intros Hl Hid Hck HG HM Hk Hu Hb. apply files_elements. eapply file_rule; [exact Hl|exact Hid|exact Hck|].
    intros d HWF Ha. cbv beta.
    eapply reported_iff; [|apply (reported_flat_map d) with (V := fun km p => exists ctx,
       located (d_elements d) ctx (snd km) /\ outside_groups ctx /\ fst km = qualified_name ctx (name_of (snd km)) /\
       kind (snd km) /\ bad d ctx (snd km) /\ p = position_of (snd km))].
    - intros p. split.
      + intros ([k e] & Hin & ctx & Hloc & HO & Ek & H1 & H2 & H3). simpl in *. exists ctx, e. split; [assumption|]. repeat split; auto.
      + intros (ctx & e & Hloc & HO & H1 & H2 & ->). exists (qualified_name ctx (name_of e), e). simpl. split; [|eauto 10].
        apply ord_in. apply build_unique.
        * apply message_entries_iff; auto. exists ctx. auto.
        * intros e' He'. apply message_entries_iff in He' as (c' & Hloc' & HO' & Hm & Eq); auto.
          symmetry. eapply Hu; [exact Ha|exact Hloc|exact Hloc'|exact H1|exact Hm|exact Eq].
    - intros [k e] Hin. apply ord_in in Hin. apply build_sub in Hin. apply message_entries_iff in Hin as (ctx & Hloc & HO & Hm & ->); auto.
      simpl. intros ln file p. pose proof (Hb d ctx e HWF Ha Hloc HO Hm ln file p) as G. rewrite G. split.
      + intros (Ef & H1 & H2 & ->). split; [assumption|]. exists ctx. auto 10.
      + intros (Ef & ctx' & Hloc' & HO' & Eq & H1 & H2 & ->). split; [assumption|].
        destruct (Hu d Ha ctx' e ctx e Hloc' Hloc H1 Hm) as [-> _]; [congruence|]. auto.
  Qed.

  Lemma except_golang : Reports_exactly ord sing distinct_messages "MESSAGES_HAVE_COMMENTS_EXCEPT_REQUEST_RESPONSE_TYPES"
    except_golang_rule.
  Proof.
    unfold except_golang_rule.
    eapply (map_rule _ _ _ _ _ [KMessage; KService] (fun d => "messageNameToMessage 1 " +++ d_filename d) (fun d km => match snd km with
        | EMessage h extend _ =>
            if_not (extend || mem (fst km) (request_response_types d) || has_golang_style_comment (h_comment h) (h_name h))
              [add_failure d (h_pos h) (needs_golang_comment "Message" (h_name h))]
        | _ => [] end)); [linter 61|reflexivity|intros ds; reflexivity|reflexivity|reflexivity| | |].
    - intros e (h & es & ->). red. eauto.
    - intros d Ha. exact Ha.
    - intros d ctx e HWF _ Hloc HO (h & x & es & ->). cbv beta iota delta [snd fst].
      eapply reported_iff; [|apply reported_if_not]. intros p. cbv beta. unfold is_message_not_in_rpc.
      rewrite !orb_false_iff, (not_bool _ _ (rpc_types_iff d _ HWF)).
      rewrite (not_bool _ _ (golang_iff (EMessage h x es))).
      assert (M : is_message (EMessage h x es) <-> x = false).
      { split; [intros (h' & es' & E); congruence|intros ->; red; eauto]. }
      rewrite M. simpl. tauto.
  Qed.
  Lemma except_sentence : Reports_exactly ord sing (fun d => distinct_messages d /\ ascii_comments d) "MESSAGES_HAVE_SENTENCE_COMMENTS_EXCEPT_REQUEST_RESPONSE_TYPES"
    except_sentence_rule.
  Proof.
    unfold except_sentence_rule.
    eapply (map_rule _ _ _ _ _ [KMessage; KService] (fun d => "messageNameToMessage 2 " +++ d_filename d) (fun d km => match snd km with
        | EMessage h extend _ =>
            if_not (extend || mem (fst km) (request_response_types d) || has_complete_sentence_comment (h_comment h))
              [add_failure d (h_pos h) (needs_sentence "Message" (h_name h))]
        | _ => [] end)); [linter 62|reflexivity|intros ds; reflexivity|reflexivity|reflexivity| | |].
    - intros e (h & es & ->). red. eauto.
    - intros d [Ha _]. exact Ha.
    - intros d ctx e HWF [_ Ha] Hloc HO (h & x & es & ->). cbv beta iota delta [snd fst].
      eapply reported_iff; [|apply reported_if_not]. intros p. cbv beta. unfold is_message_not_in_rpc.
      rewrite !orb_false_iff, (not_bool _ _ (rpc_types_iff d _ HWF)).
      assert (S : has_complete_sentence_comment (h_comment h) = true <-> sentence (EMessage h x es)).
      { apply (sentence_iff _ ctx (EMessage h x es) HWF Hloc). intros c l. apply (Ha ctx); [assumption|]. unfold takes_sentences, is_message_or_extend. do 5 right. eauto. }
      rewrite (not_bool _ _ S).
      assert (M : is_message (EMessage h x es) <-> x = false).
      { split; [intros (h' & es' & E); congruence|intros ->; red; eauto]. }
      rewrite M. simpl. tauto.
  Qed.

  (** ** Empty messages *)
  Lemma list_sum_zero (l : list nat) : list_sum l = 0 <-> forall n, In n l -> n = 0.
  Proof.
    induction l as [|x l IH]; simpl; [split; [intros _ n []|reflexivity]|]. split.
    - intros H n [<-|Hn]; [lia|]. apply IH; [lia|assumption].
    - intros H. rewrite (H x (or_introl eq_refl)). apply IH. auto.
  Qed.
  Lemma field_count_zero e : (forall x y, In x (contents e) -> In y (contents x) -> ~ is_oneof y \/ ~ is_oneof x) ->
    (list_sum (map field_count (contents e)) = 0 <-> no_fields e).
  Proof.
    intros Hn. rewrite list_sum_zero. unfold no_fields. split.
    - intros H x Hx. assert (E : field_count x = 0) by (apply H; now apply in_map). split.
      + intros (k & f & ->). discriminate.
      + intros (h & es & ->) y Hy (k & f & ->). cbn [field_count] in E. rewrite list_sum_zero in E.
        specialize (E 1). discriminate E. change 1 with (field_count (EField k f)). now apply in_map.
    - intros H n Hin. apply in_map_iff in Hin as (x & <- & Hx). destruct (H x Hx) as [H1 H2].
      destruct x; try reflexivity.
      + exfalso. apply H1. red. eauto.
      + cbn [field_count]. apply list_sum_zero. intros n Hin. apply in_map_iff in Hin as (y & <- & Hy).
        assert (Ho : is_oneof (EOneof h es)) by (red; eauto).
        destruct y; try reflexivity.
        * exfalso. apply (H2 Ho _ Hy). red. eauto.
        * exfalso. destruct (Hn _ _ Hx Hy) as [N|N]; apply N; red; eauto.
  Qed.
  Theorem empty_message_exact : Reports_exactly ord sing distinct_blocks "MESSAGES_NOT_EMPTY_EXCEPT_REQUEST_RESPONSE_TYPES" empty_message.
  Proof.
    eapply (map_rule _ _ _ _ _ [KMessage; KOneof; KService] (fun d => "messageNameToWrapper " +++ d_filename d) (fun d km => match snd km with
        | EMessage h _ es =>
            if_ (negb (mem (fst km) (request_response_types d)) && (list_sum (map field_count es) =? 0))
              [add_failure d (h_pos h) ("Message " +++ q (fst km) +++ " should not be empty. Only request and response types are allowed to be empty.")]
        | _ => [] end)); [linter 63|reflexivity|intros ds; reflexivity|reflexivity|reflexivity|auto|auto|].
    intros d ctx e HWF _ Hloc HO (h & x & es & ->). cbv beta iota delta [snd fst].
    eapply reported_iff; [|apply reported_if]. intros p. cbv beta.
    rewrite andb_true_iff, (negb_iff _ _ (rpc_types_iff d _ HWF)), Nat.eqb_eq.
    change es with (contents (EMessage h x es)). rewrite field_count_zero.
    - assert (M : is_message_or_extend (EMessage h x es)) by (red; eauto). simpl. tauto.
    - intros y z Hy Hz. destruct y; auto; try (right; intros (? & ? & ?); discriminate).
      left. intros (h' & es' & ->).
      assert (L : located (d_elements d) (EOneof h0 es0 :: EMessage h x es :: ctx) (EOneof h' es')).
      { constructor; [constructor; [assumption|exact Hy]|exact Hz]. }
      apply (proj2 HWF) in L. exact L.
  Qed.

  (** ** Requests and responses *)
  Lemma visited_rpcs d r : well_formed (d_elements d) ->
    ((exists ctx es, located (d_elements d) ctx (ERPC r es)) <-> In r (file_rpcs d)).
  Proof.
    intros HWF. unfold file_rpcs. rewrite in_flat_map. split.
    - intros (ctx & es & Hl). destruct (rpc_ctx _ HWF _ _ Hl) as (h & es' & ->); [red; eauto|].
      inversion Hl as [|c p e Hp Hin]; subst. inversion Hp as [e Hs|]; subst.
      exists (ERPC r es). split; [|now left]. apply in_flat_map. exists (EService h es'). auto.
    - intros (e & He & Hr). destruct e; try contradiction. destruct Hr as [->|[]].
      apply in_flat_map in He as (s & Hs & Hin). destruct s; try contradiction.
      exists [EService h es0], es. constructor; [now constructor|assumption].
  Qed.
  Lemma reported_visiting d ks (hook : list element -> element -> list raw) V :
    (forall ctx e, In (ctx, e) (visited ks d) -> reported d (hook ctx e) (V ctx e)) ->
    reported d (flat_map (fun ce => hook (fst ce) (snd ce)) (visited ks d))
      (fun p => exists ctx e, In (ctx, e) (visited ks d) /\ V ctx e p).
  Proof.
    intros H. eapply reported_iff; [|apply reported_flat_map with (V := fun ce => V (fst ce) (snd ce)); intros [ctx e] Hin; now apply H].
    intros p. split; [intros ([ctx e] & Hin & Hv); eauto|intros (ctx & e & Hin & Hv); exists (ctx, e); auto].
  Qed.
  Lemma message_types_iff d t : well_formed (d_elements d) -> (mem t (message_types d) = true <-> declares d t).
  Proof.
    intros HWF. rewrite mem_In. unfold message_types, declares. rewrite in_flat_map. split.
    - intros ([ctx e] & Hv & Hx). simpl in Hx. destruct e; try contradiction. destruct Hx as [<-|[]].
      apply visited_iff in Hv as [Hloc HF]. exists ctx, (EMessage h extend es).
      assert (HO : outside_groups ctx) by (apply (entered_no_group [KMessage; KService]); auto).
      assert (He : is_message_or_extend (EMessage h extend es)) by (red; eauto).
      repeat split; auto. apply message_key_eq. eapply message_ctx; eauto.
    - intros (ctx & e & Hloc & HO & He & ->). pose proof (message_ctx _ _ _ HWF Hloc HO He) as HF.
      exists (ctx, e). split; [apply visited_iff; split; [assumption|now apply entered_msgs]|].
      destruct He as (h & x & es & ->). simpl. left. now apply message_key_eq.
  Qed.
  Lemma dot_iff t : sexists (Ascii.eqb ".") t = true <-> has_substring t ".".
  Proof.
    rewrite <- has_substring_iff. induction t as [|c t IH]; [reflexivity|].
    change (sexists (Ascii.eqb ".") (String c t)) with (Ascii.eqb "." c || sexists (Ascii.eqb ".") t).
    rewrite orb_true_iff, IH. cbn [contains]. rewrite orb_true_iff. apply or_iff_compat_r.
    cbn [has_prefix]. rewrite andb_true_r. rewrite !Ascii.eqb_eq. split; congruence.
  Qed.
  Lemma same_file_reported d r a b t : well_formed (d_elements d) ->
    reported d (same_file_failure d r a b t) (fun p => bad_rpc_type d t /\ p = r_pos r).
  Proof.
    intros HWF. unfold same_file_failure, bad_rpc_type.
    pose proof (message_types_iff d t HWF) as M. destruct (mem t (message_types d)) eqn:E; cbn [negb].
    - assert (D : declares d t) by (now apply M).
      pose proof (dot_iff t) as S. destruct (sexists (Ascii.eqb ".") t) eqn:E'.
      + eapply reported_iff; [|apply reported_one]. intros p. assert (has_substring t ".") by (now apply S). tauto.
      + eapply reported_iff; [|apply reported_nil]. intros p. split; [intros []|].
        intros [[H|H] _]; [contradiction|]. apply S in H. discriminate.
    - eapply reported_iff; [|apply reported_one]. intros p. assert (N : ~ declares d t) by (intros H; apply M in H; discriminate). tauto.
  Qed.
  Lemma unique_reported d : forall us seen, reported d (unique_loop d seen us)
    (fun p => exists i r t, nth_error us i = Some (r, t) /\ p = r_pos r /\
       (In t seen \/ exists j r', j < i /\ nth_error us j = Some (r', t))).
  Proof.
    induction us as [|[r s] us IH]; intros seen.
    - eapply reported_iff; [|apply reported_nil]. intros p. split; [intros []|]. intros (i & r & t & H & _). destruct i; discriminate.
    - cbn [unique_loop]. eapply reported_iff; [|apply reported_app; [apply reported_if|apply IH]].
      intros p. cbv beta. rewrite mem_In. split.
      + intros [[H ->]|(i & r' & t & H1 & H2 & H3)].
        * exists 0, r, s. simpl. auto.
        * exists (S i), r', t. split; [exact H1|]. split; [exact H2|].
          destruct H3 as [[<-|H]|(j & r'' & Hj & Hn)]; [right|now left|right].
          -- exists 0, r. split; [lia|reflexivity].
          -- exists (S j), r''. split; [lia|exact Hn].
      + intros (i & r' & t & H1 & H2 & H3). destruct i as [|i].
        * simpl in H1. injection H1 as <- <-. left. destruct H3 as [H|(j & r'' & Hj & _)]; [auto|lia].
        * right. exists i, r', t. split; [exact H1|]. split; [exact H2|].
          destruct H3 as [H|([|j] & r'' & Hj & Hn)].
          -- left. now right.
          -- simpl in Hn. injection Hn as <- <-. left. now left.
          -- right. exists j, r''. split; [lia|exact Hn].
  Qed.
  Definition names_match_hook (d : descriptor) (ctx : list element) (e : element) : list raw :=
    match e with
      | ERPC r _ =>
          if_not (String.eqb (r_request r) (r_name r +++ "Request"))
            [add_failure d (r_pos r) ("Name of request type " +++ q (r_request r) +++ " should be " +++ q (r_name r +++ "Request") +++ ".")] ++
          if_not (String.eqb (r_returns r) (r_name r +++ "Response"))
            [add_failure d (r_pos r) ("Name of response type " +++ q (r_returns r) +++ " should be " +++ q (r_name r +++ "Response") +++ ".")]
      | _ => [] end.
  Theorem request_response_rules_exact id V : In (id, V) request_response_rules -> Files_reported_exactly ord sing anything id V.
  Proof.
    intros H. unfold request_response_rules in H.
    repeat (destruct H as [E|H]; [injection E as <- <-|]); [..|contradiction].
    - eapply file_rule; [linter 84|reflexivity|intros ds; reflexivity|]. intros d HWF _.
      eapply reported_iff; [|apply (reported_visiting d [KService] (names_match_hook d)) with (V := fun _ e p => exists r es, e = ERPC r es /\ p = r_pos r
         /\ (r_request r <> r_name r +++ "Request" \/ r_returns r <> r_name r +++ "Response"))].
      + intros p. split.
        * intros (ctx & e & Hv & r & es & -> & -> & H). exists r. apply visited_iff in Hv as [Hv _].
          split; [apply visited_rpcs; eauto|auto].
        * intros (r & Hr & -> & H). apply visited_rpcs in Hr as (ctx & es & Hl); [|assumption].
          exists ctx, (ERPC r es). split; [|eauto 10]. apply visited_iff. split; [assumption|].
          apply (ctx_rpc _ d ctx (ERPC r es)); auto. red. eauto.
      + intros ctx e _. unfold names_match_hook. destruct e; try (eapply reported_iff; [|apply reported_nil]; intros ?; split; [intros []|intros (? & ? & ? & _); discriminate]).
        eapply reported_iff; [|apply reported_app; apply reported_if_not]. intros p. cbv beta. rewrite !seqb_neq. split.
        * intros [[H ->]|[H ->]]; exists r, es; auto.
        * intros (r' & es' & E & -> & H). injection E as <- <-. tauto.
    - eapply file_rule; [linter 81|reflexivity|intros ds; reflexivity|]. intros d HWF _. cbv beta. rewrite rpcs_of_eq by assumption.
      eapply reported_iff; [|apply reported_flat_map with (V := fun r p => (bad_rpc_type d (r_request r) /\ p = r_pos r) \/ (bad_rpc_type d (r_returns r) /\ p = r_pos r))].
      + intros p. split; [intros (r & Hr & [[H ->]|[H ->]]); eauto|intros (r & Hr & -> & [H|H]); eauto].
      + intros r _. apply reported_app; now apply same_file_reported.
    - eapply file_rule; [linter 83|reflexivity|intros ds; reflexivity|]. intros d HWF _. cbv beta. rewrite rpcs_of_eq by assumption.
      eapply reported_iff; [|apply unique_reported]. intros p. split.
      + intros (i & r & t & H1 & -> & [[]|(j & r' & Hj & Hn)]). exists i, j, r, r', t. auto.
      + intros (i & j & r & r' & t & Hj & H1 & H2 & ->). exists i, r, t. split; [exact H1|]. split; [reflexivity|]. right. eauto.
  Qed.

  (** ** Layout *)
  Lemma top_messages_iff d n h : distinct_top d ->
    (In (n, h) (top_messages d) <-> exists x es, In (EMessage h x es) (d_elements d) /\ n = h_name h).
  Proof.
    intros Hd. unfold top_messages. set (l := flat_map _ _).
    assert (A : forall n h, In (n, h) l <-> exists x es, In (EMessage h x es) (d_elements d) /\ n = h_name h).
    { intros n' h'. unfold l. rewrite in_flat_map. split.
      - intros (e & He & Hx). destruct e; try contradiction. destruct Hx as [E|[]]. injection E as <- <-. eauto.
      - intros (x & es & He & ->). exists (EMessage h' x es). split; [assumption|]. now left. }
    split; [intros H; apply A, build_sub, H|]. intros H. apply build_unique; [now apply A|].
    intros h' H'. destruct H as (x & es & H1 & E1). apply A in H' as (x' & es' & H2 & E2).
    assert (E : EMessage h' x' es' = EMessage h x es) by (apply Hd; [assumption..|simpl; congruence|left; split; red; eauto]). congruence.
  Qed.
  Lemma top_enums_iff d n h : distinct_top d ->
    (In (n, h) (top_enums d) <-> exists es, In (EEnum h es) (d_elements d) /\ n = h_name h).
  Proof.
    intros Hd. unfold top_enums. set (l := flat_map _ _).
    assert (A : forall n h, In (n, h) l <-> exists es, In (EEnum h es) (d_elements d) /\ n = h_name h).
    { intros n' h'. unfold l. rewrite in_flat_map. split.
      - intros (e & He & Hx). destruct e; try contradiction. destruct Hx as [E|[]]. injection E as <- <-. eauto.
      - intros (es & He & ->). exists (EEnum h' es). split; [assumption|]. now left. }
    split; [intros H; apply A, build_sub, H|]. intros H. apply build_unique; [now apply A|].
    intros h' H'. destruct H as (es & H1 & E1). apply A in H' as (es' & H2 & E2).
    assert (E : EEnum h' es' = EEnum h es) by (apply Hd; [assumption..|simpl; congruence|right; split; red; eauto]). congruence.
  Qed.
  Lemma top_message_get d n : distinct_top d ->
    match gget n (top_messages d) with
    | Some h => exists x es, In (EMessage h x es) (d_elements d) /\ n = h_name h
    | None => forall e, In e (d_elements d) -> is_message_or_extend e -> name_of e <> n
    end.
  Proof.
    intros Hd. destruct (gget n (top_messages d)) as [h|] eqn:E.
    - apply (top_messages_iff d n h Hd). now apply gget_In.
    - intros e He (h & x & es & ->) <-. apply gget_None in E. apply E. apply in_map_iff. exists (h_name h, h).
      split; [reflexivity|]. apply top_messages_iff; eauto.
  Qed.
  Lemma deletes_In {V} rs (m : list (string * V)) k v :
    In (k, v) (fold_left (fun m r => gdelete (r_returns r) (gdelete (r_request r) m)) rs m) <->
    In (k, v) m /\ forall r, In r rs -> k <> r_request r /\ k <> r_returns r.
  Proof.
    revert m. induction rs as [|r rs IH]; intros m; simpl.
    - split; [intros H; split; [assumption|intros r []]|tauto].
    - rewrite IH. unfold gdelete. rewrite !filter_In. simpl. rewrite !negb_true_iff, !seqb_neq. split.
      + intros [[[H1 H2] H3] H4]. split; [assumption|]. intros r' [<-|Hr]; auto.
      + intros [H1 H2]. split; [|auto]. destruct (H2 r (or_introl eq_refl)). auto.
  Qed.
  Theorem layout_rules_exact id V : In (id, V) layout_rules -> Files_reported_exactly ord sing distinct_top id V.
  Proof.
    intros H. unfold layout_rules in H.
    repeat (destruct H as [E|H]; [injection E as <- <-|]); [..|contradiction].
    - eapply file_rule; [linter 80|reflexivity|intros ds; reflexivity|]. intros d HWF Hd. cbv beta. rewrite rpcs_of_eq by assumption.
      eapply reported_iff; [|apply reported_flat_map with (V := fun r p => exists e, In e (d_elements d) /\ is_message_or_extend e /\ p = position_of e
          /\ ((name_of e = r_request r \/ name_of e = r_returns r) /\ (line (position_of e) < line (r_pos r))%Z
    \/ name_of e = r_returns r /\ exists q, In q (d_elements d) /\ is_message_or_extend q /\ name_of q = r_request r
         /\ (line (position_of e) < line (position_of q))%Z))].
      { intros p. unfold too_early. split.
        - intros (r & Hr & e & He & Hm & -> & H). exists e. split; [assumption|]. split; [|reflexivity]. split; [assumption|]. exists r. auto.
        - intros (e & He & (Hm & r & Hr & H) & ->). exists r. split; [assumption|]. exists e. auto. }
      intros r Hr. cbv zeta. unfold line.
      pose proof (top_message_get d (r_request r) Hd) as G1. pose proof (top_message_get d (r_returns r) Hd) as G2.
      assert (U : forall h x es e, In (EMessage h x es) (d_elements d) -> In e (d_elements d) -> is_message_or_extend e ->
                    name_of e = h_name h -> e = EMessage h x es).
      { intros h x es e H1 H2 H3 H4. apply Hd; auto. left. split; [assumption|]. red. eauto. }
      destruct (gget (r_request r) (top_messages d)) as [m|]; destruct (gget (r_returns r) (top_messages d)) as [n|].
      + destruct G1 as (x1 & es1 & Hm & E1). destruct G2 as (x2 & es2 & Hn & E2).
        eapply reported_iff; [|apply reported_app; [apply reported_if|apply reported_app; apply reported_if]].
        intros p. cbv beta. rewrite !Z.ltb_lt. split.
        * intros [[H ->]|[[H ->]|[H ->]]].
          -- exists (EMessage m x1 es1). split; [assumption|]. split; [red; eauto|]. split; [reflexivity|]. left. simpl. auto.
          -- exists (EMessage n x2 es2). split; [assumption|]. split; [red; eauto|]. split; [reflexivity|]. left. simpl. auto.
          -- exists (EMessage n x2 es2). split; [assumption|]. split; [red; eauto|]. split; [reflexivity|]. right. simpl. split; [auto|].
             exists (EMessage m x1 es1). split; [assumption|]. split; [red; eauto|]. simpl. auto.
        * intros (e & He & Hk & -> & [[[H|H] Hlt]|[H (q & Hq & Hkq & Hnq & Hlt)]]).
          -- rewrite (U _ _ _ _ Hm He Hk) in * by congruence. left. auto.
          -- rewrite (U _ _ _ _ Hn He Hk) in * by congruence. right. left. auto.
          -- rewrite (U _ _ _ _ Hn He Hk) in * by congruence. rewrite (U _ _ _ _ Hm Hq Hkq) in * by congruence. right. right. auto.
      + destruct G1 as (x1 & es1 & Hm & E1).
        eapply reported_iff; [|apply reported_app; [apply reported_if|apply reported_nil]].
        intros p. cbv beta. rewrite !Z.ltb_lt. split.
        * intros [[H ->]|[]]. exists (EMessage m x1 es1). split; [assumption|]. split; [red; eauto|]. split; [reflexivity|]. left. simpl. auto.
        * intros (e & He & Hk & -> & [[[H|H] Hlt]|[H _]]).
          -- rewrite (U _ _ _ _ Hm He Hk) in * by congruence. left. auto.
          -- exfalso. now apply (G2 e).
          -- exfalso. now apply (G2 e).
      + destruct G2 as (x2 & es2 & Hn & E2). rewrite app_nil_r. cbn [app].
        eapply reported_iff; [|apply reported_if].
        intros p. cbv beta. rewrite !Z.ltb_lt. split.
        * intros [H ->]. exists (EMessage n x2 es2). split; [assumption|]. split; [red; eauto|]. split; [reflexivity|]. left. simpl. auto.
        * intros (e & He & Hk & -> & [[[H|H] Hlt]|[H (q & Hq & Hkq & Hnq & _)]]).
          -- exfalso. now apply (G1 e).
          -- rewrite (U _ _ _ _ Hn He Hk) in * by congruence. auto.
          -- exfalso. now apply (G1 q).
      + eapply reported_iff; [|apply reported_nil]. intros p. split; [intros []|].
        intros (e & He & Hk & -> & [[[H|H] _]|[H _]]); [now apply (G1 e)|now apply (G2 e)|now apply (G2 e)].
    - eapply file_rule; [linter 82|reflexivity|intros ds; reflexivity|]. intros d HWF Hd. cbv beta. rewrite rpcs_of_eq by assumption.
      destruct (file_rpcs d) as [|r0 rs] eqn:Er.
      { eapply reported_iff; [|apply reported_nil]. intros p. split; [intros []|]. intros (e & _ & H & _). congruence. }
      rewrite <- Er.
      eapply reported_iff; [|apply reported_app; apply (reported_map d _ (fun kh : string * header => h_pos (snd kh)))].
      intros p. cbv beta. split.
      + intros [([k h] & Hin & ->)|([k h] & Hin & ->)]; apply ord_in in Hin.
        * apply top_enums_iff in Hin as (es & He & ->); [|assumption]. exists (EEnum h es). repeat split; auto; [congruence|]. left. red. eauto.
        * apply deletes_In in Hin as [Hin Hr]. apply top_messages_iff in Hin as (x & es & He & ->); [|assumption].
          exists (EMessage h x es). repeat split; auto; [congruence|]. right. split; [red; eauto|].
          intros (r & Hr' & H). destruct (Hr r Hr'). simpl in H. intuition congruence.
      + intros (e & He & _ & -> & [(h & es & ->)|[(h & x & es & ->) Hn]]).
        * left. exists (h_name h, h). split; [|reflexivity]. apply ord_in. apply top_enums_iff; eauto.
        * right. exists (h_name h, h). split; [|reflexivity]. apply ord_in. apply deletes_In. split; [apply top_messages_iff; eauto|].
          intros r Hr. split; intros E; apply Hn; exists r; simpl; auto.
  Qed.

  (** ** Directories *)
  Lemma directory_rule l id (assume : descriptor -> Prop) (disagree : list descriptor -> Prop) (differ : list descriptor -> bool) :
    In l (all_linters ord sing) -> ln_id l = id ->
    (forall ds, (forall d, In d ds -> assume d) -> exists msg, ln_check l ds =
       Ok (if differ ds then map (fun d => add_failure d no_pos msg) ds else [])) ->
    (forall ds, (forall d, In d ds -> assume d) -> (differ ds = true <-> disagree ds)) ->
    (forall ds, disagree ds -> exists d, In d ds) ->
    Directory_reported_exactly ord sing assume id disagree.
  Proof.
    intros Hl Hid Hck Hv Hne. exists l. split; [assumption|]. split; [assumption|]. intros ds Hds.
    destruct (Hck ds Hds) as (msg & E). specialize (Hv ds Hds).
    destruct (core l id ds _ (fun file p => disagree ds /\ p = mk_pos 0 0 /\ exists d, In d ds /\ d_filename d = file) Hid E) as (fs & E1 & E2 & E3).
    { intros file p. destruct (differ ds).
      - split.
        + intros (r & Hr & _ & Hp). apply in_map_iff in Hr as (d & <- & Hd). apply at_place_failure in Hp as [Ef ->].
          split; [now apply Hv|]. split; [reflexivity|]. eauto.
        + intros (_ & -> & d & Hd & Ef). eexists. split; [apply in_map, Hd|]. split; [reflexivity|]. now apply at_place_failure.
      - split; [intros (r & [] & _)|]. intros (D & _). apply Hv in D. discriminate. }
    exists fs. split; [assumption|]. split; [assumption|]. split.
    - split.
      + intros Hf. destruct fs as [|f fs]; [congruence|].
        destruct (proj1 (E3 (f_filename f) (mk_pos (f_line f) (f_column f)))) as [D _]; [|assumption].
        exists f. split; [now left|]. repeat split; reflexivity.
      + intros D. destruct (Hne ds D) as (d & Hd). destruct (proj2 (E3 (d_filename d) (mk_pos 0 0))) as (f & Hf & _); [eauto|].
        intros ->. contradiction.
    - intros D file p. rewrite E3. tauto.
  Qed.
  Lemma two_keys {V} (l : list (string * V)) :
    (1 <? length (build l)) = true <-> exists a b, In a (map fst l) /\ In b (map fst l) /\ a <> b.
  Proof.
    rewrite Nat.ltb_lt, <- (map_length fst (build l)).
    assert (K : forall k, In k (map fst (build l)) <-> In k (map fst l)).
    { intros k. rewrite !in_map_iff. split.
      - intros ([k' v] & <- & H). exists (k', v). split; [reflexivity|]. now apply build_sub.
      - intros ([k' v] & <- & H). apply build_key in H as (v' & H). exists (k', v'). auto. }
    pose proof (build_NoDup l) as ND. split.
    - intros H. destruct (map fst (build l)) as [|a [|b r]] eqn:E; simpl in H; try lia.
      exists a, b. rewrite <- !K. simpl. repeat split; auto. inversion ND as [|? ? Hn _]; subst. intros ->. apply Hn. now left.
    - intros (a & b & Ha & Hb & Hab). apply K in Ha, Hb.
      destruct (map fst (build l)) as [|x [|y r]]; simpl in *; try tauto; [|lia]. destruct Ha as [<-|[]], Hb as [<-|[]]. congruence.
  Qed.
  Lemma one_package_dups d : one_package d -> duplicate_packages d = [].
  Proof.
    intros H. unfold duplicate_packages, duplicates. destruct (tl (packages d)) as [|x r] eqn:E; [reflexivity|]. exfalso.
    assert (Hx : In x (tl (packages d))) by (rewrite E; now left).
    apply (pick_tl pick_package single_package) in Hx as (a & e & b & e' & c & Eq & He & He').
    apply pick_package_iff in He' as ->. destruct e; try (exfalso; apply He; reflexivity). now apply (H a b c p x).
  Qed.
  Lemma flat_map_nil {A B} (f : A -> list B) l : (forall x, In x l -> f x = []) -> flat_map f l = [].
  Proof. induction l as [|x l IH]; intros H; [reflexivity|]. simpl. rewrite (H x (or_introl eq_refl)). apply IH. intros; apply H; now right. Qed.
  Theorem packages_same_in_dir_exact : Directory_reported_exactly ord sing one_package "PACKAGES_SAME_IN_DIR" packages_disagree.
  Proof.
    pose (entries := fun ds => flat_map (fun d => match packages d with p :: _ => [(pk_name p, tt)] | [] => [] end) ds).
    eapply (directory_rule _ _ _ _ (fun ds => 1 <? length (build (entries ds)))); [linter 73|reflexivity| | |].
    - intros ds Hds. eexists.
      change (ln_check (l_packages_same_in_dir ord) ds) with (check_packages_same_in_dir ord ds). unfold check_packages_same_in_dir.
      rewrite (flat_map_nil duplicate_packages) by (intros d Hd; apply one_package_dups; auto). reflexivity.
    - intros ds Hds. rewrite two_keys. unfold packages_disagree.
      assert (K : forall k, In k (map fst (entries ds)) <-> exists d, In d ds /\ package_is d (Some k)).
      { intros k. unfold entries. rewrite in_map_iff. split.
        - intros ([k' []] & <- & H). apply in_flat_map in H as (d & Hd & H). exists d. split; [assumption|].
          destruct (packages d) as [|p r] eqn:E; [contradiction|]. destruct H as [H|[]]. injection H as <-.
          apply packages_first in E as (a & b & E & _). exists p. split; [rewrite E; apply in_elt|reflexivity].
        - intros (d & Hd & p & Hp & <-). exists (pk_name p, tt). split; [reflexivity|]. apply in_flat_map. exists d. split; [assumption|].
          pose proof (Hds d Hd) as H1. apply one_package_dups in H1. unfold duplicate_packages, duplicates in H1.
          assert (Hin : In p (packages d)). { apply in_flat_map. exists (EPackage p). split; [assumption|now left]. }
          destruct (packages d) as [|p0 [|p1 r]]; try contradiction; [|discriminate]. destruct Hin as [->|[]]. now left. }
      split.
      + intros (a & b & Ha & Hb & Hab). apply K in Ha as (d1 & H1 & P1). apply K in Hb as (d2 & H2 & P2). exists d1, d2, a, b. auto.
      + intros (d1 & d2 & a & b & H1 & H2 & P1 & P2 & Hab). exists a, b. rewrite !K. eauto 10.
    - intros ds (d1 & d2 & a & b & H1 & _). eauto.
  Qed.
  Lemma one_option_cases name d : one_option name d ->
    (file_options name d = [] /\ forall v, option_is name d v <-> v = None) \/
    (exists o, file_options name d = [o] /\ l_source (o_const o) <> EmptyString /\ forall v, option_is name d v <-> v = Some (l_source (o_const o))).
  Proof.
    intros [H1 H2]. destruct (file_options name d) as [|o r] eqn:E.
    - left. split; [reflexivity|]. apply options_nil in E. intros v. split.
      + intros Hv. destruct v as [x|]; [|reflexivity]. exfalso. destruct Hv as (o & Ho & Hn & _). apply E. exists o. auto.
      + intros ->. exact E.
    - assert (r = []) as ->.
      { destruct r as [|o' r]; [reflexivity|]. exfalso. assert (Hx : In o' (tl (file_options name d))) by (rewrite E; now left).
        apply (pick_tl (pick_option name) (single_option name)) in Hx as (a & e & b & e' & c & Eq & He & He').
        apply pick_option_iff in He' as [-> Hn']. destruct e; try (exfalso; apply He; reflexivity). simpl in He.
        destruct (String.eqb (o_name o0) name) eqn:En; [|congruence]. apply String.eqb_eq in En. now apply (H1 a b c o0 o'). }
      right. exists o. split; [reflexivity|].
      assert (I : forall o', In (EOption o') (d_elements d) /\ o_name o' = name <-> o' = o).
      { intros o'. assert (A : In o' (file_options name d) <-> In (EOption o') (d_elements d) /\ o_name o' = name).
        { unfold file_options. rewrite in_flat_map. split.
          - intros (e & He & Hx). destruct e; try contradiction. destruct (String.eqb (o_name o0) name) eqn:En; [|contradiction].
            destruct Hx as [->|[]]. apply String.eqb_eq in En. auto.
          - intros [He Hn]. exists (EOption o'). split; [assumption|]. apply String.eqb_eq in Hn. rewrite Hn. now left. }
        rewrite <- A, E. simpl. split; [intros [H|[]]; congruence|intros ->; now left]. }
      destruct (proj2 (I o) eq_refl) as [Io In].
      split.
      + intros Es. apply H2. exists o. auto.
      + intros v. split.
        * destruct v as [x|].
          -- intros (o' & Ho & Hn & <-). rewrite (proj1 (I o')) by auto. reflexivity.
          -- intros Hv. exfalso. apply Hv. exists o. auto.
        * intros ->. exists o. auto.
  Qed.
  Theorem same_in_dir_exact id name : In (id, name) same_in_dir_rules ->
    Directory_reported_exactly ord sing (one_option name) id (options_disagree name).
  Proof.
    intros H.
    assert (L : exists l, In l (all_linters ord sing) /\ ln_id l = id /\ ln_check l = check_file_options_same_in_dir ord name).
    { unfold same_in_dir_rules in H. repeat (destruct H as [E|H]; [injection E as <- <-|]); [..|contradiction].
      1: exists (l_file_options_csharp_namespace_same_in_dir ord); split; [linter 18|split; reflexivity].
      1: exists (l_file_options_go_package_same_in_dir ord); split; [linter 29|split; reflexivity].
      1: exists (l_file_options_java_multiple_files_same_in_dir ord); split; [linter 30|split; reflexivity].
      1: exists (l_file_options_java_package_same_in_dir ord); split; [linter 31|split; reflexivity].
      1: exists (l_file_options_objc_class_prefix_same_in_dir ord); split; [linter 32|split; reflexivity].
      exists (l_file_options_php_namespace_same_in_dir ord); split; [linter 33|split; reflexivity]. }
    destruct L as (l & Hl & Hid & Hck). clear H.
    pose (key := fun d => match file_options name d with [] => EmptyString | o :: _ => l_source (o_const o) end).
    eapply (directory_rule l id _ _ (fun ds => 1 <? length (build (map (fun d => (key d, tt)) ds)))); [assumption|assumption| | |].
    - intros ds Hds. rewrite Hck. unfold check_file_options_same_in_dir.
      rewrite (flat_map_nil (fun d => duplicates _ _ d _)).
      2:{ intros d Hd. destruct (one_option_cases name d (Hds d Hd)) as [[-> _]|(o & -> & _)]; reflexivity. }
      fold key. change (map (fun d => (match file_options name d with [] => EmptyString | o :: _ => l_source (o_const o) end, tt)) ds)
        with (map (fun d => (key d, tt)) ds).
      destruct (has EmptyString (build (map (fun d => (key d, tt)) ds))).
      + eexists. cbn [app]. destruct (1 <? length (build (map (fun d => (key d, tt)) ds))); reflexivity.
      + eexists. cbn [app]. destruct (1 <? length (build (map (fun d => (key d, tt)) ds))); reflexivity.
    - intros ds Hds. rewrite two_keys. unfold options_disagree. rewrite map_map. cbn [fst].
      assert (K : forall d v, In d ds -> option_is name d v -> v = (if is_empty (key d) then None else Some (key d))).
      { intros d v Hd Hv. unfold key. destruct (one_option_cases name d (Hds d Hd)) as [[E Hi]|(o & E & Hn & Hi)]; rewrite E; apply Hi in Hv; subst v.
        - reflexivity.
        - apply is_empty_false in Hn. now rewrite Hn. }
      assert (K2 : forall d, In d ds -> option_is name d (if is_empty (key d) then None else Some (key d))).
      { intros d Hd. unfold key. destruct (one_option_cases name d (Hds d Hd)) as [[E Hi]|(o & E & Hn & Hi)]; rewrite E; apply Hi.
        - reflexivity.
        - apply is_empty_false in Hn. now rewrite Hn. }
      split.
      + intros (a & b & Ha & Hb & Hab). apply in_map_iff in Ha as (d1 & <- & H1). apply in_map_iff in Hb as (d2 & <- & H2).
        exists d1, d2, (if is_empty (key d1) then None else Some (key d1)), (if is_empty (key d2) then None else Some (key d2)).
        repeat split; auto. intros E. apply Hab.
        destruct (key d1) eqn:E1, (key d2) eqn:E2; simpl in E; try discriminate; congruence.
      + intros (d1 & d2 & v1 & v2 & H1 & H2 & P1 & P2 & Hv). exists (key d1), (key d2).
        split; [now apply in_map|]. split; [now apply in_map|]. intros E. apply Hv.
        rewrite (K d1 v1 H1 P1), (K d2 v2 H2 P2). now rewrite E.
    - intros ds (d1 & d2 & a & b & H1 & _). eauto.
  Qed.
End MapTables.
