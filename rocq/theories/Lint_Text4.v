(** The rules whose texts are settled exactly, and all rules together. *)
From Verif Require Import GoStrFacts GoMapFacts Strs_Proofs Protostrs_Proofs.
From Verif Require Import Lint_RuleFacts Lint_RuleProofs Lint_RuleProofs2 Lint_FileProofs Lint_MapProofs LintRun_Proofs.
From Verif Require Export Lint_Text3.

Section T.
  Variables (ord : order) (sing : string -> string).
  Hypothesis Hord : reorders ord.

  Lemma supp_visiting_exactly l id a (S : saying) ks hook (words : element -> string -> Prop) :
    In l (all_linters ord sing) -> ln_id l = id -> ln_annotation l = a -> a <> EmptyString -> In (id, a) annotations ->
    (forall a', In (id, a') annotations -> a' = a) ->
    (forall ds, ln_check l ds = visiting ks hook ds) ->
    (forall d ctx e r, In r (hook d ctx e) <-> exists t, words e t /\ r = add_suppressable d (comment_of e) (position_of e) t) ->
    (forall e t, words e t -> t <> EmptyString) ->
    (forall d ctx e t, well_formed (d_elements d) -> located (d_elements d) ctx e -> words e t -> Forall (fun x => entered ks x = true) ctx) ->
    (forall ds d p t, well_formed (d_elements d) ->
       (S ds d p t <-> exists ctx e, located (d_elements d) ctx e /\ words e t /\ ~ silenced a d (comment_of e) /\ p = position_of e)) ->
    Says_exactly ord sing anything id S.
  Proof.
    intros Hl Hid Ha Hne Hin Hu Hck Hh Hw He HS. eapply (supp_exactly ord sing l id a); [exact Hl|exact Hid|exact Ha|exact Hne|exact Hin|exact Hu|exact Hck|].
    intros ds d W _. split.
    - intros r Hr. apply in_flat_map in Hr as ([ctx e] & _ & Hr). apply Hh in Hr as (t & Ht & ->). eauto 10.
    - intros p t. rewrite (HS ds d p t W). split.
      + intros (c & Hr & Hs). apply in_flat_map in Hr as ([ctx e] & Hv & Hr). apply visited_iff in Hv as [Hloc _].
        apply Hh in Hr as (t' & Ht & E). injection E as -> El Ec ->. exists ctx, e. split; [exact Hloc|]. split; [exact Ht|]. split; [exact Hs|].
        cbn in El, Ec. destruct p, (position_of e); cbn in *; congruence.
      + intros (ctx & e & Hloc & Ht & Hs & ->). exists (comment_of e). split; [|exact Hs]. apply in_flat_map. exists (ctx, e).
        split; [apply visited_iff; split; [exact Hloc|eauto]|]. apply Hh. eauto.
  Qed.
  Lemma names_said l id word help : In l (all_linters ord sing) -> ln_id l = id -> ln_annotation l = "naming" -> In (id, "naming") annotations ->
    (forall a', In (id, a') annotations -> a' = "naming") -> (forall ds, ln_check l ds = check_names word help ds) ->
    Says_exactly ord sing anything id (names_text word help).
  Proof.
    intros Hl Hid Ha Hin Hu Hck.
    eapply (supp_visiting_exactly l id "naming" _ _ _ (fun e t => exists n, has_name e n /\ has_substring (to_lower n) word
       /\ t = "The name " +++ quote n +++ " contains the outlawed name " +++ quote word +++ ". " +++ help +++ "."));
      [exact Hl|exact Hid|exact Ha|discriminate|exact Hin|exact Hu|exact Hck|..].
    - intros d ctx e r. cbv beta.
      assert (G : forall ns : list string, (forall n, has_name e n <-> In n ns) -> forall c p, c = comment_of e -> p = position_of e ->
        (In r (flat_map (fun n => if_ (contains (to_lower n) word)
          [add_suppressable d c p ("The name " +++ q n +++ " contains the outlawed name " +++ q word +++ ". " +++ help +++ ".")]) ns) <->
         exists t, (exists n, has_name e n /\ has_substring (to_lower n) word
           /\ t = "The name " +++ quote n +++ " contains the outlawed name " +++ quote word +++ ". " +++ help +++ ".")
           /\ r = add_suppressable d (comment_of e) (position_of e) t)).
      { intros ns Hns c p -> ->. rewrite in_flat_map. split.
        - intros (n & Hn & Hr). apply in_if_ in Hr as [Hc ->]. eexists. split; [|reflexivity]. exists n. split; [now apply Hns|].
          split; [now apply has_substring_iff|reflexivity].
        - intros (t & (n & Hn & Hc & ->) & ->). exists n. split; [now apply Hns|]. apply in_if_. split; [now apply has_substring_iff|reflexivity]. }
      destruct e; cbn [names_of];
        first [ split; [intros []|intros (t & (n & [] & _) & _)]
              | apply G; [intros n; cbn; first [reflexivity|split; [intros ->; now left|intros [<-|[]]; reflexivity]]|reflexivity|reflexivity]].
    - intros e t (n & _ & _ & ->). discriminate.
    - intros d ctx e t _ Hloc _. eapply everywhere_entered; exact Hloc.
    - intros ds d p t _. split.
      + intros (ctx & e & n & H1 & H2 & H3 & H4 & H5 & H6). exists ctx, e. split; [exact H1|]. split; [eauto|auto].
      + intros (ctx & e & H1 & (n & H2 & H3 & H6) & H4 & H5). exists ctx, e, n. auto 10.
  Qed.
  Lemma keywords_said : Says_exactly ord sing anything "PACKAGE_NO_KEYWORDS" keyword_text.
  Proof.
    eapply (supp_visiting_exactly _ _ "keywords" _ _ _ (fun e t => exists k part, e = EPackage k /\ In part (split_char "." (pk_name k)) /\ In (to_lower part) keywords
       /\ t = "Package " +++ quote (pk_name k) +++ " contains the keyword " +++ quote (to_lower part)
           +++ ", this could cause problems in generated code."));
      [linter 72|reflexivity|reflexivity|discriminate|cbn; tauto| |intros; reflexivity|..].
    - intros a' H. repeat (destruct H as [H|H]; [try discriminate H; now injection H as <-|]). contradiction.
    - intros d ctx e r. cbv beta. split.
      + intros Hr. destruct e; try contradiction. apply in_flat_map in Hr as (s & Hs & Hr). apply in_if_ in Hr as [Hc ->].
        eexists. split; [|reflexivity]. exists p, s. split; [reflexivity|]. split; [exact Hs|]. split; [now apply mem_In in Hc|reflexivity].
      + intros (t & (k & s & -> & Hs & Hk & ->) & ->). apply in_flat_map. exists s. split; [exact Hs|]. apply in_if_. split; [now apply mem_In|reflexivity].
    - intros e t (k & s & _ & _ & _ & ->). discriminate.
    - intros d ctx e t W Hloc (k & s & -> & _). pose proof (top_ctx _ W _ _ Hloc eq_refl) as ->. constructor.
    - intros ds d p t W. split.
      + intros (k & s & H1 & H2 & H3 & H4 & H5 & H6). exists [], (EPackage k). split; [now constructor|]. split; [|auto]. exists k, s. auto.
      + intros (ctx & e & Hloc & (k & s & -> & H2 & H3 & H6) & H4 & H5). exists k, s.
        pose proof (top_ctx _ W _ _ Hloc eq_refl) as ->. inversion Hloc; subst. auto 10.
  Qed.
  Lemma plurals_said : Says_exactly ord sing anything "SERVICE_NAMES_NO_PLURALS" (plural_text sing).
  Proof.
    assert (P : forall w, negb (String.eqb (sing (to_lower w)) (to_lower w)) && negb (is_allowed_service_name_plural w) = true
                    <-> plural sing w).
    { intros w. unfold plural, is_allowed_service_name_plural. rewrite negb_orb.
      apply andb_iff; [apply seqb_not|]. apply andb_iff; apply seqb_not. }
    eapply (supp_visiting_exactly _ _ "plurals" _ _ _ (fun e t => exists h es w, e = EService h es /\ In w (split_camel_case_word (h_name h)) /\ plural sing w
       /\ t = "Service name " +++ quote (h_name h) +++ " contains plural component " +++ quote (title w)
           +++ ", consider using " +++ quote (title (sing (to_lower w))) +++ " instead."));
      [linter 91|reflexivity|reflexivity|discriminate|cbn; tauto| |intros; reflexivity|..].
    - intros a' H. repeat (destruct H as [H|H]; [try discriminate H; now injection H as <-|]). contradiction.
    - intros d ctx e r. cbv beta. split.
      + intros Hr. destruct e; try contradiction. apply in_flat_map in Hr as (s & Hs & Hr). cbv zeta in Hr. apply in_if_ in Hr as [Hc ->].
        eexists. split; [|reflexivity]. exists h, es, s. split; [reflexivity|]. split; [exact Hs|]. split; [now apply P|reflexivity].
      + intros (t & (h & es & s & -> & Hs & Hk & ->) & ->). apply in_flat_map. exists s. split; [exact Hs|]. apply in_if_. split; [now apply P|reflexivity].
    - intros e t (h & es & s & _ & _ & _ & ->). discriminate.
    - intros d ctx e t W Hloc (h & es & s & -> & _). pose proof (top_ctx _ W _ _ Hloc eq_refl) as ->. constructor.
    - intros ds d p t W. split.
      + intros (h & es & s & H1 & H2 & H3 & H4 & H5 & H6). exists [], (EService h es). split; [now constructor|]. split; [|auto]. exists h, es, s. auto.
      + intros (ctx & e & Hloc & (h & es & s & -> & H2 & H3 & H6) & H4 & H5). exists h, es, s.
        pose proof (top_ctx _ W _ _ Hloc eq_refl) as ->. inversion Hloc; subst. auto 10.
  Qed.
  Lemma add_failure_inj d p t p' t' : add_failure d p t = add_failure d p' t' -> p = p' /\ t = t'.
  Proof. intros E. injection E as E1 E2 E3. destruct p, p'; cbn in *. subst. auto. Qed.
  Lemma match_said : Says_exactly ord sing anything "REQUEST_RESPONSE_NAMES_MATCH_RPC" match_text.
  Proof.
    eapply (plain_exactly ord sing); [linter 84|reflexivity|not_annotated|intros ds; reflexivity|]. intros ds d r W _. cbv beta.
    rewrite in_flat_map. split.
    - intros ([ctx e] & Hv & Hr). apply visited_iff in Hv as [Hloc _]. cbn [fst snd] in Hr. destruct e; try contradiction.
      assert (Hin : In r0 (file_rpcs d)) by (apply visited_rpcs; eauto).
      apply in_app_or in Hr as [Hr|Hr]; apply in_if_not in Hr as [Hn ->]; apply seqb_neq in Hn; do 2 eexists; (split; [reflexivity|]); exists r0; auto 10.
    - intros (p & t & -> & r0 & Hin & -> & H). apply visited_rpcs in Hin as (ctx & es & Hloc); [|assumption]. exists (ctx, ERPC r0 es). split.
      + apply visited_iff. split; [assumption|]. apply (ctx_rpc _ d ctx (ERPC r0 es)); auto. red. eauto.
      + cbn [fst snd]. apply in_or_app. destruct H as [[Hn ->]|[Hn ->]]; [left|right]; apply in_if_not; (split; [now apply seqb_neq|reflexivity]).
  Qed.
  Lemma same_file_failure_iff d r What what ty x : well_formed (d_elements d) ->
    (In x (same_file_failure d r What what ty) <-> exists t, x = add_failure d (r_pos r) t /\ type_trouble d What what ty t).
  Proof.
    intros W. unfold same_file_failure, type_trouble. pose proof (message_types_iff d ty W) as M. pose proof (dot_iff ty) as D.
    destruct (mem ty (message_types d)); cbn [negb].
    - assert (Hd : declares d ty) by now apply M. destruct (sexists (Ascii.eqb ".") ty).
      + split; [intros [<-|[]]; eexists; split; [reflexivity|]; right; repeat split; auto; now apply D|].
        intros (t & -> & [[Hn _]|(_ & _ & ->)]); [contradiction|]. now left.
      + split; [intros []|]. intros (t & -> & [[Hn _]|(_ & Hs & ->)]); [contradiction|]. apply D in Hs. discriminate.
    - assert (Hd : ~ declares d ty) by (rewrite <- M; discriminate). split.
      + intros [<-|[]]. eexists. split; [reflexivity|]. left. auto.
      + intros (t & -> & [[_ ->]|(Hx & _)]); [now left|contradiction].
  Qed.
  Lemma same_file_said : Says_exactly ord sing anything "REQUEST_RESPONSE_TYPES_IN_SAME_FILE" same_file_text.
  Proof.
    eapply (plain_exactly ord sing _ _ _ _ (fun d => flat_map (fun r =>
      same_file_failure d r "Request" "request" (r_request r) ++ same_file_failure d r "Response" "response" (r_returns r)) (rpcs_of d)));
      [linter 81|reflexivity|not_annotated|intros ds; reflexivity|]. intros ds d x W _. cbv beta.
    rewrite rpcs_of_eq by assumption. rewrite in_flat_map. split.
    - intros (r & Hr & Hx). apply in_app_or in Hx as [Hx|Hx]; apply same_file_failure_iff in Hx as (t & -> & Ht); auto;
        do 2 eexists; (split; [reflexivity|]); exists r; auto.
    - intros (p & t & -> & r & Hr & -> & H). exists r. split; [exact Hr|]. apply in_or_app.
      destruct H as [H|H]; [left|right]; apply same_file_failure_iff; eauto.
  Qed.
  Lemma unique_iff d x : forall us seen, In x (unique_loop d seen us) <->
    exists i r t, nth_error us i = Some (r, t) /\
       x = add_failure d (r_pos r) ("Message " +++ q t +++ " is already used as a request or response type in an RPC and all request and response types must be unique.") /\
       (In t seen \/ exists j r', j < i /\ nth_error us j = Some (r', t)).
  Proof.
    induction us as [|[r s] us IH]; intros seen.
    - split; [intros []|]. intros (i & r & t & H & _). destruct i; discriminate.
    - cbn [unique_loop]. rewrite in_app_iff, in_if_, IH, mem_In. split.
      + intros [[H ->]|(i & r' & t & H1 & H2 & H3)].
        * exists 0, r, s. simpl. auto.
        * exists (S i), r', t. split; [exact H1|]. split; [exact H2|].
          destruct H3 as [[<-|H]|(j & r'' & Hj & Hn)]; [right|now left|right].
          -- exists 0, r. split; [lia|reflexivity].
          -- exists (S j), r''. split; [lia|exact Hn].
      + intros (i & r' & t & H1 & H2 & H3). destruct i as [|i].
        * simpl in H1. injection H1 as <- <-. left. destruct H3 as [H|(j & r'' & Hj & _)]; [auto|lia].
        * right. exists i, r', t. split; [exact H1|]. split; [exact H2|].
          destruct H3 as [H|([|j] & r'' & Hj & Hn)].
          -- left. now right.
          -- simpl in Hn. injection Hn as <- <-. left. now left.
          -- right. exists j, r''. split; [lia|exact Hn].
  Qed.
  Lemma unique_said : Says_exactly ord sing anything "REQUEST_RESPONSE_TYPES_UNIQUE" unique_text.
  Proof.
    eapply (plain_exactly ord sing _ _ _ _ (fun d => unique_loop d [] (flat_map (fun r => [(r, r_request r); (r, r_returns r)]) (rpcs_of d))));
      [linter 83|reflexivity|not_annotated|intros ds; reflexivity|]. intros ds d x W _. cbv beta.
    rewrite rpcs_of_eq by assumption. fold (uses d). rewrite unique_iff. split.
    - intros (i & r & t & H1 & -> & [[]|(j & r' & Hj & Hn)]). do 2 eexists. split; [reflexivity|]. exists i, j, r, r', t. auto.
    - intros (p & tx & -> & i & j & r & r' & t & Hj & H1 & H2 & -> & ->). exists i, r, t. split; [exact H1|]. split; [reflexivity|]. right. eauto.
  Qed.
  Theorem exact_said id S : In (id, S) (exact_texts sing) -> Says_exactly ord sing anything id S.
  Proof.
    Ltac annotated := let H := fresh in intros ? H; repeat (destruct H as [H|H]; [try discriminate H; now injection H as <-|]); contradiction.
    intros H. unfold exact_texts in H. repeat (destruct H as [E|H]; [injection E as <- <-|]); [..|contradiction].
    - eapply names_said; [linter 64|reflexivity|reflexivity|cbn; tauto|annotated|intros; reflexivity].
    - eapply names_said; [linter 65|reflexivity|reflexivity|cbn; tauto|annotated|intros; reflexivity].
    - eapply names_said; [linter 66|reflexivity|reflexivity|cbn; tauto|annotated|intros; reflexivity].
    - exact keywords_said.
    - exact plurals_said.
    - exact match_said.
    - exact same_file_said.
    - exact unique_said.
  Qed.

  (** ** Declared after the service *)
  Lemma top_get d n h : gget n (top_messages d) = Some h -> exists x es, In (EMessage h x es) (d_elements d) /\ n = h_name h.
  Proof.
    intros H. apply gget_In in H. apply build_sub in H. apply in_flat_map in H as (e & He & H).
    destruct e; try contradiction. destruct H as [H|[]]. injection H as <- <-. eauto.
  Qed.
  Lemma line_lt a b : (p_line a <? p_line b)%Z = true <-> (line a < line b)%Z.
  Proof. apply Z.ltb_lt. Qed.
  Lemma after_words x y what tail :
    ("Message " +++ x +++ " is a " +++ what +++ " for RPC " +++ y +++ " and should be defined in the file after the ") +++ tail =
    "Message " +++ x +++ " is a " +++ what +++ " for RPC " +++ y +++ " and should be defined in the file after the " +++ tail.
  Proof. now rewrite !sapp_assoc. Qed.
  Ltac words := etransitivity; [|symmetry; apply after_words]; reflexivity.
  Definition after_check (d : descriptor) : list raw :=
      flat_map (fun r =>
        let req := gget (r_request r) (top_messages d) in
        let resp := gget (r_returns r) (top_messages d) in
        match req with
        | Some m => if_ (p_line (h_pos m) <? p_line (r_pos r))%Z
            [add_failure d (h_pos m) ("Message " +++ q (h_name m) +++ " is a request for RPC " +++ q (r_name r) +++ " and should be defined in the file after the RPC.")]
        | None => [] end ++
        match resp with
        | Some m => if_ (p_line (h_pos m) <? p_line (r_pos r))%Z
            [add_failure d (h_pos m) ("Message " +++ q (h_name m) +++ " is a response for RPC " +++ q (r_name r) +++ " and should be defined in the file after the RPC.")]
        | None => [] end ++
        match req, resp with
        | Some m, Some n => if_ (p_line (h_pos n) <? p_line (h_pos m))%Z
            [add_failure d (h_pos n) ("Message " +++ q (h_name n) +++ " is a response for RPC " +++ q (r_name r)
               +++ " and should be defined in the file after the request " +++ q (h_name m) +++ ".")]
        | _, _ => [] end) (rpcs_of d).
  Lemma after_check_says ds d r : well_formed (d_elements d) -> In r (after_check d) -> exists p t, r = add_failure d p t /\ after_text ds d p t.
  Proof.
    intros W Hr. unfold after_check in Hr. rewrite rpcs_of_eq in Hr by assumption. apply in_flat_map in Hr as (rp & Hrp & Hr). cbv zeta in Hr.
    destruct (gget (r_request rp) (top_messages d)) as [m|] eqn:Em; destruct (gget (r_returns rp) (top_messages d)) as [n|] eqn:En;
      repeat (apply in_app_or in Hr as [Hr|Hr]); try contradiction; apply in_if_ in Hr as [Hlt ->]; apply line_lt in Hlt;
      try (apply top_get in Em as (x & es & Hm & Em)); try (apply top_get in En as (y & es' & Hn & En)); do 2 eexists; (split; [reflexivity|]).
    all: try (exists (EMessage m x es), rp; split; [assumption|]; split; [red; eauto|]; split; [assumption|]; split; [reflexivity|]; cbv zeta;
         left; split; [auto|]; split; [exact Hlt|words]).
    all: try (exists (EMessage n y es'), rp; split; [assumption|]; split; [red; eauto|]; split; [assumption|]; split; [reflexivity|]; cbv zeta;
         right; left; split; [auto|]; split; [exact Hlt|words]).
    exists (EMessage n y es'), rp; split; [assumption|]; split; [red; eauto|]; split; [assumption|]; split; [reflexivity|]; cbv zeta.
    right. right. split; [auto|]. exists (EMessage m x es). split; [assumption|]. split; [red; eauto|]. split; [auto|]. split; [exact Hlt|].
    words.
  Qed.
  Lemma after_said : Says ord sing "REQUEST_RESPONSE_TYPES_AFTER_SERVICE" after_text.
  Proof.
    eapply (file_ok_says ord sing _ _ _ after_check); [linter 80|reflexivity|not_annotated|intros; reflexivity|].
    intros ds d r W Hd Hr. now apply after_check_says.
  Qed.
  Lemma top_get_iff d n h : distinct_top d -> (gget n (top_messages d) = Some h <-> exists x es, In (EMessage h x es) (d_elements d) /\ n = h_name h).
  Proof.
    intros Hd. split; [apply top_get|]. intros H. apply (top_messages_iff d n h Hd) in H. apply In_gget; [apply build_NoDup|assumption].
  Qed.
  Lemma after_exactly : Says_exactly ord sing distinct_top "REQUEST_RESPONSE_TYPES_AFTER_SERVICE" after_text.
  Proof.
    eapply (plain_exactly ord sing _ _ _ _ after_check); [linter 80|reflexivity|not_annotated|intros ds; reflexivity|].
    intros ds d r W Hd. split; [now apply after_check_says|]. unfold after_check.
    intros (p & t & -> & e & rp & He & (h & x & es & ->) & Hrp & -> & H). rewrite rpcs_of_eq by assumption. apply in_flat_map. exists rp. split; [exact Hrp|].
    cbv zeta. cbv zeta in H. cbn [name_of position_of] in H. destruct H as [(Hn & Hlt & ->)|[(Hn & Hlt & ->)|(Hn & q & Hq & (h' & x' & es' & ->) & Hn' & Hlt & ->)]].
    - assert (E : gget (r_request rp) (top_messages d) = Some h) by (apply top_get_iff; eauto). rewrite E.
      apply in_or_app. left. apply in_if_. split; [now apply line_lt|]. rewrite after_words. reflexivity.
    - assert (E : gget (r_returns rp) (top_messages d) = Some h) by (apply top_get_iff; eauto). rewrite E.
      apply in_or_app. right. apply in_or_app. left. apply in_if_. split; [now apply line_lt|]. rewrite after_words. reflexivity.
    - assert (E : gget (r_returns rp) (top_messages d) = Some h) by (apply top_get_iff; eauto). rewrite E.
      assert (E' : gget (r_request rp) (top_messages d) = Some h') by (apply top_get_iff; eauto). rewrite E'.
      apply in_or_app. right. apply in_or_app. right. apply in_if_. split; [now apply line_lt|]. rewrite after_words. reflexivity.
  Qed.
End T.
