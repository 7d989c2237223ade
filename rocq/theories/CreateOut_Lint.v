(** The linters on what create writes. *)
From Coq Require Import Permutation Lia.
From Verif Require Import GoStrFacts Strs_Model Lint_Model Lint_Spec LintRun_Spec LintRun_Proofs Lint_Table Props_Lint Format_Model Format_Spec Format_Proofs Format_Fix Settings_Types CreateOut_Spec CreateOut_Proofs.

Section Linted.
  Variable pkg : string.
  Variable wanted : list (string * literal).
  Variable cs : list comment.
  Variable es : list element.
  Hypothesis Hes : declares_just pkg wanted es.
  Lemma just_formed : well_formed (map EComment cs ++ es).
  Proof.
    assert (forall e, In e (map EComment cs ++ es) -> may_be_top e /\ contents e = []) as T.
    { destruct Hes as (sx & pk & os & -> & _). intros e He. 
      apply in_app_or in He as [He|[<-|[<-|He]]]; [apply in_map_iff in He as (x & <- & _)| | |apply in_map_iff in He as (x & <- & _)]; split; constructor. }
    split; [intros e He; now apply T|].
    assert (forall ctx e, located (map EComment cs ++ es) ctx e -> In e (map EComment cs ++ es)) as L.
    { induction 1 as [e H|ctx p e _ IH He]; [assumption|]. destruct (T _ IH) as [_ C]. rewrite C in He. destruct He. }
    intros ctx p e H. inversion H; subst. match goal with X : In e (contents p) |- _ => rewrite (proj2 (T p ltac:(eauto))) in X; destruct X end.
  Qed.
  Lemma in_os x sx pk os : In (EOption x) (map EComment cs ++ ESyntax sx :: EPackage pk :: map EOption os) <-> In x os.
  Proof.
    rewrite in_app_iff. cbn [In]. split.
    - intros [H|[H|[H|H]]]; try discriminate; apply in_map_iff in H as (y & E & H); [discriminate|]. now injection E as <-.
    - intros H. right. right. right. now apply in_map.
  Qed.
  Lemma just_contents settings : Permutation settings wanted -> has_contents (map EComment cs ++ es) (fixed_options settings []) pkg.
  Proof.
    intros P. destruct Hes as (sx & pk & os & -> & _ & _ & _ & Hp & _ & _ & F).
    assert (forall o', In o' (fixed_options settings []) <-> exists s, In s wanted /\ o' = mk_opt (mk_pos 0 0) (fst s) (snd s) None None) as R.
    { intros o'. unfold fixed_options. cbn [filter app]. rewrite in_map_iff. cbn [reset last_named]. split.
      - intros (s & <- & H). exists s. split; [now apply (Permutation_in _ P)|reflexivity].
      - intros (s & H & ->). exists s. split; [reflexivity|]. now apply (Permutation_in _ (Permutation_sym P)). }
    split; [|split].
    - intros o Ho. apply in_os in Ho. assert (exists s, In s wanted /\ sets s o) as (s & Hs & S1 & S2 & _).
      { clear - F Ho. induction F as [|s o' w os H F IH]; [easy|]. destruct Ho as [<-|Ho]; [exists s; split; [now left|exact H]|]. destruct (IH Ho) as (t & Ht & X). exists t. split; [now right|exact X]. }
      eexists. split; [apply R; exists s; split; [exact Hs|reflexivity]|]. cbn. rewrite S1, S2. auto.
    - intros o' H. apply R in H as (s & Hs & ->). assert (exists o, In o os /\ sets s o) as (o & Ho & S1 & S2 & _).
      { clear - F Hs. induction F as [|t o' w os H F IH]; [easy|]. destruct Hs as [<-|Hs]; [exists o'; split; [now left|exact H]|]. destruct (IH Hs) as (x & Hx & X). exists x. split; [now right|exact X]. }
      exists o. split; [now apply in_os|]. cbn. rewrite S1, S2. auto.
    - intros p Hin. apply in_app_or in Hin as [H|[H|[H|H]]]; try discriminate; try (apply in_map_iff in H as (y & E & _); discriminate). now injection H as <-.
  Qed.
End Linted.

Lemma other_groups g id : option_rule g id -> g = "uber1" \/ g = "uber2".
Proof.
  intros H. apply option_rule_in in H. unfold group_rules in H. apply filter_In in H as [H E]. apply existsb_exists in E as ([i gs] & Hin & E).
  cbn [fst snd] in E. apply andb_true_iff in E as [E1 E2]. apply String.eqb_eq in E1. subst i. apply mem_In in E2.
  assert (forallb (fun r => negb (mem (fst r) (map fst (require_rules ++ equal_rules))) || forallb (fun g => String.eqb g "uber1" || String.eqb g "uber2") (snd r)) Lint_Doc.documented_rules = true) as X by (vm_compute; reflexivity).
  rewrite forallb_forall in X. specialize (X _ Hin). cbn [fst snd] in X. apply mem_In in H. rewrite H in X. cbn [negb orb] in X. rewrite forallb_forall in X.
  specialize (X _ E2). apply orb_true_iff in X as [X|X]; apply String.eqb_eq in X; auto.
Qed.
Theorem created_lint ord sing c p f es cs d l :
  declares_just p (created_settings (in_uber2 c) p f (prefix_of c)) es -> d_elements d = map EComment cs ++ es -> ps_config (d_set d) = c ->
  f <> "" -> d_filename d <> "" -> path_base f = path_base (d_filename d) -> a_package p ->
  In l (all_linters ord sing) -> base_rule (cfg_lint c) (ln_id l) -> In (ln_id l) (map fst (require_rules ++ equal_rules)) ->
  in_uber2 c = true \/ prefix_of c = "" \/ prefix_of c = "com" -> linter_check l [d] = Ok [].
Proof.
  intros D E C Hf Hd Hb Hp Hl B Hin Hx.
  pose proof (just_formed _ _ cs _ D) as W. rewrite <- E in W.
  assert (option_rule (if in_uber2 c then "uber2" else "uber1") (ln_id l)) as R.
  { unfold in_uber2. destruct B as [(N & G)|(-> & _ & G)]; [|split; assumption]. assert (option_rule (lc_group (cfg_lint c)) (ln_id l)) as R by (split; assumption).
    destruct (other_groups _ _ R) as [X|X]; rewrite X in *; exact R. }
  destruct (in_uber2 c).
  - apply (uber2_silent ord sing d [] p f (ln_id l)); try assumption; [|now apply package_word|reflexivity]. rewrite E, C. apply (just_contents _ _ cs _ D).
    exact (wanted_perm true p f f (prefix_of c) Hf Hf eq_refl).
  - apply (uber1_silent ord sing d [] p f (prefix_of c) (ln_id l)); try assumption; [|now apply package_word| |reflexivity].
    + rewrite E. apply (just_contents _ _ cs _ D). exact (wanted_perm false p f f (prefix_of c) Hf Hf eq_refl).
    + destruct Hx as [X|X]; [discriminate|exact X].
Qed.

Section All.
  Variable ord : order.
  Variable sing : string -> string.
  Hypothesis Hord : reorders ord.
  Variable d : descriptor.
  Variable pkg : string.
  Variable wanted : list (string * literal).
  Variable cs : list comment.
  Variable es : list element.
  Hypothesis Hes : declares_just pkg wanted es.
  Hypothesis Hd : d_elements d = map EComment cs ++ es.
  Hypothesis Hcs : Forall (fun c => c_cstyle c = false) cs.
  Hypothesis Hdata : starts_with (d_data d) (lc_file_header (cfg_lint (ps_config (d_set d)))).
  Definition plain (e : element) : Prop :=
    match e with
    | EComment c => c_cstyle c = false
    | ESyntax s => sx_comment s = None /\ sx_inline s = None /\ sx_value s = "proto3"
    | EPackage p => pk_comment p = None /\ pk_inline p = None
    | EOption o => o_comment o = None /\ o_inline o = None
    | _ => False
    end.
  Lemma all_plain e : In e (d_elements d) -> plain e.
  Proof.
    rewrite Hd. destruct Hes as (sx & pk & os & -> & S1 & S2 & S3 & P1 & P2 & P3 & F). intros H.
    apply in_app_or in H as [H|[<-|[<-|H]]]; [apply in_map_iff in H as (c & <- & H); rewrite Forall_forall in Hcs; now apply Hcs|split; auto|split; auto|].
    apply in_map_iff in H as (o & <- & H). clear - F H. induction F as [|s o' w os (_ & _ & S1 & S2) F IH]; [easy|]. destruct H as [<-|H]; [split; assumption|now apply IH].
  Qed.
  Lemma d_formed : well_formed (d_elements d).
  Proof. rewrite Hd. apply (just_formed _ _ cs _ Hes). Qed.
  Lemma only_top ctx e : located (d_elements d) ctx e -> ctx = [] /\ plain e.
  Proof.
    induction 1 as [e H|ctx p e _ (-> & IH) He]; [split; [reflexivity|now apply all_plain]|]. exfalso.
    destruct p; cbn in IH, He; contradiction.
  Qed.
  Lemma elements_silent assume id V : Reports_exactly ord sing assume id V -> assume d -> (forall e p, plain e -> ~ V d [] e p) -> silent ord sing d id.
  Proof.
    intros (l & Hl & E & R) A N l' Hl' E'. assert (l' = l) as -> by (apply (unique_linter ord sing); congruence).
    destruct (R [d]) as (fs & Hfs & _ & Hr); [intros x [<-|[]]; split; [apply d_formed|assumption]|]. rewrite Hfs. destruct fs as [|f fs]; [reflexivity|]. exfalso.
    destruct (Hr (f_filename f) (mk_pos (f_line f) (f_column f))) as [Hr1 _].
    destruct Hr1 as (x & ctx & e & [<-|[]] & _ & L & HV); [exists f; split; [now left|split; [|split]; reflexivity]|].
    apply only_top in L as (-> & Pl). exact (N e _ Pl HV).
  Qed.
  Lemma files_silent assume id V : Files_reported_exactly ord sing assume id V -> assume d -> (forall p, ~ V d p) -> silent ord sing d id.
  Proof.
    intros (l & Hl & E & R) A N l' Hl' E'. assert (l' = l) as -> by (apply (unique_linter ord sing); congruence).
    destruct (R [d]) as (fs & Hfs & _ & Hr); [intros x [<-|[]]; split; [apply d_formed|assumption]|]. rewrite Hfs. destruct fs as [|f fs]; [reflexivity|]. exfalso.
    destruct (proj1 (Hr (f_filename f) (mk_pos (f_line f) (f_column f)))) as (d' & [<-|[]] & _ & H).
    - exists f. split; [now left|]. repeat split.
    - now apply N in H.
  Qed.
  Ltac unpack := repeat match goal with H : exists _, _ |- _ => destruct H | H : _ /\ _ |- _ => destruct H end.
  (** A rule about another kind of elements. *)
  Ltac other_kind := let e := fresh "e" in let p := fresh "p" in let K := fresh "K" in let Q := fresh "Q" in
    intros e p K; destruct e; cbn in K; try contradiction; unfold Breaks; intros (_ & Q & _); red in Q; unpack; discriminate.
  Ltac each_rule H tac := repeat (destruct H as [H|H]; [injection H as <- <-; tac|]); destruct H.
  Lemma naming_silent id V : In (id, V) naming_rules -> silent ord sing d id.
  Proof.
    intros H. apply (elements_silent anything id V); [now apply C16_naming_partial|exact I|]. cbn [naming_rules In] in H. each_rule H other_kind.
  Qed.
  Lemma golang_silent id V : In (id, V) golang_comment_rules -> silent ord sing d id.
  Proof.
    intros H. apply (elements_silent anything id V); [now apply C17_golang_comments|exact I|]. cbn [golang_comment_rules In] in H.
    do 6 (destruct H as [H|H]; [injection H as <- <-; other_kind|]).
    destruct H as [H|[H|[]]]; injection H as <- <-; intros e p K.
    - intros (_ & (c & [E|E] & C) & _); destruct e; cbn in K, E; try contradiction; unpack; congruence.
    - intros (c & E & _); destruct e; cbn in K, E; try contradiction; unpack; congruence.
  Qed.
  Lemma no_rpcs : file_rpcs d = [].
  Proof.
    unfold file_rpcs. assert (flat_map (fun e => match e with EService _ es => es | _ => [] end) (d_elements d) = []) as ->; [|reflexivity].
    pose proof all_plain as A. revert A. generalize (d_elements d) as l. induction l as [|e l IH]; intros A; [reflexivity|]. cbn [flat_map]. rewrite IH by (intros; apply A; now right).
    pose proof (A e (or_introl eq_refl)) as K. destruct e; try reflexivity. destruct K.
  Qed.
  Lemma no_element e : plain e -> ~ is_message_or_extend e /\ ~ is_enum e /\ ~ is_message e /\ ~ is_service e.
  Proof. intros K. repeat split; intros Q; red in Q; unpack; subst; exact K. Qed.
  Lemma no_element_at ctx e : located (d_elements d) ctx e -> ~ is_message_or_extend e /\ ~ is_message e.
  Proof. intros L. apply only_top in L as (_ & K). destruct (no_element _ K) as (A & _ & B & _). auto. Qed.
  Lemma no_messages : distinct_messages d.
  Proof. intros c1 e1 c2 e2 L1 L2 M. exfalso. apply no_element_at in L1. now apply (proj2 L1). Qed.
  Lemma no_blocks : distinct_blocks d.
  Proof. intros c1 e1 c2 e2 L1 L2 M. exfalso. apply no_element_at in L1. now apply (proj1 L1). Qed.
  Lemma no_top : distinct_top d.
  Proof. intros e1 e2 H1 _ _ [(M & _)|(M & _)]; exfalso; apply all_plain in H1; destruct (no_element _ H1) as (A & B & _); auto. Qed.
  Lemma except_golang_silent : silent ord sing d "MESSAGES_HAVE_COMMENTS_EXCEPT_REQUEST_RESPONSE_TYPES".
  Proof. apply (elements_silent _ _ _ (C17_golang_comments_except ord sing Hord) no_messages). unfold except_golang_rule. other_kind. Qed.
  Lemma empty_silent : silent ord sing d "MESSAGES_NOT_EMPTY_EXCEPT_REQUEST_RESPONSE_TYPES".
  Proof. apply (elements_silent _ _ _ (C60_empty_messages_partial ord sing Hord) no_blocks). unfold empty_message. other_kind. Qed.
  Lemma request_silent id V : In (id, V) request_response_rules -> silent ord sing d id.
  Proof.
    intros H. apply (files_silent anything id V); [now apply C20_request_response|exact I|]. intros p HV. pose proof no_rpcs as N. cbn [request_response_rules In] in H.
    destruct H as [H|[H|[H|[]]]]; injection H as <- <-.
    - destruct HV as (r & H & _). rewrite N in H. destruct H.
    - destruct HV as (r & H & _). rewrite N in H. destruct H.
    - destruct HV as (i & j & r & r' & t & _ & H & _). unfold uses in H. rewrite N in H. destruct i; discriminate.
  Qed.
  Lemma layout_silent id V : In (id, V) layout_rules -> silent ord sing d id.
  Proof.
    intros H. apply (files_silent distinct_top id V); [now apply C20_layout|exact no_top|]. intros p HV. pose proof no_rpcs as N. cbn [layout_rules In] in H.
    destruct H as [H|[H|[]]]; injection H as <- <-.
    - destruct HV as (e & _ & (_ & r & H & _) & _). rewrite N in H. destruct H.
    - destruct HV as (e & _ & H & _). contradiction.
  Qed.
  Lemma element_silent id V : In (id, V) element_rules -> silent ord sing d id.
  Proof.
    intros H. apply (elements_silent anything id V); [now apply C60_element_rules|exact I|]. cbn [element_rules In] in H.
    destruct H as [H|H].
    - injection H as <- <-. intros e p K (_ & _ & (_ & h & es' & o & E) & _). discriminate.
    - each_rule H other_kind.
  Qed.
  Lemma suppressable_silent id V : In (id, V) (suppressable_rules sing) -> ~ In id name_rules -> silent ord sing d id.
  Proof.
    intros H N. apply (elements_silent anything id V); [now apply C14_suppression|exact I|]. cbn [suppressable_rules In] in H.
    destruct H as [H|[H|[H|[H|[H|[H|[]]]]]]]; injection H as <- <-; try other_kind; exfalso; apply N; vm_compute; tauto.
  Qed.
  Lemma Ha : ascii_comments d.
  Proof.
    intros ctx e c l L T. exfalso. apply only_top in L as (_ & K). unfold takes_sentences in T. destruct e; cbn in K; try contradiction;
      repeat destruct T as [T|T]; red in T; unpack; discriminate.
  Qed.
  Lemma sentence_silent id V : In (id, V) sentence_comment_rules -> silent ord sing d id.
  Proof.
    intros H. apply (elements_silent _ id V (C17_sentence_comments_partial ord sing id V H) Ha). cbn [sentence_comment_rules In] in H. each_rule H other_kind.
  Qed.
  Lemma except_sentence_silent : silent ord sing d "MESSAGES_HAVE_SENTENCE_COMMENTS_EXCEPT_REQUEST_RESPONSE_TYPES".
  Proof. apply (elements_silent _ _ _ (C17_sentence_comments_except_partial ord sing Hord) (conj no_messages Ha)). unfold except_sentence_rule. other_kind. Qed.
  Lemma one_package_here p k a b c k' : d_elements d = a ++ EPackage k :: b ++ EPackage k' :: c -> p = pk_pos k' -> False.
  Proof.
    rewrite Hd. destruct Hes as (sx & pk & os & -> & _). intros E _. apply (f_equal (fun l => List.length (filter (fun e => match e with EPackage _ => true | _ => false end) l))) in E.
    rewrite !filter_app in E. cbn [filter] in E. rewrite filter_app in E. cbn [filter] in E. rewrite !app_length in E. cbn [List.length] in E. rewrite app_length in E. cbn [List.length] in E.
    assert (filter (fun e => match e with EPackage _ => true | _ => false end) (map EComment cs) = []) as X by (clear; induction cs; auto).
    assert (filter (fun e => match e with EPackage _ => true | _ => false end) (map EOption os) = []) as Y by (clear; induction os; auto).
    rewrite X, Y in E. cbn in E. lia.
  Qed.
  Lemma one_syntax_here p k a b c k' : d_elements d = a ++ ESyntax k :: b ++ ESyntax k' :: c -> p = sx_pos k' -> False.
  Proof.
    rewrite Hd. destruct Hes as (sx & pk & os & -> & _). intros E _. apply (f_equal (fun l => List.length (filter (fun e => match e with ESyntax _ => true | _ => false end) l))) in E.
    rewrite !filter_app in E. cbn [filter] in E. rewrite filter_app in E. cbn [filter] in E. rewrite !app_length in E. cbn [List.length] in E. rewrite app_length in E. cbn [List.length] in E.
    assert (filter (fun e => match e with ESyntax _ => true | _ => false end) (map EComment cs) = []) as X by (clear; induction cs; auto).
    assert (filter (fun e => match e with ESyntax _ => true | _ => false end) (map EOption os) = []) as Y by (clear; induction os; auto).
    rewrite X, Y in E. cbn in E. lia.
  Qed.
  Lemma file_silent id V : In (id, V) file_rules -> ~ In id name_rules -> silent ord sing d id.
  Proof.
    intros H N. apply (files_silent anything id V); [now apply C61_file_rules|exact I|]. intros p HV. cbn [file_rules In] in H.
    assert (exists sx pk, In (ESyntax sx) (d_elements d) /\ In (EPackage pk) (d_elements d)) as (sx & pk & Hsx & Hpk).
    { rewrite Hd. destruct Hes as (sx & pk & os & -> & _). exists sx, pk. split; apply in_or_app; right; [now left|right; now left]. }
    destruct H as [H|[H|[H|[H|[H|[H|[H|[]]]]]]]]; injection H as <- <-; try (clear - N; exfalso; apply N; vm_compute; tauto).
    - destruct HV as [(a & b & c & k & k' & E & Ep)|(X & _)]; [exact (one_package_here _ _ _ _ _ _ E Ep)|exact (X _ Hpk)].
    - destruct HV as [(a & b & c & k & k' & E & Ep)|[(X & _)|(s & (a & b & E & _) & Q & _)]]; [exact (one_syntax_here _ _ _ _ _ _ E Ep)|exact (X _ Hsx)|].
      apply Q. assert (In (ESyntax s) (d_elements d)) as J by (rewrite E; apply in_or_app; right; now left). apply all_plain in J. apply J.
    - destruct HV as (X & _). exact (X Hdata).
    - destruct HV as (h & es' & X & _). now apply all_plain in X.
  Qed.
  (** Every rule but those about names, options, and several files. *)
  Lemma others_silent id g : in_group g id -> ~ In id name_rules -> ~ In id directory_rules -> ~ In id (map fst (require_rules ++ equal_rules)) -> silent ord sing d id.
  Proof.
    intros (gs & Hdoc & Hg) N1 N2 N3. assert (In id specified_rules) as S by (apply C61_all_rules_specified; now exists gs). unfold specified_rules in S.
    assert (forall A (rules : list (string * A)), In id (map fst rules) -> exists V, In (id, V) rules) as Of.
    { intros A rules H. apply in_map_iff in H as ([i V] & <- & H). now exists V. }
    rewrite map_app in N3. repeat rewrite in_app_iff in S. rewrite in_app_iff in N3.
    destruct S as [S|[S|[S|[S|[S|[S|[S|[S|[S|[S|[S|S]]]]]]]]]]].
    - apply Of in S as (V & S). exact (naming_silent id V S).
    - apply Of in S as (V & S). exact (golang_silent id V S).
    - apply Of in S as (V & S). exact (sentence_silent id V S).
    - destruct S as [<-|[<-|[<-|[<-|[<-|[]]]]]]; [exact except_golang_silent|exact except_sentence_silent|exact empty_silent| |].
      + exfalso. clear - Hdoc Hg. assert (forallb (fun r => negb (String.eqb (fst r) "RPC_OPTIONS_NO_GOOGLE_API_HTTP") || match snd r with [] => true | _ => false end) Lint_Doc.documented_rules = true) as X by (vm_compute; reflexivity).
        rewrite forallb_forall in X. specialize (X _ Hdoc). cbn [fst snd] in X. rewrite String.eqb_refl in X. destruct gs; [destruct Hg|discriminate].
      + exfalso. apply N1. now left.
    - exfalso. apply N3. now left.
    - exfalso. apply N3. now right.
    - contradiction.
    - apply Of in S as (V & S). exact (request_silent id V S).
    - apply Of in S as (V & S). exact (layout_silent id V S).
    - apply Of in S as (V & S). exact (element_silent id V S).
    - change (In id (map fst (suppressable_rules sing))) in S. apply Of in S as (V & S). exact (suppressable_silent id V S N1).
    - apply Of in S as (V & S). exact (file_silent id V S N1).
  Qed.
End All.

(** ** Everything *)
Theorem created_lint_all ord sing c p f es cs d l : reorders ord ->
  declares_just p (created_settings (in_uber2 c) p f (prefix_of c)) es -> d_elements d = map EComment cs ++ es -> Forall (fun c => c_cstyle c = false) cs ->
  starts_with (d_data d) (header_of_config c) -> ps_config (d_set d) = c ->
  f <> "" -> d_filename d <> "" -> path_base f = path_base (d_filename d) -> a_package p ->
  In l (all_linters ord sing) -> base_rule (cfg_lint c) (ln_id l) -> ~ In (ln_id l) name_rules -> ~ In (ln_id l) directory_rules ->
  in_uber2 c = true \/ prefix_of c = "" \/ prefix_of c = "com" -> linter_check l [d] = Ok [].
Proof.
  intros Ho D E Hcs Hs C Hf Hd Hb Hp Hl B N1 N2 Hx.
  destruct (in_dec string_dec (ln_id l) (map fst (require_rules ++ equal_rules))) as [Hin|Hin]; [now apply (created_lint ord sing c p f es cs)|].
  assert (exists g, in_group g (ln_id l)) as (g & G) by (destruct B as [(_ & G)|(_ & _ & G)]; eauto).
  unfold header_of_config in Hs. rewrite <- C in Hs.
  exact (others_silent ord sing Ho d p _ cs es D E Hcs Hs (ln_id l) g G N1 N2 Hin l Hl eq_refl).
Qed.
