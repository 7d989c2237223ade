(** Proofs about format --fix: which options are printed, and that lint accepts them. *)
From Coq Require Import Permutation Sorted Lia.
From Verif Require Import GoStrFacts GoPathFacts Lint_Spec LintRun_Spec Lint_Table Lint_FileProofs Text_Spec
  Format_Spec Format_Model Format_Proofs Format_First Format_Values Format_Same.

Lemma reset_named os s : o_name (reset os s) = fst s /\ o_const (reset os s) = snd s.
Proof.
  unfold reset. destruct (last_named (fst s) os) as [o|] eqn:E; [|easy]. cbn. split; [|reflexivity].
  revert E. induction os as [|x os IH]; [discriminate|]. cbn [last_named]. destruct (last_named (fst s) os); [now intros [= <-]; apply IH|].
  destruct (String.eqb_spec (o_name x) (fst s)); [now intros [= <-]|discriminate].
Qed.
Lemma managed_iff o : is_managed o = true <-> In (o_name o) managed_names.
Proof.
  unfold is_managed. rewrite existsb_exists. split.
  - intros (x & H & E). apply String.eqb_eq in E. now subst.
  - intros H. exists (o_name o). split; [assumption|apply String.eqb_refl].
Qed.
(** What becomes of each option. *)
Lemma fixed_options_in settings os o : In o (fixed_options settings os) <->
  (In o os /\ ~ In (o_name o) managed_names) \/ exists s, In s settings /\ o = reset os s.
Proof.
  unfold fixed_options. rewrite in_app_iff, filter_In, in_map_iff. rewrite negb_true_iff. split.
  - intros [[H E]|(s & E & H)]; [left|right; now exists s]. split; [assumption|]. rewrite <- managed_iff. congruence.
  - intros [[H E]|(s & H & E)]; [left|right; now exists s]. split; [assumption|]. rewrite <- managed_iff in E. now destruct (is_managed o).
Qed.

Section Lint.
  Variables (ord : order) (sing : string -> string) (d : descriptor) (os : list opt) (pkg : string).
  Variable settings : list (string * literal).
  Hypothesis settings_managed : incl (map fst settings) managed_names.
  Hypothesis settings_once : NoDup (map fst settings).
  Hypothesis contents_d : has_contents (d_elements d) (fixed_options settings os) pkg.
  Hypothesis formed : well_formed (d_elements d).
  Hypothesis file_named : named d.
  Lemma option_source name v o : In (name, v) settings -> In (EOption o) (d_elements d) -> o_name o = name -> l_source (o_const o) = l_source v.
  Proof.
    intros Hs Ho En. destruct contents_d as (H1 & _). destruct (H1 o Ho) as (o' & Ho' & E1 & E2). rewrite E2.
    apply fixed_options_in in Ho' as [[_ Hn]|(s & Hs' & ->)].
    - exfalso. apply Hn, settings_managed. rewrite <- E1, En. apply in_map_iff. now exists (name, v).
    - destruct (reset_named os s) as [N C]. rewrite C. assert (s = (name, v)) as ->; [|reflexivity].
      assert (fst s = name) as E by congruence. clear - settings_once Hs Hs' E. induction settings as [|x l IH]; [easy|]. inversion settings_once; subst.
      destruct Hs as [->|Hs], Hs' as [->|Hs']; auto.
      + exfalso. apply H1. cbn. now apply in_map.
      + exfalso. apply H1. apply in_map_iff. now exists (fst s, v).
  Qed.
  Lemma option_set name v : In (name, v) settings -> sets_option d name.
  Proof.
    intros Hs. destruct contents_d as (_ & H2 & _). destruct (H2 (reset os (name, v))) as (o & Ho & E & _).
    - apply fixed_options_in. right. now exists (name, v).
    - exists o. split; [assumption|]. rewrite E. apply (reset_named os (name, v)).
  Qed.
  Definition silent (id : string) : Prop := forall l, In l (all_linters ord sing) -> ln_id l = id -> linter_check l [d] = Ok [].
  Lemma files_silent assume id V : Files_reported_exactly ord sing assume id V -> assume d -> (forall p, ~ V d p) -> silent id.
  Proof.
    intros (l & Hl & E & R) A N l' Hl' E'. assert (l' = l) as -> by (apply (unique_linter ord sing); congruence).
    destruct (R [d]) as (fs & Hfs & _ & Hr); [intros x [<-|[]]; auto|]. rewrite Hfs. destruct fs as [|f fs]; [reflexivity|]. exfalso.
    destruct (proj1 (Hr (f_filename f) (mk_pos (f_line f) (f_column f)))) as (d' & [<-|[]] & _ & H).
    - exists f. split; [now left|]. repeat split.
    - now apply N in H.
  Qed.
  Lemma require_silent id name v : In (id, lacks_option name) require_rules -> In (name, v) settings -> silent id.
  Proof.
    intros H Hs. apply (files_silent _ _ _ (require_rules_exact ord sing _ _ H)); [exact I|]. intros p (N & _). apply N. now apply (option_set name v).
  Qed.
  Lemma equal_silent id name expected v : In (id, option_differs name expected) equal_rules -> In (name, v) settings ->
    expected d pkg = l_source v -> silent id.
  Proof.
    intros H Hs E. apply (files_silent _ _ _ (equal_rules_exact ord sing _ _ H)); [exact file_named|].
    intros p (o & k & (a & b & Ed & En & _) & (a' & b' & Ed' & _) & N & _). apply N.
    assert (In (EOption o) (d_elements d)) as Ho by (rewrite Ed; apply in_or_app; right; now left).
    assert (In (EPackage k) (d_elements d)) as Hk by (rewrite Ed'; apply in_or_app; right; now left).
    rewrite (option_source name v o Hs Ho En). destruct contents_d as (_ & _ & H3). now rewrite (H3 k Hk).
  Qed.
  Lemma short_silent v : In ("go_package", v) settings -> ~ has_substring (l_source v) ";" -> silent "FILE_OPTIONS_GO_PACKAGE_NOT_LONG_FORM".
  Proof.
    intros Hs N. eapply files_silent; [apply require_rules_exact; unfold require_rules; do 10 right; now left|exact I|].
    intros p (o & (a & b & Ed & En & _) & X & _). apply N.
    assert (In (EOption o) (d_elements d)) as Ho by (rewrite Ed; apply in_or_app; right; now left).
    now rewrite <- (option_source _ v o Hs Ho En).
  Qed.
End Lint.
Definition not_semi (c : ascii) : bool := negb (Ascii.eqb c ";").
Lemma no_semi s : sforall not_semi s = true -> ~ has_substring s ";".
Proof.
  intros H (a & b & ->). rewrite sforall_app in H. cbn in H. now rewrite andb_false_r in H.
Qed.
Lemma semi_upper c : not_semi c = true -> not_semi (upper_char c) = true.
Proof. all_ascii c; vm_compute; congruence. Qed.
Lemma semi_lower c : not_semi c = true -> not_semi (lower_char c) = true.
Proof. all_ascii c; vm_compute; congruence. Qed.
Lemma semi_usual c : is_letter c = true \/ is_digit c = true \/ c = "."%char \/ c = "-"%char \/ c = "/"%char -> not_semi c = true.
Proof. intros [H|[H|[->|[->| ->]]]]; try reflexivity; revert H; all_ascii c; vm_compute; congruence. Qed.
Lemma word_not_semi s : a_word s -> sforall not_semi s = true.
Proof.
  intros [_ H]. revert H. apply sforall_impl. intros c. unfold word_char, not_semi, is_symbol. cbn [existsb].
  destruct (Ascii.eqb c ";"); [|reflexivity]. now rewrite !orb_true_r.
Qed.
Lemma class_base f g : path_base f = path_base g -> f <> "" -> g <> "" -> java_outer_classname f = java_outer_classname g.
Proof.
  intros E Hf Hg. unfold java_outer_classname. destruct f; [easy|]. destruct g; [easy|]. cbn [is_empty]. now rewrite E.
Qed.
(** The rules about file options of a group. *)
Definition option_rule (g id : string) : Prop := in_group g id /\ In id (map fst (require_rules ++ equal_rules)).
Definition group_rules (g : string) : list string :=
  filter (fun id => existsb (fun r => String.eqb (fst r) id && mem g (snd r)) documented_rules) (map fst (require_rules ++ equal_rules)).
Lemma option_rule_in g id : option_rule g id -> In id (group_rules g).
Proof.
  intros ((gs & H & Hg) & Hi). apply filter_In. split; [assumption|]. apply existsb_exists. exists (id, gs). split; [assumption|].
  cbn. rewrite String.eqb_refl. cbn. now apply mem_In.
Qed.

Lemma group_rules_is : group_rules "uber1" =
   ["FILE_OPTIONS_REQUIRE_GO_PACKAGE"; "FILE_OPTIONS_REQUIRE_JAVA_MULTIPLE_FILES"; "FILE_OPTIONS_REQUIRE_JAVA_OUTER_CLASSNAME";
    "FILE_OPTIONS_REQUIRE_JAVA_PACKAGE"; "FILE_OPTIONS_GO_PACKAGE_NOT_LONG_FORM"; "FILE_OPTIONS_EQUAL_GO_PACKAGE_PB_SUFFIX";
    "FILE_OPTIONS_EQUAL_JAVA_MULTIPLE_FILES_TRUE"; "FILE_OPTIONS_EQUAL_JAVA_OUTER_CLASSNAME_PROTO_SUFFIX";
    "FILE_OPTIONS_EQUAL_JAVA_PACKAGE_COM_PREFIX"]
  /\ group_rules "uber2" =
   ["FILE_OPTIONS_REQUIRE_CSHARP_NAMESPACE"; "FILE_OPTIONS_REQUIRE_GO_PACKAGE"; "FILE_OPTIONS_REQUIRE_JAVA_MULTIPLE_FILES";
    "FILE_OPTIONS_REQUIRE_JAVA_OUTER_CLASSNAME"; "FILE_OPTIONS_REQUIRE_JAVA_PACKAGE"; "FILE_OPTIONS_REQUIRE_OBJC_CLASS_PREFIX";
    "FILE_OPTIONS_REQUIRE_PHP_NAMESPACE"; "FILE_OPTIONS_GO_PACKAGE_NOT_LONG_FORM"; "FILE_OPTIONS_EQUAL_CSHARP_NAMESPACE_CAPITALIZED";
    "FILE_OPTIONS_EQUAL_GO_PACKAGE_V2_SUFFIX"; "FILE_OPTIONS_EQUAL_JAVA_MULTIPLE_FILES_TRUE";
    "FILE_OPTIONS_EQUAL_JAVA_OUTER_CLASSNAME_PROTO_SUFFIX"; "FILE_OPTIONS_EQUAL_JAVA_PACKAGE_PREFIX";
    "FILE_OPTIONS_EQUAL_OBJC_CLASS_PREFIX_ABBR"; "FILE_OPTIONS_EQUAL_PHP_NAMESPACE_CAPITALIZED"].
Proof. split; vm_compute; reflexivity. Qed.

Ltac in_list := unfold require_rules, equal_rules, settings_v2, settings_v1; cbn [app In]; tauto.
Ltac distinct_tac := unfold settings_v2, settings_v1; cbn [app map fst]; repeat (constructor; [cbn; intuition discriminate|]); constructor.
Lemma v1_managed a b c : incl (map fst (settings_v1 a b c)) managed_names.
Proof. unfold settings_v1, managed_names. cbn [map fst]. intros x. cbn [In]. tauto. Qed.
Lemma v1_once a b c : NoDup (map fst (settings_v1 a b c)).
Proof. distinct_tac. Qed.
Lemma v2_managed a b c d e f : incl (map fst (settings_v2 a b c d e f)) managed_names.
Proof. unfold settings_v2, settings_v1, managed_names. cbn [app map fst]. intros x. cbn [In]. tauto. Qed.
Lemma v2_once a b c d e f : NoDup (map fst (settings_v2 a b c d e f)).
Proof. distinct_tac. Qed.

Theorem uber1_silent ord sing d os pkg filename prefix id : 
  has_contents (d_elements d) (fixed_options (settings_v1 (go_package pkg) (java_outer_classname filename) (java_package_prefix_override pkg prefix)) os) pkg ->
  well_formed (d_elements d) -> d_filename d <> "" -> filename <> "" -> path_base filename = path_base (d_filename d) -> a_word pkg ->
  prefix = "" \/ prefix = "com" -> option_rule "uber1" id -> silent ord sing d id.
Proof.
  intros Hc Hw Hn Hf Hb Hp Hx Hr. apply option_rule_in in Hr. rewrite (proj1 group_rules_is) in Hr.
  pose proof (class_base _ _ Hb Hf Hn) as Hcl.
  assert (java_package pkg = java_package_prefix_override pkg prefix) as Hj by (destruct Hx as [-> | ->]; reflexivity).
  pose proof (v1_managed (go_package pkg) (java_outer_classname filename) (java_package_prefix_override pkg prefix)) as Hm.
  pose proof (v1_once (go_package pkg) (java_outer_classname filename) (java_package_prefix_override pkg prefix)) as Ho.
  assert (~ has_substring (go_package pkg) ";") as Hg
    by (apply no_semi, (chars_go not_semi semi_usual), word_not_semi; assumption).
  cbn [In] in Hr.
  repeat (destruct Hr as [<-|Hr];
    [first
     [ eapply require_silent; [exact Hc|exact Hw|in_list|in_list]
     | eapply short_silent; [exact Hm|exact Ho|exact Hc|exact Hw|in_list|exact Hg]
     | eapply equal_silent; [exact Hm|exact Ho|exact Hc|exact Hw|exact Hn|in_list|in_list|];
       cbn [l_source a_value]; solve [reflexivity|assumption|symmetry; assumption] ]|]).
  easy.
Qed.
Theorem uber2_silent ord sing d os pkg filename id : 
  has_contents (d_elements d)
    (fixed_options (settings_v2 (go_package_v2 pkg) (java_outer_classname filename)
                      (java_package_prefix_override pkg (lc_java_package_prefix (cfg_lint (ps_config (d_set d)))))
                      (csharp_namespace pkg) (objc_class_prefix pkg) (php_namespace pkg)) os) pkg ->
  well_formed (d_elements d) -> d_filename d <> "" -> filename <> "" -> path_base filename = path_base (d_filename d) -> a_word pkg ->
  option_rule "uber2" id -> silent ord sing d id.
Proof.
  intros Hc Hw Hn Hf Hb Hp Hr. apply option_rule_in in Hr. rewrite (proj2 group_rules_is) in Hr.
  pose proof (class_base _ _ Hb Hf Hn) as Hcl.
  set (prefix := lc_java_package_prefix _) in *.
  pose proof (v2_managed (go_package_v2 pkg) (java_outer_classname filename) (java_package_prefix_override pkg prefix)
    (csharp_namespace pkg) (objc_class_prefix pkg) (php_namespace pkg)) as Hm.
  pose proof (v2_once (go_package_v2 pkg) (java_outer_classname filename) (java_package_prefix_override pkg prefix)
    (csharp_namespace pkg) (objc_class_prefix pkg) (php_namespace pkg)) as Ho.
  assert (~ has_substring (go_package_v2 pkg) ";") as Hg
    by (apply no_semi, (chars_go_v2 not_semi semi_usual), word_not_semi; assumption).
  cbn [In] in Hr.
  repeat (destruct Hr as [<-|Hr];
    [first
     [ eapply require_silent; [exact Hc|exact Hw|in_list|in_list]
     | eapply short_silent; [exact Hm|exact Ho|exact Hc|exact Hw|in_list|exact Hg]
     | eapply equal_silent; [exact Hm|exact Ho|exact Hc|exact Hw|exact Hn|in_list|in_list|];
       cbn [l_source a_value]; solve [reflexivity|assumption|symmetry; assumption] ]|]).
  easy.
Qed.

(** ** What is printed can be read back *)
Lemma package_word s : a_package s -> a_word s.
Proof.
  intros [N H]. split; [assumption|]. revert H. apply sforall_impl. intros c. all_ascii c; vm_compute; congruence.
Qed.
Lemma package_safe s : a_package s -> sforall safe_char s = true.
Proof. intros [N H]. revert H. apply sforall_impl. intros c. all_ascii c; vm_compute; congruence. Qed.
Lemma quotes_safe s : quotes_free s -> sforall safe_char s = true.
Proof.
  unfold quotes_free, no_char. intros (H1 & H2 & H3). induction s as [|c s IH]; [reflexivity|]. cbn [sforall] in *.
  apply andb_true_iff in H1 as [A1 H1], H2 as [A2 H2], H3 as [A3 H3]. rewrite (IH H1 H2 H3), andb_true_r. unfold safe_char.
  apply negb_true_iff in A1, A2, A3. now rewrite A1, A2, A3.
Qed.
Lemma no_blank_end_by s : match last_char s with Some c => is_space c = false | None => True end -> no_blank_end s.
Proof. intros H l c E. rewrite E, last_char_app_r in H; [exact H|discriminate]. Qed.
Lemma managed_a_name n : In n managed_names -> a_name n.
Proof.
  unfold managed_names. cbn [In]. intros H.
  repeat (destruct H as [<-|H];
    [split; [discriminate|]; split; [reflexivity|]; split; [now apply no_blank_end_by|eexists _, _; vm_compute; reflexivity]|]).
  easy.
Qed.
Lemma last_named_in n os o : last_named n os = Some o -> In o os.
Proof.
  induction os as [|x os IH]; [discriminate|]. cbn [last_named]. destruct (last_named n os); [intros [= <-]; right; auto|].
  destruct (String.eqb _ _); [intros [= <-]; now left|discriminate].
Qed.
Lemma reset_ok os s : Forall option_ok os -> In (fst s) managed_names -> literal_ok (snd s) -> l_array (snd s) = [] -> option_ok (reset os s).
Proof.
  intros Ho Hn Hl Ha. unfold reset. destruct (last_named (fst s) os) as [o|] eqn:E.
  - rewrite Forall_forall in Ho. destruct (Ho o (last_named_in _ _ _ E)) as (H1 & _ & _ & H4 & H5). now repeat split; cbn; try apply H1.
  - split; [now apply managed_a_name|]. now repeat split.
Qed.
Lemma fixed_ok os settings : Forall option_ok os -> incl (map fst settings) managed_names ->
  Forall (fun s => literal_ok (snd s) /\ l_array (snd s) = []) settings -> Forall option_ok (fixed_options settings os).
Proof.
  intros Ho Hm Hs. apply Forall_forall. intros o H. apply fixed_options_in in H as [[H _]|(s & H & ->)].
  - rewrite Forall_forall in Ho. now apply Ho.
  - rewrite Forall_forall in Hs. destruct (Hs s H). apply reset_ok; try assumption. apply Hm. now apply in_map.
Qed.
Lemma own_options_ok es : kept_file es -> Forall option_ok (own_options es).
Proof.
  intros (_ & _ & H). apply Forall_forall. intros o Ho. apply in_concat in Ho as (l & Hl & Hi). apply in_map_iff in Hl as (e & <- & He).
  destruct e; try easy. destruct Hi as [->|[]].
  destruct H as [(_ & H)|(_ & H)]; rewrite Forall_forall in H; specialize (H _ He); now destruct H.
Qed.
Lemma printed_ok filename fx prefix es : kept_file es -> (forall p, In (EPackage p) es -> a_package (pk_name p)) ->
  quotes_free filename -> quotes_free prefix -> Forall option_ok (printed_options filename fx prefix es).
Proof.
  intros Hk Hp Hf Hx. pose proof (own_options_ok es Hk) as Ho.
  assert (Forall option_ok (filter (fun o => negb (is_managed o)) (own_options es))) as Hu
    by (apply Forall_forall; intros o H; apply filter_In in H as [H _]; rewrite Forall_forall in Ho; now apply Ho).
  unfold printed_options. 
  assert (forall p, first_package es = Some p -> fx <> FixNone -> Forall option_ok (fixed_options (settings filename fx prefix (pk_name p)) (own_options es))) as Hfix.
  { intros p E Hn. assert (In (EPackage p) es) as Hi.
    { unfold first_package in E. destruct (packages es) as [|e l] eqn:Es; [discriminate|]. assert (In e (packages es)) as X by (rewrite Es; now left).
      apply filter_In in X as [X _]. destruct e; try discriminate. now injection E as ->. }
    apply Hp in Hi. destruct (value_strings (pk_name p) filename prefix) as (V1 & V2 & V3 & V4 & V5 & V6 & V7);
      [now apply package_safe|now apply quotes_safe|now apply quotes_safe|].
    assert (a_word "true") as Ht by (split; [discriminate|reflexivity]).
    destruct fx; [easy| |].
    - apply fixed_ok; [assumption|apply v1_managed|]. cbn [settings]. unfold settings_v1. 
      repeat (constructor; [split; [|reflexivity]; cbn [snd a_value literal_ok]; assumption|]). constructor.
    - apply fixed_ok; [assumption|apply v2_managed|]. cbn [settings]. unfold settings_v2, settings_v1. cbn [app].
      repeat (constructor; [split; [|reflexivity]; cbn [snd a_value literal_ok]; assumption|]). constructor. }
  destruct fx; [assumption| |]; (destruct (first_package es) as [p|]; [now apply Hfix|assumption]).
Qed.
Lemma canonical_contents sort_o sort_i top os es pkg : (forall l, Permutation l (sort_o l)) ->
  Forall (fun e => exists c, e = EComment c) top -> (forall p, In (EPackage p) es -> pk_name p = pkg) ->
  has_contents (canonical_with sort_o sort_i top os es) os pkg.
Proof.
  intros Hs Ht Hp. unfold canonical_with.
  assert (forall o, In (EOption o) (top ++ syntaxes es ++ packages es ++ map EOption (sort_o os) ++ map EImport (sort_i (own_imports es)) ++ others (after_leading es)) <-> In o os) as H.
  { intros o. rewrite !in_app_iff. split.
    - intros [H|[H|[H|[H|[H|H]]]]].
      + rewrite Forall_forall in Ht. destruct (Ht _ H). discriminate.
      + apply filter_In in H as [_ H]. discriminate.
      + apply filter_In in H as [_ H]. discriminate.
      + apply in_map_iff in H as (x & [= ->] & H). eapply Permutation_in; [symmetry; apply Hs|assumption].
      + apply in_map_iff in H as (x & E & _). discriminate.
      + apply filter_In in H as [_ H]. discriminate.
    - intros Ho. do 3 right. left. apply in_map. eapply Permutation_in; [apply Hs|assumption]. }
  split; [|split].
  - intros o Ho. apply H in Ho. eauto.
  - intros o Ho. apply H in Ho. eauto.
  - intros p. rewrite !in_app_iff. intros [X|[X|[X|[X|[X|X]]]]].
    + rewrite Forall_forall in Ht. destruct (Ht _ X). discriminate.
    + apply filter_In in X as [_ X]. discriminate.
    + apply filter_In in X as [X _]. now apply Hp.
    + apply in_map_iff in X as (x & E & _). discriminate.
    + apply in_map_iff in X as (x & E & _). discriminate.
    + apply filter_In in X as [_ X]. discriminate.
Qed.

Theorem kept_tokens sort_o sort_i filename header prefix es :
  sorts_by o_name sort_o -> sorts_by im_filename sort_i -> kept_file es ->
  exists text, transform_elements sort_o sort_i filename FixNone header prefix es = Ok (text, []) /\
    reads_as text (concat (map (tokens sort_o) (canonical sort_o sort_i es))).
Proof.
  intros Ho Hi Hk.
  change (transform_elements sort_o sort_i filename FixNone header prefix es) with (transform_elements sort_o sort_i filename FixNone "" prefix es).
  destruct (transform_good sort_o sort_i Ho Hi filename FixNone "" prefix es [] Hk (own_options_ok es Hk) eq_refl) as (text & E & R).
  exists text. split; [exact E|]. eapply reads_eq; [exact R|]. unfold printed_tokens, top_tokens, all_tokens, canonical, canonical_with. cbn [fix_none orb app].
  rewrite <- concat_app, <- map_app. reflexivity.
Qed.
(** With --fix. *)
Theorem fix_tokens sort_o sort_i filename fx header prefix es hts :
  sorts_by o_name sort_o -> sorts_by im_filename sort_i -> kept_file es -> (forall p, In (EPackage p) es -> a_package (pk_name p)) ->
  quotes_free filename -> quotes_free prefix -> reads_as (header +++ String newline EmptyString) hts -> fx <> FixNone ->
  exists text, transform_elements sort_o sort_i filename fx header prefix es = Ok (text, []) /\
    reads_as text ((if is_empty header then concat (map (tokens sort_o) (leading es)) else hts) ++
      concat (map (tokens sort_o) (canonical_with sort_o sort_i [] (printed_options filename fx prefix es) es))).
Proof.
  intros Ho Hi Hk Hp Hf Hx Hh Hn. 
  destruct (transform_good sort_o sort_i Ho Hi filename fx header prefix es hts Hk (printed_ok filename fx prefix es Hk Hp Hf Hx) Hh) as (text & E & R).
  exists text. split; [exact E|]. eapply reads_eq; [exact R|]. unfold printed_tokens, top_tokens, all_tokens. destruct fx; easy.
Qed.
Lemma fixed_unmanaged settings os : incl (map fst settings) managed_names ->
  filter (fun o => negb (is_managed o)) (fixed_options settings os) = filter (fun o => negb (is_managed o)) os.
Proof.
  intros H. unfold fixed_options. rewrite filter_app.
  assert (forall l, filter (fun o => negb (is_managed o)) (filter (fun o => negb (is_managed o)) l) = filter (fun o => negb (is_managed o)) l) as ->.
  { induction l as [|o l IH]; [reflexivity|]. cbn [filter]. destruct (negb (is_managed o)) eqn:E; [|exact IH]. cbn [filter]. now rewrite E, IH. }
  assert (filter (fun o => negb (is_managed o)) (map (reset os) settings) = []) as ->; [|apply app_nil_r].
  assert (forall l, incl (map fst l) managed_names -> filter (fun o => negb (is_managed o)) (map (reset os) l) = []) as X; [|now apply X].
  intros l. clear H. induction l as [|s l IH]; [reflexivity|]. intros H. cbn [map filter].
  assert (is_managed (reset os s) = true) as ->; [|apply IH; intros x Hx; apply H; now right].
  apply managed_iff. rewrite (proj1 (reset_named os s)). apply H. now left.
Qed.

Lemma one_package_file es p q : length (packages es) <= 1 -> In (EPackage p) es -> In (EPackage q) es -> p = q.
Proof.
  intros H Hp Hq. assert (In (EPackage p) (packages es)) as X by (now apply filter_In). assert (In (EPackage q) (packages es)) as Y by (now apply filter_In).
  destruct (packages es) as [|a [|b l]]; [easy| |cbn in H; lia]. destruct X as [->|[]]. destruct Y as [[= ->]|[]]. reflexivity.
Qed.
Lemma first_package_of es p : length (packages es) <= 1 -> In (EPackage p) es -> first_package es = Some p.
Proof.
  intros H Hp. unfold first_package. assert (In (EPackage p) (packages es)) as X by (now apply filter_In).
  destruct (packages es) as [|a [|b l]]; [easy| |cbn in H; lia]. destruct X as [->|[]]. reflexivity.
Qed.
Theorem fix_written sort_o sort_i filename fx header prefix es p hts :
  sorts_by o_name sort_o -> sorts_by im_filename sort_i -> kept_file es -> In (EPackage p) es -> a_package (pk_name p) ->
  quotes_free filename -> quotes_free prefix -> reads_as (header +++ String newline EmptyString) hts -> fx <> FixNone ->
  exists text, transform_elements sort_o sort_i filename fx header prefix es = Ok (text, []) /\
    let pkg := pk_name p in
    let values :=
      match fx with
      | FixV2 => settings_v2 (go_package_v2 pkg) (java_outer_classname filename) (java_package_prefix_override pkg prefix)
                   (csharp_namespace pkg) (objc_class_prefix pkg) (php_namespace pkg)
      | _ => settings_v1 (go_package pkg) (java_outer_classname filename) (java_package_prefix_override pkg prefix)
      end in
    reads_as text ((if is_empty header then concat (map (tokens sort_o) (leading es)) else hts) ++
      concat (map (tokens sort_o) (canonical_with sort_o sort_i [] (fixed_options values (own_options es)) es))).
Proof.
  intros Ho Hi Hk Hp Ha Hf Hx Hh Hn. pose proof Hk as (_ & Hl & _).
  destruct (fix_tokens sort_o sort_i filename fx header prefix es hts Ho Hi Hk) as (text & E & R); try assumption.
  - intros q Hq. now rewrite <- (one_package_file es p q Hl Hp Hq).
  - exists text. split; [exact E|]. cbv zeta. unfold printed_options in R. rewrite (first_package_of es p Hl Hp) in R. destruct fx; [easy|exact R..].
Qed.
Lemma settings_contents es es' os pkg : same_settings es es' -> has_contents es os pkg -> has_contents es' os pkg.
Proof.
  intros (S1 & S2) (H1 & H2 & H3). split; [|split].
  - intros o Ho. destruct (proj2 (S1 (o_name o) (l_source (o_const o)))) as (o1 & Hi & E1 & E2); [now exists o|].
    destruct (H1 o1 Hi) as (o' & Ho' & E3 & E4). exists o'. split; [assumption|]. split; congruence.
  - intros o' Ho'. destruct (H2 o' Ho') as (o & Hi & E1 & E2).
    destruct (proj1 (S1 (o_name o) (l_source (o_const o)))) as (o1 & Hi1 & E3 & E4); [now exists o|]. exists o1. split; [assumption|]. split; congruence.
  - intros p Hp. destruct (proj2 (S2 (pk_name p))) as (q & Hq & E); [now exists p|]. rewrite <- E. now apply H3.
Qed.
Theorem fixed_uber2 ord sing sort_o sort_i filename es p d l :
  sorts_by o_name sort_o -> kept_file es -> In (EPackage p) es -> a_package (pk_name p) ->
  let pkg := pk_name p in
  let prefix := lc_java_package_prefix (cfg_lint (ps_config (d_set d))) in
  let values := settings_v2 (go_package_v2 pkg) (java_outer_classname filename) (java_package_prefix_override pkg prefix)
                   (csharp_namespace pkg) (objc_class_prefix pkg) (php_namespace pkg) in
  same_settings (canonical_with sort_o sort_i (leading es) (fixed_options values (own_options es)) es) (d_elements d) ->
  well_formed (d_elements d) -> d_filename d <> "" -> filename <> "" -> path_base filename = path_base (d_filename d) ->
  In l (all_linters ord sing) -> option_rule "uber2" (ln_id l) -> linter_check l [d] = Ok [].
Proof.
  intros Ho Hk Hp Ha pkg prefix values Hs Hw Hd Hf Hb Hl Hr. pose proof Hk as (_ & Hlen & _).
  assert (has_contents (d_elements d) (fixed_options values (own_options es)) pkg) as Hc.
  { eapply settings_contents; [exact Hs|]. apply canonical_contents; [intros; apply Ho|apply leading_is|].
    intros q Hq. unfold pkg. now rewrite (one_package_file es p q Hlen Hp Hq). }
  apply (uber2_silent ord sing d (own_options es) pkg filename (ln_id l) Hc Hw Hd Hf Hb (package_word _ Ha) Hr l Hl eq_refl).
Qed.
Theorem fixed_uber1 ord sing sort_o sort_i filename prefix es p d l :
  sorts_by o_name sort_o -> kept_file es -> In (EPackage p) es -> a_package (pk_name p) -> prefix = "" \/ prefix = "com" ->
  let pkg := pk_name p in
  let values := settings_v1 (go_package pkg) (java_outer_classname filename) (java_package_prefix_override pkg prefix) in
  same_settings (canonical_with sort_o sort_i (leading es) (fixed_options values (own_options es)) es) (d_elements d) ->
  well_formed (d_elements d) -> d_filename d <> "" -> filename <> "" -> path_base filename = path_base (d_filename d) ->
  In l (all_linters ord sing) -> option_rule "uber1" (ln_id l) -> linter_check l [d] = Ok [].
Proof.
  intros Ho Hk Hp Ha Hx pkg values Hs Hw Hd Hf Hb Hl Hr. pose proof Hk as (_ & Hlen & _).
  assert (has_contents (d_elements d) (fixed_options values (own_options es)) pkg) as Hc.
  { eapply settings_contents; [exact Hs|]. apply canonical_contents; [intros; apply Ho|apply leading_is|].
    intros q Hq. unfold pkg. now rewrite (one_package_file es p q Hlen Hp Hq). }
  apply (uber1_silent ord sing d (own_options es) pkg filename prefix (ln_id l) Hc Hw Hd Hf Hb (package_word _ Ha) Hx Hr l Hl eq_refl).
Qed.
Theorem fix_unmanaged sort_o sort_i filename fx header prefix es hts :
  sorts_by o_name sort_o -> sorts_by im_filename sort_i -> kept_file es -> (forall p, In (EPackage p) es -> a_package (pk_name p)) ->
  quotes_free filename -> quotes_free prefix -> reads_as (header +++ String newline EmptyString) hts -> fx <> FixNone ->
  exists text os, transform_elements sort_o sort_i filename fx header prefix es = Ok (text, []) /\
    reads_as text ((if is_empty header then concat (map (tokens sort_o) (leading es)) else hts) ++
      concat (map (tokens sort_o) (canonical_with sort_o sort_i [] os es))) /\
    filter (fun o => negb (is_managed o)) os = filter (fun o => negb (is_managed o)) (own_options es).
Proof.
  intros Ho Hi Hk Hp Hf Hx Hh Hn.
  destruct (fix_tokens sort_o sort_i filename fx header prefix es hts Ho Hi Hk Hp Hf Hx Hh Hn) as (text & E & R).
  exists text, (printed_options filename fx prefix es). split; [exact E|]. split; [exact R|]. unfold printed_options.
  pose proof (fixed_unmanaged [] (own_options es) ltac:(easy)) as X. unfold fixed_options in X. cbn [map] in X. rewrite app_nil_r in X.
  destruct fx; [easy| |]; (destruct (first_package es); [|exact X]); apply fixed_unmanaged; [apply v1_managed|apply v2_managed].
Qed.
Theorem fix_v2_names sort_o sort_i filename header prefix es p hts o :
  sorts_by o_name sort_o -> sorts_by im_filename sort_i -> kept_file es -> In (EPackage p) es -> a_package (pk_name p) ->
  quotes_free filename -> quotes_free prefix -> reads_as (header +++ String newline EmptyString) hts ->
  In o (own_options es) ->
  exists text os, transform_elements sort_o sort_i filename FixV2 header prefix es = Ok (text, []) /\
    reads_as text ((if is_empty header then concat (map (tokens sort_o) (leading es)) else hts) ++
      concat (map (tokens sort_o) (canonical_with sort_o sort_i [] os es))) /\
    In (o_name o) (map o_name os).
Proof.
  intros Ho Hi Hk Hp Ha Hf Hx Hh Hin.
  destruct (fix_written sort_o sort_i filename FixV2 header prefix es p hts Ho Hi Hk Hp Ha Hf Hx Hh ltac:(discriminate)) as (text & E & R).
  cbv zeta in R. set (vs := settings_v2 _ _ _ _ _ _) in R. exists text, (fixed_options vs (own_options es)). split; [exact E|]. split; [exact R|].
  destruct (is_managed o) eqn:Em.
  - apply managed_iff in Em. assert (exists s, In s vs /\ fst s = o_name o) as (s & Hs & En).
    { assert (In (o_name o) (map fst vs)) as X.
      { subst vs. clear -Em. unfold settings_v2, settings_v1. cbn [app map fst]. unfold managed_names in Em. exact Em. }
      apply in_map_iff in X as (s & En & Hs). eauto. }
    rewrite <- En. rewrite <- (proj1 (reset_named (own_options es) s)). apply in_map. apply fixed_options_in. right. eauto.
  - apply in_map. apply fixed_options_in. left. split; [assumption|]. rewrite <- managed_iff. congruence.
Qed.
