(** What create writes, read by the formatter and by the linters. *)
From Coq Require Import Permutation Sorted.
From Verif Require Import GoStrFacts Strs_Model GoPathFacts Create_Model Create_Spec Create_Proofs Settings_Types Settings_Model Settings_Spec Settings_Proofs Settings_Proofs2 Format_Model Format_Proofs Format_Lex Format_Values Format_First Format_Same Format_Fix Format_Spec CreateOut_Spec.

(** The text without the header. *)
Definition body_text (pkg : string) (settings : list (string * literal)) : string :=
  "syntax = " +++ quoted "proto3" +++ ";" +++ nl +++ nl +++ "package " +++ pkg +++ ";" +++ nl +++ nl +++
  join nl (map (fun s => "option " +++ fst s +++ " = " +++ source_of (snd s) +++ ";") settings).
Lemma data_is_body (v2 : bool) header pkg file prefix :
  (if v2 then data_v2 (mk_tmpl_data header pkg (csharp_namespace pkg) (go_package_v2 pkg) (java_outer_classname file)
                     (java_package_prefix_override pkg prefix) (objc_class_prefix pkg) (php_namespace pkg))
   else data_v1 (mk_tmpl_data header pkg "" (go_package pkg) (java_outer_classname file) (java_package_prefix_override pkg prefix) "" ""))
  = header +++ body_text pkg (created_settings v2 pkg file prefix).
Proof.
  assert (Q : forall s, source_of (a_value s) = quoted s) by reflexivity.
  unfold body_text, created_settings, data_v1, data_v2. destruct v2; cbn [app map fst snd t_header t_pkg t_csharp t_go t_java_class t_java t_objc t_php]; rewrite !Q, ?join_cons2; cbn [join source_of l_is_string l_source];
    unfold quoted; rewrite ?sapp_assoc; cbn [String.append]; rewrite ?sapp_assoc; cbn [String.append]; rewrite ?sapp_assoc; reflexivity.
Qed.

Definition created_text (header pkg : string) (settings : list (string * literal)) : string :=
  (if is_empty header then "" else header +++ nl +++ nl) +++ body_text pkg settings.

(** ** The formatter *)
Lemma P0 args : (exists l, cat args = l +++ ";") -> P 0 args = cat args +++ endl.
Proof.
  intros (l & E). rewrite (P_plain 0 args ";"); [reflexivity| |reflexivity]. rewrite E. now rewrite last_char_app_r.
Qed.
Lemma option_line o n l : sets (n, l) o -> is_single_value l = true -> source_of l <> "" ->
  p_option 0 "option " ";" o = says ("option " +++ n +++ " = " +++ source_of l +++ ";" +++ endl).
Proof.
  intros (E1 & E2 & E3 & E4) Hs Hn. cbn [fst snd] in *. unfold p_option. rewrite E1, E2, E3, E4, Hs. cbv zeta. apply is_empty_false in Hn. rewrite Hn.
  unfold Format_Model.seq, says. cbn [p_comment fst snd app p_inline String.append]. rewrite P0.
  - cbn [cat]. now rewrite !sapp_nil_r, !sapp_assoc.
  - exists ("option " +++ n +++ " = " +++ source_of l). cbn [cat]. now rewrite !sapp_nil_r, !sapp_assoc.
Qed.
Definition lines (settings : list (string * literal)) : string :=
  cat (map (fun s => "option " +++ fst s +++ " = " +++ source_of (snd s) +++ ";" +++ endl) settings).
Definition printable (s : string * literal) : Prop := is_single_value (snd s) = true /\ source_of (snd s) <> "".
Lemma option_lines settings os : Forall2 sets settings os -> Forall printable settings -> p_option_list 0 false os = says (lines settings).
Proof.
  induction 1 as [|[n l] o settings os H _ IH]; intros F; [reflexivity|]. inversion F as [|? ? [H1 H2] F']; subst. cbn [p_option_list].
  rewrite (option_line o n l H H1 H2), (IH F'). unfold Format_Model.seq, says. cbn [fst snd app]. unfold lines. cbn [map cat fst snd]. rewrite !sapp_assoc. cbn [snd]. reflexivity.
Qed.
Lemma lines_join settings : settings <> [] -> lines settings = join nl (map (fun s => "option " +++ fst s +++ " = " +++ source_of (snd s) +++ ";") settings) +++ nl.
Proof.
  induction settings as [|s [|t r] IH]; intros N; [easy|unfold lines; cbn [map cat join]; rewrite !sapp_nil_r, !sapp_assoc; reflexivity|].
  cbn [map]. rewrite join_cons2. unfold lines in *. cbn [map cat] in *. rewrite IH by discriminate. cbn [map]. rewrite !sapp_assoc. reflexivity.
Qed.
Lemma created_printable v2 pkg file prefix : Forall printable (created_settings v2 pkg file prefix).
Proof. destruct v2; unfold created_settings; cbn [app]; repeat (constructor; [split; [reflexivity|discriminate]|]); constructor. Qed.
Lemma created_names v2 pkg file prefix : map fst (created_settings v2 pkg file prefix) =
  if v2 then ["csharp_namespace"; "go_package"; "java_multiple_files"; "java_outer_classname"; "java_package"; "objc_class_prefix"; "php_namespace"]
  else ["go_package"; "java_multiple_files"; "java_outer_classname"; "java_package"].
Proof. now destruct v2. Qed.

Section Formatted.
  Variable sort_o : list opt -> list opt.
  Variable sort_i : list import -> list import.
  Hypothesis Hso : sorts_by o_name sort_o.
  Hypothesis Hsi : sorts_by im_filename sort_i.
  Variable v2 : bool.
  Variable pkg file filename prefix header : string.
  Hypothesis Hfile : file <> "".
  Hypothesis Hfilename : filename <> "".
  Hypothesis Hbase : path_base file = path_base filename.
  Let fx : fix_kind := if v2 then FixV2 else FixV1.
  Notation wanted := (created_settings v2 pkg file prefix).
  Lemma wanted_filename : wanted = created_settings v2 pkg filename prefix.
  Proof. unfold created_settings. now rewrite (class_base _ _ Hbase Hfile Hfilename). Qed.
  Lemma wanted_perm : Permutation (settings filename fx prefix pkg) wanted.
  Proof.
    rewrite wanted_filename. unfold fx, settings, created_settings. destruct v2; [|reflexivity]. unfold settings_v2, settings_v1. cbn [app].
    set (a := ("go_package", _)). set (b := ("java_multiple_files", _)). set (c := ("java_outer_classname", _)). set (d := ("java_package", _)).
    set (e := ("csharp_namespace", _)). exact (Permutation_sym (Permutation_middle [a; b; c; d] _ e)).
  Qed.
  Variable os : list opt.
  Hypothesis Hos : Forall (fun o => o_comment o = None /\ o_inline o = None) os.
  Lemma reset_sets s : sets s (reset os s).
  Proof.
    destruct (reset_named os s) as [E1 E2]. split; [exact E1|]. split; [exact E2|]. unfold reset. destruct (last_named (fst s) os) as [o|] eqn:E; [|split; reflexivity].
    rewrite Forall_forall in Hos. cbn. apply Hos. now apply last_named_in in E.
  Qed.
  Lemma all_managed s : In s wanted -> In (fst s) managed_names.
  Proof.
    intros H. apply (in_map fst) in H. rewrite created_names in H. unfold managed_names. destruct v2; cbn [In] in *; tauto.
  Qed.
  Lemma sorted_wanted : Sorted (fun a b => str_leb (o_name a) (o_name b) = true) (map (reset os) wanted).
  Proof.
    apply (sorted_names o_name (map (fun s => mk_opt (mk_pos 0 0) (fst s) (snd s) None None) wanted)).
    - rewrite !map_map. apply map_ext. intros s. symmetry. exact (proj1 (reset_named os s)).
    - clear. destruct v2; unfold created_settings; cbn [app map fst snd]; repeat (constructor; [|repeat (constructor; try reflexivity)]); try constructor.
  Qed.
  Lemma wanted_names_once : NoDup (map o_name (map (reset os) wanted)).
  Proof.
    assert (E : map o_name (map (reset os) wanted) = map fst wanted) by (rewrite map_map; apply map_ext; intros s; exact (proj1 (reset_named os s))).
    rewrite E, created_names. destruct v2; repeat (constructor; [cbn; intuition discriminate|]); constructor.
  Qed.
  Lemma sort_wanted : sort_o (map (reset os) (settings filename fx prefix pkg)) = map (reset os) wanted.
  Proof.
    destruct (Hso (map (reset os) (settings filename fx prefix pkg))) as [P S]. symmetry. apply (sorted_unique o_name); [exact sorted_wanted|exact S| |exact wanted_names_once].
    eapply Permutation_trans; [|exact P]. apply Permutation_map, Permutation_sym, wanted_perm.
  Qed.
  Hypothesis Hheader : trim_space header = header.
  Lemma trimmed_text t : (forall c, first_char t = Some c -> is_space c = false) -> t <> "" ->
    (exists l, t = l +++ ";") -> forall e, sforall is_space e = true -> trim_space (t +++ e) = t.
  Proof.
    intros F N (l & L) e He. unfold trim_space. rewrite trim_left_id.
    - rewrite trim_right_app by exact He. apply trim_right_id. intros c. rewrite L, last_char_app_r by discriminate. intros [= <-]. reflexivity.
    - intros c. destruct t; [easy|]. cbn. exact (F c).
  Qed.
  Lemma body_ends : forall n, exists l, n +++ body_text pkg wanted = l +++ ";".
  Proof.
    intros n. unfold body_text. assert (exists l, join nl (map (fun s => "option " +++ fst s +++ " = " +++ source_of (snd s) +++ ";") wanted) = l +++ ";") as (l & ->).
    { generalize (created_names v2 pkg file prefix). destruct wanted as [|s r]; [destruct v2; discriminate|]. intros _. revert s. induction r as [|t r IH]; intros s.
      - exists ("option " +++ fst s +++ " = " +++ source_of (snd s)). cbn [map join]. now rewrite !sapp_assoc.
      - cbn [map]. rewrite join_cons2. destruct (IH t) as (l & E). cbn [map] in E. rewrite E. eexists. rewrite <- !sapp_assoc. reflexivity. }
    eexists. rewrite <- !sapp_assoc. reflexivity.
  Qed.
  Variable cs : list comment.
  Variable sx : syntax.
  Variable pk : package.
  Hypothesis Hcs : header = "" -> cs = [].
  Hypothesis Hsx : sx_value sx = "proto3" /\ sx_comment sx = None /\ sx_inline sx = None.
  Hypothesis Hpk : pk_name pk = pkg /\ pk_comment pk = None /\ pk_inline pk = None.
  Hypothesis Hsets : Forall2 sets wanted os.
  Let es : list element := map EComment cs ++ ESyntax sx :: EPackage pk :: map EOption os.
  Lemma filter_comments f : (forall c, f (EComment c) = false) -> filter f (map EComment cs) = [].
  Proof. intros H. clear - H. induction cs as [|c l IH]; [reflexivity|]. cbn. now rewrite H. Qed.
  Lemma filter_options f : (forall o, f (EOption o) = false) -> filter f (map EOption os) = [].
  Proof. intros H. clear - H. induction os as [|c l IH]; [reflexivity|]. cbn. now rewrite H. Qed.
  Lemma es_syntaxes : syntaxes es = [ESyntax sx].
  Proof. unfold es, syntaxes. rewrite filter_app, filter_comments by reflexivity. cbn [app filter]. now rewrite filter_options. Qed.
  Lemma es_packages : packages es = [EPackage pk].
  Proof. unfold es, packages. rewrite filter_app, filter_comments by reflexivity. cbn [app filter]. now rewrite filter_options. Qed.
  Lemma es_options : own_options es = os.
  Proof.
    unfold es. rewrite own_options_app. assert (own_options (map EComment cs) = []) as -> by (clear; induction cs; [reflexivity|exact IHl]).
    unfold own_options. cbn [app map concat]. clear. induction os as [|o l IH]; [reflexivity|]. cbn [map concat app]. now rewrite IH.
  Qed.
  Lemma es_imports : own_imports es = [].
  Proof.
    unfold es. rewrite own_imports_app. assert (own_imports (map EComment cs) = []) as -> by (clear; induction cs; [reflexivity|exact IHl]).
    unfold own_imports. cbn [app map concat]. clear. induction os as [|o l IH]; [reflexivity|]. cbn [map concat app]. exact IH.
  Qed.
  Lemma es_unmanaged : filter (fun o => negb (is_managed o)) os = [].
  Proof.
    assert (H : forall o, In o os -> is_managed o = true).
    { intros o Ho. apply managed_iff. destruct (Forall2_In_r _ _ _ _ Hsets Ho) as (s & Hs & E & _). rewrite E. now apply all_managed. }
    clear - H. induction os as [|o l IH]; [reflexivity|]. cbn [filter]. rewrite H by (now left). cbn. apply IH. intros x Hx. apply H. now right.
  Qed.
  Lemma es_main : main_loop sort_o false false es = says "".
  Proof.
    unfold es. clear. assert (E : forall b, main_loop sort_o false b (ESyntax sx :: EPackage pk :: map EOption os) = says "").
    { intros b. cbn [main_loop visit is_comment negb]. rewrite !orb_true_r. assert (E : main_loop sort_o false true (map EOption os) = says ""); [|rewrite E; reflexivity].
      induction os as [|o l IH]; [reflexivity|]. cbn [map main_loop visit visit_option orb]. rewrite IH. reflexivity. }
    induction cs as [|c l IH]; [apply E|]. cbn [map app main_loop visit is_comment negb orb]. rewrite IH. reflexivity.
  Qed.
  Theorem created_formatted : transform_elements sort_o sort_i filename fx header prefix es = Ok (created_text header pkg wanted +++ nl, []).
  Proof.
    unfold transform_elements. pose proof (after_all fx header es) as A. rewrite es_syntaxes, es_packages in A. specialize (A (le_n _) (le_n _)).
    set (v := fold_left (first_visit fx header) es first_pass_0) in *. clearbody v. pose proof A as A'.
    destruct A as (I1 & I2 & I3 & I4 & _ & _ & _ & _ & _ & _ & _ & _ & I13).
    assert (Nf : fx <> FixNone) by (unfold fx; now destruct v2).
    assert (Hn : fix_none fx = false) by (unfold fx; now destruct v2).
    rewrite I1. unfold first_syntax. rewrite es_syntaxes. destruct Hsx as (Hs0 & Hs1 & Hs2). rewrite Hs0. cbn [String.eqb Ascii.eqb Bool.eqb bind].
    cbv zeta. rewrite es_main. unfold says at 1. cbn [fst snd]. rewrite app_nil_r, sapp_nil_r.
    unfold first_do. cbv zeta. rewrite Hn. cbn [orb]. rewrite I1, I2, I3, I4. unfold first_syntax, first_package. rewrite es_syntaxes, es_packages, es_imports.
    rewrite Hs0, Hs1, Hs2. destruct Hpk as (-> & Hp1 & Hp2). rewrite Hp1, Hp2.
    rewrite (managed_is filename fx header prefix es v pkg Nf A'). unfold kept_options. rewrite Hn, es_options, es_unmanaged. cbn [app].
    assert (Es : p_options sort_o 0 false (map (reset os) (settings filename fx prefix pkg)) = says (lines wanted)).
    { unfold p_options. rewrite sort_wanted. apply option_lines; [|apply created_printable]. clear - Hos. generalize wanted. intros l. induction l as [|s l IH]; [constructor|].
      constructor; [now apply reset_sets|exact IH]. }
    assert (En : exists o l, map (reset os) (settings filename fx prefix pkg) = o :: l) by (unfold fx, settings; destruct v2; cbn [map app settings_v1 settings_v2]; eauto).
    destruct En as (o & l & En). rewrite En in *. rewrite Es. clear En Es o l.
    assert (Eo : fp_out v = ("", [])).
    { rewrite I13, Hn. cbn [orb]. destruct (is_empty header) eqn:E; [|reflexivity]. apply is_empty_true in E. unfold es. rewrite (Hcs E). reflexivity. }
    rewrite Eo. unfold outs, Format_Model.seq, says. cbn [fst snd app]. cbn [p_comment p_inline]. change (P 0 []) with nl.
    rewrite (P0 ["syntax = " +++ _; _; _]) by (exists ("syntax = " +++ quoted "proto3"); reflexivity).
    rewrite (P0 ["package "; pkg; ";"]) by (exists ("package " +++ pkg); cbn [cat]; now rewrite !sapp_assoc).
    assert (Ew : wanted <> []) by (destruct v2; discriminate). rewrite (lines_join _ Ew).
    set (opts := join nl _).
    assert (Eh : (if is_empty header then ("", []) : out else (P 0 [header] +++ nl, @nil failure) : out) = (if is_empty header then "" else header +++ nl +++ nl, [])).
    { destruct (is_empty header) eqn:E; [reflexivity|]. f_equal. apply is_empty_false in E. destruct (last_char_some header E) as (c & Ec).
      rewrite (P_plain 0 [header] c); [|cbn [cat]; now rewrite sapp_nil_r|rewrite <- Hheader in Ec; now apply trim_space_last in Ec]. cbn [cat srepeat]. now rewrite sapp_nil_r, !sapp_assoc. }
    rewrite Eh. cbn [fst snd app]. clear Eh.
    assert (Et : forall x y, x = created_text header pkg wanted +++ (nl +++ nl) -> y = (created_text header pkg wanted +++ nl, @nil failure) ->
              Ok (if is_empty (trim_space x) then "" else trim_space x +++ endl, @nil failure) = Ok y).
    { intros x y -> ->. rewrite trimmed_text; [|..|reflexivity].
      - assert (is_empty (created_text header pkg wanted) = false) as ->; [|reflexivity]. unfold created_text, body_text. destruct (is_empty header) eqn:E; [reflexivity|]. destruct header; [discriminate|reflexivity].
      - intros c. unfold created_text. destruct (is_empty header) eqn:E; [intros [= <-]; reflexivity|]. destruct header as [|d h] eqn:Eq; [discriminate|]. intros H. cbn in H. injection H as <-.
        apply (trim_space_first (String d h)). rewrite Hheader. reflexivity.
      - unfold created_text, body_text. destruct (is_empty header) eqn:E; [discriminate|]. destruct header; discriminate.
      - unfold created_text. apply body_ends. }
    rewrite ?sapp_nil_r. apply Et; [|reflexivity]. unfold created_text, body_text. fold opts. cbn [cat]. rewrite !sapp_nil_r, !sapp_assoc. reflexivity.
  Qed.
End Formatted.

(** ** The text *)
Lemma option_text n l o r : sets (n, l) o -> In n managed_names -> literal_ok l -> simple l ->
  lex_run (InWord "") ("option " +++ n +++ " = " +++ source_of l +++ ";" +++ r) = prep (option_tokens o) (lex_run (InWord "") r).
Proof.
  intros (E1 & E2 & E3 & E4) Hn Hl Hs. cbn [fst snd] in *. apply managed_a_name in Hn.
  assert (forall r, lex_run (InWord "") (("option " +++ n +++ " = ") +++ r) = prep ([Word "option"] ++ name_tokens n ++ [Sym "="]) (lex_run (InWord "") r)) as Hpre by (intros; lex_all).
  replace ("option " +++ n +++ " = " +++ source_of l +++ ";" +++ r) with (("option " +++ n +++ " = ") +++ (source_of l +++ String ";" r)) by (rewrite !sapp_assoc; reflexivity).
  rewrite Hpre, (source_sym l ";" r Hl Hs eq_refl), prep_prep. f_equal. unfold option_tokens, setting_tokens. rewrite E1, E2, E3, E4. cbn [comment_tokens app].
  rewrite ?app_nil_r, <- ?app_assoc. reflexivity.
Qed.
Definition setting_ok (s : string * literal) : Prop := In (fst s) managed_names /\ literal_ok (snd s) /\ simple (snd s).
Lemma options_text settings os : Forall2 sets settings os -> Forall setting_ok settings ->
  reads_as (join nl (map (fun s => "option " +++ fst s +++ " = " +++ source_of (snd s) +++ ";") settings)) (concat (map option_tokens os)).
Proof.
  unfold reads_as. induction 1 as [|[n l] o settings os H Hr IH]; intros F; [reflexivity|]. inversion F as [|? ? (F1 & F2 & F3) F']; subst. cbn [fst snd] in *.
  specialize (IH F'). destruct settings as [|s settings].
  - inversion Hr; subst. cbn [map join concat fst snd]. rewrite <- (sapp_nil_r ";"). rewrite (option_text n l o "" H F1 F2 F3). unfold prep. reflexivity.
  - cbn [map concat fst snd] in *. rewrite join_cons2. cbn [fst snd]. rewrite !sapp_assoc. rewrite (option_text n l o _ H F1 F2 F3). match goal with |- context [nl +++ ?x] => change (nl +++ x) with (String newline x) end. rewrite run_space by reflexivity. change (word_end "") with (@nil token). rewrite prep_nil, IH. reflexivity.
Qed.
Lemma created_ok v2 pkg file prefix : a_package pkg -> quotes_free file -> quotes_free prefix -> Forall setting_ok (created_settings v2 pkg file prefix).
Proof.
  intros Hp Hf Hx. destruct (value_strings pkg file prefix) as (V1 & V2 & V3 & V4 & V5 & V6 & V7); [now apply package_safe|now apply quotes_safe|now apply quotes_safe|].
  assert (a_word "true") as Ht by (split; [discriminate|reflexivity]).
  assert (F : Forall (fun s => literal_ok (snd s) /\ simple (snd s)) (created_settings v2 pkg file prefix)).
  { unfold created_settings. destruct v2; cbn [app]; repeat (constructor; [split; [cbn [snd a_value literal_ok]; assumption|now apply simple_iff]|]); constructor. }
  apply Forall_forall. intros s Hs. split; [now apply (all_managed v2 pkg file prefix)|]. rewrite Forall_forall in F. now apply F.
Qed.
Theorem created_reads sort_o v2 pkg file prefix header es hts : a_package pkg -> quotes_free file -> quotes_free prefix ->
  declares_just pkg (created_settings v2 pkg file prefix) es -> reads_as (header +++ String newline "") hts ->
  reads_as (created_text header pkg (created_settings v2 pkg file prefix)) (hts ++ concat (map (tokens sort_o) es)).
Proof.
  intros Hp Hf Hx (sx & pk & os & -> & S1 & S2 & S3 & P1 & P2 & P3 & F) Hh. unfold created_text. apply reads_app.
  - destruct (is_empty header) eqn:E; [apply is_empty_true in E; subst header; inversion Hh; subst; reflexivity|]. rewrite <- (app_nil_r hts).
    replace (header +++ nl +++ nl) with ((header +++ String newline "") +++ nl) by (rewrite sapp_assoc; reflexivity). apply reads_app; [exact Hh|reflexivity].
  - pose proof (options_text _ _ F (created_ok v2 pkg file prefix Hp Hf Hx)) as R. cbn [map concat tokens]. rewrite S1, S2, S3, P1, P2, P3. rewrite map_map. cbn [comment_tokens app].
    pose proof (package_word _ Hp) as W. unfold body_text.
    set (x := join nl _) in *.
    replace ("syntax = " +++ quoted "proto3" +++ ";" +++ nl +++ nl +++ "package " +++ pkg +++ ";" +++ nl +++ nl +++ x)
      with (("syntax = " +++ quoted "proto3" +++ ";" +++ nl +++ nl) +++ ("package " +++ pkg +++ ";" +++ nl +++ nl) +++ x) by (rewrite ?sapp_assoc; reflexivity).
    apply (reads_app _ _ [Word "syntax"; Sym "="; Str dquote "proto3"; Sym ";"]); [reflexivity|].
    apply (reads_app _ _ [Word "package"; Word pkg; Sym ";"]); [|exact R]. unfold reads_as. 
    rewrite (run_app "package "). change (lex_run (InWord "") "package ") with ([Word "package"], InWord ""). cbn [fst snd].
    rewrite (run_word pkg _ W). change (";" +++ nl +++ nl) with (String ";" (nl +++ nl)). rewrite run_sym by reflexivity. rewrite (word_end_word _ W). reflexivity.
Qed.

(** ** The configuration *)
Lemma join_first x r : x <> "" -> first_char (join nl (x :: r)) = first_char x.
Proof. intros H. destruct r; [reflexivity|]. rewrite join_cons2. now apply first_char_app. Qed.
Lemma join_last r x : x <> "" -> last_char (join nl (r ++ [x])) = last_char x.
Proof.
  intros H. destruct r as [|y r]; [reflexivity|]. rewrite join_snoc by discriminate. rewrite last_char_app_r; [|destruct x; discriminate].
  now rewrite last_char_app_r.
Qed.
Lemma all_space_trim s : trim_space s = "" -> sforall is_space s = true.
Proof.
  intros H. unfold trim_space in H. destruct (trim_left_spec is_space s) as (p & E & F). destruct (trim_right_spec is_space (trim_left is_space s)) as (q & E' & F').
  rewrite H in E'. cbn in E'. rewrite E, E', sforall_app, F. exact F'.
Qed.
Lemma sforall_first f s c : sforall f s = true -> first_char s = Some c -> f c = true.
Proof. destruct s as [|a s]; [discriminate|]. cbn. rewrite andb_true_iff. intros [H _] [= <-]. exact H. Qed.
Lemma sforall_srev f s : sforall f (srev s) = sforall f s.
Proof. induction s as [|c s IH]; [reflexivity|]. rewrite srev_cons, sforall_app, IH. cbn. now rewrite andb_true_r, andb_comm. Qed.
Lemma sforall_last f s c : sforall f s = true -> last_char s = Some c -> f c = true.
Proof. unfold last_char. rewrite <- sforall_srev. apply sforall_first. Qed.
Lemma has_first s : s <> "" -> exists c, first_char s = Some c.
Proof. destruct s; [easy|]. eexists; reflexivity. Qed.
Lemma has_last s : s <> "" -> exists c, last_char s = Some c.
Proof. intros H. unfold last_char. apply has_first. intros E. apply H. rewrite <- (srev_involutive s), E. reflexivity. Qed.
Lemma trimmed_header text commented header : header_of text commented header -> trim_space header = header.
Proof.
  intros (raw & E & _ & N & ->). set (g := fun l => if commented then trim_space l else match trim_space l with EmptyString => "//" | t => "// " +++ t end).
  assert (forall l c, first_char (g l) = Some c -> is_space c = false) as G1.
  { intros l c. unfold g. destruct commented; [apply trim_space_first|]. destruct (trim_space l); intros [= <-]; reflexivity. }
  assert (forall l c, last_char (g l) = Some c -> is_space c = false) as G2.
  { intros l c. unfold g. destruct commented; [apply trim_space_last|]. destruct (trim_space l) as [|a t] eqn:T; [intros [= <-]; reflexivity|].
    rewrite last_char_app_r by discriminate. rewrite <- T. apply trim_space_last. }
  assert (forall l, g l = "" -> sforall is_space l = true) as G3.
  { intros l. unfold g. destruct commented; [apply all_space_trim|]. destruct (trim_space l); discriminate. }
  assert (forall x, raw = [x] -> sforall is_space x = true -> x = "") as One.
  { intros x -> A. cbn [join] in E. destruct x as [|a x]; [reflexivity|]. assert (is_space a = false) as Sp by (apply (trim_space_first text); rewrite E; reflexivity).
    cbn in A. rewrite Sp in A. discriminate. }
  unfold trim_space. rewrite trim_left_id.
  - apply trim_right_id. intros c. destruct (exists_last N) as (r & x & ->). rewrite map_app. cbn [map]. destruct (g x) as [|a t] eqn:Gx.
    + pose proof (G3 _ Gx) as A. destruct r as [|y r].
      * cbn. discriminate.
      * exfalso. rewrite join_snoc in E by discriminate. destruct x as [|b x].
        -- pose proof (trim_space_last text newline) as X. rewrite E, sapp_nil_r, last_char_app_r in X by discriminate. discriminate (X eq_refl).
        -- destruct (has_last (String b x)) as (d & Hd); [discriminate|]. pose proof (trim_space_last text d) as X. rewrite E, <- sapp_assoc, last_char_app_r in X by discriminate.
           specialize (X Hd). rewrite (sforall_last _ _ _ A Hd) in X. discriminate.
    + rewrite join_last by discriminate. rewrite <- Gx. apply G2.
  - intros c. destruct raw as [|x r]; [easy|]. cbn [map]. destruct (g x) as [|a t] eqn:Gx.
    + pose proof (G3 _ Gx) as A. destruct r as [|y r].
      * cbn. discriminate.
      * exfalso. destruct x as [|b x].
        -- pose proof (trim_space_first text newline) as X. rewrite E, join_cons2 in X. discriminate (X eq_refl).
        -- pose proof (trim_space_first text b) as X. rewrite E, join_first in X by discriminate. specialize (X eq_refl). cbn in A. rewrite X in A. discriminate.
    + rewrite join_first by discriminate. rewrite <- Gx. apply G1.
Qed.

Section Made.
  Variable ord : order.
  Variable cwd : string.
  Variable ex : string -> bool.
  Variable read : string -> result string.
  Variable dj dy : string -> result external_config.
  Variable look : string -> result string.
  Variable sort : list gen_plugin -> list gen_plugin.
  Variable devel : bool.
  Hypothesis Hsort : sorts sort.
  Variable pkg config_data : string.
  Variable write : string -> write_outcome.
  Notation cdir := (get_for_dir ex read dj dy look sort devel).
  Notation cdata := (get_for_data read dj look sort devel).
  Notation config_of := (create_get_config cwd cdir cdata config_data).
  Lemma config_made f ds c : ok_comps ds -> path_dir (path_abs cwd f) = abs_path ds -> config_of f = Ok c ->
    is_empty (cfg_dir c) = false /\ to_lower (lc_group (cfg_lint c)) = lc_group (cfg_lint c) /\ trim_space (header_of_config c) = header_of_config c.
  Proof.
    intros Hds Ed E. assert (exists cd e, ok_comps cd /\ external_config_to_config read look sort devel e (abs_path cd) = Ok c) as (cd & e & Hcd & Ec).
    { unfold create_get_config in E. rewrite Ed in E. destruct (is_empty config_data); cbn [negb] in E.
      - apply get_for_dir_iff in E; [|assumption]. destruct E as [(_ & Ec)|(a & file & e & (b & -> & _) & _ & _ & Ec)]; [exists ds; eauto|].
        apply ok_comps_app in Hds as [Ha _]. exists a; eauto.
      - unfold get_for_data in E. destruct (is_abs (abs_path ds)); [|discriminate]. cbn [negb] in E. destruct (dj config_data) as [e|]; [|discriminate]. cbn [bind] in E.
        rewrite clean_abs_path in E by assumption. exists ds, e. auto. }
    apply (accepted read look sort devel Hsort) in Ec as [_ B]; [|exists cd; auto].
    split; [rewrite (be_dir _ _ _ _ _ B); reflexivity|]. split; [destruct (be_lint _ _ _ _ _ B) as (-> & _); apply to_lower_idem|].
    unfold header_of_config. destruct (be_header _ _ _ _ _ B) as [(_ & _ & ->)|(text & _ & H & _)]; [reflexivity|]. eapply trimmed_header, H.
  Qed.
  Theorem made_package fs files fs' f ds :
    create ord cwd cdir cdata pkg config_data write fs files = (fs', Ok tt) -> In f files -> NoDup (map (path_abs cwd) files) ->
    ok_comps ds -> path_dir (path_abs cwd f) = abs_path ds ->
    f <> "" /\ exists c p, config_of f = Ok c /\ trim_space (header_of_config c) = header_of_config c /\
      get_pkg ord cwd cdir cdata pkg config_data f (if in_uber2 c then default_package_v2 else default_package) = Ok p /\
      fs' (path_abs cwd f) = Regular (created_text (header_of_config c) p (created_settings (in_uber2 c) p f (prefix_of c))).
  Proof.
    intros R Hf N Hds Ed. destruct (all_written _ _ _ _ _ _ _ _ _ _ R f Hf) as (g & text & Hg & Eg & Ht & Ew).
    assert (g = f) as ->.
    { clear - N Hf Hg Eg. induction files as [|h files IH]; [easy|]. cbn [map] in N. inversion N as [|? ? N1 N2]; subst.
      destruct Hf as [->|Hf], Hg as [->|Hg]; [reflexivity| | |now apply IH].
      - exfalso. apply N1. rewrite <- Eg. now apply in_map.
      - exfalso. apply N1. rewrite Eg. now apply in_map. }
    split.
    { intros ->. destruct (nothing_written ord cwd cdir cdata pkg config_data write fs files "" Hf) as (m & X); [now left|]. rewrite X in R. discriminate. }
    unfold create_data in Ht. unfold create_is_v2, get_file_header, get_java_package_prefix in Ht.
    destruct (config_of f) as [c|] eqn:E; [|discriminate]. cbn [bind] in Ht.
    destruct (config_made f ds c Hds Ed E) as (Hne & Lo & Hh). rewrite ?Hne in Ht. cbn [bind] in Ht. rewrite Lo in Ht.
    change (String.eqb (lc_group (cfg_lint c)) "uber2") with (in_uber2 c) in Ht.
    change (lc_file_header (cfg_lint c)) with (header_of_config c) in Ht. change (lc_java_package_prefix (cfg_lint c)) with (prefix_of c) in Ht.
    set (default := if in_uber2 c then default_package_v2 else default_package) in *.
    destruct (get_pkg ord cwd cdir cdata pkg config_data f default) as [p|] eqn:Ep; [|discriminate]. cbn [bind] in Ht. injection Ht as Ht.
    exists c, p. split; [reflexivity|]. split; [exact Hh|]. split; [exact Ep|]. rewrite Ew. f_equal. rewrite <- Ht. rewrite data_is_body. unfold created_text. f_equal.
    now destruct (header_of_config c).
  Qed.
  Theorem made fs files fs' f ds :
    create ord cwd cdir cdata pkg config_data write fs files = (fs', Ok tt) -> In f files -> NoDup (map (path_abs cwd) files) ->
    ok_comps ds -> path_dir (path_abs cwd f) = abs_path ds ->
    f <> "" /\ exists c p, config_of f = Ok c /\ trim_space (header_of_config c) = header_of_config c /\
      fs' (path_abs cwd f) = Regular (created_text (header_of_config c) p (created_settings (in_uber2 c) p f (prefix_of c))).
  Proof. intros R Hf N Hds Ed. destruct (made_package fs files fs' f ds R Hf N Hds Ed) as (A & c & p & B & C & _ & D). eauto 7. Qed.
End Made.
