(** What create writes: C30. *)
From Coq Require Import Permutation.
From Verif Require Import GoStrFacts GoPathFacts Strs_Model Proto_AST Settings_Types Settings_Model Settings_Spec Settings_Proofs Settings_Proofs2 File_Spec.
From Verif Require Import Lint_Model Lint_Spec LintRun_Spec LintRun_Proofs Lint_Table Props_Lint Props_Settings.
From Verif Require Import Create_Model Create_Spec Create_Proofs Props_Create Format_Model Format_Spec Format_Proofs Format_Fix Props_Format.
From Verif Require Import CreateOut_Spec CreateOut_Proofs CreateOut_Lint.

Lemma which_config cwd (cdir : string -> result config) cdata config_data f ds : path_dir (path_abs cwd f) = abs_path ds ->
  create_get_config cwd cdir cdata config_data f = (if String.eqb config_data "" then cdir (abs_path ds) else cdata (abs_path ds) config_data).
Proof. intros E. unfold create_get_config. rewrite E. now destruct config_data. Qed.
Lemma created_states header p settings : states_package header (created_text header p settings) p.
Proof.
  unfold states_package, created_text, body_text. replace (String.eqb header "") with (is_empty header) by now destruct header.
  exists (nl +++ join nl (map (fun s => "option " +++ fst s +++ " = " +++ source_of (snd s) +++ ";") settings)). reflexivity.
Qed.

(** ** C30: create, then format and lint *)
(** If Create succeeds, then format --fix, run with the configuration of the file that was
    created, only adds the final newline.  The parser is given: it is to find in the text
    the declarations of proto3, the package, the options of the group, and before them
    only comments, none if no header is configured. *)
Theorem C30_format : forall ord cwd exists_file read_file decode_json decode_yaml look_path sort_plugins devel pkg config_data write fs files fs' f ds,
  sorts sort_plugins ->
  let config_for_dir := get_for_dir exists_file read_file decode_json decode_yaml look_path sort_plugins devel in
  let config_for_data := get_for_data read_file decode_json look_path sort_plugins devel in
  create ord cwd config_for_dir config_for_data pkg config_data write fs files = (fs', Ok tt) ->
  In f files -> NoDup (map (path_abs cwd) files) -> ok_comps ds -> path_dir (path_abs cwd f) = abs_path ds ->
  exists c p text,
    (if String.eqb config_data "" then config_for_dir (abs_path ds) else config_for_data (abs_path ds) config_data) = Ok c /\
    fs' (path_abs cwd f) = Regular text /\ states_package (header_of_config c) text p /\
    forall sort_options sort_imports parse filename cs es,
      sorts_by o_name sort_options ->
      parse text = Ok (map EComment cs ++ es) -> contents_of c p f es -> (header_of_config c = "" -> cs = []) ->
      filename <> "" -> path_base f = path_base filename ->
      transform sort_options sort_imports parse (if in_uber2 c then 2%Z else 1%Z) (header_of_config c) (prefix_of c) filename text
        = Ok (text +++ nl, []).
Proof.
  intros ord cwd ex rd dj dy look sort devel pkg cd write fs files fs' f ds Hs cdir cdata R Hf N Hds Ed.
  destruct (made ord cwd ex rd dj dy look sort devel Hs pkg cd write fs files fs' f ds R Hf N Hds Ed) as (Hfe & c & p & Ec & Hh & Ew).
  exists c, p, (created_text (header_of_config c) p (created_settings (in_uber2 c) p f (prefix_of c))).
  split; [exact (eq_trans (eq_sym (which_config cwd cdir cdata cd f ds Ed)) Ec)|]. split; [exact Ew|]. split; [apply created_states|].
  intros so si parse filename cs es Ho Ep (sx & pk & os & -> & S1 & S2 & S3 & P1 & P2 & P3 & F) Hcs Hn Hb. unfold transform.
  pose proof (created_formatted so si Ho (in_uber2 c) p f filename (prefix_of c) (header_of_config c) Hfe Hn Hb os) as X.
  assert (Forall (fun o => o_comment o = None /\ o_inline o = None) os) as Fo.
  { clear - F. induction F as [|s o w os (_ & _ & A & B) F IH]; constructor; auto. }
  specialize (X Fo Hh cs sx pk Hcs (conj S1 (conj S2 S3)) (conj P1 (conj P2 P3)) F).
  assert (check_fix (if in_uber2 c then 2%Z else 1%Z) = Ok (if in_uber2 c then FixV2 else FixV1)) as -> by now destruct (in_uber2 c).
  cbn [bind]. rewrite Ep. cbn [bind]. rewrite X. reflexivity.
Qed.
Print Assumptions C30_format.
(** The text is nothing but the header and these declarations: whatever they are, its words
    are those of the header and of the declarations. *)
Theorem C30_reads : forall ord cwd exists_file read_file decode_json decode_yaml look_path sort_plugins devel pkg config_data write fs files fs' f ds,
  sorts sort_plugins ->
  let config_for_dir := get_for_dir exists_file read_file decode_json decode_yaml look_path sort_plugins devel in
  let config_for_data := get_for_data read_file decode_json look_path sort_plugins devel in
  create ord cwd config_for_dir config_for_data pkg config_data write fs files = (fs', Ok tt) ->
  In f files -> NoDup (map (path_abs cwd) files) -> ok_comps ds -> path_dir (path_abs cwd f) = abs_path ds ->
  exists c p text,
    (if String.eqb config_data "" then config_for_dir (abs_path ds) else config_for_data (abs_path ds) config_data) = Ok c /\
    fs' (path_abs cwd f) = Regular text /\ states_package (header_of_config c) text p /\
    forall sort_options es hts,
      a_package p -> quotes_free f -> quotes_free (prefix_of c) -> contents_of c p f es ->
      reads_as (header_of_config c +++ nl) hts ->
      reads_as text (hts ++ concat (map (tokens sort_options) es)).
Proof.
  intros ord cwd ex rd dj dy look sort devel pkg cd write fs files fs' f ds Hs cdir cdata R Hf N Hds Ed.
  destruct (made ord cwd ex rd dj dy look sort devel Hs pkg cd write fs files fs' f ds R Hf N Hds Ed) as (Hfe & c & p & Ec & Hh & Ew).
  exists c, p, (created_text (header_of_config c) p (created_settings (in_uber2 c) p f (prefix_of c))).
  split; [exact (eq_trans (eq_sym (which_config cwd cdir cdata cd f ds Ed)) Ec)|]. split; [exact Ew|]. split; [apply created_states|].
  intros so es hts Hp Hq Hx D Hr. now apply created_reads.
Qed.
Print Assumptions C30_reads.
(** Linting the file that was created, also after format has added the final newline,
    reports nothing for any rule of its group, but those about the names the user chose and
    those that compare the files of a directory; a header may have no C style comments, and
    without group uber2 the prefix of Java packages must not be changed. *)
Theorem C30_lint_partial : forall ord cwd exists_file read_file decode_json decode_yaml look_path sort_plugins devel pkg config_data write fs files fs' f ds,
  sorts sort_plugins ->
  let config_for_dir := get_for_dir exists_file read_file decode_json decode_yaml look_path sort_plugins devel in
  let config_for_data := get_for_data read_file decode_json look_path sort_plugins devel in
  create ord cwd config_for_dir config_for_data pkg config_data write fs files = (fs', Ok tt) ->
  In f files -> NoDup (map (path_abs cwd) files) -> ok_comps ds -> path_dir (path_abs cwd f) = abs_path ds ->
  exists c p text,
    (if String.eqb config_data "" then config_for_dir (abs_path ds) else config_for_data (abs_path ds) config_data) = Ok c /\
    fs' (path_abs cwd f) = Regular text /\ states_package (header_of_config c) text p /\
    forall ord' sing d l cs es, reorders ord' ->
      contents_of c p f es -> d_elements d = map EComment cs ++ es -> Forall (fun k => c_cstyle k = false) cs ->
      d_data d = text \/ d_data d = text +++ nl -> ps_config (d_set d) = c -> d_filename d <> "" -> path_base f = path_base (d_filename d) ->
      a_package p -> in_uber2 c = true \/ prefix_of c = "" \/ prefix_of c = "com" ->
      In l (all_linters ord' sing) -> base_rule (cfg_lint c) (ln_id l) -> ~ In (ln_id l) name_rules -> ~ In (ln_id l) directory_rules ->
      linter_check l [d] = Ok [].
Proof.
  intros ord cwd ex rd dj dy look sort devel pkg cd write fs files fs' f ds Hs cdir cdata R Hf N Hds Ed.
  destruct (made ord cwd ex rd dj dy look sort devel Hs pkg cd write fs files fs' f ds R Hf N Hds Ed) as (Hfe & c & p & Ec & Hh & Ew).
  exists c, p, (created_text (header_of_config c) p (created_settings (in_uber2 c) p f (prefix_of c))).
  split; [exact (eq_trans (eq_sym (which_config cwd cdir cdata cd f ds Ed)) Ec)|]. split; [exact Ew|]. split; [apply created_states|].
  intros ord' sing d l cs es Ho D E Hcs Hd C Hn Hb Hp Hx Hl B N1 N2.
  apply (created_lint_all ord' sing c p f es cs d l Ho D E Hcs); try assumption.
  assert (forall r, exists t, created_text (header_of_config c) p r = header_of_config c +++ t) as X.
  { intros r. unfold created_text. destruct (is_empty (header_of_config c)) eqn:Eh; [apply is_empty_true in Eh; rewrite Eh; eexists; reflexivity|].
    eexists. rewrite sapp_assoc. reflexivity. }
  destruct (X (created_settings (in_uber2 c) p f (prefix_of c))) as (t & Et). rewrite Et in Hd.
  destruct Hd as [Hd|Hd]; rewrite Hd; [eexists; reflexivity|]. eexists. rewrite sapp_assoc. reflexivity.
Qed.
Print Assumptions C30_lint_partial.

(** ** A project for the examples *)
(** /w has a configuration with a header, a group and a prefix. *)
Definition out_external (group prefix : string) : external_config :=
  mk_external_config [] false "" [] [] group [] false [] [] (mk_ext_header "" "Copyright" false) prefix false false false "" [] [].
Definition out_config (group prefix : string) : string -> result config :=
  get_for_dir w_exists w_read w_json (fun _ => Ok (out_external group prefix)) no_file by_name false.
Definition out_data (group prefix : string) : string -> string -> result config := get_for_data w_read w_json no_file by_name false.
Definition out_create (group prefix : string) : fsys * result unit :=
  create in_order "/w" (out_config group prefix) (out_data group prefix) "acme.foo.v1" "" always w_fs ["idl/a/bar_baz.proto"].
Definition out_text (group prefix : string) : string :=
  match fst (out_create group prefix) "/w/idl/a/bar_baz.proto" with Regular t => t | _ => "" end.
Definition no_config : config := match out_config "" "" "/w" with Ok c => c | Err _ => a_config "" plain_lint end.
Definition config_made (group prefix : string) : config := match out_config group prefix "/w/idl/a" with Ok c => c | Err _ => no_config end.
Definition option_of (s : string * literal) : opt := mk_opt (at_line 7) (fst s) (snd s) None None.
Definition out_elements (group prefix : string) : list element :=
  ESyntax (mk_syntax (at_line 3) "proto3" None None) :: EPackage (mk_package (at_line 5) "acme.foo.v1" None None) ::
  map EOption (map option_of (created_settings (in_uber2 (config_made group prefix)) "acme.foo.v1" "idl/a/bar_baz.proto" (prefix_of (config_made group prefix)))).
Definition out_file (group prefix : string) : descriptor :=
  mk_descriptor "idl/a/bar_baz.proto" (map EComment [remark " Copyright"] ++ out_elements group prefix)
    (mk_proto_set "/w" "/w/idl/a" [] (config_made group prefix)) (out_text group prefix).
Lemma just_options group prefix : contents_of (config_made group prefix) "acme.foo.v1" "idl/a/bar_baz.proto" (out_elements group prefix).
Proof.
  eexists _, _, _. split; [reflexivity|]. do 6 (split; [reflexivity|]). generalize (created_settings (in_uber2 (config_made group prefix)) "acme.foo.v1" "idl/a/bar_baz.proto" (prefix_of (config_made group prefix))).
  induction l; constructor; [repeat split|assumption].
Qed.
Example C30_ex : sorts by_name /\ snd (out_create "uber2" "org") = Ok tt /\ snd (out_create "" "") = Ok tt /\
  NoDup (map (path_abs "/w") ["idl/a/bar_baz.proto"]) /\ path_dir (path_abs "/w" "idl/a/bar_baz.proto") = abs_path ["w"; "idl"; "a"] /\
  out_config "uber2" "org" "/w/idl/a" = Ok (config_made "uber2" "org") /\ out_config "" "" "/w/idl/a" = Ok (config_made "" "") /\
  in_uber2 (config_made "uber2" "org") = true /\ header_of_config (config_made "" "") = "// Copyright" /\
  contents_of (config_made "uber2" "org") "acme.foo.v1" "idl/a/bar_baz.proto" (out_elements "uber2" "org") /\
  a_package "acme.foo.v1" /\ quotes_free "idl/a/bar_baz.proto" /\ reads_as ("// Copyright" +++ nl) [Rem " Copyright"] /\
  transform so si (fun _ => Ok (map EComment [remark " Copyright"] ++ out_elements "uber2" "org")) 2 "// Copyright" "org" "/w/idl/a/bar_baz.proto" (out_text "uber2" "org")
    = Ok (out_text "uber2" "org" +++ nl, []) /\
  transform so si (fun _ => Ok (map EComment [remark " Copyright"] ++ out_elements "" "")) 1 "// Copyright" "" "/w/idl/a/bar_baz.proto" (out_text "" "")
    = Ok (out_text "" "" +++ nl, []) /\
  base_rule (cfg_lint (config_made "uber2" "org")) "FILE_OPTIONS_EQUAL_JAVA_PACKAGE_PREFIX" /\
  base_rule (cfg_lint (config_made "" "")) "FILE_HEADER" /\ ~ In "FILE_HEADER" name_rules /\ ~ In "FILE_HEADER" directory_rules /\
  outcome "FILE_OPTIONS_EQUAL_JAVA_PACKAGE_PREFIX" [out_file "uber2" "org"] = Ok [] /\
  outcome "FILE_HEADER" [out_file "" ""] = Ok [] /\
  (* without the header, or with another package, these rules do report *)
  (exists x l, outcome "FILE_HEADER" [mk_descriptor "idl/a/bar_baz.proto" (out_elements "" "") (mk_proto_set "/w" "/w/idl/a" [] (config_made "" "")) "syntax"] = Ok (x :: l)) /\
  (exists x l, outcome "FILE_OPTIONS_EQUAL_JAVA_PACKAGE_PREFIX" [mk_descriptor "idl/a/bar_baz.proto" (out_elements "uber2" "org") (mk_proto_set "/w" "/w/idl/a" [] (config_made "uber2" "net")) ""] = Ok (x :: l)).
Proof.
  split; [exact by_name_sorts|]. split; [vm_compute; reflexivity|]. split; [vm_compute; reflexivity|]. split; [repeat constructor; intros []|].
  do 5 (split; [vm_compute; reflexivity|]). split; [apply just_options|]. split; [split; [discriminate|reflexivity]|]. split; [repeat split|].
  split; [reflexivity|]. split; [vm_compute; reflexivity|]. split; [vm_compute; reflexivity|].
  split; [left; split; [discriminate|]; exists ["uber2"]; split; [vm_compute; tauto|now left]|].
  split; [right; split; [vm_compute; reflexivity|]; split; [vm_compute; reflexivity|]; exists ["google"; "uber1"; "uber2"]; split; [vm_compute; tauto|right; now left]|].
  split; [vm_compute; intuition discriminate|]. split; [vm_compute; intuition discriminate|].
  split; [vm_compute; reflexivity|]. split; [vm_compute; reflexivity|].
  split; eexists _, _; vm_compute; reflexivity.
Qed.
(** Without group uber2 and with another prefix, the file that was created is reported by
    FILE_OPTIONS_EQUAL_JAVA_PACKAGE_COM_PREFIX. *)
Theorem C30_uber1_prefix_refuted : exists c es d l x fs,
  out_create "uber1" "org" = (fst (out_create "uber1" "org"), Ok tt) /\ out_config "uber1" "org" "/w/idl/a" = Ok c /\ prefix_of c = "org" /\
  fst (out_create "uber1" "org") "/w/idl/a/bar_baz.proto" = Regular (d_data d) /\
  contents_of c "acme.foo.v1" "idl/a/bar_baz.proto" es /\ d_elements d = map EComment [remark " Copyright"] ++ es /\
  ps_config (d_set d) = c /\ d_filename d = "idl/a/bar_baz.proto" /\
  In l (all_linters in_order (fun s => s)) /\ base_rule (cfg_lint c) (ln_id l) /\ ~ In (ln_id l) name_rules /\ ~ In (ln_id l) directory_rules /\
  linter_check l [d] = Ok (x :: fs).
Proof.
  destruct (find (fun l => String.eqb (ln_id l) "FILE_OPTIONS_EQUAL_JAVA_PACKAGE_COM_PREFIX") (all_linters in_order (fun s => s))) as [l|] eqn:F;
    [|vm_compute in F; discriminate].
  pose proof (find_some _ _ F) as [Hl E]. apply String.eqb_eq in E.
  pose proof (outcome_is l _ [out_file "uber1" "org"] Hl E) as O.
  destruct (outcome "FILE_OPTIONS_EQUAL_JAVA_PACKAGE_COM_PREFIX" [out_file "uber1" "org"]) as [[|x fs]|] eqn:Eo; [vm_compute in Eo; discriminate| |vm_compute in Eo; discriminate].
  exists (config_made "uber1" "org"), (out_elements "uber1" "org"), (out_file "uber1" "org"), l, x, fs.
  split; [rewrite (surjective_pairing (out_create "uber1" "org")) at 1; f_equal; vm_compute; reflexivity|]. split; [vm_compute; reflexivity|]. split; [vm_compute; reflexivity|].
  split; [vm_compute; reflexivity|]. split; [apply just_options|]. do 3 (split; [reflexivity|]). split; [exact Hl|]. rewrite E.
  split; [left; split; [discriminate|]; exists ["uber1"]; split; [vm_compute; tauto|now left]|].
  split; [vm_compute; intuition discriminate|]. split; [vm_compute; intuition discriminate|]. now rewrite <- O.
Qed.
Print Assumptions C30_uber1_prefix_refuted.
