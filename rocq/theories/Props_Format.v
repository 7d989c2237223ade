(** Properties C23-C26: format.  The sorting functions are those of Go's sort.Slice: any
    that permute and order by name. *)
From Coq Require Import Permutation Sorted.
From Verif Require Import GoStrFacts Lint_Spec LintRun_Spec Lint_Table Text_Spec Props_Lint Format_Spec Format_Model Format_Proofs
  Format_First Format_Values Format_Shape Format_Same Format_Same2 Format_Fix.

(** ** Witnesses *)
Fixpoint insert_by {A} (name : A -> string) (x : A) (l : list A) : list A :=
  match l with [] => [x] | y :: r => if str_leb (name x) (name y) then x :: l else y :: insert_by name x r end.
Fixpoint sort_by {A} (name : A -> string) (l : list A) : list A :=
  match l with [] => [] | x :: r => insert_by name x (sort_by name r) end.
Lemma insert_by_perm {A} (name : A -> string) x l : Permutation (x :: l) (insert_by name x l).
Proof.
  induction l as [|y l IH]; [reflexivity|]. cbn [insert_by]. destruct (str_leb _ _); [reflexivity|]. rewrite perm_swap. now constructor.
Qed.
Lemma insert_by_sorted {A} (name : A -> string) x l : Sorted (fun a b => str_leb (name a) (name b) = true) l ->
  Sorted (fun a b => str_leb (name a) (name b) = true) (insert_by name x l).
Proof.
  induction l as [|y l IH]; intros H; [repeat constructor|]. cbn [insert_by]. destruct (str_leb (name x) (name y)) eqn:E.
  - constructor; [assumption|]. now constructor.
  - inversion H as [|? ? H1 H2]; subst. constructor; [now apply IH|].
    destruct (str_leb_total (name x) (name y)) as [F|F]; [congruence|].
    destruct l as [|z l]; cbn [insert_by]; [now constructor|]. destruct (str_leb (name x) (name z)); constructor; [assumption|]. now inversion H2.
Qed.
Lemma sort_by_sorts {A} (name : A -> string) : sorts_by name (sort_by name).
Proof.
  intros l. induction l as [|x l [P S]]; cbn [sort_by]; [split; constructor|]. split; [|now apply insert_by_sorted].
  rewrite <- insert_by_perm. now constructor.
Qed.
Definition so : list opt -> list opt := sort_by o_name.
Definition si : list import -> list import := sort_by im_filename.
Definition remark (line : string) : comment := mk_comment (at_line 1) [line] false.
Definition value (s : string) : literal := mk_literal s true (Some dquote) [] [].
Definition setting (name v : string) : opt := mk_opt (at_line 1) name (value v) None None.
(** A file out of order: a comment, an import, a message with a field and an enum, a
    service, two options, the package, another import, the syntax. *)
Definition untidy : list element := [
  EComment (remark " Everything about foo. ");
  EImport (mk_import (at_line 3) "b.proto" "" None None);
  EMessage (mk_header (at_line 4) "Foo" (Some (remark " Foo."))) false [
    EField (Normal true false false) (mk_field (at_line 5) "names" "string" 1 [setting "json_name" "n"; setting "(a.b)" "x"] None (Some (remark " last ")));
    EField (InMap "string") (mk_field (at_line 6) "counts" "int64" 2 [] None None);
    EReserved (mk_reserved (at_line 7) [mk_range 3 5 false; mk_range 9 9 true] [] None None);
    EEnum (mk_header (at_line 8) "Kind" None) [
      EEnumField (mk_enum_field (at_line 9) "KIND_INVALID" 0 None None) [];
      EEnumField (mk_enum_field (at_line 10) "KIND_A" 1 None None) [EOption (mk_opt (at_line 10) "deprecated" (mk_literal "true" false None [] []) None None)]]];
  EOption (setting "go_package" "somethingpb");
  EService (mk_header (at_line 12) "FooAPI" None) [
    EComment (remark " the only one");
    ERPC (mk_rpc (at_line 13) "Get" "Foo" false "Foo" true [setting "(c)" "d"] None None) [EOption (setting "(c)" "d")]];
  EOption (setting "(acme.style)" "plain");
  EPackage (mk_package (at_line 16) "acme.foo.v1" None None);
  EImport (mk_import (at_line 17) "a.proto" "public" None None);
  ESyntax (mk_syntax (at_line 18) "proto3" (Some (remark " Syntax.")) None)].
Ltac keep_tac :=
  repeat match goal with
  | |- Forall _ [] => constructor
  | |- Forall _ (_ :: _) => constructor
  | |- kept _ _ _ => cbn [kept]
  | |- _ /\ _ => split
  | |- a_word _ => split; [discriminate|reflexivity]
  | |- a_string _ _ => split; [reflexivity|split; reflexivity]
  | |- a_name _ => split; [discriminate|]; split; [reflexivity|]; split; [now apply no_blank_end_by|eexists _, _; vm_compute; reflexivity]
  | |- option_ok _ => unfold option_ok; cbn [o_name o_const o_comment o_inline setting]
  | |- literal_ok _ => cbn [literal_ok value]
  | |- field_options_ok _ => unfold field_options_ok
  | |- comment_ok _ => now repeat constructor
  | |- label_ok _ _ => cbn [label_ok]
  | |- one_line _ => reflexivity
  | |- True => exact I
  | |- _ <> _ => discriminate
  | |- _ = _ => reflexivity
  | |- l_map _ = [] -> _ => intros _
  | _ => progress cbn [fd_type fd_name fd_options fd_comment fd_inline rs_names rs_comment rs_inline ef_name ef_comment ef_inline h_comment h_name
      r_name r_request r_returns r_comment r_inline pk_comment pk_inline pk_name im_comment im_inline im_kind im_filename sx_comment sx_inline sx_value
      own_options map concat app a_value o_const o_comment o_inline setting value]
  end.
Lemma untidy_kept : kept_file untidy.
Proof.
  split; [vm_compute; auto|]. split; [vm_compute; auto|]. right. split.
  - eexists. split; [do 8 right; left; reflexivity|reflexivity].
  - unfold untidy. keep_tac; try (now left); try (left; split; [discriminate|reflexivity]); try (right; split; [discriminate|reflexivity]).
Qed.

Lemma reads_fun text ts ts' : reads_as text ts -> reads_as text ts' -> ts = ts'.
Proof. unfold reads_as. intros H H'. congruence. Qed.

(** ** C23: the shape of the output *)
Theorem C23_shape : forall sort_o sort_i parse fix_value header prefix filename data text fs,
  (forall l, Permutation l (sort_o l)) -> (forall l, Permutation l (sort_i l)) ->
  one_line filename -> one_line prefix -> Forall no_blank_end (split_char newline header) ->
  (forall es, parse data = Ok es -> Forall plain es) ->
  transform sort_o sort_i parse fix_value header prefix filename data = Ok (text, fs) -> well_shaped text.
Proof.
  intros sort_o sort_i parse fix_value header prefix filename data text fs Ho Hi Hf Hp Hh Hd. unfold transform.
  destruct (check_fix fix_value) as [fx|]; [|discriminate]. cbn [bind]. destruct (parse data) as [es|]; [|discriminate]. cbn [bind].
  destruct (transform_elements sort_o sort_i filename fx header prefix es) as [[t f]|] eqn:E; [|discriminate]. cbn [bind fst snd].
  intros [= <- _]. eapply (transform_shaped sort_o sort_i Ho Hi filename fx header prefix Hf Hp Hh es t f); [now apply Hd|exact E].
Qed.
Print Assumptions C23_shape.
(** A file of nothing remains one, unless a header is to be added. *)
Theorem C23_empty : forall sort_o sort_i filename fx header prefix,
  (forall l, Permutation l (sort_o l)) -> fx = FixNone \/ header = "" ->
  transform_elements sort_o sort_i filename fx header prefix [] = Ok ("", []).
Proof.
  intros sort_o sort_i filename fx header prefix H [-> | ->]; [reflexivity|]. destruct fx; reflexivity.
Qed.
Print Assumptions C23_empty.
Theorem C23_empty_header_refuted : ~ forall sort_o sort_i filename fx header prefix,
  transform_elements sort_o sort_i filename fx header prefix [] = Ok ("", []).
Proof. intros H. specialize (H so si "a.proto" FixV1 "// Copyright" "com"). vm_compute in H. discriminate. Qed.
Print Assumptions C23_empty_header_refuted.
Definition tidied : string := match transform_elements so si "a/foo.proto" FixV2 "// Copyright" "org" untidy with Ok (t, _) => t | Err _ => "" end.
Example C23_ex : Forall plain untidy /\ Forall no_blank_end (split_char newline "// Copyright") /\
  transform so si (fun _ => Ok untidy) 2 "// Copyright" "org" "a/foo.proto" "some text" = Ok (tidied, []) /\ tidied <> "".
Proof.
  split; [|split; [repeat constructor; now apply no_blank_end_by|split; [vm_compute; reflexivity|vm_compute; discriminate]]].
  unfold untidy. repeat constructor; try discriminate.
Qed.

(** ** C24: nothing is lost *)
(** The output is the file in canonical order: tokens for tokens, where a comment is one
    token for each line. *)
Theorem C24_tokens : forall sort_o sort_i filename header prefix es,
  sorts_by o_name sort_o -> sorts_by im_filename sort_i -> kept_file es ->
  exists text, transform_elements sort_o sort_i filename FixNone header prefix es = Ok (text, []) /\
    reads_as text (concat (map (tokens sort_o) (canonical sort_o sort_i es))).
Proof. exact kept_tokens. Qed.
Print Assumptions C24_tokens.
(** The canonical order is an order of the same declarations. *)
Theorem C24_canonical : forall sort_o sort_i es, sorts_by o_name sort_o -> sorts_by im_filename sort_i ->
  Permutation es (canonical sort_o sort_i es).
Proof. intros sort_o sort_i es Ho Hi. exact (canonical_perm sort_o sort_i Ho Hi es). Qed.
Print Assumptions C24_canonical.
(** The text depends on the contents of the file only, not on its layout. *)
Theorem C24_layout : forall sort_o sort_i filename header prefix es es' text fs,
  sorts_by o_name sort_o -> sorts_by im_filename sort_i -> length (syntaxes es) <= 1 -> length (packages es) <= 1 ->
  same_file es es' -> transform_elements sort_o sort_i filename FixNone header prefix es = Ok (text, fs) ->
  exists fs', transform_elements sort_o sort_i filename FixNone header prefix es' = Ok (text, fs') /\ (fs = [] -> fs' = []).
Proof.
  intros sort_o sort_i filename header prefix es es' text fs Ho Hi Hs Hp H E.
  destruct (same_text sort_o sort_i Ho Hi filename header prefix es es' text fs Hs Hp H E) as (fs' & E'). exists fs'. split; [exact E'|]. intros ->.
  assert (E2 := same_outcome sort_o sort_i Ho Hi filename header prefix es es' text Hs Hp H E). congruence.
Qed.
Print Assumptions C24_layout.
(** Formatting a formatted file changes nothing.  Missing: the parser is not modelled, so
    [es'], the file that is read back, is any with the contents of what was written. *)
Theorem C24_stable_partial : forall sort_o sort_i filename header prefix es es' text fs,
  sorts_by o_name sort_o -> sorts_by im_filename sort_i -> length (syntaxes es) <= 1 -> length (packages es) <= 1 ->
  NoDup (map o_name (own_options es)) -> NoDup (map im_filename (own_imports es)) ->
  same_file (detached (canonical sort_o sort_i es)) es' ->
  transform_elements sort_o sort_i filename FixNone header prefix es = Ok (text, fs) ->
  exists fs', transform_elements sort_o sort_i filename FixNone header prefix es' = Ok (text, fs') /\ (fs = [] -> fs' = []).
Proof.
  intros sort_o sort_i filename header prefix es es' text fs Ho Hi Hs Hp No Ni H E.
  destruct (reread_text sort_o sort_i Ho Hi filename header prefix es es' text fs Hs Hp No Ni H E) as (fs' & E'). exists fs'. split; [exact E'|]. intros ->.
  assert (E2 := reread_outcome sort_o sort_i Ho Hi filename header prefix es es' text Hs Hp No Ni H E). congruence.
Qed.
Print Assumptions C24_stable_partial.
Lemma same_options_self os : NoDup (map o_name os) -> same_options os os.
Proof. intros H. now apply same_options_refl. Qed.
Ltac distinct := repeat (constructor; [cbn; intuition discriminate|]); constructor.
Ltac same_tac :=
  repeat match goal with
  | |- Forall2 _ [] [] => constructor
  | |- Forall2 _ (_ :: _) (_ :: _) => constructor
  | |- _ /\ _ => split
  | |- same_options _ _ => apply same_options_self; cbn; distinct
  | |- same_comment _ _ => reflexivity
  | |- same_header _ _ => split; reflexivity
  | |- _ <-> _ => reflexivity
  | |- _ = _ => reflexivity
  | |- True => exact I
  | |- same_field _ _ => unfold same_field
  | _ => progress cbn [same]
  end.
Example C24_ex : kept_file untidy /\ same_file (detached (canonical so si untidy)) (detached (canonical so si untidy)) /\
  NoDup (map o_name (own_options untidy)) /\ NoDup (map im_filename (own_imports untidy)) /\ canonical so si untidy <> untidy.
Proof.
  split; [exact untidy_kept|].
  assert (NoDup (map o_name (own_options untidy))) as N1 by (cbn; distinct).
  assert (NoDup (map im_filename (own_imports untidy))) as N2 by (cbn; distinct).
  split; [|split; [assumption|split; [assumption|vm_compute; discriminate]]].
  split; [|split; [|split; [|split; [|split]]]].
  - vm_compute leading. same_tac.
  - vm_compute syntaxes. same_tac.
  - vm_compute packages. same_tac.
  - apply same_options_self. vm_compute own_options. cbn. distinct.
  - apply same_imports_refl; [|reflexivity]. vm_compute own_imports. cbn. distinct.
  - vm_compute others. same_tac.
Qed.
(** Not every file keeps all of its tokens.  An option of a field alone with its value
    loses its comments. *)
Definition keeps (es : list element) : Prop :=
  exists text, transform_elements so si "a.proto" FixNone "" "" es = Ok (text, []) /\
    reads_as text (concat (map (tokens so) (canonical so si es))).
Definition in_message (es : list element) : list element :=
  [ESyntax (mk_syntax (at_line 1) "proto3" None None); EMessage (mk_header (at_line 2) "Foo" None) false es].
Ltac loses := intros (text & E & R); vm_compute in E; injection E as <-; vm_compute in R; discriminate.
Theorem C24_option_comment_refuted : ~ keeps (in_message
  [EField InOneof (mk_field (at_line 3) "a" "b" 1 [mk_opt (at_line 3) "c" (value "d") (Some (remark " lost")) None] None None)]).
Proof. loses. Qed.
Print Assumptions C24_option_comment_refuted.
(** An option set to an empty message is dropped. *)
Theorem C24_empty_option_refuted : ~ keeps
  [ESyntax (mk_syntax (at_line 1) "proto3" None None); EOption (mk_opt (at_line 2) "(a)" (mk_literal "" false None [] []) None None);
   EMessage (mk_header (at_line 3) "Foo" None) false []].
Proof. loses. Qed.
Print Assumptions C24_empty_option_refuted.
(** Comments within an rpc are dropped. *)
Theorem C24_rpc_comment_refuted : ~ (exists text ts, transform_elements so si "a.proto" FixNone "" ""
    [ESyntax (mk_syntax (at_line 1) "proto3" None None);
     EService (mk_header (at_line 2) "S" None) [ERPC (mk_rpc (at_line 3) "Get" "Foo" false "Foo" false [setting "(c)" "d"] None None)
       [EComment (remark " lost"); EOption (setting "(c)" "d")]]] = Ok (text, []) /\ reads_as text ts /\ In (Rem " lost") ts).
Proof.
  intros (text & ts & E & R & H). vm_compute in E. injection E as <-. unfold reads_as in R. vm_compute in R. injection R as <-.
  cbn in H. intuition discriminate.
Qed.
Print Assumptions C24_rpc_comment_refuted.
(** The label of a field is dropped from proto3, that of a group always. *)
Theorem C24_label_refuted : ~ keeps (in_message [EField (Normal false true false) (mk_field (at_line 3) "a" "b" 1 [] None None)]).
Proof. loses. Qed.
Print Assumptions C24_label_refuted.
(** An option in a group is an error. *)
Theorem C24_group_option_refuted : ~ keeps (in_message [EGroup (mk_header (at_line 3) "G" None) false 1 [EOption (setting "a" "b")]]).
Proof. loses. Qed.
Print Assumptions C24_group_option_refuted.

(** ** C25: format --fix and lint *)
(** What --fix writes: with a package, the options it sets have the values of the
    protobuf style guides. *)
Theorem C25_written : forall sort_o sort_i filename fx header prefix es p hts,
  sorts_by o_name sort_o -> sorts_by im_filename sort_i -> kept_file es -> In (EPackage p) es -> a_package (pk_name p) ->
  quotes_free filename -> quotes_free prefix -> reads_as (header +++ String newline EmptyString) hts -> fx <> FixNone ->
  exists text, transform_elements sort_o sort_i filename fx header prefix es = Ok (text, []) /\
    let pkg := pk_name p in
    let values :=
      match fx with
      | FixV2 => settings_v2 (go_package_v2 pkg) (java_outer_classname filename) (java_package_prefix_override pkg prefix)
                   (csharp_namespace pkg) (objc_class_prefix pkg) (php_namespace pkg)
      | _ => settings_v1 (go_package pkg) (java_outer_classname filename) (java_package_prefix_override pkg prefix)
      end in
    reads_as text ((if is_empty header then concat (map (tokens sort_o) (leading es)) else hts) ++
      concat (map (tokens sort_o) (canonical_with sort_o sort_i [] (fixed_options values (own_options es)) es))).
Proof. exact fix_written. Qed.
Print Assumptions C25_written.
(** Rules about file options of group uber2 report nothing for a file [d] with the
    contents that were written. *)
Theorem C25_uber2 : forall ord sing sort_o sort_i filename es p d l,
  sorts_by o_name sort_o -> kept_file es -> In (EPackage p) es -> a_package (pk_name p) ->
  let pkg := pk_name p in
  let prefix := lc_java_package_prefix (cfg_lint (ps_config (d_set d))) in
  let values := settings_v2 (go_package_v2 pkg) (java_outer_classname filename) (java_package_prefix_override pkg prefix)
                   (csharp_namespace pkg) (objc_class_prefix pkg) (php_namespace pkg) in
  same_settings (canonical_with sort_o sort_i (leading es) (fixed_options values (own_options es)) es) (d_elements d) ->
  well_formed (d_elements d) -> d_filename d <> "" -> filename <> "" -> path_base filename = path_base (d_filename d) ->
  In l (all_linters ord sing) -> in_group "uber2" (ln_id l) /\ In (ln_id l) (map fst (require_rules ++ equal_rules)) -> linter_check l [d] = Ok [].
Proof. exact fixed_uber2. Qed.
Print Assumptions C25_uber2.
(** Those of group uber1, unless the prefix of Java packages is changed. *)
Theorem C25_uber1_partial : forall ord sing sort_o sort_i filename prefix es p d l,
  sorts_by o_name sort_o -> kept_file es -> In (EPackage p) es -> a_package (pk_name p) -> prefix = "" \/ prefix = "com" ->
  let pkg := pk_name p in
  let values := settings_v1 (go_package pkg) (java_outer_classname filename) (java_package_prefix_override pkg prefix) in
  same_settings (canonical_with sort_o sort_i (leading es) (fixed_options values (own_options es)) es) (d_elements d) ->
  well_formed (d_elements d) -> d_filename d <> "" -> filename <> "" -> path_base filename = path_base (d_filename d) ->
  In l (all_linters ord sing) -> in_group "uber1" (ln_id l) /\ In (ln_id l) (map fst (require_rules ++ equal_rules)) -> linter_check l [d] = Ok [].
Proof. exact fixed_uber1. Qed.
Print Assumptions C25_uber1_partial.
(** A group uber1 file fixed with another prefix is then rejected by
    FILE_OPTIONS_EQUAL_JAVA_PACKAGE_COM_PREFIX. *)
Definition small : list element := [ESyntax (mk_syntax (at_line 1) "proto3" None None); EPackage (mk_package (at_line 2) "acme.foo.v1" None None);
  EOption (setting "go_package" "old"); EOption (setting "deprecated" "x"); EMessage (mk_header (at_line 5) "Foo" None) false []].
Lemma small_kept : kept_file small.
Proof.
  split; [vm_compute; auto|]. split; [vm_compute; auto|]. right. split.
  - eexists. split; [left; reflexivity|reflexivity].
  - unfold small. keep_tac.
Qed.
Definition org_lint : lint_config := mk_lint_config "uber1" false [] [] [] "" "org" true.
Definition fixed_small (values : list (string * literal)) (lc : lint_config) : descriptor :=
  mk_descriptor "a/foo.proto" (canonical_with so si (leading small) (fixed_options values (own_options small)) small) (a_set "/work/a" lc []) "".
Definition small_v1 (prefix : string) : list (string * literal) :=
  settings_v1 (go_package "acme.foo.v1") (java_outer_classname "/work/a/foo.proto") (java_package_prefix_override "acme.foo.v1" prefix).
Definition small_v2 : list (string * literal) :=
  settings_v2 (go_package_v2 "acme.foo.v1") (java_outer_classname "/work/a/foo.proto") (java_package_prefix_override "acme.foo.v1" "com")
    (csharp_namespace "acme.foo.v1") (objc_class_prefix "acme.foo.v1") (php_namespace "acme.foo.v1").
Lemma same_settings_self es : same_settings es es.
Proof. split; intros; reflexivity. Qed.
Lemma fixed_formed values lc : well_formed (d_elements (fixed_small values lc)).
Proof.
  assert (forall e, In e (d_elements (fixed_small values lc)) -> may_be_top e /\ contents e = []) as H.
  { intros e. unfold fixed_small, canonical_with. cbn [d_elements]. rewrite !in_app_iff. intros [X|[X|[X|[X|[X|X]]]]].
    - easy.
    - destruct X as [<-|[]]. easy.
    - destruct X as [<-|[]]. easy.
    - apply in_map_iff in X as (o & <- & _). easy.
    - apply in_map_iff in X as (o & <- & _). easy.
    - destruct X as [<-|[]]. easy. }
  split; [intros e He; now apply H|]. intros ctx p e L. exfalso.
  assert (forall ctx e, located (d_elements (fixed_small values lc)) ctx e -> ctx = [] /\ contents e = []) as Hl.
  { intros c x Hx. induction Hx as [x Hx|c q x Hx [_ IH] Hi]; [split; [reflexivity|now apply H]|]. rewrite IH in Hi. easy. }
  destruct (Hl _ _ L) as [X _]. discriminate.
Qed.
Theorem C25_uber1_prefix_refuted : ~ forall ord sing sort_o sort_i filename es p d l,
  sorts_by o_name sort_o -> kept_file es -> In (EPackage p) es -> a_package (pk_name p) ->
  let pkg := pk_name p in
  let prefix := lc_java_package_prefix (cfg_lint (ps_config (d_set d))) in
  let values := settings_v1 (go_package pkg) (java_outer_classname filename) (java_package_prefix_override pkg prefix) in
  same_settings (canonical_with sort_o sort_i (leading es) (fixed_options values (own_options es)) es) (d_elements d) ->
  well_formed (d_elements d) -> d_filename d <> "" -> filename <> "" -> path_base filename = path_base (d_filename d) ->
  In l (all_linters ord sing) -> in_group "uber1" (ln_id l) /\ In (ln_id l) (map fst (require_rules ++ equal_rules)) -> linter_check l [d] = Ok [].
Proof.
  intros H.
  destruct (find (fun l => String.eqb (ln_id l) "FILE_OPTIONS_EQUAL_JAVA_PACKAGE_COM_PREFIX") (all_linters in_order (fun s => s))) as [l|] eqn:F;
    [|vm_compute in F; discriminate].
  pose proof (find_some _ _ F) as [Hl E]. apply String.eqb_eq in E.
  specialize (H in_order (fun s => s) so si "/work/a/foo.proto" small (mk_package (at_line 2) "acme.foo.v1" None None)
    (fixed_small (small_v1 "org") org_lint) l (sort_by_sorts o_name) small_kept).
  assert (linter_check l [fixed_small (small_v1 "org") org_lint] = Ok []) as X.
  { apply H; [right; now left|split; [discriminate|reflexivity]|apply same_settings_self|apply fixed_formed|discriminate|discriminate|vm_compute; reflexivity|exact Hl|].
    rewrite E. split; [exists ["uber1"]; split; [|now left]|]; vm_compute; tauto. }
  assert (outcome "FILE_OPTIONS_EQUAL_JAVA_PACKAGE_COM_PREFIX" [fixed_small (small_v1 "org") org_lint] = Ok []) as Y by (rewrite (outcome_is l _ _ Hl E); exact X).
  vm_compute in Y. discriminate.
Qed.
Print Assumptions C25_uber1_prefix_refuted.
Example C25_ex : kept_file small /\ In (EPackage (mk_package (at_line 2) "acme.foo.v1" None None)) small /\ a_package "acme.foo.v1" /\
  quotes_free "/work/a/foo.proto" /\ reads_as ("// Copyright" +++ String newline EmptyString) [Rem " Copyright"] /\
  well_formed (d_elements (fixed_small small_v2 plain_lint)) /\ path_base "/work/a/foo.proto" = path_base "a/foo.proto" /\
  lc_java_package_prefix plain_lint = "com" /\
  map (fun v => l_source (snd v)) small_v2 = ["foov1"; "true"; "FooProto"; "com.acme.foo.v1"; "Acme.Foo.V1"; "AFX"; "Acme" +++ String backslash (String backslash "Foo") +++ String backslash (String backslash "V1")] /\
  outcome "FILE_OPTIONS_EQUAL_JAVA_PACKAGE_COM_PREFIX" [fixed_small (small_v1 "com") plain_lint] = Ok [] /\
  outcome "FILE_OPTIONS_REQUIRE_PHP_NAMESPACE" [fixed_small small_v2 plain_lint] = Ok [] /\
  in_group "uber2" "FILE_OPTIONS_REQUIRE_PHP_NAMESPACE" /\ In "FILE_OPTIONS_REQUIRE_PHP_NAMESPACE" (map fst (require_rules ++ equal_rules)).
Proof.
  split; [exact small_kept|]. split; [right; now left|]. split; [split; [discriminate|reflexivity]|]. split; [repeat split|].
  split; [reflexivity|]. split; [apply fixed_formed|]. split; [vm_compute; reflexivity|]. split; [reflexivity|].
  split; [vm_compute; reflexivity|]. split; [vm_compute; reflexivity|]. split; [vm_compute; reflexivity|].
  split; [exists ["uber2"]; split; [|now left]; vm_compute; tauto|vm_compute; tauto].
Qed.

(** ** C26: the other options *)
(** The options that --fix does not manage are written as they were, in the same order
    but for sorting. *)
Theorem C26_unmanaged : forall sort_o sort_i filename fx header prefix es hts,
  sorts_by o_name sort_o -> sorts_by im_filename sort_i -> kept_file es -> (forall p, In (EPackage p) es -> a_package (pk_name p)) ->
  quotes_free filename -> quotes_free prefix -> reads_as (header +++ String newline EmptyString) hts -> fx <> FixNone ->
  exists text os, transform_elements sort_o sort_i filename fx header prefix es = Ok (text, []) /\
    reads_as text ((if is_empty header then concat (map (tokens sort_o) (leading es)) else hts) ++
      concat (map (tokens sort_o) (canonical_with sort_o sort_i [] os es))) /\
    filter (fun o => negb (is_managed o)) os = filter (fun o => negb (is_managed o)) (own_options es).
Proof. exact fix_unmanaged. Qed.
Print Assumptions C26_unmanaged.
(** With the uber2 fixes and a package, every managed option is written. *)
Theorem C26_managed_v2 : forall sort_o sort_i filename header prefix es p hts o,
  sorts_by o_name sort_o -> sorts_by im_filename sort_i -> kept_file es -> In (EPackage p) es -> a_package (pk_name p) ->
  quotes_free filename -> quotes_free prefix -> reads_as (header +++ String newline EmptyString) hts ->
  In o (own_options es) ->
  exists text os, transform_elements sort_o sort_i filename FixV2 header prefix es = Ok (text, []) /\
    reads_as text ((if is_empty header then concat (map (tokens sort_o) (leading es)) else hts) ++
      concat (map (tokens sort_o) (canonical_with sort_o sort_i [] os es))) /\
    In (o_name o) (map o_name os).
Proof. exact fix_v2_names. Qed.
Print Assumptions C26_managed_v2.
Example C26_ex : kept_file small /\ (forall p, In (EPackage p) small -> a_package (pk_name p)) /\
  filter (fun o => negb (is_managed o)) (own_options small) = [setting "deprecated" "x"].
Proof.
  split; [exact small_kept|]. split; [|vm_compute; reflexivity]. unfold small. cbn [In].
  intros p [H|[H|[H|[H|[H|[]]]]]]; try discriminate. injection H as <-. split; [discriminate|reflexivity].
Qed.
(** The name of an option of the file is in the output. *)
Definition names_kept (fx : fix_kind) (es : list element) : Prop :=
  forall text ts o, transform_elements so si "a.proto" fx "" "com" es = Ok (text, []) -> reads_as text ts -> In (EOption o) es -> In (Word (o_name o)) ts.
(** Without a package all managed options are dropped. *)
Theorem C26_no_package_refuted : ~ names_kept FixV2 [ESyntax (mk_syntax (at_line 1) "proto3" None None); EOption (setting "go_package" "old")].
Proof.
  intros H. specialize (H _ _ (setting "go_package" "old") eq_refl eq_refl). cbn in H. intuition discriminate.
Qed.
Print Assumptions C26_no_package_refuted.
(** The uber1 fixes drop the options that only the uber2 fixes set. *)
Theorem C26_uber1_refuted : ~ names_kept FixV1 [ESyntax (mk_syntax (at_line 1) "proto3" None None);
  EPackage (mk_package (at_line 2) "acme.foo.v1" None None); EOption (setting "csharp_namespace" "Acme.Foo.V1")].
Proof.
  intros H. specialize (H _ _ (setting "csharp_namespace" "Acme.Foo.V1") eq_refl eq_refl). cbn in H. intuition discriminate.
Qed.
Print Assumptions C26_uber1_refuted.
(** With a header the comments at the top are dropped. *)
Theorem C26_comments_refuted : ~ (forall text ts, transform_elements so si "a.proto" FixV2 "// Copyright" "com"
    [EComment (remark " About foo."); ESyntax (mk_syntax (at_line 1) "proto3" None None)] = Ok (text, []) -> reads_as text ts -> In (Rem " About foo.") ts).
Proof. intros H. specialize (H _ _ eq_refl eq_refl). cbn in H. intuition discriminate. Qed.
Print Assumptions C26_comments_refuted.
