(** Vocabulary for the lint properties: where elements are in a file, what each
    documented rule forbids, and what it means for a linter to report exactly that.
    From the model it uses only the types [descriptor] and [linter], the table
    [all_linters] and the function that runs one linter, [linter_check]; string
    conversions (upper snake case, C# namespace, ...) are those characterised by C31
    and C33. *)
From Verif Require Export Lint_Model Lint_Rules Strs_Spec GoPathFacts.

(** ** Places in a file *)

(** What is written directly inside an element. *)
Definition contents (e : element) : list element :=
  match e with
  | EField _ f => map EOption (fd_options f)
  | EEnumField _ es | EEnum _ es | EMessage _ _ es | EOneof _ es
  | EGroup _ _ _ es | EService _ es | ERPC _ es => es
  | _ => []
  end.
(** [located file ctx e]: [e] occurs in [file], inside the elements [ctx], innermost first. *)
Inductive located (file : list element) : list element -> element -> Prop :=
| at_top : forall e, In e file -> located file [] e
| nested : forall ctx p e, located file ctx p -> In e (contents p) -> located file (p :: ctx) e.

(** The grammar of Protobuf: what may be written where. *)
Definition may_contain (p e : element) : Prop :=
  match p, e with
  | (EMessage _ _ _ | EGroup _ _ _ _),
    (EComment _ | EOption _ | EField (Normal _ _ _) _ | EField (InMap _) _ | EReserved _ | EExtensions _
    | EEnum _ _ | EMessage _ _ _ | EOneof _ _ | EGroup _ _ _ _) => True
  | EOneof _ _, (EComment _ | EOption _ | EField InOneof _ | EGroup _ _ _ _) => True
  | EEnum _ _, (EComment _ | EOption _ | EEnumField _ _ | EReserved _) => True
  | EService _ _, (EComment _ | EOption _ | ERPC _ _) => True
  | (ERPC _ _ | EEnumField _ _), (EComment _ | EOption _) => True
  | EField _ _, EOption _ => True
  | _, _ => False
  end.
Definition may_be_top (e : element) : Prop :=
  match e with
  | EComment _ | ESyntax _ | EPackage _ | EImport _ | EOption _ | EMessage _ _ _ | EEnum _ _ | EService _ _ => True
  | _ => False
  end.
Definition well_formed (file : list element) : Prop :=
  (forall e, In e file -> may_be_top e)
  /\ (forall ctx p e, located file (p :: ctx) e -> may_contain p e).

Definition is_group (e : element) : Prop := exists h o n es, e = EGroup h o n es.
Definition outside_groups (ctx : list element) : Prop := forall g, In g ctx -> ~ is_group g.

(** ** Elements *)
Definition name_of (e : element) : string :=
  match e with
  | EPackage p => pk_name p
  | EOption o => o_name o
  | EField _ f => fd_name f
  | EEnumField f _ => ef_name f
  | EEnum h _ | EMessage h _ _ | EOneof h _ | EGroup h _ _ _ | EService h _ => h_name h
  | ERPC r _ => r_name r
  | _ => EmptyString
  end.
Definition position_of (e : element) : position :=
  match e with
  | EComment c => c_pos c
  | ESyntax s => sx_pos s
  | EPackage p => pk_pos p
  | EImport i => im_pos i
  | EOption o => o_pos o
  | EField _ f => fd_pos f
  | EReserved r => rs_pos r
  | EExtensions x => xt_pos x
  | EEnumField f _ => ef_pos f
  | EEnum h _ | EMessage h _ _ | EOneof h _ | EGroup h _ _ _ | EService h _ => h_pos h
  | ERPC r _ => r_pos r
  end.
Definition comment_of (e : element) : option comment :=
  match e with
  | EComment c => Some c
  | ESyntax s => sx_comment s
  | EPackage p => pk_comment p
  | EImport i => im_comment i
  | EOption o => o_comment o
  | EField _ f => fd_comment f
  | EReserved r => rs_comment r
  | EExtensions x => xt_comment x
  | EEnumField f _ => ef_comment f
  | EEnum h _ | EMessage h _ _ | EOneof h _ | EGroup h _ _ _ | EService h _ => h_comment h
  | ERPC r _ => r_comment r
  end.
Definition inline_of (e : element) : option comment :=
  match e with
  | ESyntax s => sx_inline s
  | EPackage p => pk_inline p
  | EImport i => im_inline i
  | EOption o => o_inline o
  | EField _ f => fd_inline f
  | EReserved r => rs_inline r
  | EExtensions x => xt_inline x
  | EEnumField f _ => ef_inline f
  | ERPC r _ => r_inline r
  | _ => None
  end.
Definition is_enum (e : element) : Prop := exists h es, e = EEnum h es.
Definition is_enum_value (e : element) : Prop := exists f es, e = EEnumField f es.
(** A message, not an extend block. *)
Definition is_message (e : element) : Prop := exists h es, e = EMessage h false es.
Definition is_message_or_extend (e : element) : Prop := exists h x es, e = EMessage h x es.
Definition is_field (e : element) : Prop := exists k f, e = EField k f.
Definition is_plain_field (e : element) : Prop := exists k f, e = EField k f /\ forall t, k <> InMap t.
Definition is_oneof (e : element) : Prop := exists h es, e = EOneof h es.
Definition is_service (e : element) : Prop := exists h es, e = EService h es.
Definition is_rpc (e : element) : Prop := exists r es, e = ERPC r es.
Definition is_import (e : element) : Prop := exists i, e = EImport i.
Definition is_reserved (e : element) : Prop := exists r, e = EReserved r.
Definition is_option (e : element) : Prop := exists o, e = EOption o.
Definition is_package (e : element) : Prop := exists p, e = EPackage p.
Definition type_of (e : element) : string := match e with EField _ f => fd_type f | _ => EmptyString end.

(** ** Rules *)

(** What a rule forbids: [V d ctx e p] says that the element [e] of the file [d],
    inside [ctx], is to be reported, at the position [p]. *)
Definition rule : Type := descriptor -> list element -> element -> position -> Prop.
(** Every element of a kind for which something bad holds, outside groups. *)
Definition Breaks (kind : element -> Prop) (bad : descriptor -> list element -> element -> Prop) : rule :=
  fun d ctx e p => outside_groups ctx /\ kind e /\ bad d ctx e /\ p = position_of e.
(** The same, in groups too. *)
Definition Breaks_anywhere (kind : element -> Prop) (bad : descriptor -> list element -> element -> Prop) : rule :=
  fun d ctx e p => kind e /\ bad d ctx e /\ p = position_of e.
Definition bad_name (bad : string -> Prop) : descriptor -> list element -> element -> Prop :=
  fun _ _ e => bad (name_of e).

Definition at_place (f : failure) (file : string) (p : position) : Prop :=
  f_filename f = file /\ f_line f = p_line p /\ f_column f = p_column p.

(** The linter with this ID succeeds on all files that satisfy [assume], reports under
    its ID only, and reports a place exactly when the rule forbids an element there. *)
Definition Reports_exactly (ord : order) (singularize : string -> string)
  (assume : descriptor -> Prop) (id : string) (V : rule) : Prop :=
  exists l, In l (all_linters ord singularize) /\ ln_id l = id /\
  forall ds, (forall d, In d ds -> well_formed (d_elements d) /\ assume d) ->
  exists fs, linter_check l ds = Ok fs /\
    (forall f, In f fs -> f_lint_id f = id) /\
    forall file p,
      (exists f, In f fs /\ at_place f file p) <->
      (exists d ctx e, In d ds /\ d_filename d = file /\ located (d_elements d) ctx e /\ V d ctx e p).
(** The same for rules about whole files. *)
Definition Files_reported_exactly (ord : order) (singularize : string -> string)
  (assume : descriptor -> Prop) (id : string) (V : descriptor -> position -> Prop) : Prop :=
  exists l, In l (all_linters ord singularize) /\ ln_id l = id /\
  forall ds, (forall d, In d ds -> well_formed (d_elements d) /\ assume d) ->
  exists fs, linter_check l ds = Ok fs /\
    (forall f, In f fs -> f_lint_id f = id) /\
    forall file p,
      (exists f, In f fs /\ at_place f file p) <-> (exists d, In d ds /\ d_filename d = file /\ V d p).
(** Every reordering of the maps that are ranged over. *)
Definition reorders (ord : order) : Prop := forall k A (l : list A), Permutation l (ord k A l).
Definition anything (d : descriptor) : Prop := True.

(** ** Strings *)
Definition has_substring (s sub : string) : Prop := exists a b, s = a +++ sub +++ b.
Definition starts_with (s p : string) : Prop := exists r, s = p +++ r.
Definition ends_with (s p : string) : Prop := exists r, s = r +++ p.
Definition starts_upper (s : string) : Prop := exists c r, s = String c r /\ is_upper c = true.
Definition no_upper_case (s : string) : Prop := all_chars (fun c => is_upper c = false) s.
Definition no_lower_case (s : string) : Prop := all_chars (fun c => is_lower c = false) s.

(** ** Naming rules *)

(** The name enum values must start with: the names of the enclosing messages and of
    the enum in UPPER_SNAKE_CASE, outermost first, each followed by an underscore. *)
Fixpoint scope_prefix (outer : list element) : string :=
  match outer with
  | [] => EmptyString
  | e :: r => scope_prefix r +++ to_upper_snake_case (name_of e) +++ "_"
  end.
Definition enum_prefix (ctx : list element) : string :=
  match ctx with
  | e :: _ => to_upper_snake_case (name_of e) +++ "_"
  | [] => "_"
  end.
Definition is_zero_value (e : element) : Prop := exists f es, e = EEnumField f es /\ ef_integer f = 0%Z.
(** Some underscores, [s] in any case, some underscores. *)
Definition underscored (s name : string) : Prop :=
  exists a b c, name = a +++ b +++ c /\ all_chars (eq "_"%char) a /\ all_chars (eq "_"%char) c
    /\ to_lower b = s.
Definition naming_rules : list (string * rule) := [
  ("ENUM_NAMES_CAMEL_CASE", Breaks is_enum (bad_name (fun n => ~ camel_shape n)));
  ("ENUM_NAMES_CAPITALIZED", Breaks is_enum (bad_name (fun n => ~ starts_upper n)));
  ("ENUM_FIELD_NAMES_UPPERCASE", Breaks is_enum_value (bad_name (fun n => n = EmptyString \/ ~ no_lower_case n)));
  ("ENUM_FIELD_NAMES_UPPER_SNAKE_CASE", Breaks is_enum_value (bad_name (fun n => ~ snake_shape is_upper n)));
  ("ENUM_FIELD_PREFIXES", Breaks is_enum_value (fun _ ctx e => ~ starts_with (name_of e) (scope_prefix ctx)));
  ("ENUM_FIELD_PREFIXES_EXCEPT_MESSAGE", Breaks is_enum_value (fun _ ctx e => ~ starts_with (name_of e) (enum_prefix ctx)));
  ("ENUM_ZERO_VALUES_INVALID", Breaks is_zero_value (fun _ ctx e => name_of e <> scope_prefix ctx +++ "INVALID"));
  ("ENUM_ZERO_VALUES_INVALID_EXCEPT_MESSAGE", Breaks is_zero_value (fun _ ctx e => name_of e <> enum_prefix ctx +++ "INVALID"));
  ("MESSAGE_NAMES_CAMEL_CASE", Breaks is_message (bad_name (fun n => ~ camel_shape n)));
  ("MESSAGE_NAMES_CAPITALIZED", Breaks is_message (bad_name (fun n => ~ starts_upper n)));
  ("MESSAGE_FIELD_NAMES_LOWER_SNAKE_CASE", Breaks is_field (bad_name (fun n => ~ snake_shape is_lower n)));
  ("MESSAGE_FIELD_NAMES_LOWERCASE", Breaks is_field (bad_name (fun n => n = EmptyString \/ ~ no_upper_case n)));
  ("MESSAGE_FIELD_NAMES_FILENAME", Breaks is_field (bad_name (fun n => has_substring n "file_name")));
  ("MESSAGE_FIELD_NAMES_FILEPATH", Breaks is_field (bad_name (fun n => has_substring n "file_path")));
  ("MESSAGE_FIELD_NAMES_NO_DESCRIPTOR", Breaks is_field (bad_name (underscored "descriptor")));
  ("ONEOF_NAMES_LOWER_SNAKE_CASE", Breaks is_oneof (bad_name (fun n => ~ snake_shape is_lower n)));
  ("SERVICE_NAMES_CAMEL_CASE", Breaks is_service (bad_name (fun n => ~ camel_shape n)));
  ("SERVICE_NAMES_CAPITALIZED", Breaks is_service (bad_name (fun n => ~ starts_upper n)));
  ("SERVICE_NAMES_API_SUFFIX", Breaks is_service (bad_name (fun n => ~ ends_with n "API")));
  ("RPC_NAMES_CAMEL_CASE", Breaks is_rpc (bad_name (fun n => ~ camel_shape n)));
  ("RPC_NAMES_CAPITALIZED", Breaks is_rpc (bad_name (fun n => ~ starts_upper n)))
].

(** ** Comment rules *)

(** The comment starts with a blank, the name, and another blank. *)
Definition golang_style (e : element) : Prop :=
  exists c l ls r, comment_of e = Some c /\ c_lines c = l :: ls /\ l = " " +++ name_of e +++ " " +++ r.
(** The first line starts, after blanks, with an upper case letter or a digit, and some
    line has a period. *)
Definition sentence (e : element) : Prop :=
  exists c l ls blanks x r, comment_of e = Some c /\ c_lines c = l :: ls
    /\ l = blanks +++ String x r /\ all_chars (fun c => is_space c = true) blanks
    /\ (is_upper x = true \/ is_digit x = true)
    /\ exists l', In l' (c_lines c) /\ has_substring l' ".".
Definition not_golang_style (_ : descriptor) (_ : list element) (e : element) : Prop := ~ golang_style e.
Definition not_sentence (_ : descriptor) (_ : list element) (e : element) : Prop := ~ sentence e.
(** The comments of these elements of the file are in ASCII. *)
Definition takes_sentences (e : element) : Prop :=
  is_enum e \/ is_enum_value e \/ is_field e \/ is_rpc e \/ is_service e \/ is_message_or_extend e.
Definition ascii_comments (d : descriptor) : Prop :=
  forall ctx e c l, located (d_elements d) ctx e -> takes_sentences e -> comment_of e = Some c -> In l (c_lines c) ->
  all_chars (fun x => nat_of_ascii x < 128) l.

Definition golang_comment_rules : list (string * rule) := [
  ("ENUM_FIELDS_HAVE_COMMENTS", Breaks is_enum_value not_golang_style);
  ("ENUMS_HAVE_COMMENTS", Breaks is_enum not_golang_style);
  ("MESSAGE_FIELDS_HAVE_COMMENTS", Breaks is_field not_golang_style);
  ("MESSAGES_HAVE_COMMENTS", Breaks is_message not_golang_style);
  ("RPCS_HAVE_COMMENTS", Breaks is_rpc not_golang_style);
  ("SERVICES_HAVE_COMMENTS", Breaks is_service not_golang_style);
  ("COMMENTS_NO_C_STYLE", Breaks_anywhere (fun _ => True) (fun _ _ e =>
     exists c, (comment_of e = Some c \/ inline_of e = Some c) /\ c_cstyle c = true));
  ("COMMENTS_NO_INLINE", fun _ _ e p => exists c, inline_of e = Some c /\ p = c_pos c)
].
Definition sentence_comment_rules : list (string * rule) := [
  ("ENUM_FIELDS_HAVE_SENTENCE_COMMENTS", Breaks is_enum_value not_sentence);
  ("ENUMS_HAVE_SENTENCE_COMMENTS", Breaks is_enum not_sentence);
  ("MESSAGE_FIELDS_HAVE_SENTENCE_COMMENTS", Breaks is_field not_sentence);
  ("RPCS_HAVE_SENTENCE_COMMENTS", Breaks is_rpc not_sentence);
  ("SERVICES_HAVE_SENTENCE_COMMENTS", Breaks is_service not_sentence)
].

(** The name of an element with the names of the elements it is in: Outer.Inner. *)
Fixpoint qualified_name (ctx : list element) (name : string) : string :=
  match ctx with
  | [] => name
  | p :: outer => qualified_name outer (name_of p +++ "." +++ name)
  end.
(** The RPCs of a file, in the order they are written. *)
Definition file_rpcs (d : descriptor) : list rpc :=
  flat_map (fun e => match e with ERPC r _ => [r] | _ => [] end)
    (flat_map (fun e => match e with EService _ es => es | _ => [] end) (d_elements d)).
(** [t] is a request or response type of some RPC of the file. *)
Definition rpc_type (d : descriptor) (t : string) : Prop :=
  exists r, In r (file_rpcs d) /\ (t = r_request r \/ t = r_returns r).
(** No two messages of the file have the same qualified name, and no extend block has
    that of a message. *)
Definition distinct_messages (d : descriptor) : Prop :=
  forall c1 e1 c2 e2, located (d_elements d) c1 e1 -> located (d_elements d) c2 e2 ->
  is_message e1 -> is_message_or_extend e2 ->
  qualified_name c1 (name_of e1) = qualified_name c2 (name_of e2) -> c1 = c2 /\ e1 = e2.
Definition is_message_not_in_rpc (d : descriptor) (ctx : list element) (e : element) : Prop :=
  is_message e /\ ~ rpc_type d (qualified_name ctx (name_of e)).
Definition except_golang_rule : rule :=
  Breaks is_message (fun d ctx e => is_message_not_in_rpc d ctx e /\ ~ golang_style e).
Definition except_sentence_rule : rule :=
  Breaks is_message (fun d ctx e => is_message_not_in_rpc d ctx e /\ ~ sentence e).

(** ** File options *)
Definition sets_option (d : descriptor) (name : string) : Prop :=
  exists o, In (EOption o) (d_elements d) /\ o_name o = name.
(** [o] is the last option of that name in the file, [p] the last package statement. *)
Definition last_option (d : descriptor) (name : string) (o : opt) : Prop :=
  exists a b, d_elements d = a ++ EOption o :: b /\ o_name o = name /\
  forall o', In (EOption o') b -> o_name o' <> name.
Definition last_package (d : descriptor) (p : package) : Prop :=
  exists a b, d_elements d = a ++ EPackage p :: b /\ forall p', ~ In (EPackage p') b.
Definition lacks_option (name : string) (d : descriptor) (p : position) : Prop :=
  ~ sets_option d name /\ p = mk_pos 0 0.
Definition option_is_set (name : string) (d : descriptor) (p : position) : Prop :=
  exists o, last_option d name o /\ p = o_pos o.
Definition option_differs (name : string) (expected : descriptor -> string -> string) (d : descriptor) (p : position) : Prop :=
  exists o k, last_option d name o /\ last_package d k /\ l_source (o_const o) <> expected d (pk_name k) /\ p = o_pos o.
Definition named (d : descriptor) : Prop := d_filename d <> EmptyString.
Definition require_rules : list (string * (descriptor -> position -> Prop)) := [
  ("FILE_OPTIONS_REQUIRE_CSHARP_NAMESPACE", lacks_option "csharp_namespace");
  ("FILE_OPTIONS_REQUIRE_GO_PACKAGE", lacks_option "go_package");
  ("FILE_OPTIONS_REQUIRE_JAVA_MULTIPLE_FILES", lacks_option "java_multiple_files");
  ("FILE_OPTIONS_REQUIRE_JAVA_OUTER_CLASSNAME", lacks_option "java_outer_classname");
  ("FILE_OPTIONS_REQUIRE_JAVA_PACKAGE", lacks_option "java_package");
  ("FILE_OPTIONS_REQUIRE_OBJC_CLASS_PREFIX", lacks_option "objc_class_prefix");
  ("FILE_OPTIONS_REQUIRE_PHP_NAMESPACE", lacks_option "php_namespace");
  ("FILE_OPTIONS_REQUIRE_RUBY_PACKAGE", lacks_option "ruby_package");
  ("FILE_OPTIONS_UNSET_JAVA_MULTIPLE_FILES", option_is_set "java_multiple_files");
  ("FILE_OPTIONS_UNSET_JAVA_OUTER_CLASSNAME", option_is_set "java_outer_classname");
  ("FILE_OPTIONS_GO_PACKAGE_NOT_LONG_FORM", fun d p =>
     exists o, last_option d "go_package" o /\ has_substring (l_source (o_const o)) ";" /\ p = o_pos o)
].
Definition equal_rules : list (string * (descriptor -> position -> Prop)) := [
  ("FILE_OPTIONS_EQUAL_CSHARP_NAMESPACE_CAPITALIZED", option_differs "csharp_namespace" (fun _ => csharp_namespace));
  ("FILE_OPTIONS_EQUAL_GO_PACKAGE_PB_SUFFIX", option_differs "go_package" (fun _ => go_package));
  ("FILE_OPTIONS_EQUAL_GO_PACKAGE_V2_SUFFIX", option_differs "go_package" (fun _ => go_package_v2));
  ("FILE_OPTIONS_EQUAL_JAVA_MULTIPLE_FILES_TRUE", option_differs "java_multiple_files" (fun _ _ => "true"));
  ("FILE_OPTIONS_EQUAL_JAVA_OUTER_CLASSNAME_PROTO_SUFFIX", option_differs "java_outer_classname" (fun d _ => java_outer_classname (d_filename d)));
  ("FILE_OPTIONS_EQUAL_JAVA_PACKAGE_COM_PREFIX", option_differs "java_package" (fun _ => java_package));
  ("FILE_OPTIONS_EQUAL_JAVA_PACKAGE_PREFIX", option_differs "java_package"
     (fun d k => java_package_prefix_override k (lc_java_package_prefix (cfg_lint (ps_config (d_set d))))));
  ("FILE_OPTIONS_EQUAL_OBJC_CLASS_PREFIX_ABBR", option_differs "objc_class_prefix" (fun _ => objc_class_prefix));
  ("FILE_OPTIONS_EQUAL_PHP_NAMESPACE_CAPITALIZED", option_differs "php_namespace" (fun _ => php_namespace))
].

(** ** Directories *)

(** The package of a file, the value of a file option; [None] when there is none. *)
Definition package_is (d : descriptor) (v : option string) : Prop :=
  match v with
  | Some n => exists p, In (EPackage p) (d_elements d) /\ pk_name p = n
  | None => forall p, ~ In (EPackage p) (d_elements d)
  end.
Definition option_is (name : string) (d : descriptor) (v : option string) : Prop :=
  match v with
  | Some x => exists o, In (EOption o) (d_elements d) /\ o_name o = name /\ l_source (o_const o) = x
  | None => ~ sets_option d name
  end.
(** At most one package statement, one setting of the option, which is not set to "". *)
Definition one_package (d : descriptor) : Prop :=
  forall a b c p p', d_elements d = a ++ EPackage p :: b ++ EPackage p' :: c -> False.
Definition one_option (name : string) (d : descriptor) : Prop :=
  (forall a b c o o', d_elements d = a ++ EOption o :: b ++ EOption o' :: c -> o_name o = name -> o_name o' <> name)
  /\ ~ option_is name d (Some EmptyString).
(** The linter reports something for the directory exactly when [disagree]; if so, at
    every file of it. *)
Definition Directory_reported_exactly (ord : order) (singularize : string -> string)
  (assume : descriptor -> Prop) (id : string) (disagree : list descriptor -> Prop) : Prop :=
  exists l, In l (all_linters ord singularize) /\ ln_id l = id /\
  forall ds, (forall d, In d ds -> assume d) ->
  exists fs, linter_check l ds = Ok fs /\
    (forall f, In f fs -> f_lint_id f = id) /\
    (fs <> [] <-> disagree ds) /\
    (disagree ds -> forall file p, (exists f, In f fs /\ at_place f file p) <->
                                   (p = mk_pos 0 0 /\ exists d, In d ds /\ d_filename d = file)).
(** Two files are in different packages (files without a package are not compared). *)
Definition packages_disagree (ds : list descriptor) : Prop :=
  exists d1 d2 n1 n2, In d1 ds /\ In d2 ds /\ package_is d1 (Some n1) /\ package_is d2 (Some n2) /\ n1 <> n2.
Definition options_disagree (name : string) (ds : list descriptor) : Prop :=
  exists d1 d2 v1 v2, In d1 ds /\ In d2 ds /\ option_is name d1 v1 /\ option_is name d2 v2 /\ v1 <> v2.
Definition same_in_dir_rules : list (string * string) := [
  ("FILE_OPTIONS_CSHARP_NAMESPACE_SAME_IN_DIR", "csharp_namespace");
  ("FILE_OPTIONS_GO_PACKAGE_SAME_IN_DIR", "go_package");
  ("FILE_OPTIONS_JAVA_MULTIPLE_FILES_SAME_IN_DIR", "java_multiple_files");
  ("FILE_OPTIONS_JAVA_PACKAGE_SAME_IN_DIR", "java_package");
  ("FILE_OPTIONS_OBJC_CLASS_PREFIX_SAME_IN_DIR", "objc_class_prefix");
  ("FILE_OPTIONS_PHP_NAMESPACE_SAME_IN_DIR", "php_namespace")
].

(** ** Requests and responses *)

(** The file declares the message type [t] (written with the names of the enclosing
    messages).  An extend block counts as a declaration: see the findings. *)
Definition declares (d : descriptor) (t : string) : Prop :=
  exists ctx e, located (d_elements d) ctx e /\ outside_groups ctx /\ is_message_or_extend e
    /\ t = qualified_name ctx (name_of e).
Definition bad_rpc_type (d : descriptor) (t : string) : Prop := ~ declares d t \/ has_substring t ".".
(** Top-level declarations have distinct names. *)
Definition distinct_top (d : descriptor) : Prop :=
  forall e1 e2, In e1 (d_elements d) -> In e2 (d_elements d) -> name_of e1 = name_of e2 ->
  (is_message_or_extend e1 /\ is_message_or_extend e2 \/ is_enum e1 /\ is_enum e2) -> e1 = e2.
Definition line (p : position) : Z := p_line p.
(** Message [m] is before the RPC that uses it, or is a response before its request. *)
Definition too_early (d : descriptor) (e : element) : Prop :=
  is_message_or_extend e /\
  exists r, In r (file_rpcs d) /\
   ((name_of e = r_request r \/ name_of e = r_returns r) /\ (line (position_of e) < line (r_pos r))%Z
    \/ name_of e = r_returns r /\ exists q, In q (d_elements d) /\ is_message_or_extend q /\ name_of q = r_request r
         /\ (line (position_of e) < line (position_of q))%Z).
(** All uses of types by the RPCs, in the order they are written. *)
Definition uses (d : descriptor) : list (rpc * string) :=
  flat_map (fun r => [(r, r_request r); (r, r_returns r)]) (file_rpcs d).
Definition request_response_rules : list (string * (descriptor -> position -> Prop)) := [
  ("REQUEST_RESPONSE_NAMES_MATCH_RPC", fun d p =>
     exists r, In r (file_rpcs d) /\ p = r_pos r
       /\ (r_request r <> r_name r +++ "Request" \/ r_returns r <> r_name r +++ "Response"));
  ("REQUEST_RESPONSE_TYPES_IN_SAME_FILE", fun d p =>
     exists r, In r (file_rpcs d) /\ p = r_pos r /\ (bad_rpc_type d (r_request r) \/ bad_rpc_type d (r_returns r)));
  ("REQUEST_RESPONSE_TYPES_UNIQUE", fun d p =>
     exists i j r r' t, j < i /\ nth_error (uses d) i = Some (r, t) /\ nth_error (uses d) j = Some (r', t) /\ p = r_pos r)
].
Definition layout_rules : list (string * (descriptor -> position -> Prop)) := [
  ("REQUEST_RESPONSE_TYPES_AFTER_SERVICE", fun d p =>
     exists e, In e (d_elements d) /\ too_early d e /\ p = position_of e);
  ("REQUEST_RESPONSE_TYPES_ONLY_IN_FILE", fun d p =>
     exists e, In e (d_elements d) /\ file_rpcs d <> [] /\ p = position_of e
       /\ (is_enum e \/ is_message_or_extend e /\ ~ rpc_type d (name_of e)))
].

(** ** Other rules about elements *)
Definition has_option (e : element) (name : string) : Prop :=
  exists k f o, e = EField k f /\ In o (fd_options f) /\ o_name o = name.
(** A message without fields of its own, directly or in its oneofs. *)
Definition no_fields (e : element) : Prop :=
  forall x, In x (contents e) -> ~ is_field x /\ (is_oneof x -> forall y, In y (contents x) -> ~ is_field y).
Definition well_known_files : list string := map (fun s => "google/protobuf/" +++ s +++ ".proto")
  ["any"; "api"; "compiler/plugin"; "descriptor"; "duration"; "empty"; "field_mask";
   "source_context"; "struct"; "timestamp"; "type"; "wrappers"].
Definition import_is (e : element) (P : import -> Prop) : Prop := exists i, e = EImport i /\ P i.
Definition element_rules : list (string * rule) := [
  ("ENUMS_NO_ALLOW_ALIAS", Breaks is_option (fun _ ctx e =>
     name_of e = "allow_alias" /\ exists h es outer, ctx = EEnum h es :: outer));
  ("FIELDS_NOT_RESERVED", Breaks is_reserved (fun _ _ _ => True));
  ("MESSAGE_FIELDS_NO_JSON_NAME", Breaks is_field (fun _ _ e => has_option e "json_name"));
  ("MESSAGE_FIELDS_DURATION", Breaks is_plain_field (fun _ _ e =>
     has_substring (name_of e) "duration" /\ type_of e <> "google.protobuf.Duration"));
  ("MESSAGE_FIELDS_TIME", Breaks is_plain_field (fun _ _ e =>
     has_substring (name_of e) "time" /\ type_of e <> "google.protobuf.Timestamp"));
  ("WKT_DURATION_SUFFIX", Breaks is_plain_field (fun _ _ e =>
     type_of e = "google.protobuf.Duration" /\ name_of e <> "duration" /\ ~ ends_with (name_of e) "_duration"));
  ("WKT_TIMESTAMP_SUFFIX", Breaks is_plain_field (fun _ _ e =>
     type_of e = "google.protobuf.Timestamp" /\ name_of e <> "time" /\ ~ ends_with (name_of e) "_time"));
  ("RPCS_NO_STREAMING", Breaks is_rpc (fun _ _ e =>
     exists r es, e = ERPC r es /\ (r_streams_request r = true \/ r_streams_returns r = true)));
  ("GOGO_NOT_IMPORTED", Breaks is_import (fun _ _ e => import_is e (fun i => ends_with (im_filename i) "gogo.proto")));
  ("IMPORTS_NOT_PUBLIC", Breaks is_import (fun _ _ e => import_is e (fun i => im_kind i = "public")));
  ("IMPORTS_NOT_WEAK", Breaks is_import (fun _ _ e => import_is e (fun i => im_kind i = "weak")));
  ("WKT_DIRECTLY_IMPORTED", Breaks is_import (fun _ _ e => import_is e (fun i =>
     exists w, In w well_known_files /\ ends_with (im_filename i) w /\ im_filename i <> w)))
].
(** MESSAGES_NOT_EMPTY_EXCEPT_REQUEST_RESPONSE_TYPES also covers extend blocks. *)
Definition distinct_blocks (d : descriptor) : Prop :=
  forall c1 e1 c2 e2, located (d_elements d) c1 e1 -> located (d_elements d) c2 e2 ->
  is_message_or_extend e1 -> is_message_or_extend e2 ->
  qualified_name c1 (name_of e1) = qualified_name c2 (name_of e2) -> c1 = c2 /\ e1 = e2.
Definition empty_message : rule :=
  Breaks is_message_or_extend (fun d ctx e => ~ rpc_type d (qualified_name ctx (name_of e)) /\ no_fields e).

(** ** Suppression *)

(** The settings allow suppression and the comment has the annotation for [rule]. *)
Definition silenced (annotation : string) (d : descriptor) (c : option comment) : Prop :=
  lc_allow_suppression (cfg_lint (ps_config (d_set d))) = true /\
  exists c' l, c = Some c' /\ In l (c_lines c') /\ has_substring l ("@suppresswarnings " +++ annotation).
(** [bad], unless the comment of the element silences the rule. *)
Definition unless_silenced (annotation : string) (bad : descriptor -> list element -> element -> Prop) :
  descriptor -> list element -> element -> Prop :=
  fun d ctx e => bad d ctx e /\ ~ silenced annotation d (comment_of e).
(** The names an element has. *)
Definition has_name (e : element) (n : string) : Prop :=
  match e with
  | EComment _ | ESyntax _ | EImport _ | EExtensions _ => False
  | EReserved r => In n (rs_names r)
  | _ => n = name_of e
  end.
Definition outlaws (word : string) : rule :=
  Breaks_anywhere (fun _ => True) (unless_silenced "naming" (fun _ _ e =>
    exists n, has_name e n /\ has_substring (to_lower n) word)).
(** Options of RPCs are silenced by the comment of the RPC. *)
Definition http_option (name : string) : Prop :=
  starts_with name "(google.api.http)" \/ starts_with name "(.google.api.http)".
(** No such option of the file or of a service. *)
Definition no_stray_http_option (d : descriptor) : Prop :=
  forall ctx e, located (d_elements d) ctx e -> is_option e -> starts_with (name_of e) "(.google.api.http)" ->
  ctx <> [] /\ forall h es, ctx <> [EService h es].
Definition plural (singularize : string -> string) (word : string) : Prop :=
  singularize (to_lower word) <> to_lower word /\ to_upper word <> word /\ to_lower word <> "data".
Definition keywords : list string := ["internal"; "public"; "private"; "protected"; "std"].
Definition suppressable_rules (singularize : string -> string) : list (string * rule) := [
  ("MESSAGE_FIELDS_NOT_FLOATS", Breaks is_field (unless_silenced "floats" (fun _ _ e => type_of e = "float")));
  ("NAMES_NO_COMMON", outlaws "common");
  ("NAMES_NO_DATA", outlaws "data");
  ("NAMES_NO_UUID", outlaws "uuid");
  ("PACKAGE_NO_KEYWORDS", Breaks is_package (unless_silenced "keywords" (fun _ _ e =>
     exists part, In part (split_char "." (name_of e)) /\ In (to_lower part) keywords)));
  ("SERVICE_NAMES_NO_PLURALS", Breaks is_service (unless_silenced "plurals" (fun _ _ e =>
     exists w, In w (split_camel_case_word (name_of e)) /\ plural singularize w)))
].
Definition http_rule : rule := fun d ctx e p =>
  exists r es outer, ctx = ERPC r es :: outer /\ is_option e /\ http_option (name_of e)
    /\ ~ silenced "google-api-http" d (r_comment r) /\ p = position_of e.

(** ** Rules about the head of the file *)
Definition first_package (d : descriptor) (p : package) : Prop :=
  exists a b, d_elements d = a ++ EPackage p :: b /\ forall p', ~ In (EPackage p') a.
Definition no_package (d : descriptor) : Prop := forall p, ~ In (EPackage p) (d_elements d).
Definition first_syntax (d : descriptor) (s : syntax) : Prop :=
  exists a b, d_elements d = a ++ ESyntax s :: b /\ forall s', ~ In (ESyntax s') a.
Definition no_syntax (d : descriptor) : Prop := forall s, ~ In (ESyntax s) (d_elements d).
(** A second package or syntax statement. *)
Definition extra_package (d : descriptor) (p : position) : Prop :=
  exists a b c k k', d_elements d = a ++ EPackage k :: b ++ EPackage k' :: c /\ p = pk_pos k'.
Definition extra_syntax (d : descriptor) (p : position) : Prop :=
  exists a b c k k', d_elements d = a ++ ESyntax k :: b ++ ESyntax k' :: c /\ p = sx_pos k'.
Definition package_breaks (bad : string -> Prop) (d : descriptor) (p : position) : Prop :=
  extra_package d p \/ exists k, first_package d k /\ bad (pk_name k) /\ p = pk_pos k.
Definition versioned (n : string) : Prop :=
  exists base part major beta, last_component n base part /\ VersionPart part major beta.
Definition file_rules : list (string * (descriptor -> position -> Prop)) := [
  ("PACKAGE_IS_DECLARED", fun d p => extra_package d p \/ no_package d /\ p = mk_pos 0 0);
  ("PACKAGE_LOWER_CASE", package_breaks (fun n =>
     ~ all_chars (fun c => is_lower c = true \/ is_digit c = true \/ c = "."%char) n));
  ("PACKAGE_LOWER_SNAKE_CASE", package_breaks (fun n => ~ snake_shape is_lower (join EmptyString (split_char "." n))));
  ("PACKAGE_MAJOR_BETA_VERSIONED", fun d p =>
     package_breaks (fun n => ~ versioned n) d p \/ no_package d /\ p = mk_pos 0 0);
  ("SYNTAX_PROTO3", fun d p => extra_syntax d p \/ no_syntax d /\ p = mk_pos 0 0
     \/ exists s, first_syntax d s /\ sx_value s <> "proto3" /\ p = sx_pos s);
  ("FILE_HEADER", fun d p =>
     let h := lc_file_header (cfg_lint (ps_config (d_set d))) in
     ~ starts_with (d_data d) h /\ p = mk_pos 0 0);
  ("SERVICE_NAMES_MATCH_FILE_NAME", fun d p =>
     exists h es, In (EService h es) (d_elements d) /\ p = h_pos h /\
       ((exists a b c s1 e1 s2 e2, d_elements d = a ++ EService s1 e1 :: b ++ EService s2 e2 :: c)
        \/ path_base (d_filename d) <> to_lower_snake_case (h_name h) +++ ".proto"))
].
(** The last component of the path is lower_snake_case, then nothing or a dot and an
    extension without dots. *)
Definition snake_file_name (d : descriptor) : Prop :=
  exists stem ext, path_base (d_filename d) = stem +++ ext /\ snake_shape is_lower stem
    /\ (ext = EmptyString \/ exists x, ext = "." +++ x /\ lacks "." x).
Definition file_name_rule : descriptor -> position -> Prop :=
  fun d p => ~ snake_file_name d /\ p = mk_pos 0 0.
