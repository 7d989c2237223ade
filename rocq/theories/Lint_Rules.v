(** Model of the lint rules: internal/lint/check_*.go and the tables of
    lint.go:40-278.

    A Go visitor is a struct whose Visit methods either do nothing (base_visitor.go:37-53),
    inspect the element, or call Accept on the children.  Here a visitor is the set
    of element kinds whose Visit method goes into the children ([into]) and what it
    does at each element ([hook]); [walk] is the traversal, in the order parents
    before children.  Simplification: a few visitors look at the parent after the
    children; the order of failures is not observable because CheckMultiple sorts
    them by everything that is printed (C15).  Where the order decides which entry of
    a map survives ([post]) children come first, as in the code. *)
From Verif Require Export Lint_Model.

Inductive kind : Type := KMessage | KEnum | KOneof | KService | KRPC | KGroup | KEnumField | KField.
Definition kind_eqb (a b : kind) : bool :=
  match a, b with
  | KMessage, KMessage | KEnum, KEnum | KOneof, KOneof | KService, KService
  | KRPC, KRPC | KGroup, KGroup | KEnumField, KEnumField | KField, KField => true
  | _, _ => false
  end.
Definition into (ks : list kind) (k : kind) : bool := existsb (kind_eqb k) ks.
Definition everywhere : list kind := [KMessage; KEnum; KOneof; KService; KRPC; KGroup; KEnumField; KField].

(** The elements a visitor is called on, each with the elements it is inside of,
    innermost first. *)
Fixpoint walk (ks : list kind) (ctx : list element) (e : element) : list (list element * element) :=
  (ctx, e) ::
  match e with
  | EField _ f => if into ks KField then map (fun o => (e :: ctx, EOption o)) (fd_options f) else []
  | EEnumField _ es => if into ks KEnumField then flat_map (walk ks (e :: ctx)) es else []
  | EEnum _ es => if into ks KEnum then flat_map (walk ks (e :: ctx)) es else []
  | EMessage _ _ es => if into ks KMessage then flat_map (walk ks (e :: ctx)) es else []
  | EOneof _ es => if into ks KOneof then flat_map (walk ks (e :: ctx)) es else []
  | EGroup _ _ _ es => if into ks KGroup then flat_map (walk ks (e :: ctx)) es else []
  | EService _ es => if into ks KService then flat_map (walk ks (e :: ctx)) es else []
  | ERPC _ es => if into ks KRPC then flat_map (walk ks (e :: ctx)) es else []
  | _ => []
  end.
(** The same with children before parents. *)
Fixpoint walk_post (ks : list kind) (ctx : list element) (e : element) : list (list element * element) :=
  match e with
  | EField _ f => if into ks KField then map (fun o => (e :: ctx, EOption o)) (fd_options f) else []
  | EEnumField _ es => if into ks KEnumField then flat_map (walk_post ks (e :: ctx)) es else []
  | EEnum _ es => if into ks KEnum then flat_map (walk_post ks (e :: ctx)) es else []
  | EMessage _ _ es => if into ks KMessage then flat_map (walk_post ks (e :: ctx)) es else []
  | EOneof _ es => if into ks KOneof then flat_map (walk_post ks (e :: ctx)) es else []
  | EGroup _ _ _ es => if into ks KGroup then flat_map (walk_post ks (e :: ctx)) es else []
  | EService _ es => if into ks KService then flat_map (walk_post ks (e :: ctx)) es else []
  | ERPC _ es => if into ks KRPC then flat_map (walk_post ks (e :: ctx)) es else []
  | _ => []
  end ++ [(ctx, e)].
Definition visited (ks : list kind) (d : descriptor) : list (list element * element) :=
  flat_map (walk ks []) (d_elements d).
Definition visited_post (ks : list kind) (d : descriptor) : list (list element * element) :=
  flat_map (walk_post ks []) (d_elements d).

(** base_visitor.go:99-112 for a visitor that keeps no state. *)
Definition visiting (ks : list kind) (hook : descriptor -> list element -> element -> list raw)
  (ds : list descriptor) : result (list raw) :=
  Ok (flat_map (fun d => flat_map (fun ce => hook d (fst ce) (snd ce)) (visited ks d)) ds).
(** base_visitor.go:99-112 for a visitor whose state is reset by OnStart: [check] is
    OnStart, the visits and Finally. *)
Definition per_file (check : descriptor -> result (list raw)) (ds : list descriptor) : result (list raw) :=
  concatM check ds.
Definition per_file_ok (check : descriptor -> list raw) (ds : list descriptor) : result (list raw) :=
  Ok (flat_map check ds).

Definition q (s : string) : string := quote s.
Definition if_not (b : bool) (l : list raw) : list raw := if b then [] else l.
Definition if_ (b : bool) (l : list raw) : list raw := if b then l else [].

(** ** Comments *)
(** lint.go:534-536 *)
Definition has_golang_style_comment (c : option comment) (name : string) : bool :=
  match c with
  | Some c => match c_lines c with l :: _ => has_prefix l (" " +++ name +++ " ") | [] => false end
  | None => false
  end.
(** unicode.IsUpper and unicode.IsDigit of a rune made from one byte (lint.go:550):
    the rune is in Latin-1, so bytes 0xC0-0xDE except 0xD7 count as upper case. *)
Definition latin1_is_upper (c : ascii) : bool :=
  is_upper c || ((192 <=? code c) && (code c <=? 222) && negb (code c =? 215)).
(** lint.go:542-551 *)
Definition comment_starts_with_uppercase_letter (c : option comment) : bool :=
  match c with
  | Some c =>
      match c_lines c with
      | l :: _ => match trim_space l with
                  | EmptyString => false
                  | String x _ => latin1_is_upper x || is_digit x
                  end
      | [] => false
      end
  | None => false
  end.
(** lint.go:553-565 *)
Definition comment_contains_period (c : option comment) : bool :=
  match c with
  | Some c => existsb (fun l => contains l ".") (c_lines c)
  | None => false
  end.
(** lint.go:538-540 *)
Definition has_complete_sentence_comment (c : option comment) : bool :=
  comment_starts_with_uppercase_letter c && comment_contains_period c.

(** The position and the comments that check_comments_no_c_style.go:44-140 looks at. *)
Definition all_comments (e : element) : position * list (option comment) :=
  match e with
  | EComment c => (c_pos c, [Some c])
  | ESyntax s => (sx_pos s, [sx_comment s; sx_inline s])
  | EPackage p => (pk_pos p, [pk_comment p; pk_inline p])
  | EImport i => (im_pos i, [im_comment i; im_inline i])
  | EOption o => (o_pos o, [o_comment o; o_inline o])
  | EField _ f => (fd_pos f, [fd_comment f; fd_inline f])
  | EReserved r => (rs_pos r, [rs_comment r; rs_inline r])
  | EExtensions x => (xt_pos x, [xt_comment x; xt_inline x])
  | EEnumField f _ => (ef_pos f, [ef_comment f; ef_inline f])
  | EEnum h _ | EMessage h _ _ | EOneof h _ | EGroup h _ _ _ | EService h _ => (h_pos h, [h_comment h])
  | ERPC r _ => (r_pos r, [r_comment r; r_inline r])
  end.
(** check_comments_no_c_style.go:36-150 *)
Definition check_comments_no_c_style : list descriptor -> result (list raw) :=
  visiting everywhere (fun d _ e =>
    let '(p, cs) := all_comments e in
    flat_map (fun c => match c with
                       | Some c => if_ (c_cstyle c) [add_failure d p "C-Style comments are not allowed."]
                       | None => []
                       end) cs).
(** check_comments_no_inline.go:42-129 *)
Definition inline_comment (e : element) : option (string * option comment) :=
  match e with
  | ESyntax s => Some ("syntax", sx_inline s)
  | EPackage p => Some ("packages", pk_inline p)
  | EOption o => Some ("options", o_inline o)
  | EImport i => Some ("imports", im_inline i)
  | EField InOneof f => Some ("oneofs", fd_inline f)
  | EField _ f => Some ("fields", fd_inline f)
  | EEnumField f _ => Some ("enum values", ef_inline f)
  | EReserved r => Some ("reserved", rs_inline r)
  | ERPC r _ => Some ("RPCs", r_inline r)
  | EExtensions x => Some ("extensions", xt_inline x)
  | _ => None
  end.
(** check_comments_no_inline.go:34-135 *)
Definition check_comments_no_inline : list descriptor -> result (list raw) :=
  visiting everywhere (fun d _ e =>
    match inline_comment e with
    | Some (t, Some c) =>
        [add_failure d (c_pos c) ("Inline comments are not allowed on " +++ t +++ ", only comment above the type.")]
    | _ => []
    end).

Definition needs_golang_comment (what name : string) : string :=
  what +++ " " +++ q name +++ " needs a comment of the form " +++ String dquote EmptyString +++ "// " +++ name +++ " ..."
  +++ String dquote EmptyString.
Definition needs_sentence (what name : string) : string :=
  what +++ " " +++ q name +++ " needs a comment with a complete sentence that starts on the first line of the comment.".

(** ** Enums *)
(** check_enum_field_names_uppercase.go:35-59 *)
Definition check_enum_field_names_uppercase : list descriptor -> result (list raw) :=
  visiting [KMessage; KEnum] (fun d _ e => match e with
    | EEnumField f _ => if_not (is_uppercase (ef_name f))
        [add_failure d (ef_pos f) ("Field name " +++ q (ef_name f) +++ " must be uppercase.")]
    | _ => [] end).
(** check_enum_field_names_upper_snake_case.go:35-59 *)
Definition check_enum_field_names_upper_snake_case : list descriptor -> result (list raw) :=
  visiting [KMessage; KEnum] (fun d _ e => match e with
    | EEnumField f _ => if_not (is_upper_snake_case (ef_name f))
        [add_failure d (ef_pos f) ("Field name " +++ q (ef_name f) +++ " must be UPPER_SNAKE_CASE.")]
    | _ => [] end).
(** The nestedNames stack of check_enum_field_prefixes.go:47-61 and
    check_enum_zero_values_invalid.go:47-61. *)
Definition nested_names (ctx : list element) : list string :=
  rev (flat_map (fun e => match e with
                          | EMessage h _ _ | EEnum h _ => [to_upper_snake_case (h_name h)]
                          | _ => [] end) ctx).
(** check_enum_field_prefixes.go:37-68 *)
Definition check_enum_field_prefixes : list descriptor -> result (list raw) :=
  visiting [KMessage; KEnum] (fun d ctx e => match e with
    | EEnumField f _ =>
        let expected := join "_" (nested_names ctx) +++ "_" in
        if_not (has_prefix (ef_name f) expected)
          [add_failure d (ef_pos f) ("Enum field " +++ q (ef_name f) +++ " is expected to have the prefix " +++ q expected +++ ".")]
    | _ => [] end).
(** check_enum_field_prefixes_except_message.go:58-66 and
    check_enum_zero_values_invalid_except_message.go:57-65: the enum the field is in;
    the nil dereference that follows when there is none is an [Err]. *)
Definition enclosing_enum (ctx : list element) : result header :=
  match ctx with
  | EEnum h _ :: _ => Ok h
  | _ => Err nil_dereference
  end.
(** check_enum_field_prefixes_except_message.go:37-70 *)
Definition check_enum_field_prefixes_except_message : list descriptor -> result (list raw) :=
  per_file (fun d => concatM (fun ce => match snd ce with
    | EEnumField f _ =>
        do h <- enclosing_enum (fst ce);
        let expected := to_upper_snake_case (h_name h) +++ "_" in
        Ok (if_not (has_prefix (ef_name f) expected)
          [add_failure d (ef_pos f) ("Enum field " +++ q (ef_name f) +++ " is expected to have the prefix " +++ q expected +++ ".")])
    | _ => Ok [] end) (visited [KMessage; KEnum] d)).
(** check_enum_fields_have_comments.go:34-59 *)
Definition check_enum_fields_have_comments : list descriptor -> result (list raw) :=
  visiting [KMessage; KEnum] (fun d _ e => match e with
    | EEnumField f _ => if_not (has_golang_style_comment (ef_comment f) (ef_name f))
        [add_failure d (ef_pos f) (needs_golang_comment "Enum field" (ef_name f))]
    | _ => [] end).
(** check_enum_fields_have_sentence_comments.go:34-59 *)
Definition check_enum_fields_have_sentence_comments : list descriptor -> result (list raw) :=
  visiting [KMessage; KEnum] (fun d _ e => match e with
    | EEnumField f _ => if_not (has_complete_sentence_comment (ef_comment f))
        [add_failure d (ef_pos f) (needs_sentence "Enum field" (ef_name f))]
    | _ => [] end).
(** check_enum_names_camel_case.go:35-54 *)
Definition check_enum_names_camel_case : list descriptor -> result (list raw) :=
  visiting [KMessage] (fun d _ e => match e with
    | EEnum h _ => if_not (is_camel_case (h_name h))
        [add_failure d (h_pos h) ("Enum name " +++ q (h_name h) +++ " must be CamelCase.")]
    | _ => [] end).
(** check_enum_names_capitalized.go:35-54 *)
Definition check_enum_names_capitalized : list descriptor -> result (list raw) :=
  visiting [KMessage] (fun d _ e => match e with
    | EEnum h _ => if_not (is_capitalized (h_name h))
        [add_failure d (h_pos h) ("Enum name " +++ q (h_name h) +++ " must be capitalized.")]
    | _ => [] end).
(** check_enum_zero_values_invalid.go:37-70 *)
Definition check_enum_zero_values_invalid : list descriptor -> result (list raw) :=
  visiting [KMessage; KEnum] (fun d ctx e => match e with
    | EEnumField f _ =>
        let expected := join "_" (nested_names ctx) +++ "_INVALID" in
        if_ ((ef_integer f =? 0)%Z && negb (String.eqb (ef_name f) expected))
          [add_failure d (ef_pos f) ("Zero value enum field " +++ q (ef_name f) +++ " is expected to have the name " +++ q expected +++ ".")]
    | _ => [] end).
(** check_enum_zero_values_invalid_except_message.go:35-70 *)
Definition check_enum_zero_values_invalid_except_message : list descriptor -> result (list raw) :=
  per_file (fun d => concatM (fun ce => match snd ce with
    | EEnumField f _ =>
        if (ef_integer f =? 0)%Z then
          do h <- enclosing_enum (fst ce);
          let expected := to_upper_snake_case (h_name h) +++ "_INVALID" in
          Ok (if_not (String.eqb (ef_name f) expected)
            [add_failure d (ef_pos f) ("Zero value enum field " +++ q (ef_name f) +++ " is expected to have the name " +++ q expected +++ ".")])
        else Ok []
    | _ => Ok [] end) (visited [KMessage; KEnum] d)).
(** check_enums_have_comments.go:34-53 *)
Definition check_enums_have_comments : list descriptor -> result (list raw) :=
  visiting [KMessage] (fun d _ e => match e with
    | EEnum h _ => if_not (has_golang_style_comment (h_comment h) (h_name h))
        [add_failure d (h_pos h) (needs_golang_comment "Enum" (h_name h))]
    | _ => [] end).
(** check_enums_have_sentence_comments.go:34-53 *)
Definition check_enums_have_sentence_comments : list descriptor -> result (list raw) :=
  visiting [KMessage] (fun d _ e => match e with
    | EEnum h _ => if_not (has_complete_sentence_comment (h_comment h))
        [add_failure d (h_pos h) (needs_sentence "Enum" (h_name h))]
    | _ => [] end).
(** check_enums_no_allow_alias.go:34-66 *)
Definition check_enums_no_allow_alias : list descriptor -> result (list raw) :=
  visiting [KMessage; KEnum] (fun d ctx e => match e, ctx with
    | EOption o, EEnum _ _ :: _ => if_ (String.eqb (o_name o) "allow_alias")
        [add_failure d (o_pos o) "Enum aliases are not allowed."]
    | _, _ => [] end).
(** The outerNameStack of check_fields_not_reserved.go:45-69. *)
Definition outer_names (ctx : list element) : list string :=
  rev (flat_map (fun e => match e with EMessage h _ _ | EEnum h _ => [h_name h] | _ => [] end) ctx).
(** check_fields_not_reserved.go:36-81 *)
Definition check_fields_not_reserved : list descriptor -> result (list raw) :=
  visiting [KMessage; KEnum] (fun d ctx e => match e with
    | EReserved r =>
        let t := match rs_ranges r with [] => "field names" | _ => "field numbers" end in
        [add_failure d (rs_pos r) (q (join "." (outer_names ctx)) +++ " cannot have reserved " +++ t
                                   +++ ", use the deprecated field option instead.")]
    | _ => [] end).

(** ** Files *)
(** check_file_header.go:36-51 *)
Definition check_file_header : list descriptor -> result (list raw) :=
  per_file_ok (fun d =>
    let header := lc_file_header (cfg_lint (ps_config (d_set d))) in
    if_ (negb (is_empty header) && negb (has_prefix (d_data d) header))
      [add_failure d no_pos "File is expected to begin with the file header specified from the configuration file."]).
(** check_file_names_lower_snake_case.go:38-52 *)
Definition check_file_names_lower_snake_case : list descriptor -> result (list raw) :=
  per_file_ok (fun d =>
    let filename := path_base (d_filename d) in
    if_not (is_lower_snake_case (trim_suffix filename (path_ext filename)))
      [add_failure d no_pos "File name should be lower_snake_case.proto."]).

(** The options visited by a visitor that goes into nothing: the file options. *)
Definition file_options (name : string) (d : descriptor) : list opt :=
  flat_map (fun e => match e with EOption o => if String.eqb (o_name o) name then [o] else [] | _ => [] end) (d_elements d).
(** A field that VisitX overwrites: the last element visited. *)
Fixpoint last_opt {A} (l : list A) : option A :=
  match l with [] => None | [x] => Some x | _ :: l' => last_opt l' end.
Definition packages (d : descriptor) : list package :=
  flat_map (fun e => match e with EPackage p => [p] | _ => [] end) (d_elements d).
Definition syntaxes (d : descriptor) : list syntax :=
  flat_map (fun e => match e with ESyntax s => [s] | _ => [] end) (d_elements d).

(** check_file_options_equal.go:103-160 *)
Definition check_file_options_equal (option_name : string) (expected : descriptor -> package -> string) :
  list descriptor -> result (list raw) :=
  per_file (fun d =>
    match last_opt (packages d), last_opt (file_options option_name d) with
    | Some p, Some o =>
        if is_empty (d_filename d) then Err "expected filename to be set for descriptor in checkFileOptionsEqual linter"
        else
          let value := l_source (o_const o) in
          Ok (if_not (String.eqb (expected d p) value)
            [add_failure d (o_pos o) ("Expected " +++ q (expected d p) +++ " for option " +++ q (o_name o) +++ " but was " +++ q value +++ ".")])
    | _, _ => Ok []
    end).
(** check_file_options_required.go:78-114 *)
Definition check_file_options_require (option_name : string) : list descriptor -> result (list raw) :=
  per_file_ok (fun d =>
    match file_options option_name d with
    | [] => [add_failure d no_pos ("File option " +++ q option_name +++ " is required.")]
    | _ => []
    end).
(** check_file_options_unset.go:42-79 *)
Definition check_file_options_unset (option_name : string) : list descriptor -> result (list raw) :=
  per_file_ok (fun d =>
    match last_opt (file_options option_name d) with
    | Some o => [add_failure d (o_pos o) ("File option " +++ q option_name +++ " should not be set.")]
    | None => []
    end).
(** check_go_package_not_long_form.go:36-66 *)
Definition check_file_options_go_package_not_long_form : list descriptor -> result (list raw) :=
  per_file_ok (fun d =>
    match last_opt (file_options "go_package" d) with
    | Some o =>
        let value := l_source (o_const o) in
        if_ (contains value ";")
          [add_failure d (o_pos o) ("Option " +++ q "go_package" +++ " cannot be of the long-form " +++ q "go/import/path;package"
             +++ " and must only be of the short-form " +++ q "package" +++ ", but was " +++ q value +++ ".")]
    | None => []
    end).

(** A declaration after the first: "multiple ... declarations, first was %v".
    Simplification: what %v prints of the first one is left out. *)
Definition duplicates {A} (pos : A -> position) (msg : string) (d : descriptor) (l : list A) : list raw :=
  map (fun x => add_failure d (pos x) msg) (tl l).
Definition duplicate_packages (d : descriptor) : list raw :=
  duplicates pk_pos "multiple package declarations, first was ..." d (packages d).

Section Rules.
  Variable ord : order.
  (** flect.New(word).Singularize() of github.com/gobuffalo/flect. *)
  Variable singularize : string -> string.

  (** check_file_options_same_in_dir.go:68-131 *)
  Definition check_file_options_same_in_dir (option_name : string) (ds : list descriptor) : result (list raw) :=
    let dups := flat_map (fun d => duplicates o_pos ("multiple option declarations for " +++ option_name +++ ", first was ...")
                                              d (file_options option_name d)) ds in
    let values := build (map (fun d => (match file_options option_name d with [] => EmptyString | o :: _ => l_source (o_const o) end, tt)) ds) in
    Ok (dups ++
      if 1 <? length values then
        if has EmptyString values then
          map (fun d => add_failure d no_pos ("File option " +++ q option_name +++ " set in some files in directory but not in others.")) ds
        else
          let sorted := sort_strings (ord ("fileOptionValues " +++ option_name) _ (map fst values)) in
          map (fun d => add_failure d no_pos ("Multiple values for file option " +++ q option_name +++ " in directory: " +++ join ", " sorted +++ ".")) ds
      else []).

  (** ** Packages *)
  (** check_package_is_declared.go:36-67 *)
  Definition check_package_is_declared : list descriptor -> result (list raw) :=
    per_file_ok (fun d => duplicate_packages d ++
      match packages d with [] => [add_failure d no_pos "No package declaration found."] | _ => [] end).
  (** check_package_lower_case.go:68-75 *)
  Definition is_package_lower_case (s : string) : bool :=
    sforall (fun c => is_lower c || is_digit c || Ascii.eqb c ".") s.
  (** check_package_lower_case.go:34-66 *)
  Definition check_package_lower_case : list descriptor -> result (list raw) :=
    per_file_ok (fun d => duplicate_packages d ++
      match packages d with
      | p :: _ => if_not (is_package_lower_case (pk_name p))
          [add_failure d (pk_pos p) ("Packages should only contain characters in the range a-z0-9 and periods but was " +++ q (pk_name p) +++ ".")]
      | [] => [] end).
  (** check_package_lower_snake_case.go:37-69 *)
  Definition check_package_lower_snake_case : list descriptor -> result (list raw) :=
    per_file_ok (fun d => duplicate_packages d ++
      match packages d with
      | p :: _ => if_not (is_lower_snake_case (replace_char "." "" (pk_name p)))
          [add_failure d (pk_pos p) ("Package should be lower_snake.case but was " +++ q (pk_name p) +++ ".")]
      | [] => [] end).
  (** check_package_major_beta_versioned.go:37-71 *)
  Definition check_package_major_beta_versioned : list descriptor -> result (list raw) :=
    per_file_ok (fun d => duplicate_packages d ++
      match packages d with
      | p :: _ => match major_beta_version (pk_name p) with
          | Some _ => []
          | None => [add_failure d (pk_pos p) ("Package should be of the form " +++ q "package.vMAJORVERSION" +++ " or "
                       +++ q "packagevMAJORVERSIONbetaBETAVERSION" +++ " with versions >=1 but was " +++ q (pk_name p) +++ ".")]
          end
      | [] => [add_failure d no_pos "No package declaration found."] end).
  (** check_package_no_keywords.go:33-39 *)
  Definition package_keywords : list string := ["internal"; "public"; "private"; "protected"; "std"].
  (** check_package_no_keywords.go:58-73 *)
  Definition check_package_no_keywords : list descriptor -> result (list raw) :=
    visiting [] (fun d _ e => match e with
      | EPackage p => flat_map (fun sub =>
            let k := to_lower sub in
            if_ (mem k package_keywords)
              [add_suppressable d (pk_comment p) (pk_pos p) ("Package " +++ q (pk_name p) +++ " contains the keyword " +++ q k
                 +++ ", this could cause problems in generated code.")])
          (split_char "." (pk_name p))
      | _ => [] end).
  (** check_packages_same_in_dir.go:38-82 *)
  Definition check_packages_same_in_dir (ds : list descriptor) : result (list raw) :=
    let dups := flat_map duplicate_packages ds in
    let pkgs := build (flat_map (fun d => match packages d with p :: _ => [(pk_name p, tt)] | [] => [] end) ds) in
    Ok (dups ++
      if 1 <? length pkgs then
        let sorted := sort_strings (ord "pkgs" _ (map fst pkgs)) in
        map (fun d => add_failure d no_pos ("Multiple packages in directory: " +++ join ", " sorted +++ ".")) ds
      else []).

  (** ** Imports and syntax *)
  (** check_gogo_not_imported.go:38-50 *)
  Definition check_gogo_not_imported : list descriptor -> result (list raw) :=
    visiting [] (fun d _ e => match e with
      | EImport i => if_ (has_suffix (im_filename i) "gogo.proto")
          [add_failure d (im_pos i) ("Importing " +++ q "gogo.proto" +++ " is not allowed.")]
      | _ => [] end).
  (** check_imports_not_public.go:36-48 *)
  Definition check_imports_not_public : list descriptor -> result (list raw) :=
    visiting [] (fun d _ e => match e with
      | EImport i => if_ (String.eqb (im_kind i) "public") [add_failure d (im_pos i) "Public imports are not allowed."]
      | _ => [] end).
  (** check_imports_not_weak.go:36-48 *)
  Definition check_imports_not_weak : list descriptor -> result (list raw) :=
    visiting [] (fun d _ e => match e with
      | EImport i => if_ (String.eqb (im_kind i) "weak") [add_failure d (im_pos i) "Weak imports are not allowed."]
      | _ => [] end).
  (** internal/wkt/wkt.go:30-43 *)
  Definition wkt_filenames : list string := [
    "google/protobuf/any.proto"; "google/protobuf/api.proto"; "google/protobuf/compiler/plugin.proto";
    "google/protobuf/descriptor.proto"; "google/protobuf/duration.proto"; "google/protobuf/empty.proto";
    "google/protobuf/field_mask.proto"; "google/protobuf/source_context.proto"; "google/protobuf/struct.proto";
    "google/protobuf/timestamp.proto"; "google/protobuf/type.proto"; "google/protobuf/wrappers.proto"].
  (** check_wkt_directly_imported.go:42-56 *)
  Definition check_wkt_directly_imported : list descriptor -> result (list raw) :=
    visiting [] (fun d _ e => match e with
      | EImport i => flat_map (fun w =>
            if_ (has_suffix (im_filename i) w && negb (String.eqb (im_filename i) w))
              [add_failure d (im_pos i) ("Import " +++ q (im_filename i)
                 +++ " is a Well-Known Type import but should be imported using google/protobuf as the base.")])
          (ord ("wkt " +++ d_filename d +++ " " +++ itoa (p_line (im_pos i)) +++ ":" +++ itoa (p_column (im_pos i))) _ wkt_filenames)
      | _ => [] end).
  (** check_syntax_proto3.go:36-70 *)
  Definition check_syntax_proto3 : list descriptor -> result (list raw) :=
    per_file_ok (fun d => duplicates sx_pos "multiple syntax declarations, first was ..." d (syntaxes d) ++
      match syntaxes d with
      | [] => [add_failure d no_pos "No syntax declaration found."]
      | s :: _ => if_not (String.eqb (sx_value s) "proto3")
          [add_failure d (sx_pos s) ("Syntax should be proto3 but was " +++ q (sx_value s) +++ ".")]
      end).

  (** ** Message fields *)
  (** VisitNormalField, VisitOneofField, VisitMapField of the field visitors. *)
  Definition fields_of (hook : descriptor -> field -> list raw) : list descriptor -> result (list raw) :=
    visiting [KMessage; KOneof] (fun d _ e => match e with EField _ f => hook d f | _ => [] end).
  (** The visitors without VisitMapField. *)
  Definition non_map_fields_of (hook : descriptor -> field -> list raw) : list descriptor -> result (list raw) :=
    visiting [KMessage; KOneof] (fun d _ e => match e with
      | EField (InMap _) _ => []
      | EField _ f => hook d f
      | _ => [] end).
  (** strings.Replace(s, old, new, -1): [skip] counts bytes of a match still to drop. *)
  Fixpoint replace_all (old new : string) (skip : nat) (s : string) : string :=
    match s with
    | EmptyString => EmptyString
    | String c s' =>
        match skip with
        | S k => replace_all old new k s'
        | 0 => if has_prefix s old then new +++ replace_all old new (String.length old - 1) s'
               else String c (replace_all old new 0 s')
        end
    end.
  (** check_message_field_names_filename.go:36-73 *)
  Definition check_message_field_names_filename : list descriptor -> result (list raw) :=
    fields_of (fun d f => if_ (contains (fd_name f) "file_name")
      [add_failure d (fd_pos f) ("Field name " +++ q (fd_name f) +++ " should be " +++ q (replace_all "file_name" "filename" 0 (fd_name f)) +++ ".")]).
  (** check_message_field_names_filepath.go:36-73 *)
  Definition check_message_field_names_filepath : list descriptor -> result (list raw) :=
    fields_of (fun d f => if_ (contains (fd_name f) "file_path")
      [add_failure d (fd_pos f) ("Field name " +++ q (fd_name f) +++ " should be " +++ q (replace_all "file_path" "filepath" 0 (fd_name f)) +++ ".")]).
  (** check_message_field_names_lower_snake_case.go:35-71 *)
  Definition check_message_field_names_lower_snake_case : list descriptor -> result (list raw) :=
    fields_of (fun d f => if_not (is_lower_snake_case (fd_name f))
      [add_failure d (fd_pos f) ("Field name " +++ q (fd_name f) +++ " must be lower_snake_case.")]).
  (** check_message_field_names_lowercase.go:35-71 *)
  Definition check_message_field_names_lowercase : list descriptor -> result (list raw) :=
    fields_of (fun d f => if_not (is_lowercase (fd_name f))
      [add_failure d (fd_pos f) ("Field name " +++ q (fd_name f) +++ " must be lowercase.")]).
  (** check_message_field_names_no_descriptor.go:36-74 *)
  Definition check_message_field_names_no_descriptor : list descriptor -> result (list raw) :=
    fields_of (fun d f => if_ (String.eqb (trim_right is_underscore (trim_left is_underscore (to_lower (fd_name f)))) "descriptor")
      [add_failure d (fd_pos f) ("Field name " +++ q (fd_name f) +++ " causes a collision in Java-generated code.")]).
  (** check_message_fields_have_comments.go:34-70 *)
  Definition check_message_fields_have_comments : list descriptor -> result (list raw) :=
    fields_of (fun d f => if_not (has_golang_style_comment (fd_comment f) (fd_name f))
      [add_failure d (fd_pos f) (needs_golang_comment "Message field" (fd_name f))]).
  (** check_message_fields_have_sentence_comments.go:34-70 *)
  Definition check_message_fields_have_sentence_comments : list descriptor -> result (list raw) :=
    fields_of (fun d f => if_not (has_complete_sentence_comment (fd_comment f))
      [add_failure d (fd_pos f) (needs_sentence "Message field" (fd_name f))]).
  (** check_message_fields_no_json_name.go:34-72 *)
  Definition check_message_fields_no_json_name : list descriptor -> result (list raw) :=
    fields_of (fun d f => flat_map (fun o => if_ (String.eqb (o_name o) "json_name")
      [add_failure d (fd_pos f) ("Field " +++ q (fd_name f) +++ " cannot have the " +++ q "json_name" +++ " option set.")]) (fd_options f)).
  (** check_message_fields_not_floats.go:36-73 *)
  Definition check_message_fields_not_floats : list descriptor -> result (list raw) :=
    fields_of (fun d f => if_ (String.eqb (fd_type f) "float")
      [add_suppressable d (fd_comment f) (fd_pos f) ("Field " +++ q (fd_name f)
         +++ " is a float and floats should generally not be used, consider using a double, or an int64 while representing your value in micros or nanos.")]).
  (** check_message_fields_duration.go:36-70 *)
  Definition check_message_fields_duration : list descriptor -> result (list raw) :=
    non_map_fields_of (fun d f => if_ (contains (fd_name f) "duration" && negb (String.eqb (fd_type f) "google.protobuf.Duration"))
      [add_failure d (fd_pos f) ("Field " +++ q (fd_name f) +++ " must be a google.protobuf.Duration.")]).
  (** check_message_fields_time.go:36-70 *)
  Definition check_message_fields_time : list descriptor -> result (list raw) :=
    non_map_fields_of (fun d f => if_ (contains (fd_name f) "time" && negb (String.eqb (fd_type f) "google.protobuf.Timestamp"))
      [add_failure d (fd_pos f) ("Field " +++ q (fd_name f) +++ " must be a google.protobuf.Timestamp.")]).
  (** check_wkt_duration_suffix.go:36-68 *)
  Definition check_wkt_duration_suffix : list descriptor -> result (list raw) :=
    non_map_fields_of (fun d f => if_ (String.eqb (fd_type f) "google.protobuf.Duration"
        && negb (String.eqb (fd_name f) "duration" || has_suffix (fd_name f) "_duration"))
      [add_failure d (fd_pos f) ("Field " +++ q (fd_name f) +++ " of type " +++ q "google.protobuf.Duration" +++ " must be "
         +++ q "duration" +++ " or end in " +++ q "_duration" +++ ".")]).
  (** check_wkt_timestamp_suffix.go:36-68 *)
  Definition check_wkt_timestamp_suffix : list descriptor -> result (list raw) :=
    non_map_fields_of (fun d f => if_ (String.eqb (fd_type f) "google.protobuf.Timestamp"
        && negb (String.eqb (fd_name f) "time" || has_suffix (fd_name f) "_time"))
      [add_failure d (fd_pos f) ("Field " +++ q (fd_name f) +++ " of type " +++ q "google.protobuf.Timestamp" +++ " must be "
         +++ q "time" +++ " or end in " +++ q "_time" +++ ".")]).

  (** ** Messages *)
  (** check_message_names_camel_case.go:35-54 *)
  Definition check_message_names_camel_case : list descriptor -> result (list raw) :=
    visiting [KMessage] (fun d _ e => match e with
      | EMessage h extend _ => if_not (extend || is_camel_case (h_name h))
          [add_failure d (h_pos h) ("Message name " +++ q (h_name h) +++ " must be CamelCase.")]
      | _ => [] end).
  (** check_message_names_capitalized.go:35-54 *)
  Definition check_message_names_capitalized : list descriptor -> result (list raw) :=
    visiting [KMessage] (fun d _ e => match e with
      | EMessage h extend _ => if_not (extend || is_capitalized (h_name h))
          [add_failure d (h_pos h) ("Message name " +++ q (h_name h) +++ " must be capitalized.")]
      | _ => [] end).
  (** check_messages_have_comments.go:34-53 *)
  Definition check_messages_have_comments : list descriptor -> result (list raw) :=
    visiting [KMessage] (fun d _ e => match e with
      | EMessage h extend _ => if_not (extend || has_golang_style_comment (h_comment h) (h_name h))
          [add_failure d (h_pos h) (needs_golang_comment "Message" (h_name h))]
      | _ => [] end).
  (** check_oneof_names_lower_snake_case.go:35-53 *)
  Definition check_oneof_names_lower_snake_case : list descriptor -> result (list raw) :=
    visiting [KMessage] (fun d _ e => match e with
      | EOneof h _ => if_not (is_lower_snake_case (h_name h))
          [add_failure d (h_pos h) ("Oneof name " +++ q (h_name h) +++ " must be lower_snake_case.")]
      | _ => [] end).

  (** The key under which VisitMessage records a message: check_messages_have_comments_except_request_response_types.go:64-68,
      check_messages_not_empty_except_request_response_types.go:73-77, check_request_response_types_in_same_file.go:65-69. *)
  Definition nested_message_names (ctx : list element) : list string :=
    rev (flat_map (fun e => match e with EMessage h _ _ => [h_name h] | _ => [] end) ctx).
  Definition message_key (ctx : list element) (name : string) : string :=
    match nested_message_names ctx with
    | [] => name
    | ns => join "." ns +++ "." +++ name
    end.
  (** The map messageNameToMessage (…_except_request_response_types.go:54-69). *)
  Definition message_map (d : descriptor) : list (string * element) :=
    build (flat_map (fun ce => match snd ce with
                               | EMessage h _ _ => [(message_key (fst ce) (h_name h), snd ce)]
                               | _ => [] end) (visited_post [KMessage; KService] d)).
  (** VisitService and VisitRPC: the RPCs of the services of the file. *)
  Definition rpcs_of (d : descriptor) : list rpc :=
    flat_map (fun ce => match snd ce with ERPC r _ => [r] | _ => [] end) (visited [KService] d).
  (** The set requestResponseTypes (…_except_request_response_types.go:77-83). *)
  Definition request_response_types (d : descriptor) : list string :=
    flat_map (fun r => [r_request r; r_returns r]) (rpcs_of d).
  (** check_messages_have_comments_except_request_response_types.go:36-99 *)
  Definition check_messages_have_comments_except : list descriptor -> result (list raw) :=
    per_file_ok (fun d =>
      flat_map (fun km => match snd km with
        | EMessage h extend _ =>
            if_not (extend || mem (fst km) (request_response_types d) || has_golang_style_comment (h_comment h) (h_name h))
              [add_failure d (h_pos h) (needs_golang_comment "Message" (h_name h))]
        | _ => [] end) (ord ("messageNameToMessage 1 " +++ d_filename d) _ (message_map d))).
  (** check_messages_have_sentence_comments_except_request_response_types.go:36-99 *)
  Definition check_messages_have_sentence_comments_except : list descriptor -> result (list raw) :=
    per_file_ok (fun d =>
      flat_map (fun km => match snd km with
        | EMessage h extend _ =>
            if_not (extend || mem (fst km) (request_response_types d) || has_complete_sentence_comment (h_comment h))
              [add_failure d (h_pos h) (needs_sentence "Message" (h_name h))]
        | _ => [] end) (ord ("messageNameToMessage 2 " +++ d_filename d) _ (message_map d))).
  (** check_messages_not_empty_except_request_response_types.go:56-96: the field count
      of a message: its fields and those of its oneofs. *)
  Fixpoint field_count (e : element) : nat :=
    match e with
    | EField _ _ => 1
    | EOneof _ es => list_sum (map field_count es)
    | _ => 0
    end.
  (** check_messages_not_empty_except_request_response_types.go:36-129 *)
  Definition check_messages_not_empty_except : list descriptor -> result (list raw) :=
    per_file_ok (fun d =>
      flat_map (fun km => match snd km with
        | EMessage h _ es =>
            if_ (negb (mem (fst km) (request_response_types d)) && (list_sum (map field_count es) =? 0))
              [add_failure d (h_pos h) ("Message " +++ q (fst km) +++ " should not be empty. Only request and response types are allowed to be empty.")]
        | _ => [] end) (ord ("messageNameToWrapper " +++ d_filename d) _
                            (build (flat_map (fun ce => match snd ce with
                               | EMessage h _ _ => [(message_key (fst ce) (h_name h), snd ce)]
                               | _ => [] end) (visited_post [KMessage; KOneof; KService] d))))).

  (** ** Names *)
  (** The position, names and comment that check_names.go:77-171 looks at. *)
  Definition names_of (e : element) : position * list string * option comment :=
    match e with
    | EPackage p => (pk_pos p, [pk_name p], pk_comment p)
    | EOption o => (o_pos o, [o_name o], o_comment o)
    | EField _ f => (fd_pos f, [fd_name f], fd_comment f)
    | EReserved r => (rs_pos r, rs_names r, rs_comment r)
    | EEnumField f _ => (ef_pos f, [ef_name f], ef_comment f)
    | EEnum h _ | EMessage h _ _ | EOneof h _ | EGroup h _ _ _ | EService h _ => (h_pos h, [h_name h], h_comment h)
    | ERPC r _ => (r_pos r, [r_name r], r_comment r)
    | EComment _ | ESyntax _ | EImport _ | EExtensions _ => (no_pos, [], None)
    end.
  (** check_names.go:60-181 *)
  Definition check_names (outlawed help : string) : list descriptor -> result (list raw) :=
    visiting everywhere (fun d _ e =>
      let '(p, names, c) := names_of e in
      flat_map (fun n => if_ (contains (to_lower n) outlawed)
        [add_suppressable d c p ("The name " +++ q n +++ " contains the outlawed name " +++ q outlawed +++ ". " +++ help +++ ".")]) names).
  (** check_names.go:48-58 *)
  Definition new_names_linter (outlawed help : string) : linter :=
    new_suppressable_linter ("NAMES_NO_" +++ to_upper outlawed) "naming" (check_names outlawed help).

  (** ** Requests and responses *)
  (** The map messageNameToMessage of check_request_response_types_after_service.go:52-59 and
      check_request_response_types_only_in_file.go:61-68: top-level messages by name. *)
  Definition top_messages (d : descriptor) : list (string * header) :=
    build (flat_map (fun e => match e with EMessage h _ _ => [(h_name h, h)] | _ => [] end) (d_elements d)).
  Definition top_enums (d : descriptor) : list (string * header) :=
    build (flat_map (fun e => match e with EEnum h _ => [(h_name h, h)] | _ => [] end) (d_elements d)).
  (** check_request_response_types_after_service.go:36-110 *)
  Definition check_request_response_types_after_service : list descriptor -> result (list raw) :=
    per_file_ok (fun d =>
      flat_map (fun r =>
        let req := gget (r_request r) (top_messages d) in
        let resp := gget (r_returns r) (top_messages d) in
        match req with
        | Some m => if_ (p_line (h_pos m) <? p_line (r_pos r))%Z
            [add_failure d (h_pos m) ("Message " +++ q (h_name m) +++ " is a request for RPC " +++ q (r_name r) +++ " and should be defined in the file after the RPC.")]
        | None => [] end ++
        match resp with
        | Some m => if_ (p_line (h_pos m) <? p_line (r_pos r))%Z
            [add_failure d (h_pos m) ("Message " +++ q (h_name m) +++ " is a response for RPC " +++ q (r_name r) +++ " and should be defined in the file after the RPC.")]
        | None => [] end ++
        match req, resp with
        | Some m, Some n => if_ (p_line (h_pos n) <? p_line (h_pos m))%Z
            [add_failure d (h_pos n) ("Message " +++ q (h_name n) +++ " is a response for RPC " +++ q (r_name r)
               +++ " and should be defined in the file after the request " +++ q (h_name m) +++ ".")]
        | _, _ => [] end) (rpcs_of d)).
  (** The set messageTypes of check_request_response_types_in_same_file.go:55-70. *)
  Definition message_types (d : descriptor) : list string :=
    flat_map (fun ce => match snd ce with
                        | EMessage h _ _ => [message_key (fst ce) (h_name h)]
                        | _ => [] end) (visited [KMessage; KService] d).
  (** check_request_response_types_in_same_file.go:91-95, 96-100 *)
  Definition same_file_failure (d : descriptor) (r : rpc) (what what_lower t : string) : list raw :=
    if negb (mem t (message_types d)) then
      [add_failure d (r_pos r) (what +++ " type " +++ q t +++ " should be defined in the same file as the corresponding service.")]
    else if sexists (Ascii.eqb ".") t then
      [add_failure d (r_pos r) (what +++ " type " +++ q t +++ " is a nested message and only top-level messages should be " +++ what_lower +++ " types.")]
    else [].
  (** check_request_response_types_in_same_file.go:37-109 *)
  Definition check_request_response_types_in_same_file : list descriptor -> result (list raw) :=
    per_file_ok (fun d => flat_map (fun r =>
      same_file_failure d r "Request" "request" (r_request r) ++ same_file_failure d r "Response" "response" (r_returns r)) (rpcs_of d)).
  (** check_request_response_types_only_in_file.go:36-111 *)
  Definition check_request_response_types_only_in_file : list descriptor -> result (list raw) :=
    per_file_ok (fun d =>
      match rpcs_of d with
      | [] => []
      | rpcs =>
          let messages := fold_left (fun m r => gdelete (r_returns r) (gdelete (r_request r) m)) rpcs (top_messages d) in
          map (fun kh => add_failure d (h_pos (snd kh)) ("Enum " +++ q (h_name (snd kh)) +++ " is in the same file as a service and should be in a separate file."))
              (ord ("enumNameToEnum " +++ d_filename d) _ (top_enums d)) ++
          map (fun kh => add_failure d (h_pos (snd kh)) ("Message " +++ q (h_name (snd kh))
                           +++ " is not a request or response of any service in this file and should be in a separate file."))
              (ord ("messageNameToMessage 3 " +++ d_filename d) _ messages)
      end).
  (** check_request_response_types_unique.go:54-64: one RPC; returns the failures and seenTypes. *)
  Fixpoint unique_loop (d : descriptor) (seen : list string) (uses : list (rpc * string)) : list raw :=
    match uses with
    | [] => []
    | (r, s) :: rest =>
        if_ (mem s seen)
          [add_failure d (r_pos r) ("Message " +++ q s
             +++ " is already used as a request or response type in an RPC and all request and response types must be unique.")]
        ++ unique_loop d (s :: seen) rest
    end.
  (** check_request_response_types_unique.go:34-64 *)
  Definition check_request_response_types_unique : list descriptor -> result (list raw) :=
    per_file_ok (fun d => unique_loop d [] (flat_map (fun r => [(r, r_request r); (r, r_returns r)]) (rpcs_of d))).
  (** check_request_response_names_match_rpc.go:34-56 *)
  Definition check_request_response_names_match_rpc : list descriptor -> result (list raw) :=
    visiting [KService] (fun d _ e => match e with
      | ERPC r _ =>
          if_not (String.eqb (r_request r) (r_name r +++ "Request"))
            [add_failure d (r_pos r) ("Name of request type " +++ q (r_request r) +++ " should be " +++ q (r_name r +++ "Request") +++ ".")] ++
          if_not (String.eqb (r_returns r) (r_name r +++ "Response"))
            [add_failure d (r_pos r) ("Name of response type " +++ q (r_returns r) +++ " should be " +++ q (r_name r +++ "Response") +++ ".")]
      | _ => [] end).

  (** ** RPCs and services *)
  (** check_rpc_names_camel_case.go:35-53 *)
  Definition check_rpc_names_camel_case : list descriptor -> result (list raw) :=
    visiting [KService] (fun d _ e => match e with
      | ERPC r _ => if_not (is_camel_case (r_name r)) [add_failure d (r_pos r) ("RPC name " +++ q (r_name r) +++ " must be CamelCase.")]
      | _ => [] end).
  (** check_rpc_names_capitalized.go:35-53 *)
  Definition check_rpc_names_capitalized : list descriptor -> result (list raw) :=
    visiting [KService] (fun d _ e => match e with
      | ERPC r _ => if_not (is_capitalized (r_name r)) [add_failure d (r_pos r) ("RPC name " +++ q (r_name r) +++ " must be capitalized.")]
      | _ => [] end).
  (** check_rpc_options_no_google_api_http.go:38-73; v.rpc is the RPC being visited,
      nil outside one. *)
  Definition check_rpc_options_no_google_api_http : list descriptor -> result (list raw) :=
    per_file (fun d => concatM (fun ce => match snd ce with
      | EOption o =>
          let rpc := match fst ce with ERPC r _ :: _ => Some r | _ => None end in
          let in_rpc := match rpc with Some _ => true | None => false end in
          if (in_rpc && has_prefix (o_name o) "(google.api.http)") || has_prefix (o_name o) "(.google.api.http)" then
            match rpc with
            | Some r => Ok [add_suppressable d (r_comment r) (o_pos o)
                ("Option " +++ q "google.api.http" +++ " is not allowed. This option signifies HTTP/REST usage, use the RPC framework instead.")]
            | None => Err nil_dereference
            end
          else Ok []
      | _ => Ok [] end) (visited [KService; KRPC] d)).
  (** check_rpcs_have_comments.go:34-52 *)
  Definition check_rpcs_have_comments : list descriptor -> result (list raw) :=
    visiting [KService] (fun d _ e => match e with
      | ERPC r _ => if_not (has_golang_style_comment (r_comment r) (r_name r)) [add_failure d (r_pos r) (needs_golang_comment "RPC" (r_name r))]
      | _ => [] end).
  (** check_rpcs_have_sentence_comments.go:34-52 *)
  Definition check_rpcs_have_sentence_comments : list descriptor -> result (list raw) :=
    visiting [KService] (fun d _ e => match e with
      | ERPC r _ => if_not (has_complete_sentence_comment (r_comment r)) [add_failure d (r_pos r) (needs_sentence "RPC" (r_name r))]
      | _ => [] end).
  (** check_rpcs_no_streaming.go:34-52 *)
  Definition check_rpcs_no_streaming : list descriptor -> result (list raw) :=
    visiting [KService] (fun d _ e => match e with
      | ERPC r _ => if_ (r_streams_request r || r_streams_returns r)
          [add_failure d (r_pos r) ("RPC " +++ q (r_name r) +++ " is streaming and only unary RPCs are allowed.")]
      | _ => [] end).
  (** check_service_names_api_suffix.go:36-52 *)
  Definition check_service_names_api_suffix : list descriptor -> result (list raw) :=
    visiting [] (fun d _ e => match e with
      | EService h _ => if_not (has_suffix (h_name h) "API")
          [add_failure d (h_pos h)
             (if has_suffix (h_name h) "Service"
              then "Service name " +++ q (h_name h) +++ " must end with " +++ q "API" +++ ". Since it currently ends with " +++ q "Service"
                   +++ ", this likely means replacing " +++ q "Service" +++ " with " +++ q "API"
              else "Service name " +++ q (h_name h) +++ " must end with " +++ q "API" +++ ".")]
      | _ => [] end).
  (** check_service_names_camel_case.go:35-47 *)
  Definition check_service_names_camel_case : list descriptor -> result (list raw) :=
    visiting [] (fun d _ e => match e with
      | EService h _ => if_not (is_camel_case (h_name h)) [add_failure d (h_pos h) ("Service name " +++ q (h_name h) +++ " must be CamelCase.")]
      | _ => [] end).
  (** check_service_names_capitalized.go:35-47 *)
  Definition check_service_names_capitalized : list descriptor -> result (list raw) :=
    visiting [] (fun d _ e => match e with
      | EService h _ => if_not (is_capitalized (h_name h)) [add_failure d (h_pos h) ("Service name " +++ q (h_name h) +++ " must be capitalized.")]
      | _ => [] end).
  (** check_service_names_match_file_name.go:53-55 *)
  Definition services_of (d : descriptor) : list header :=
    flat_map (fun e => match e with EService h _ => [h] | _ => [] end) (d_elements d).
  (** check_service_names_match_file_name.go:37-74 *)
  Definition check_service_names_match_file_name : list descriptor -> result (list raw) :=
    per_file_ok (fun d =>
      match services_of d with
      | [] => []
      | [h] =>
          let expected := to_lower_snake_case (h_name h) +++ ".proto" in
          let filename := path_base (d_filename d) in
          if_not (String.eqb filename expected)
            [add_failure d (h_pos h) ("Expected filename to be " +++ q expected +++ " for file containing service " +++ q (h_name h)
               +++ " but was " +++ q filename +++ ".")]
      | hs => map (fun h => add_failure d (h_pos h) "Multiple services defined in this file and there should be only one service per file.") hs
      end).
  (** check_service_names_singular.go:63-73 *)
  Definition is_allowed_service_name_plural (word : string) : bool :=
    String.eqb (to_upper word) word || String.eqb (to_lower word) "data".
  (** check_service_names_singular.go:44-61 *)
  Definition check_service_names_no_plurals : list descriptor -> result (list raw) :=
    visiting [] (fun d _ e => match e with
      | EService h _ => flat_map (fun word =>
          let lower := to_lower word in
          let singular := singularize lower in
          if_ (negb (String.eqb singular lower) && negb (is_allowed_service_name_plural word))
            [add_suppressable d (h_comment h) (h_pos h) ("Service name " +++ q (h_name h) +++ " contains plural component " +++ q (title word)
               +++ ", consider using " +++ q (title singular) +++ " instead.")])
          (split_camel_case_word (h_name h))
      | _ => [] end).
  (** check_services_have_comments.go:34-46 *)
  Definition check_services_have_comments : list descriptor -> result (list raw) :=
    visiting [] (fun d _ e => match e with
      | EService h _ => if_not (has_golang_style_comment (h_comment h) (h_name h)) [add_failure d (h_pos h) (needs_golang_comment "Service" (h_name h))]
      | _ => [] end).
  (** check_services_have_sentence_comments.go:34-46 *)
  Definition check_services_have_sentence_comments : list descriptor -> result (list raw) :=
    visiting [] (fun d _ e => match e with
      | EService h _ => if_not (has_complete_sentence_comment (h_comment h)) [add_failure d (h_pos h) (needs_sentence "Service" (h_name h))]
      | _ => [] end).

  (** ** The linters, in the order of lint.go:40-137 *)
  (** check_comments_no_c_style.go:30-34 *)
  Definition l_comments_no_c_style : linter := new_linter "COMMENTS_NO_C_STYLE" check_comments_no_c_style.
  (** check_comments_no_inline.go:28-32 *)
  Definition l_comments_no_inline : linter := new_linter "COMMENTS_NO_INLINE" check_comments_no_inline.
  (** check_enum_field_names_uppercase.go:29-33 *)
  Definition l_enum_field_names_uppercase : linter := new_linter "ENUM_FIELD_NAMES_UPPERCASE" check_enum_field_names_uppercase.
  (** check_enum_field_names_upper_snake_case.go:29-33 *)
  Definition l_enum_field_names_upper_snake_case : linter := new_linter "ENUM_FIELD_NAMES_UPPER_SNAKE_CASE" check_enum_field_names_upper_snake_case.
  (** check_enum_field_prefixes.go:31-35 *)
  Definition l_enum_field_prefixes : linter := new_linter "ENUM_FIELD_PREFIXES" check_enum_field_prefixes.
  (** check_enum_field_prefixes_except_message.go:31-35 *)
  Definition l_enum_field_prefixes_except_message : linter := new_linter "ENUM_FIELD_PREFIXES_EXCEPT_MESSAGE" check_enum_field_prefixes_except_message.
  (** check_enum_fields_have_comments.go:28-32 *)
  Definition l_enum_fields_have_comments : linter := new_linter "ENUM_FIELDS_HAVE_COMMENTS" check_enum_fields_have_comments.
  (** check_enum_fields_have_sentence_comments.go:28-32 *)
  Definition l_enum_fields_have_sentence_comments : linter := new_linter "ENUM_FIELDS_HAVE_SENTENCE_COMMENTS" check_enum_fields_have_sentence_comments.
  (** check_enum_names_camel_case.go:29-33 *)
  Definition l_enum_names_camel_case : linter := new_linter "ENUM_NAMES_CAMEL_CASE" check_enum_names_camel_case.
  (** check_enum_names_capitalized.go:29-33 *)
  Definition l_enum_names_capitalized : linter := new_linter "ENUM_NAMES_CAPITALIZED" check_enum_names_capitalized.
  (** check_enum_zero_values_invalid.go:31-35 *)
  Definition l_enum_zero_values_invalid : linter := new_linter "ENUM_ZERO_VALUES_INVALID" check_enum_zero_values_invalid.
  (** check_enum_zero_values_invalid_except_message.go:29-33 *)
  Definition l_enum_zero_values_invalid_except_message : linter := new_linter "ENUM_ZERO_VALUES_INVALID_EXCEPT_MESSAGE" check_enum_zero_values_invalid_except_message.
  (** check_enums_have_comments.go:28-32 *)
  Definition l_enums_have_comments : linter := new_linter "ENUMS_HAVE_COMMENTS" check_enums_have_comments.
  (** check_enums_have_sentence_comments.go:28-32 *)
  Definition l_enums_have_sentence_comments : linter := new_linter "ENUMS_HAVE_SENTENCE_COMMENTS" check_enums_have_sentence_comments.
  (** check_enums_no_allow_alias.go:28-32 *)
  Definition l_enums_no_allow_alias : linter := new_linter "ENUMS_NO_ALLOW_ALIAS" check_enums_no_allow_alias.
  (** check_fields_not_reserved.go:30-34 *)
  Definition l_fields_not_reserved : linter := new_linter "FIELDS_NOT_RESERVED" check_fields_not_reserved.
  (** check_file_header.go:30-34 *)
  Definition l_file_header : linter := new_linter "FILE_HEADER" check_file_header.
  (** check_file_names_lower_snake_case.go:32-36 *)
  Definition l_file_names_lower_snake_case : linter := new_linter "FILE_NAMES_LOWER_SNAKE_CASE" check_file_names_lower_snake_case.
  (** check_file_options_same_in_dir.go:32-36 *)
  Definition l_file_options_csharp_namespace_same_in_dir : linter := new_linter "FILE_OPTIONS_CSHARP_NAMESPACE_SAME_IN_DIR" (check_file_options_same_in_dir "csharp_namespace").
  (** check_file_options_equal.go:31-37 *)
  Definition l_file_options_equal_csharp_namespace_capitalized : linter := new_linter "FILE_OPTIONS_EQUAL_CSHARP_NAMESPACE_CAPITALIZED" (check_file_options_equal "csharp_namespace" (fun _ p => csharp_namespace (pk_name p))).
  (** check_file_options_equal.go:47-53 *)
  Definition l_file_options_equal_go_package_v2_suffix : linter := new_linter "FILE_OPTIONS_EQUAL_GO_PACKAGE_V2_SUFFIX" (check_file_options_equal "go_package" (fun _ p => go_package_v2 (pk_name p))).
  (** check_file_options_equal.go:39-45 *)
  Definition l_file_options_equal_go_package_pb_suffix : linter := new_linter "FILE_OPTIONS_EQUAL_GO_PACKAGE_PB_SUFFIX" (check_file_options_equal "go_package" (fun _ p => go_package (pk_name p))).
  (** check_file_options_equal.go:55-61 *)
  Definition l_file_options_equal_java_multiple_files_true : linter := new_linter "FILE_OPTIONS_EQUAL_JAVA_MULTIPLE_FILES_TRUE" (check_file_options_equal "java_multiple_files" (fun _ _ => "true")).
  (** check_file_options_equal.go:63-69 *)
  Definition l_file_options_equal_java_outer_classname_proto_suffix : linter := new_linter "FILE_OPTIONS_EQUAL_JAVA_OUTER_CLASSNAME_PROTO_SUFFIX" (check_file_options_equal "java_outer_classname" (fun d _ => java_outer_classname (d_filename d))).
  (** check_file_options_equal.go:71-77 *)
  Definition l_file_options_equal_java_package_com_prefix : linter := new_linter "FILE_OPTIONS_EQUAL_JAVA_PACKAGE_COM_PREFIX" (check_file_options_equal "java_package" (fun _ p => java_package (pk_name p))).
  (** check_file_options_equal.go:79-85 *)
  Definition l_file_options_equal_java_package_prefix : linter := new_linter "FILE_OPTIONS_EQUAL_JAVA_PACKAGE_PREFIX" (check_file_options_equal "java_package" (fun d p => java_package_prefix_override (pk_name p) (lc_java_package_prefix (cfg_lint (ps_config (d_set d)))))).
  (** check_file_options_equal.go:87-93 *)
  Definition l_file_options_equal_objc_class_prefix_abbr : linter := new_linter "FILE_OPTIONS_EQUAL_OBJC_CLASS_PREFIX_ABBR" (check_file_options_equal "objc_class_prefix" (fun _ p => objc_class_prefix (pk_name p))).
  (** check_file_options_equal.go:95-101 *)
  Definition l_file_options_equal_php_namespace_capitalized : linter := new_linter "FILE_OPTIONS_EQUAL_PHP_NAMESPACE_CAPITALIZED" (check_file_options_equal "php_namespace" (fun _ p => php_namespace (pk_name p))).
  (** check_go_package_not_long_form.go:30-34 *)
  Definition l_file_options_go_package_not_long_form : linter := new_linter "FILE_OPTIONS_GO_PACKAGE_NOT_LONG_FORM" check_file_options_go_package_not_long_form.
  (** check_file_options_same_in_dir.go:38-42 *)
  Definition l_file_options_go_package_same_in_dir : linter := new_linter "FILE_OPTIONS_GO_PACKAGE_SAME_IN_DIR" (check_file_options_same_in_dir "go_package").
  (** check_file_options_same_in_dir.go:44-48 *)
  Definition l_file_options_java_multiple_files_same_in_dir : linter := new_linter "FILE_OPTIONS_JAVA_MULTIPLE_FILES_SAME_IN_DIR" (check_file_options_same_in_dir "java_multiple_files").
  (** check_file_options_same_in_dir.go:50-54 *)
  Definition l_file_options_java_package_same_in_dir : linter := new_linter "FILE_OPTIONS_JAVA_PACKAGE_SAME_IN_DIR" (check_file_options_same_in_dir "java_package").
  (** check_file_options_same_in_dir.go:56-60 *)
  Definition l_file_options_objc_class_prefix_same_in_dir : linter := new_linter "FILE_OPTIONS_OBJC_CLASS_PREFIX_SAME_IN_DIR" (check_file_options_same_in_dir "objc_class_prefix").
  (** check_file_options_same_in_dir.go:62-66 *)
  Definition l_file_options_php_namespace_same_in_dir : linter := new_linter "FILE_OPTIONS_PHP_NAMESPACE_SAME_IN_DIR" (check_file_options_same_in_dir "php_namespace").
  (** check_file_options_required.go:30-34 *)
  Definition l_file_options_require_csharp_namespace : linter := new_linter "FILE_OPTIONS_REQUIRE_CSHARP_NAMESPACE" (check_file_options_require "csharp_namespace").
  (** check_file_options_required.go:36-40 *)
  Definition l_file_options_require_go_package : linter := new_linter "FILE_OPTIONS_REQUIRE_GO_PACKAGE" (check_file_options_require "go_package").
  (** check_file_options_required.go:42-46 *)
  Definition l_file_options_require_java_multiple_files : linter := new_linter "FILE_OPTIONS_REQUIRE_JAVA_MULTIPLE_FILES" (check_file_options_require "java_multiple_files").
  (** check_file_options_required.go:48-52 *)
  Definition l_file_options_require_java_outer_classname : linter := new_linter "FILE_OPTIONS_REQUIRE_JAVA_OUTER_CLASSNAME" (check_file_options_require "java_outer_classname").
  (** check_file_options_required.go:54-58 *)
  Definition l_file_options_require_java_package : linter := new_linter "FILE_OPTIONS_REQUIRE_JAVA_PACKAGE" (check_file_options_require "java_package").
  (** check_file_options_required.go:60-64 *)
  Definition l_file_options_require_objc_class_prefix : linter := new_linter "FILE_OPTIONS_REQUIRE_OBJC_CLASS_PREFIX" (check_file_options_require "objc_class_prefix").
  (** check_file_options_required.go:66-70 *)
  Definition l_file_options_require_php_namespace : linter := new_linter "FILE_OPTIONS_REQUIRE_PHP_NAMESPACE" (check_file_options_require "php_namespace").
  (** check_file_options_required.go:72-76 *)
  Definition l_file_options_require_ruby_package : linter := new_linter "FILE_OPTIONS_REQUIRE_RUBY_PACKAGE" (check_file_options_require "ruby_package").
  (** check_file_options_unset.go:30-34 *)
  Definition l_file_options_unset_java_multiple_files : linter := new_linter "FILE_OPTIONS_UNSET_JAVA_MULTIPLE_FILES" (check_file_options_unset "java_multiple_files").
  (** check_file_options_unset.go:36-40 *)
  Definition l_file_options_unset_java_outer_classname : linter := new_linter "FILE_OPTIONS_UNSET_JAVA_OUTER_CLASSNAME" (check_file_options_unset "java_outer_classname").
  (** check_gogo_not_imported.go:31-35 *)
  Definition l_gogo_not_imported : linter := new_linter "GOGO_NOT_IMPORTED" check_gogo_not_imported.
  (** check_imports_not_public.go:29-33 *)
  Definition l_imports_not_public : linter := new_linter "IMPORTS_NOT_PUBLIC" check_imports_not_public.
  (** check_imports_not_weak.go:29-33 *)
  Definition l_imports_not_weak : linter := new_linter "IMPORTS_NOT_WEAK" check_imports_not_weak.
  (** check_message_fields_duration.go:30-34 *)
  Definition l_message_fields_duration : linter := new_linter "MESSAGE_FIELDS_DURATION" check_message_fields_duration.
  (** check_message_fields_have_comments.go:28-32 *)
  Definition l_message_fields_have_comments : linter := new_linter "MESSAGE_FIELDS_HAVE_COMMENTS" check_message_fields_have_comments.
  (** check_message_fields_have_sentence_comments.go:28-32 *)
  Definition l_message_fields_have_sentence_comments : linter := new_linter "MESSAGE_FIELDS_HAVE_SENTENCE_COMMENTS" check_message_fields_have_sentence_comments.
  (** check_message_fields_not_floats.go:29-34 *)
  Definition l_message_fields_not_floats : linter := new_suppressable_linter "MESSAGE_FIELDS_NOT_FLOATS" "floats" check_message_fields_not_floats.
  (** check_message_fields_no_json_name.go:28-32 *)
  Definition l_message_fields_no_json_name : linter := new_linter "MESSAGE_FIELDS_NO_JSON_NAME" check_message_fields_no_json_name.
  (** check_message_fields_time.go:30-34 *)
  Definition l_message_fields_time : linter := new_linter "MESSAGE_FIELDS_TIME" check_message_fields_time.
  (** check_message_field_names_filename.go:30-34 *)
  Definition l_message_field_names_filename : linter := new_linter "MESSAGE_FIELD_NAMES_FILENAME" check_message_field_names_filename.
  (** check_message_field_names_filepath.go:30-34 *)
  Definition l_message_field_names_filepath : linter := new_linter "MESSAGE_FIELD_NAMES_FILEPATH" check_message_field_names_filepath.
  (** check_message_field_names_lower_snake_case.go:29-33 *)
  Definition l_message_field_names_lower_snake_case : linter := new_linter "MESSAGE_FIELD_NAMES_LOWER_SNAKE_CASE" check_message_field_names_lower_snake_case.
  (** check_message_field_names_lowercase.go:29-33 *)
  Definition l_message_field_names_lowercase : linter := new_linter "MESSAGE_FIELD_NAMES_LOWERCASE" check_message_field_names_lowercase.
  (** check_message_field_names_no_descriptor.go:30-34 *)
  Definition l_message_field_names_no_descriptor : linter := new_linter "MESSAGE_FIELD_NAMES_NO_DESCRIPTOR" check_message_field_names_no_descriptor.
  (** check_message_names_camel_case.go:29-33 *)
  Definition l_message_names_camel_case : linter := new_linter "MESSAGE_NAMES_CAMEL_CASE" check_message_names_camel_case.
  (** check_message_names_capitalized.go:29-33 *)
  Definition l_message_names_capitalized : linter := new_linter "MESSAGE_NAMES_CAPITALIZED" check_message_names_capitalized.
  (** check_messages_have_comments.go:28-32 *)
  Definition l_messages_have_comments : linter := new_linter "MESSAGES_HAVE_COMMENTS" check_messages_have_comments.
  (** check_messages_have_comments_except_request_response_types.go:30-34 *)
  Definition l_messages_have_comments_except_request_response_types : linter := new_linter "MESSAGES_HAVE_COMMENTS_EXCEPT_REQUEST_RESPONSE_TYPES" check_messages_have_comments_except.
  (** check_messages_have_sentence_comments_except_request_response_types.go:30-34 *)
  Definition l_messages_have_sentence_comments_except_request_response_types : linter := new_linter "MESSAGES_HAVE_SENTENCE_COMMENTS_EXCEPT_REQUEST_RESPONSE_TYPES" check_messages_have_sentence_comments_except.
  (** check_messages_not_empty_except_request_response_types.go:30-34 *)
  Definition l_messages_not_empty_except_request_response_types : linter := new_linter "MESSAGES_NOT_EMPTY_EXCEPT_REQUEST_RESPONSE_TYPES" check_messages_not_empty_except.
  (** check_names.go:34-37 *)
  Definition l_names_no_common : linter := new_names_linter "common" "Common has no semantic meaning, consider using a name that reflects the type instead.".
  (** check_names.go:38-41 *)
  Definition l_names_no_data : linter := new_names_linter "data" "Data is a decorator and all types on Protobuf are data, consider merging this information into a higher-level type, or if you must have such a type, Use ""Info"" instead.".
  (** check_names.go:42-45 *)
  Definition l_names_no_uuid : linter := new_names_linter "uuid" "UUIDs in Protobuf are named ID instead of UUID.".
  (** check_oneof_names_lower_snake_case.go:29-33 *)
  Definition l_oneof_names_lower_snake_case : linter := new_linter "ONEOF_NAMES_LOWER_SNAKE_CASE" check_oneof_names_lower_snake_case.
  (** check_package_is_declared.go:30-34 *)
  Definition l_package_is_declared : linter := new_linter "PACKAGE_IS_DECLARED" check_package_is_declared.
  (** check_package_lower_case.go:28-32 *)
  Definition l_package_lower_case : linter := new_linter "PACKAGE_LOWER_CASE" check_package_lower_case.
  (** check_package_lower_snake_case.go:31-35 *)
  Definition l_package_lower_snake_case : linter := new_linter "PACKAGE_LOWER_SNAKE_CASE" check_package_lower_snake_case.
  (** check_package_major_beta_versioned.go:31-35 *)
  Definition l_package_major_beta_versioned : linter := new_linter "PACKAGE_MAJOR_BETA_VERSIONED" check_package_major_beta_versioned.
  (** check_package_no_keywords.go:41-46 *)
  Definition l_package_no_keywords : linter := new_suppressable_linter "PACKAGE_NO_KEYWORDS" "keywords" check_package_no_keywords.
  (** check_packages_same_in_dir.go:32-36 *)
  Definition l_packages_same_in_dir : linter := new_linter "PACKAGES_SAME_IN_DIR" check_packages_same_in_dir.
  (** check_rpcs_have_comments.go:28-32 *)
  Definition l_rpcs_have_comments : linter := new_linter "RPCS_HAVE_COMMENTS" check_rpcs_have_comments.
  (** check_rpcs_have_sentence_comments.go:28-32 *)
  Definition l_rpcs_have_sentence_comments : linter := new_linter "RPCS_HAVE_SENTENCE_COMMENTS" check_rpcs_have_sentence_comments.
  (** check_rpcs_no_streaming.go:28-32 *)
  Definition l_rpcs_no_streaming : linter := new_linter "RPCS_NO_STREAMING" check_rpcs_no_streaming.
  (** check_rpc_names_camel_case.go:29-33 *)
  Definition l_rpc_names_camel_case : linter := new_linter "RPC_NAMES_CAMEL_CASE" check_rpc_names_camel_case.
  (** check_rpc_names_capitalized.go:29-33 *)
  Definition l_rpc_names_capitalized : linter := new_linter "RPC_NAMES_CAPITALIZED" check_rpc_names_capitalized.
  (** check_rpc_options_no_google_api_http.go:31-36 *)
  Definition l_rpc_options_no_google_api_http : linter := new_suppressable_linter "RPC_OPTIONS_NO_GOOGLE_API_HTTP" "google-api-http" check_rpc_options_no_google_api_http.
  (** check_request_response_types_after_service.go:30-34 *)
  Definition l_request_response_types_after_service : linter := new_linter "REQUEST_RESPONSE_TYPES_AFTER_SERVICE" check_request_response_types_after_service.
  (** check_request_response_types_in_same_file.go:31-35 *)
  Definition l_request_response_types_in_same_file : linter := new_linter "REQUEST_RESPONSE_TYPES_IN_SAME_FILE" check_request_response_types_in_same_file.
  (** check_request_response_types_only_in_file.go:30-34 *)
  Definition l_request_response_types_only_in_file : linter := new_linter "REQUEST_RESPONSE_TYPES_ONLY_IN_FILE" check_request_response_types_only_in_file.
  (** check_request_response_types_unique.go:28-32 *)
  Definition l_request_response_types_unique : linter := new_linter "REQUEST_RESPONSE_TYPES_UNIQUE" check_request_response_types_unique.
  (** check_request_response_names_match_rpc.go:28-32 *)
  Definition l_request_response_names_match_rpc : linter := new_linter "REQUEST_RESPONSE_NAMES_MATCH_RPC" check_request_response_names_match_rpc.
  (** check_services_have_comments.go:28-32 *)
  Definition l_services_have_comments : linter := new_linter "SERVICES_HAVE_COMMENTS" check_services_have_comments.
  (** check_services_have_sentence_comments.go:28-32 *)
  Definition l_services_have_sentence_comments : linter := new_linter "SERVICES_HAVE_SENTENCE_COMMENTS" check_services_have_sentence_comments.
  (** check_service_names_api_suffix.go:30-34 *)
  Definition l_service_names_api_suffix : linter := new_linter "SERVICE_NAMES_API_SUFFIX" check_service_names_api_suffix.
  (** check_service_names_camel_case.go:29-33 *)
  Definition l_service_names_camel_case : linter := new_linter "SERVICE_NAMES_CAMEL_CASE" check_service_names_camel_case.
  (** check_service_names_capitalized.go:29-33 *)
  Definition l_service_names_capitalized : linter := new_linter "SERVICE_NAMES_CAPITALIZED" check_service_names_capitalized.
  (** check_service_names_match_file_name.go:31-35 *)
  Definition l_service_names_match_file_name : linter := new_linter "SERVICE_NAMES_MATCH_FILE_NAME" check_service_names_match_file_name.
  (** check_service_names_singular.go:33-38 *)
  Definition l_service_names_no_plurals : linter := new_suppressable_linter "SERVICE_NAMES_NO_PLURALS" "plurals" check_service_names_no_plurals.
  (** check_syntax_proto3.go:30-34 *)
  Definition l_syntax_proto3 : linter := new_linter "SYNTAX_PROTO3" check_syntax_proto3.
  (** check_wkt_directly_imported.go:35-39 *)
  Definition l_wkt_directly_imported : linter := new_linter "WKT_DIRECTLY_IMPORTED" check_wkt_directly_imported.
  (** check_wkt_duration_suffix.go:30-34 *)
  Definition l_wkt_duration_suffix : linter := new_linter "WKT_DURATION_SUFFIX" check_wkt_duration_suffix.
  (** check_wkt_timestamp_suffix.go:30-34 *)
  Definition l_wkt_timestamp_suffix : linter := new_linter "WKT_TIMESTAMP_SUFFIX" check_wkt_timestamp_suffix.
  (** lint.go:40-137 *)
  Definition all_linters : list linter := [
    l_comments_no_c_style;
    l_comments_no_inline;
    l_enum_field_names_uppercase;
    l_enum_field_names_upper_snake_case;
    l_enum_field_prefixes;
    l_enum_field_prefixes_except_message;
    l_enum_fields_have_comments;
    l_enum_fields_have_sentence_comments;
    l_enum_names_camel_case;
    l_enum_names_capitalized;
    l_enum_zero_values_invalid;
    l_enum_zero_values_invalid_except_message;
    l_enums_have_comments;
    l_enums_have_sentence_comments;
    l_enums_no_allow_alias;
    l_fields_not_reserved;
    l_file_header;
    l_file_names_lower_snake_case;
    l_file_options_csharp_namespace_same_in_dir;
    l_file_options_equal_csharp_namespace_capitalized;
    l_file_options_equal_go_package_v2_suffix;
    l_file_options_equal_go_package_pb_suffix;
    l_file_options_equal_java_multiple_files_true;
    l_file_options_equal_java_outer_classname_proto_suffix;
    l_file_options_equal_java_package_com_prefix;
    l_file_options_equal_java_package_prefix;
    l_file_options_equal_objc_class_prefix_abbr;
    l_file_options_equal_php_namespace_capitalized;
    l_file_options_go_package_not_long_form;
    l_file_options_go_package_same_in_dir;
    l_file_options_java_multiple_files_same_in_dir;
    l_file_options_java_package_same_in_dir;
    l_file_options_objc_class_prefix_same_in_dir;
    l_file_options_php_namespace_same_in_dir;
    l_file_options_require_csharp_namespace;
    l_file_options_require_go_package;
    l_file_options_require_java_multiple_files;
    l_file_options_require_java_outer_classname;
    l_file_options_require_java_package;
    l_file_options_require_objc_class_prefix;
    l_file_options_require_php_namespace;
    l_file_options_require_ruby_package;
    l_file_options_unset_java_multiple_files;
    l_file_options_unset_java_outer_classname;
    l_gogo_not_imported;
    l_imports_not_public;
    l_imports_not_weak;
    l_message_fields_duration;
    l_message_fields_have_comments;
    l_message_fields_have_sentence_comments;
    l_message_fields_not_floats;
    l_message_fields_no_json_name;
    l_message_fields_time;
    l_message_field_names_filename;
    l_message_field_names_filepath;
    l_message_field_names_lower_snake_case;
    l_message_field_names_lowercase;
    l_message_field_names_no_descriptor;
    l_message_names_camel_case;
    l_message_names_capitalized;
    l_messages_have_comments;
    l_messages_have_comments_except_request_response_types;
    l_messages_have_sentence_comments_except_request_response_types;
    l_messages_not_empty_except_request_response_types;
    l_names_no_common;
    l_names_no_data;
    l_names_no_uuid;
    l_oneof_names_lower_snake_case;
    l_package_is_declared;
    l_package_lower_case;
    l_package_lower_snake_case;
    l_package_major_beta_versioned;
    l_package_no_keywords;
    l_packages_same_in_dir;
    l_rpcs_have_comments;
    l_rpcs_have_sentence_comments;
    l_rpcs_no_streaming;
    l_rpc_names_camel_case;
    l_rpc_names_capitalized;
    l_rpc_options_no_google_api_http;
    l_request_response_types_after_service;
    l_request_response_types_in_same_file;
    l_request_response_types_only_in_file;
    l_request_response_types_unique;
    l_request_response_names_match_rpc;
    l_services_have_comments;
    l_services_have_sentence_comments;
    l_service_names_api_suffix;
    l_service_names_camel_case;
    l_service_names_capitalized;
    l_service_names_match_file_name;
    l_service_names_no_plurals;
    l_syntax_proto3;
    l_wkt_directly_imported;
    l_wkt_duration_suffix;
    l_wkt_timestamp_suffix].
  (** lint.go:143-155 *)
  Definition google_linters : list linter := [
    l_enum_field_names_upper_snake_case;
    l_enum_names_camel_case;
    l_enum_names_capitalized;
    l_file_header;
    l_message_field_names_lower_snake_case;
    l_message_names_camel_case;
    l_message_names_capitalized;
    l_rpc_names_camel_case;
    l_rpc_names_capitalized;
    l_service_names_camel_case;
    l_service_names_capitalized].
  (** lint.go:158-194 *)
  Definition uber1_linters : list linter := [
    l_comments_no_c_style;
    l_enum_field_names_upper_snake_case;
    l_enum_field_prefixes;
    l_enum_names_camel_case;
    l_enum_names_capitalized;
    l_enum_zero_values_invalid;
    l_enums_no_allow_alias;
    l_file_header;
    l_file_options_equal_go_package_pb_suffix;
    l_file_options_equal_java_multiple_files_true;
    l_file_options_equal_java_outer_classname_proto_suffix;
    l_file_options_equal_java_package_com_prefix;
    l_file_options_go_package_not_long_form;
    l_file_options_go_package_same_in_dir;
    l_file_options_java_multiple_files_same_in_dir;
    l_file_options_java_package_same_in_dir;
    l_file_options_require_go_package;
    l_file_options_require_java_multiple_files;
    l_file_options_require_java_outer_classname;
    l_file_options_require_java_package;
    l_message_field_names_lower_snake_case;
    l_message_names_camel_case;
    l_message_names_capitalized;
    l_oneof_names_lower_snake_case;
    l_package_is_declared;
    l_package_lower_snake_case;
    l_packages_same_in_dir;
    l_rpc_names_camel_case;
    l_rpc_names_capitalized;
    l_request_response_types_in_same_file;
    l_request_response_types_unique;
    l_service_names_camel_case;
    l_service_names_capitalized;
    l_syntax_proto3;
    l_wkt_directly_imported].
  (** lint.go:197-267 *)
  Definition uber2_linters : list linter := [
    l_comments_no_c_style;
    l_comments_no_inline;
    l_enum_field_names_upper_snake_case;
    l_enum_field_prefixes_except_message;
    l_enum_names_camel_case;
    l_enum_names_capitalized;
    l_enum_zero_values_invalid_except_message;
    l_enums_have_sentence_comments;
    l_enums_no_allow_alias;
    l_fields_not_reserved;
    l_file_header;
    l_file_names_lower_snake_case;
    l_file_options_csharp_namespace_same_in_dir;
    l_file_options_equal_csharp_namespace_capitalized;
    l_file_options_equal_go_package_v2_suffix;
    l_file_options_equal_java_multiple_files_true;
    l_file_options_equal_java_outer_classname_proto_suffix;
    l_file_options_equal_java_package_prefix;
    l_file_options_equal_objc_class_prefix_abbr;
    l_file_options_equal_php_namespace_capitalized;
    l_file_options_go_package_not_long_form;
    l_file_options_go_package_same_in_dir;
    l_file_options_java_multiple_files_same_in_dir;
    l_file_options_java_package_same_in_dir;
    l_file_options_objc_class_prefix_same_in_dir;
    l_file_options_php_namespace_same_in_dir;
    l_file_options_require_csharp_namespace;
    l_file_options_require_go_package;
    l_file_options_require_java_multiple_files;
    l_file_options_require_java_outer_classname;
    l_file_options_require_java_package;
    l_file_options_require_objc_class_prefix;
    l_file_options_require_php_namespace;
    l_imports_not_public;
    l_imports_not_weak;
    l_messages_have_sentence_comments_except_request_response_types;
    l_message_field_names_filename;
    l_message_field_names_filepath;
    l_message_field_names_lower_snake_case;
    l_message_field_names_no_descriptor;
    l_message_fields_no_json_name;
    l_message_names_camel_case;
    l_message_names_capitalized;
    l_names_no_common;
    l_names_no_data;
    l_names_no_uuid;
    l_oneof_names_lower_snake_case;
    l_package_is_declared;
    l_package_lower_case;
    l_package_major_beta_versioned;
    l_package_no_keywords;
    l_packages_same_in_dir;
    l_rpcs_have_sentence_comments;
    l_rpc_names_camel_case;
    l_rpc_names_capitalized;
    l_request_response_names_match_rpc;
    l_request_response_types_after_service;
    l_request_response_types_in_same_file;
    l_request_response_types_only_in_file;
    l_request_response_types_unique;
    l_services_have_sentence_comments;
    l_service_names_api_suffix;
    l_service_names_camel_case;
    l_service_names_capitalized;
    l_service_names_match_file_name;
    l_syntax_proto3;
    l_wkt_directly_imported;
    l_wkt_duration_suffix;
    l_wkt_timestamp_suffix].
  (** lint.go:270 *)
  Definition empty_linters : list linter := [].
  (** lint.go:140 *)
  Definition default_linters : list linter := uber1_linters.
  (** lint.go:273-278 *)
  Definition group_to_linters : list (string * list linter) :=
    [("google", google_linters); ("uber1", uber1_linters); ("uber2", uber2_linters); ("empty", empty_linters)].
End Rules.
