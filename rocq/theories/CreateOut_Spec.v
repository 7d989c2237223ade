(** Independent vocabulary for what create writes. *)
From Verif Require Import GoStr Proto_AST Strs_Model Settings_Types Format_Spec Lint_Model.

(** The options of a created file, by name: those of the group uber2, or of the others. *)
Definition created_settings (uber2 : bool) (pkg file prefix : string) : list (string * literal) :=
  (if uber2 then [("csharp_namespace", a_value (csharp_namespace pkg))] else []) ++
  [("go_package", a_value (if uber2 then go_package_v2 pkg else go_package pkg));
   ("java_multiple_files", mk_literal "true" false None [] []);
   ("java_outer_classname", a_value (java_outer_classname file));
   ("java_package", a_value (java_package_prefix_override pkg prefix))] ++
  (if uber2 then [("objc_class_prefix", a_value (objc_class_prefix pkg)); ("php_namespace", a_value (php_namespace pkg))] else []).
(** Such an option, without comments, anywhere. *)
Definition sets (s : string * literal) (o : opt) : Prop :=
  o_name o = fst s /\ o_const o = snd s /\ o_comment o = None /\ o_inline o = None.
(** The declarations of a proto3 file with a package, these options, and nothing else. *)
Definition declares_just (pkg : string) (settings : list (string * literal)) (es : list element) : Prop :=
  exists sx pk os, es = ESyntax sx :: EPackage pk :: map EOption os /\
    sx_value sx = "proto3" /\ sx_comment sx = None /\ sx_inline sx = None /\
    pk_name pk = pkg /\ pk_comment pk = None /\ pk_inline pk = None /\ Forall2 sets settings os.
(** The configured group is uber2. *)
Definition in_uber2 (c : config) : bool := String.eqb (lc_group (cfg_lint c)) "uber2".
Definition prefix_of (c : config) : string := lc_java_package_prefix (cfg_lint c).
Definition header_of_config (c : config) : string := lc_file_header (cfg_lint c).
(** The rules about the names that the user chose, of the package and of the file. *)
Definition name_rules : list string :=
  ["FILE_NAMES_LOWER_SNAKE_CASE"; "PACKAGE_LOWER_CASE"; "PACKAGE_LOWER_SNAKE_CASE"; "PACKAGE_MAJOR_BETA_VERSIONED"; "PACKAGE_NO_KEYWORDS";
   "NAMES_NO_COMMON"; "NAMES_NO_DATA"; "NAMES_NO_UUID"].
(** The declarations of the file [f], created with the configuration [c] in package [p]. *)
Definition contents_of (c : config) (p f : string) (es : list element) : Prop :=
  declares_just p (created_settings (in_uber2 c) p f (prefix_of c)) es.
