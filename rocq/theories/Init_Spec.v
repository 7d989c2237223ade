(** How a configuration file is read, for the part of YAML that config init writes: nested
    mappings and lists in block style, plain values, and literal blocks.  The result lists
    the values in order, each with the keys that lead to it; "-" stands for an item of a
    list. *)
From Verif Require Export GoStr Exec_Model Settings_Model.

(** A key or item above the current line, and how far it is indented. *)
Record open_key : Type := mk_open { ok_indent : nat; ok_key : string }.
Record reading : Type := mk_reading {
  rd_open : list open_key;                    (* innermost first *)
  rd_block : option nat;                      (* in a literal block of a key indented so far *)
  rd_found : list (list string * string)
}.
Fixpoint indent_of (l : string) : nat := match l with String " " r => S (indent_of r) | _ => 0 end.
Fixpoint unindent (l : string) : string := match l with String " " r => unindent r | _ => l end.
Definition path_of (l : list open_key) : list string := rev (map ok_key l).
(** Keys that are indented less. *)
Fixpoint outer (n : nat) (l : list open_key) : list open_key :=
  match l with [] => [] | k :: r => if ok_indent k <? n then l else outer n r end.
(** Add a line to the value of the last key. *)
Fixpoint extend (t : string) (l : list (list string * string)) : list (list string * string) :=
  match l with
  | [] => []
  | [(p, v)] => [(p, v +++ t +++ String newline "")]
  | x :: r => x :: extend t r
  end.
(** The text before the first colon that ends the line or is followed by a blank, and what
    follows. *)
Fixpoint key_value (t : string) : option (string * string) :=
  match t with
  | EmptyString => None
  | String ":" EmptyString => Some ("", "")
  | String ":" (String " " r) => Some ("", unindent r)
  | String c r => match key_value r with Some (k, v) => Some (String c k, v) | None => None end
  end.
(** An entry "key: value", or a plain value, that is indented by n. *)
Definition read_entry (n : nat) (t : string) (r : reading) : reading :=
  let above := outer n (rd_open r) in
  match key_value t with
  | None => mk_reading above None (rd_found r ++ [(path_of above, t)])
  | Some (k, v) =>
      let below := mk_open n k :: above in
      if String.eqb v "" then mk_reading below None (rd_found r)
      else if String.eqb v "|" then mk_reading below (Some n) (rd_found r ++ [(path_of below, "")])
      else mk_reading below None (rd_found r ++ [(path_of below, v)])
  end.
Definition read_line (r : reading) (l : string) : reading :=
  let n := indent_of l in
  let t := unindent l in
  match rd_block r with
  | Some b =>
      if b <? n then mk_reading (rd_open r) (rd_block r) (extend t (rd_found r))
      else match t with
      | EmptyString | String "#" _ => r
      | String "-" (String " " t) => read_entry (n + 2) t (mk_reading (mk_open n "-" :: outer n (rd_open r)) None (rd_found r))
      | _ => read_entry n t r
      end
  | None =>
      match t with
      | EmptyString | String "#" _ => r
      | String "-" (String " " t) => read_entry (n + 2) t (mk_reading (mk_open n "-" :: outer n (rd_open r)) None (rd_found r))
      | _ => read_entry n t r
      end
  end.
Definition read_lines (ls : list string) (r : reading) : reading := fold_left read_line ls r.
Definition configures (text : string) : list (list string * string) :=
  rd_found (read_lines (split_char newline text) (mk_reading [] None [])).
(** Versions are made of letters, digits, dots and hyphens. *)
Definition version_char (c : ascii) : bool :=
  let n := Ascii.nat_of_ascii c in
  (48 <=? n) && (n <=? 57) || (65 <=? n) && (n <=? 90) || (97 <=? n) && (n <=? 122) || Ascii.eqb c "." || Ascii.eqb c "-".
Definition version_text (v : string) : Prop := v <> "" /\ sforall version_char v = true.

(** What values mean for the settings (settings.go:294-347).  Lists of entries are only
    described when there are none. *)
Definition values_at (path : list string) (l : list (list string * string)) : list string :=
  map snd (filter (fun x => if list_eq_dec string_dec (fst x) path then true else false) l).
Definition value_at (path : list string) (l : list (list string * string)) : string := last (values_at path l) "".
Definition flag_at (path : list string) (l : list (list string * string)) : bool := String.eqb (value_at path l) "true".
Fixpoint starts (a b : list string) : bool :=
  match a, b with [], _ => true | x :: a, y :: b => String.eqb x y && starts a b | _, [] => false end.
Definition none_at (path : list string) (l : list (list string * string)) : Prop :=
  forall x, In x l -> starts path (fst x) = false.
Definition means (l : list (list string * string)) (e : external_config) : Prop :=
  x_excludes e = values_at ["excludes"; "-"] l /\
  x_version e = value_at ["protoc"; "version"] l /\
  x_includes e = values_at ["protoc"; "includes"; "-"] l /\
  x_allow_unused_imports e = flag_at ["protoc"; "allow_unused_imports"] l /\
  (none_at ["create"; "packages"] l -> x_packages e = []) /\
  x_group e = value_at ["lint"; "group"] l /\
  (none_at ["lint"; "ignores"] l -> x_ignores e = []) /\
  x_no_default e = flag_at ["lint"; "rules"; "no_default"] l /\
  x_add e = values_at ["lint"; "rules"; "add"; "-"] l /\
  x_remove e = values_at ["lint"; "rules"; "remove"; "-"] l /\
  x_header e = mk_ext_header (value_at ["lint"; "file_header"; "path"] l) (value_at ["lint"; "file_header"; "content"] l)
                 (flag_at ["lint"; "file_header"; "is_commented"] l) /\
  x_java_package_prefix e = value_at ["lint"; "java_package_prefix"] l /\
  x_allow_suppression e = flag_at ["lint"; "allow_suppression"] l /\
  x_include_beta e = flag_at ["break"; "include_beta"] l /\
  x_allow_beta_deps e = flag_at ["break"; "allow_beta_deps"] l /\
  x_import_path e = value_at ["generate"; "go_options"; "import_path"] l /\
  (none_at ["generate"; "go_options"; "extra_modifiers"] l -> x_extra_modifiers e = []) /\
  (none_at ["generate"; "plugins"] l -> x_plugins e = []).
