(** Specification of formatting: the tokens of .proto text and of declarations. *)
From Coq Require Import Permutation Sorted.
From Verif Require Export GoStr GoStrFacts Proto_AST.

(** ** Sorting by name *)
Definition sorts_by {A} (name : A -> string) (sort : list A -> list A) : Prop :=
  forall l, Permutation l (sort l) /\ Sorted (fun a b => str_leb (name a) (name b) = true) (sort l).

(** ** C23 *)
(** [line] has no blank space at its end. *)
Definition no_blank_end (line : string) : Prop :=
  forall l c, line = l +++ String c EmptyString -> is_space c = false.
(** Nothing, or a text that begins and ends with something, no line of which ends in
    blank space, and one newline. *)
Definition well_shaped (text : string) : Prop :=
  text = "" \/
  exists s, text = s +++ String newline EmptyString /\ s <> "" /\
    (forall c r, s = String c r -> is_space c = false) /\
    Forall no_blank_end (split_char newline s).
Definition one_line (s : string) : Prop := no_char newline s = true.

(** ** Tokens of text *)
(** A word, a string with the character that encloses it, a symbol, or a remark: the text
    of a line comment, without blank space at its end. *)
Inductive token : Type :=
| Word (w : string)
| Str (quote : ascii) (s : string)
| Sym (c : ascii)
| Rem (text : string).
Definition is_symbol (c : ascii) : bool :=
  existsb (Ascii.eqb c) [";"; "="; "{"; "}"; "("; ")"; "["; "]"; ","; "<"; ">"; ":"]%char.
Definition squote : ascii := "'"%char.
Definition is_quote (c : ascii) : bool := Ascii.eqb c dquote || Ascii.eqb c squote.
(** What is read so far: a word (nothing, if it is empty), a word and a slash, a string,
    a comment. *)
Inductive lex_state : Type :=
| InWord (w : string)
| InSlash (w : string)
| InString (quote : ascii) (s : string) (escaped : bool)
| InRemark (s : string).
Definition push (s : string) (c : ascii) : string := s +++ String c EmptyString.
Definition word_end (w : string) : list token := if String.eqb w "" then [] else [Word w].
Definition step_word (w : string) (c : ascii) : list token * lex_state :=
  if is_space c then (word_end w, InWord "")
  else if Ascii.eqb c slash then ([], InSlash w)
  else if is_quote c then (word_end w, InString c "" false)
  else if is_symbol c then (word_end w ++ [Sym c], InWord "")
  else ([], InWord (push w c)).
Definition lex_step (st : lex_state) (c : ascii) : list token * lex_state :=
  match st with
  | InWord w => step_word w c
  | InSlash w => if Ascii.eqb c slash then (word_end w, InRemark "") else step_word (push w slash) c
  | InString q s escaped =>
      if escaped then ([], InString q (push s c) false)
      else if Ascii.eqb c backslash then ([], InString q (push s c) true)
      else if Ascii.eqb c q then ([Str q s], InWord "")
      else ([], InString q (push s c) false)
  | InRemark s => if Ascii.eqb c newline then ([Rem (trim_right is_space s)], InWord "") else ([], InRemark (push s c))
  end.
Fixpoint lex_run (st : lex_state) (s : string) : list token * lex_state :=
  match s with
  | EmptyString => ([], st)
  | String c s' =>
      let '(ts, st') := lex_step st c in
      let '(ts', st'') := lex_run st' s' in (ts ++ ts', st'')
  end.
(** The tokens of a text that does not end within a string. *)
Definition reads_as (text : string) (ts : list token) : Prop :=
  lex_run (InWord "") text = (ts, InWord "").

(** ** Tokens of declarations *)
Definition comment_tokens (c : option comment) : list token :=
  match c with
  | None => []
  | Some c => map (fun line => Rem (trim_right is_space (trim_left (Ascii.eqb slash) line))) (c_lines c)
  end.
Fixpoint sep_by (sep : list token) (l : list (list token)) : list token :=
  match l with
  | [] => []
  | x :: r => x ++ match r with [] => [] | _ => sep ++ sep_by sep r end
  end.
Definition quote_of (l : literal) : ascii := match l_quote l with Some q => q | None => dquote end.
(** The tokens of a name that may have symbols in it, such as (a.b).c. *)
Definition name_tokens (n : string) : list token :=
  match lex_run (InWord "") n with
  | (ts, InWord w) => ts ++ word_end w
  | (ts, _) => ts
  end.
Fixpoint literal_tokens (l : literal) : list token :=
  match l with
  | mk_literal src is_string _ arr mp =>
      match arr, mp with
      | [], [] => [if is_string then Str (quote_of l) src else Word src]
      | _ :: _, _ =>
          Sym "[" :: sep_by [Sym ","]
            ((fix items (a : list literal) : list (list token) :=
                match a with [] => [] | x :: r => literal_tokens x :: items r end) arr) ++ [Sym "]"]
      | [], _ :: _ =>
          Sym "{" ::
            (fix entries (m : list (string * literal)) : list token :=
               match m with [] => [] | (k, v) :: r => name_tokens k ++ Sym ":" :: literal_tokens v ++ entries r end) mp
          ++ [Sym "}"]
      end
  end.
(** name = value, with the comments around it and a separator after it *)
Definition setting_tokens (o : opt) (before after : list token) : list token :=
  comment_tokens (o_comment o) ++ before ++ name_tokens (o_name o) ++ [Sym "="] ++ literal_tokens (o_const o) ++ after
  ++ comment_tokens (o_inline o).
Definition option_tokens (o : opt) : list token := setting_tokens o [Word "option"] [Sym ";"].
(** [ name = value , ... ] *)
Fixpoint settings_tokens (os : list opt) : list token :=
  match os with
  | [] => []
  | o :: r => setting_tokens o [] (match r with [] => [] | _ => [Sym ","] end) ++ settings_tokens r
  end.
Definition bracket_tokens (os : list opt) : list token :=
  match os with [] => [] | _ => Sym "[" :: settings_tokens os ++ [Sym "]"] end.
Definition number (z : Z) : token := Word (itoa z).
Definition range_tokens (r : range) : list token :=
  if rg_max r then [number (rg_from r); Word "to"; Word "max"]
  else if Z.eqb (rg_from r) (rg_to r) then [number (rg_from r)]
  else [number (rg_from r); Word "to"; number (rg_to r)].
Definition label_tokens (repeated optional required : bool) : list token :=
  (if repeated then [Word "repeated"] else []) ++ (if optional then [Word "optional"] else []) ++
  (if required then [Word "required"] else []).
Definition stream_tokens (b : bool) : list token := if b then [Word "stream"] else [].

Section Tokens.
  (** The order of the options of a field, an enum value and a method. *)
  Variable sort : list opt -> list opt.
  Definition field_tokens (before : list token) (name : string) (n : Z) (os : list opt) (c inline : option comment) : list token :=
    comment_tokens c ++ before ++ [Word name; Sym "="; number n] ++ bracket_tokens (sort os) ++ [Sym ";"] ++ comment_tokens inline.
  Definition own_options (es : list element) : list opt :=
    concat (map (fun e => match e with EOption o => [o] | _ => [] end) es).
  Fixpoint tokens (e : element) : list token :=
    let all := fix all (es : list element) : list token := match es with [] => [] | x :: r => tokens x ++ all r end in
    let block (c : option comment) (opening : list token) (es : list element) : list token :=
      comment_tokens c ++ opening ++ [Sym "{"] ++ all es ++ [Sym "}"] in
    match e with
    | EComment c => comment_tokens (Some c)
    | ESyntax s => comment_tokens (sx_comment s) ++ [Word "syntax"; Sym "="; Str dquote (sx_value s); Sym ";"] ++ comment_tokens (sx_inline s)
    | EPackage p => comment_tokens (pk_comment p) ++ [Word "package"; Word (pk_name p); Sym ";"] ++ comment_tokens (pk_inline p)
    | EImport i =>
        comment_tokens (im_comment i) ++ [Word "import"] ++ word_end (im_kind i) ++ [Str dquote (im_filename i); Sym ";"]
        ++ comment_tokens (im_inline i)
    | EOption o => option_tokens o
    | EField k f =>
        let before :=
          match k with
          | Normal repeated optional required => label_tokens repeated optional required ++ [Word (fd_type f)]
          | InOneof => [Word (fd_type f)]
          | InMap key => [Word "map"; Sym "<"; Word key; Sym ","; Word (fd_type f); Sym ">"]
          end in
        field_tokens before (fd_name f) (fd_seq f) (fd_options f) (fd_comment f) (fd_inline f)
    | EReserved r =>
        comment_tokens (rs_comment r) ++ [Word "reserved"] ++
        sep_by [Sym ","] (map range_tokens (rs_ranges r) ++ map (fun n => [Str dquote n]) (rs_names r)) ++ [Sym ";"]
        ++ comment_tokens (rs_inline r)
    | EExtensions x =>
        comment_tokens (xt_comment x) ++ [Word "extensions"] ++ sep_by [Sym ","] (map range_tokens (xt_ranges x)) ++ [Sym ";"]
        ++ comment_tokens (xt_inline x)
    | EEnumField f es => field_tokens [] (ef_name f) (ef_integer f) (own_options es) (ef_comment f) (ef_inline f)
    | EEnum h es => block (h_comment h) [Word "enum"; Word (h_name h)] es
    | EMessage h extend es => block (h_comment h) [Word (if extend then "extend" else "message"); Word (h_name h)] es
    | EOneof h es => block (h_comment h) [Word "oneof"; Word (h_name h)] es
    | EGroup h optional n es =>
        block (h_comment h) ((if optional then [Word "optional"] else []) ++ [Word "group"; Word (h_name h); Sym "="; number n]) es
    | EService h es => block (h_comment h) [Word "service"; Word (h_name h)] es
    | ERPC r es =>
        comment_tokens (r_comment r) ++
        [Word "rpc"; Word (r_name r); Sym "("] ++ stream_tokens (r_streams_request r) ++ [Word (r_request r); Sym ")"; Word "returns"; Sym "("]
        ++ stream_tokens (r_streams_returns r) ++ [Word (r_returns r); Sym ")"] ++
        match es with
        | [] => [Sym ";"]
        | _ => Sym "{" :: concat (map option_tokens (sort (own_options es))) ++ [Sym "}"]
        end ++ comment_tokens (r_inline r)
    end.
End Tokens.

(** ** What the formatter keeps *)
Definition word_char (c : ascii) : bool := negb (is_space c || Ascii.eqb c slash || is_quote c || is_symbol c).
(** One word. *)
Definition a_word (s : string) : Prop := s <> "" /\ sforall word_char s = true.
(** Can be enclosed in [q]: the character [q] occurs only after a backslash, and the last
    backslash has a character after it. *)
Fixpoint quotable (q : ascii) (escaped : bool) (s : string) : bool :=
  match s with
  | EmptyString => negb escaped
  | String c s' =>
      if escaped then quotable q false s'
      else if Ascii.eqb c backslash then quotable q true s'
      else negb (Ascii.eqb c q) && quotable q false s'
  end.
Definition a_string (q : ascii) (s : string) : Prop :=
  is_quote q = true /\ one_line s /\ quotable q false s = true.
(** A name that may have symbols in it. *)
Definition a_name (s : string) : Prop :=
  s <> "" /\ one_line s /\ no_blank_end s /\ exists ts w, lex_run (InWord "") s = (ts, InWord w).
Definition comment_ok (c : option comment) : Prop :=
  match c with None => True | Some c => Forall one_line (c_lines c) end.
Fixpoint literal_ok (l : literal) : Prop :=
  match l with
  | mk_literal src is_string _ arr mp =>
      match arr, mp with
      | [], [] => if is_string then a_string (quote_of l) src else a_word src
      | _ :: _, [] => (fix items (a : list literal) : Prop := match a with [] => True | x :: r => literal_ok x /\ items r end) arr
      | [], _ :: _ =>
          (fix entries (m : list (string * literal)) : Prop :=
             match m with [] => True | (k, v) :: r => (a_name k /\ literal_ok v) /\ entries r end) mp
      | _, _ => False
      end
  end.
(** An option with a value that is not a list. *)
Definition option_ok (o : opt) : Prop :=
  a_name (o_name o) /\ literal_ok (o_const o) /\ l_array (o_const o) = [] /\ comment_ok (o_comment o) /\ comment_ok (o_inline o).
(** The options of a field: if there is only one and it has a simple value, it has no
    comments of its own. *)
Definition field_options_ok (os : list opt) : Prop :=
  Forall option_ok os /\
  match os with
  | [o] => l_map (o_const o) = [] -> comment_tokens (o_comment o) = [] /\ comment_tokens (o_inline o) = []
  | _ => True
  end.
(** With proto2 every field has one label, else it may only be repeated. *)
Definition label_ok (proto2 : bool) (k : field_kind) : Prop :=
  match k with
  | Normal repeated optional required =>
      if proto2 then In (repeated, optional, required) [(true, false, false); (false, true, false); (false, false, true)]
      else optional = false /\ required = false
  | InOneof => True
  | InMap key => a_word key
  end.
(** Where a declaration is: in the file, in another declaration, in a group. *)
Inductive place : Type := Top | Nested | NestedGroup.
Fixpoint kept (proto2 : bool) (pl : place) (e : element) : Prop :=
  let all (pl : place) (es : list element) : Prop :=
    (fix all (es : list element) : Prop := match es with [] => True | x :: r => kept proto2 pl x /\ all r end) es in
  match e with
  | EComment c => comment_ok (Some c)
  | ESyntax s => pl = Top /\ comment_ok (sx_comment s) /\ comment_ok (sx_inline s) /\ a_string dquote (sx_value s)
  | EPackage p => pl = Top /\ comment_ok (pk_comment p) /\ comment_ok (pk_inline p) /\ a_word (pk_name p)
  | EImport i =>
      pl = Top /\ comment_ok (im_comment i) /\ comment_ok (im_inline i) /\ (im_kind i = "" \/ a_word (im_kind i)) /\ a_string dquote (im_filename i)
  | EOption o => pl <> NestedGroup /\ option_ok o
  | EField k f =>
      label_ok proto2 k /\ a_word (fd_type f) /\ a_word (fd_name f) /\ field_options_ok (fd_options f) /\
      comment_ok (fd_comment f) /\ comment_ok (fd_inline f)
  | EReserved r =>
      ((rs_ranges r <> [] /\ rs_names r = []) \/ (rs_ranges r = [] /\ rs_names r <> [])) /\
      Forall (a_string dquote) (rs_names r) /\ comment_ok (rs_comment r) /\ comment_ok (rs_inline r)
  | EExtensions x => comment_ok (xt_comment x) /\ comment_ok (xt_inline x)
  | EEnumField f es =>
      a_word (ef_name f) /\ es = map EOption (own_options es) /\ field_options_ok (own_options es) /\
      comment_ok (ef_comment f) /\ comment_ok (ef_inline f)
  | EEnum h es | EMessage h _ es | EOneof h es | EService h es => comment_ok (h_comment h) /\ a_word (h_name h) /\ all Nested es
  | EGroup h _ _ es => comment_ok (h_comment h) /\ a_word (h_name h) /\ all NestedGroup es
  | ERPC r es =>
      es = map EOption (own_options es) /\ r_options r = own_options es /\ Forall option_ok (own_options es) /\
      a_word (r_name r) /\ a_word (r_request r) /\ a_word (r_returns r) /\ comment_ok (r_comment r) /\ comment_ok (r_inline r)
  end.

(** ** The canonical order *)
Fixpoint leading (es : list element) : list element :=
  match es with EComment c :: r => EComment c :: leading r | _ => [] end.
Fixpoint after_leading (es : list element) : list element :=
  match es with EComment c :: r => after_leading r | _ => es end.
Definition syntaxes (es : list element) : list element := filter (fun e => match e with ESyntax _ => true | _ => false end) es.
Definition packages (es : list element) : list element := filter (fun e => match e with EPackage _ => true | _ => false end) es.
Definition own_imports (es : list element) : list import :=
  concat (map (fun e => match e with EImport i => [i] | _ => [] end) es).
Definition others (es : list element) : list element :=
  filter (fun e => match e with ESyntax _ | EPackage _ | EOption _ | EImport _ => false | _ => true end) es.
(** The comments at the top, the syntax, the package, the options by name, the imports by
    name, and everything else as it was. *)
Definition canonical (sort_options : list opt -> list opt) (sort_imports : list import -> list import) (es : list element) : list element :=
  leading es ++ syntaxes es ++ packages es ++ map EOption (sort_options (own_options es)) ++
  map EImport (sort_imports (own_imports es)) ++ others (after_leading es).
(** A file of at most one syntax and one package that the formatter keeps. *)
Definition is_proto2 (es : list element) : Prop :=
  forall s, In (ESyntax s) es -> sx_value s = "" \/ sx_value s = "proto2".
Definition is_proto3 (es : list element) : Prop := exists s, In (ESyntax s) es /\ sx_value s = "proto3".
Definition kept_file (es : list element) : Prop :=
  length (syntaxes es) <= 1 /\ length (packages es) <= 1 /\
  ((is_proto2 es /\ Forall (kept true Top) es) \/ (is_proto3 es /\ Forall (kept false Top) es)).

(** ** format --fix *)
(** The options that --fix sets. *)
Definition managed_names : list string :=
  ["go_package"; "java_multiple_files"; "java_outer_classname"; "java_package"; "csharp_namespace"; "objc_class_prefix"; "php_namespace"].
Definition is_managed (o : opt) : bool := existsb (String.eqb (o_name o)) managed_names.
(** The last option of that name. *)
Fixpoint last_named (name : string) (os : list opt) : option opt :=
  match os with
  | [] => None
  | o :: r => match last_named name r with
              | Some x => Some x
              | None => if String.eqb (o_name o) name then Some o else None
              end
  end.
(** [name] set to [value]: the last option of that name, or a new one. *)
Definition reset (os : list opt) (setting : string * literal) : opt :=
  match last_named (fst setting) os with
  | Some o => mk_opt (o_pos o) (o_name o) (snd setting) (o_comment o) (o_inline o)
  | None => mk_opt (mk_pos 0 0) (fst setting) (snd setting) None None
  end.
(** The options that --fix does not set, and those that it sets. *)
Definition fixed_options (settings : list (string * literal)) (os : list opt) : list opt :=
  filter (fun o => negb (is_managed o)) os ++ map (reset os) settings.
Definition a_value (s : string) : literal := mk_literal s true (Some dquote) [] [].
Definition settings_v1 (go java_class java : string) : list (string * literal) :=
  [("go_package", a_value go); ("java_multiple_files", mk_literal "true" false None [] []);
   ("java_outer_classname", a_value java_class); ("java_package", a_value java)].
Definition settings_v2 (go java_class java csharp objc php : string) : list (string * literal) :=
  settings_v1 go java_class java ++
  [("csharp_namespace", a_value csharp); ("objc_class_prefix", a_value objc); ("php_namespace", a_value php)].
(** The file in canonical order, after [top], with the options [os]. *)
Definition canonical_with (sort_options : list opt -> list opt) (sort_imports : list import -> list import)
    (top : list element) (os : list opt) (es : list element) : list element :=
  top ++ syntaxes es ++ packages es ++ map EOption (sort_options os) ++
  map EImport (sort_imports (own_imports es)) ++ others (after_leading es).

(** ** C23: every string of a file is on one line *)
Definition comment_plain (c : option comment) : Prop := match c with None => True | Some c => Forall one_line (c_lines c) end.
Fixpoint literal_plain (l : literal) : Prop :=
  match l with
  | mk_literal src _ q arr mp =>
      one_line src /\ q <> Some newline /\
      (fix items (a : list literal) : Prop := match a with [] => True | x :: r => literal_plain x /\ items r end) arr /\
      (fix entries (m : list (string * literal)) : Prop :=
         match m with [] => True | (k, v) :: r => (one_line k /\ literal_plain v) /\ entries r end) mp
  end.
Definition option_plain (o : opt) : Prop :=
  one_line (o_name o) /\ literal_plain (o_const o) /\ comment_plain (o_comment o) /\ comment_plain (o_inline o).
Fixpoint plain (e : element) : Prop :=
  let all (es : list element) : Prop :=
    (fix all (es : list element) : Prop := match es with [] => True | x :: r => plain x /\ all r end) es in
  match e with
  | EComment c => comment_plain (Some c)
  | ESyntax s => one_line (sx_value s) /\ comment_plain (sx_comment s) /\ comment_plain (sx_inline s)
  | EPackage p => one_line (pk_name p) /\ comment_plain (pk_comment p) /\ comment_plain (pk_inline p)
  | EImport i => one_line (im_filename i) /\ one_line (im_kind i) /\ comment_plain (im_comment i) /\ comment_plain (im_inline i)
  | EOption o => option_plain o
  | EField k f =>
      match k with InMap key => one_line key | _ => True end /\ one_line (fd_type f) /\ one_line (fd_name f) /\
      Forall option_plain (fd_options f) /\ comment_plain (fd_comment f) /\ comment_plain (fd_inline f)
  | EReserved r => Forall one_line (rs_names r) /\ comment_plain (rs_comment r) /\ comment_plain (rs_inline r)
  | EExtensions x => comment_plain (xt_comment x) /\ comment_plain (xt_inline x)
  | EEnumField f es => one_line (ef_name f) /\ all es /\ comment_plain (ef_comment f) /\ comment_plain (ef_inline f)
  | EEnum h es | EMessage h _ es | EOneof h es | EGroup h _ _ es | EService h es =>
      one_line (h_name h) /\ comment_plain (h_comment h) /\ all es
  | ERPC r es =>
      one_line (r_name r) /\ one_line (r_request r) /\ one_line (r_returns r) /\ Forall option_plain (r_options r) /\
      comment_plain (r_comment r) /\ comment_plain (r_inline r)
  end.

(** ** The same file up to layout *)
(** Up to positions, the decoration of comments, and the order of options and imports
    with distinct names. *)
Definition same_comment (c c' : option comment) : Prop := comment_tokens c = comment_tokens c'.
Definition same_option (o o' : opt) : Prop :=
  o_name o = o_name o' /\ o_const o = o_const o' /\ same_comment (o_comment o) (o_comment o') /\ same_comment (o_inline o) (o_inline o').
Definition same_options (os os' : list opt) : Prop :=
  NoDup (map o_name os) /\ exists l, Permutation os l /\ Forall2 same_option l os'.
Definition same_import (i i' : import) : Prop :=
  im_filename i = im_filename i' /\ im_kind i = im_kind i' /\ same_comment (im_comment i) (im_comment i') /\ same_comment (im_inline i) (im_inline i').
Definition same_imports (is is' : list import) : Prop :=
  NoDup (map im_filename is) /\ exists l, Permutation is l /\ Forall2 same_import l is'.
Definition same_field (f f' : field) : Prop :=
  fd_name f = fd_name f' /\ fd_type f = fd_type f' /\ fd_seq f = fd_seq f' /\ same_options (fd_options f) (fd_options f') /\
  same_comment (fd_comment f) (fd_comment f') /\ same_comment (fd_inline f) (fd_inline f').
Definition same_header (h h' : header) : Prop := h_name h = h_name h' /\ same_comment (h_comment h) (h_comment h').
Fixpoint same (e e' : element) {struct e} : Prop :=
  let all (es es' : list element) : Prop :=
    (fix all (es es' : list element) : Prop :=
       match es, es' with [], [] => True | x :: r, x' :: r' => same x x' /\ all r r' | _, _ => False end) es es' in
  match e, e' with
  | EComment c, EComment c' => same_comment (Some c) (Some c')
  | ESyntax s, ESyntax s' =>
      sx_value s = sx_value s' /\ same_comment (sx_comment s) (sx_comment s') /\ (sx_comment s = None <-> sx_comment s' = None) /\
      same_comment (sx_inline s) (sx_inline s')
  | EPackage p, EPackage p' =>
      pk_name p = pk_name p' /\ same_comment (pk_comment p) (pk_comment p') /\ same_comment (pk_inline p) (pk_inline p')
  | EImport i, EImport i' => same_import i i'
  | EOption o, EOption o' => same_option o o'
  | EField k f, EField k' f' => k = k' /\ same_field f f'
  | EReserved r, EReserved r' =>
      rs_ranges r = rs_ranges r' /\ rs_names r = rs_names r' /\ same_comment (rs_comment r) (rs_comment r') /\
      same_comment (rs_inline r) (rs_inline r')
  | EExtensions x, EExtensions x' =>
      xt_ranges x = xt_ranges x' /\ same_comment (xt_comment x) (xt_comment x') /\ same_comment (xt_inline x) (xt_inline x')
  | EEnumField f es, EEnumField f' es' =>
      ef_name f = ef_name f' /\ ef_integer f = ef_integer f' /\ same_options (own_options es) (own_options es') /\
      same_comment (ef_comment f) (ef_comment f') /\ same_comment (ef_inline f) (ef_inline f')
  | EEnum h es, EEnum h' es' => same_header h h' /\ all es es'
  | EMessage h x es, EMessage h' x' es' => same_header h h' /\ x = x' /\ all es es'
  | EOneof h es, EOneof h' es' => same_header h h' /\ all es es'
  | EGroup h o n es, EGroup h' o' n' es' => same_header h h' /\ o = o' /\ n = n' /\ all es es'
  | EService h es, EService h' es' => same_header h h' /\ all es es'
  | ERPC r es, ERPC r' es' =>
      r_name r = r_name r' /\ r_request r = r_request r' /\ r_streams_request r = r_streams_request r' /\
      r_returns r = r_returns r' /\ r_streams_returns r = r_streams_returns r' /\ same_options (r_options r) (r_options r') /\
      same_comment (r_comment r) (r_comment r') /\ same_comment (r_inline r) (r_inline r')
  | _, _ => False
  end.
(** The same comments at the top, syntax, package, options, imports and other
    declarations. *)
Definition same_file (es es' : list element) : Prop :=
  Forall2 same (leading es) (leading es') /\ Forall2 same (syntaxes es) (syntaxes es') /\ Forall2 same (packages es) (packages es') /\
  same_options (own_options es) (own_options es') /\ same_imports (own_imports es) (own_imports es') /\
  Forall2 same (others (after_leading es)) (others (after_leading es')).
(** The comment of the syntax becomes one of its own: an empty line is printed after it. *)
Definition detached (es : list element) : list element :=
  concat (map (fun e => match e with
                        | ESyntax s =>
                            match sx_comment s with
                            | Some c => [EComment c; ESyntax (mk_syntax (sx_pos s) (sx_value s) None (sx_inline s))]
                            | None => [e]
                            end
                        | _ => [e]
                        end) es).

(** ** The file that was written, read again *)
(** A file whose options have the names and values of [os] and whose package, if any, is
    [pkg]. *)
Definition has_contents (es : list element) (os : list opt) (pkg : string) : Prop :=
  (forall o, In (EOption o) es -> exists o', In o' os /\ o_name o = o_name o' /\ l_source (o_const o) = l_source (o_const o')) /\
  (forall o', In o' os -> exists o, In (EOption o) es /\ o_name o = o_name o' /\ l_source (o_const o) = l_source (o_const o')) /\
  (forall p, In (EPackage p) es -> pk_name p = pkg).
(** Both have the same packages and options with the same values. *)
Definition same_settings (es es' : list element) : Prop :=
  (forall n v, (exists o, In (EOption o) es /\ o_name o = n /\ l_source (o_const o) = v) <->
               (exists o, In (EOption o) es' /\ o_name o = n /\ l_source (o_const o) = v)) /\
  (forall n, (exists p, In (EPackage p) es /\ pk_name p = n) <-> (exists p, In (EPackage p) es' /\ pk_name p = n)).
(** A package name; a string that needs no escapes. *)
Definition package_char (c : ascii) : bool := is_letter c || is_digit c || Ascii.eqb c "_" || Ascii.eqb c ".".
Definition a_package (s : string) : Prop := s <> "" /\ sforall package_char s = true.
Definition quotes_free (s : string) : Prop := no_char newline s = true /\ no_char dquote s = true /\ no_char backslash s = true.
