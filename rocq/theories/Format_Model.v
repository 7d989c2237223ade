(** Model of internal/format and internal/buf: how parsed files are printed.

    Simplifications.
    - A Printer is append only, so what a function prints is the text it returns; the
      buffer is what was returned, one after the other.  In and Out are always used in
      pairs around what is nested, so the indent count is an argument.
    - The parser (github.com/emicklei/proto) is an argument of [transform].
    - White space is that of ASCII, see GoStr.  *)
From Verif Require Export GoStr Proto_AST Text_Model Strs_Model.

(** ** internal/buf *)
Fixpoint cat (l : list string) : string :=
  match l with [] => "" | x :: l' => x +++ cat l' end.
Definition endl : string := String newline EmptyString.
(** buf.go:48-66, with the indent string of base_visitor.go:40-42 *)
Definition P (n : nat) (args : list string) : string :=
  match args with
  | [] => endl
  | _ =>
      let line := trim_right is_space (srepeat "  " n +++ cat args) in
      (if is_empty (trim_space line) then "" else line) +++ endl
  end.

(** ** github.com/emicklei/proto: how literals and ranges are written *)
(** Literal.SourceRepresentation *)
Definition source_of (l : literal) : string :=
  if l_is_string l then
    let q := match l_quote l with Some c => c | None => dquote end in
    String q (l_source l +++ String q EmptyString)
  else l_source l.
(** Range.SourceRepresentation *)
Definition range_text (r : range) : string :=
  if rg_max r then itoa (rg_from r) +++ " to max"
  else if Z.eqb (rg_from r) (rg_to r) then itoa (rg_from r)
  else itoa (rg_from r) +++ " to " +++ itoa (rg_to r).

(** ** base_visitor.go *)
(** What is printed and the failures that are added. *)
Definition out : Type := string * list failure.
Definition says (s : string) : out := (s, []).
Definition seq (a b : out) : out := (fst a +++ fst b, snd a ++ snd b).
Fixpoint outs (l : list out) : out :=
  match l with [] => ("", []) | x :: l' => seq x (outs l') end.
(** base_visitor.go:44-50 *)
Definition fails (p : position) (m : string) : out := ("", [mk_failure "" (p_line p) (p_column p) "" m]).
(** base_visitor.go:203-206 *)
Definition clean_comment_line (line : string) : string := trim_left (Ascii.eqb slash) line.
(** base_visitor.go:65-75 *)
Definition p_comment (n : nat) (c : option comment) : string :=
  match c with
  | None => ""
  | Some c => cat (map (fun line => P n ["//"; clean_comment_line line]) (c_lines c))
  end.
(** base_visitor.go:52-63 *)
Definition p_inline (n : nat) (c : option comment) (args : list string) : string :=
  match c with
  | None => P n args
  | Some c =>
      match c_lines c with
      | [] => P n args
      | line :: rest =>
          P n (args ++ [" //"; clean_comment_line line]) +++
          cat (map (fun line => P n ["//"; clean_comment_line line]) rest)
      end
  end.
(** base_visitor.go:188-191 *)
Definition is_single_value (l : literal) : bool :=
  match l_array l, l_map l with [], [] => true | _, _ => false end.
(** base_visitor.go:149-182 *)
Fixpoint p_inner (n : nat) (name : string) (l : literal) (suffix : string) {struct l} : string :=
  let prefix := if is_empty name then "" else name +++ ": " in
  match l with
  | mk_literal _ _ _ arr mp =>
      if is_single_value l then
        let source := source_of l in
        if is_empty source then "" else P n [prefix; source; suffix]
      else
        match arr with
        | _ :: _ =>
            P n [prefix; "["] +++
            (fix items (a : list literal) : string :=
               match a with
               | [] => ""
               | x :: r => p_inner (S n) "" x (match r with [] => "" | _ => "," end) +++ items r
               end) arr +++
            P n ["]"; suffix]
        | [] =>
            P n [prefix; "{"] +++
            (fix entries (m : list (string * literal)) : string :=
               match m with
               | [] => ""
               | (k, v) :: r => p_inner (S n) k v "" +++ entries r
               end) mp +++
            P n ["}"; suffix]
        end
  end.
(** base_visitor.go:113-146: one option *)
Definition p_option (n : nat) (prefix suffix : string) (o : opt) : out :=
  seq (says (p_comment n (o_comment o)))
    (if is_single_value (o_const o) then
       let source := source_of (o_const o) in
       if is_empty source then says "" else says (p_inline n (o_inline o) [prefix; o_name o; " = "; source; suffix])
     else
       match l_array (o_const o) with
       | _ :: _ =>
           ("", [mk_failure "" (p_line (o_pos o)) (p_column (o_pos o)) "INVALID_PROTOBUF"
                   "top-level options should never be arrays, this should not compile with protoc"])
       | [] =>
           says (P n [prefix; o_name o; " = {"] +++
                 cat (map (fun e => p_inner (S n) (fst e) (snd e) "") (l_map (o_const o))) +++
                 p_inline n (o_inline o) ["}"; suffix])
       end).
(** The names by which options and imports are sorted. *)
Definition option_before (a b : opt) : bool := str_ltb (o_name a) (o_name b).
Definition import_before (a b : import) : bool := str_ltb (im_filename a) (im_filename b).

Section Format.
  (** sort.Slice by name and by file name; sort.Slice need not be stable. *)
  Variable sort_options : list opt -> list opt.
  Variable sort_imports : list import -> list import.

  (** base_visitor.go:107-147, the loop over the sorted options *)
  Fixpoint p_option_list (n : nat) (is_field : bool) (os : list opt) : out :=
    match os with
    | [] => says ""
    | o :: r =>
        let prefix := if is_field then "" else "option " in
        let suffix := if is_field then match r with [] => "" | _ => "," end else ";" in
        seq (p_option n prefix suffix o) (p_option_list n is_field r)
    end.
  Definition p_options (n : nat) (is_field : bool) (os : list opt) : out :=
    p_option_list n is_field (sort_options os).
  (** base_visitor.go:81-105 *)
  Definition p_message_or_enum_field (n : nat) (prefix name ftype : string) (tag : Z) (c inline : option comment) (os : list opt) : out :=
    let ftype := if is_empty ftype then ftype else ftype +++ " " in
    seq (says (p_comment n c))
      (let long :=
         outs [says (P n [prefix; ftype; name; " = "; itoa tag; " ["]);
               p_options (S n) true os;
               says (p_inline n inline ["];"])] in
       match os with
       | [] => says (p_inline n inline [prefix; ftype; name; " = "; itoa tag; ";"])
       | [o] =>
           if is_single_value (o_const o) then
             let source := source_of (o_const o) in
             if is_empty source then long
             else says (p_inline n inline [prefix; ftype; name; " = "; itoa tag; " ["; o_name o; " = "; source; "];"])
           else long
       | _ => long
       end).
  (** base_visitor.go:184-186 *)
  Definition p_field (n : nat) (prefix ftype : string) (f : field) : out :=
    p_message_or_enum_field n prefix (fd_name f) ftype (fd_seq f) (fd_comment f) (fd_inline f) (fd_options f).
  (** base_visitor.go:193-201 *)
  Definition options_of (es : list element) : list opt :=
    concat (map (fun e => match e with EOption o => [o] | _ => [] end) es).
  Definition p_enum_field (n : nat) (f : enum_field) (es : list element) : out :=
    p_message_or_enum_field n "" (ef_name f) "" (ef_integer f) (ef_comment f) (ef_inline f) (options_of es).

  (** ** main_visitor.go *)
  (** The type of v.parent. *)
  Inductive parent : Type := NoParent | InEnum | InMessage | InOneofDecl | InGroup | InService.
  (** main_visitor.go:210-232 *)
  Definition visit_reserved (n : nat) (r : reserved) : out :=
    match rs_ranges r, rs_names r with
    | _ :: _, _ :: _ => fails (rs_pos r) "reserved had both integer ranges and field names which is unexpected"
    | _ :: _, [] =>
        says (p_comment n (rs_comment r) +++
              p_inline n (rs_inline r) ["reserved "; join ", " (map range_text (rs_ranges r)); ";"])
    | [], _ :: _ =>
        says (p_comment n (rs_comment r) +++
              p_inline n (rs_inline r)
                ["reserved "; join ", " (map (fun f => String dquote (f +++ String dquote EmptyString)) (rs_names r)); ";"])
    | [], [] => says (p_comment n (rs_comment r))
    end.
  (** main_visitor.go:234-254 *)
  Definition visit_rpc (n : nat) (r : rpc) : out :=
    let request := if r_streams_request r then "stream " else "" in
    let response := if r_streams_returns r then "stream " else "" in
    seq (says (p_comment n (r_comment r)))
      (match r_options r with
       | [] => says (p_inline n (r_inline r)
                 ["rpc "; r_name r; "("; request; r_request r; ") returns ("; response; r_returns r; ");"])
       | os =>
           outs [says (P n ["rpc "; r_name r; "("; request; r_request r; ") returns ("; response; r_returns r; ") {"]);
                 p_options (S n) false os;
                 says (p_inline n (r_inline r) ["}"])]
       end).
  (** main_visitor.go:285-293 *)
  Definition visit_extensions (n : nat) (x : extensions) : out :=
    says (p_comment n (xt_comment x) +++
          p_inline n (xt_inline x) ["extensions "; join ", " (map range_text (xt_ranges x)); ";"]).
  (** main_visitor.go:107-125 *)
  Definition visit_option (p : parent) (n : nat) (o : opt) : out :=
    match p with
    | NoParent => says ""
    | InEnum | InMessage | InOneofDecl | InService => p_options n false [o]
    | InGroup => fails (o_pos o) "unhandled child option"
    end.
  (** main_visitor.go:132-148, 205-208, 256-259 *)
  Definition visit_field (proto2 : bool) (n : nat) (k : field_kind) (f : field) : out :=
    match k with
    | Normal repeated _ required =>
        let prefix := if proto2 then if required then "required " else "optional " else "" in
        let prefix := if repeated then "repeated " else prefix in
        p_field n prefix (fd_type f) f
    | InOneof => p_field n "" (fd_type f) f
    | InMap key => p_field n "" ("map<" +++ key +++ ", " +++ fd_type f +++ ">") f
    end.
  (** The blocks of main_visitor.go:49-95, 155-176, 185-203, 261-283: comment, opening
      line, children, closing line.  [blank_empty] and [blank_after] say whether an empty
      line follows an empty and a non-empty block. *)
  Definition block (n : nat) (c : option comment) (opening : list string) (no_children : bool) (children : out)
      (blank_empty blank_after : bool) : out :=
    if no_children then
      says (p_comment n c +++ P n (opening ++ [" {}"]) +++ (if blank_empty then P n [] else ""))
    else
      outs [says (p_comment n c +++ P n (opening ++ [" {"])); children;
            says (P n ["}"] +++ (if blank_after then P n [] else ""))].
  (** Accept of a mainVisitor.  [hit] is haveHitNonComment. *)
  Fixpoint visit (proto2 : bool) (p : parent) (n : nat) (hit : bool) (e : element) {struct e} : out :=
    let children (p : parent) (es : list element) : out :=
      (fix go (es : list element) : out :=
         match es with [] => says "" | x :: r => seq (visit proto2 p (S n) true x) (go r) end) es in
    let none (es : list element) : bool := match es with [] => true | _ => false end in
    let top : bool := match p with NoParent => true | _ => false end in
    match e with
    (* main_visitor.go:178-183 *)
    | EComment c => if hit then says (p_comment n (Some c) +++ P n []) else says ""
    (* main_visitor.go:97-105, 127-130 *)
    | ESyntax _ | EPackage _ | EImport _ => says ""
    | EOption o => visit_option p n o
    | EField k f => visit_field proto2 n k f
    | EReserved r => visit_reserved n r
    | EExtensions x => visit_extensions n x
    (* main_visitor.go:150-153 *)
    | EEnumField f es => p_enum_field n f es
    (* main_visitor.go:155-176 *)
    | EEnum h es => block n (h_comment h) ["enum "; h_name h] (none es) (children InEnum es) true top
    (* main_visitor.go:49-74 *)
    | EMessage h extend es =>
        block n (h_comment h) [if extend then "extend " else "message "; h_name h] (none es) (children InMessage es) true top
    (* main_visitor.go:185-203 *)
    | EOneof h es => block n (h_comment h) ["oneof "; h_name h] (none es) (children InOneofDecl es) false false
    (* main_visitor.go:261-283 *)
    | EGroup h optional tag es =>
        block n (h_comment h) [if optional then "optional " else ""; "group "; h_name h; " = "; itoa tag]
          (none es) (children InGroup es) false false
    (* main_visitor.go:76-95 *)
    | EService h es => block n (h_comment h) ["service "; h_name h] (none es) (children InService es) true true
    | ERPC r _ => visit_rpc n r
    end.
  Definition is_comment (e : element) : bool := match e with EComment _ => true | _ => false end.
  (** transformer.go:80-83: the loop of the main visitor *)
  Fixpoint main_loop (proto2 : bool) (hit : bool) (es : list element) : out :=
    match es with
    | [] => says ""
    | e :: r => seq (visit proto2 NoParent 0 hit e) (main_loop proto2 (hit || negb (is_comment e)) r)
    end.

  (** ** first_pass_visitor.go *)
  (** first_pass_visitor.go:33-54: the state.  The options that --fix sets are kept by
      name; nil is no entry. *)
  Record first_pass : Type := mk_first_pass {
    fp_out : out;
    fp_syntax : option syntax;
    fp_package : option package;
    fp_options : list opt;
    fp_imports : list import;
    fp_hit : bool;
    fp_csharp : option opt; fp_go : option opt; fp_java_multiple : option opt;
    fp_java_class : option opt; fp_java : option opt; fp_objc : option opt; fp_php : option opt
  }.
  Definition first_pass_0 : first_pass := mk_first_pass ("", []) None None [] [] false None None None None None None None.
  Definition fp_with (v : first_pass) (o : out) (sx : option syntax) (pk : option package) (os : list opt) (is : list import) (hit : bool) : first_pass :=
    mk_first_pass o sx pk os is hit (fp_csharp v) (fp_go v) (fp_java_multiple v) (fp_java_class v) (fp_java v) (fp_objc v) (fp_php v).
  Definition fp_hits (v : first_pass) : first_pass :=
    fp_with v (fp_out v) (fp_syntax v) (fp_package v) (fp_options v) (fp_imports v) true.

  (** fix == FixNone, FixV1, FixV2: format.go:28-35; checkFix refuses anything else *)
  Inductive fix_kind : Type := FixNone | FixV1 | FixV2.
  Definition fix_none (f : fix_kind) : bool := match f with FixNone => true | _ => false end.
  Definition fix_v2 (f : fix_kind) : bool := match f with FixV2 => true | _ => false end.
  (** transformer.go:98-105 *)
  Definition check_fix (f : Z) : result fix_kind :=
    if Z.eqb f 0 then Ok FixNone else if Z.eqb f 1 then Ok FixV1 else if Z.eqb f 2 then Ok FixV2
    else Err ("unknown format fix value: " +++ itoa f).

  Variable filename : string.
  Variable fx : fix_kind.
  Variable file_header java_package_prefix : string.

  (** first_pass_visitor.go:200-230 *)
  Definition first_option (v : first_pass) (o : opt) : first_pass :=
    let v := fp_hits v in
    let more := fp_with v (fp_out v) (fp_syntax v) (fp_package v) (fp_options v ++ [o]) (fp_imports v) (fp_hit v) in
    let set c g jm jc j ob ph := mk_first_pass (fp_out v) (fp_syntax v) (fp_package v) (fp_options v) (fp_imports v) (fp_hit v) c g jm jc j ob ph in
    if fix_none fx then more
    else if String.eqb (o_name o) "csharp_namespace" then
      set (Some o) (fp_go v) (fp_java_multiple v) (fp_java_class v) (fp_java v) (fp_objc v) (fp_php v)
    else if String.eqb (o_name o) "go_package" then
      set (fp_csharp v) (Some o) (fp_java_multiple v) (fp_java_class v) (fp_java v) (fp_objc v) (fp_php v)
    else if String.eqb (o_name o) "java_multiple_files" then
      set (fp_csharp v) (fp_go v) (Some o) (fp_java_class v) (fp_java v) (fp_objc v) (fp_php v)
    else if String.eqb (o_name o) "java_outer_classname" then
      set (fp_csharp v) (fp_go v) (fp_java_multiple v) (Some o) (fp_java v) (fp_objc v) (fp_php v)
    else if String.eqb (o_name o) "java_package" then
      set (fp_csharp v) (fp_go v) (fp_java_multiple v) (fp_java_class v) (Some o) (fp_objc v) (fp_php v)
    else if String.eqb (o_name o) "objc_class_prefix" then
      set (fp_csharp v) (fp_go v) (fp_java_multiple v) (fp_java_class v) (fp_java v) (Some o) (fp_php v)
    else if String.eqb (o_name o) "php_namespace" then
      set (fp_csharp v) (fp_go v) (fp_java_multiple v) (fp_java_class v) (fp_java v) (fp_objc v) (Some o)
    else more.
  (** first_pass_visitor.go:174-286: Accept of a firstPassVisitor *)
  Definition first_visit (v : first_pass) (e : element) : first_pass :=
    match e with
    (* first_pass_visitor.go:249-258 *)
    | EComment c =>
        if fp_hit v then v
        else if fix_none fx || is_empty file_header then
          fp_with v (seq (fp_out v) (says (p_comment 0 (Some c) +++ P 0 []))) (fp_syntax v) (fp_package v) (fp_options v) (fp_imports v) (fp_hit v)
        else v
    (* first_pass_visitor.go:182-189 *)
    | ESyntax s =>
        match fp_syntax v with
        | Some _ => fp_with v (seq (fp_out v) (fails (sx_pos s) "duplicate syntax specified")) (fp_syntax v) (fp_package v) (fp_options v) (fp_imports v) true
        | None => fp_with v (fp_out v) (Some s) (fp_package v) (fp_options v) (fp_imports v) true
        end
    (* first_pass_visitor.go:191-198 *)
    | EPackage p =>
        match fp_package v with
        | Some _ => fp_with v (seq (fp_out v) (fails (pk_pos p) "duplicate package specified")) (fp_syntax v) (fp_package v) (fp_options v) (fp_imports v) true
        | None => fp_with v (fp_out v) (fp_syntax v) (Some p) (fp_options v) (fp_imports v) true
        end
    | EOption o => first_option v o
    (* first_pass_visitor.go:232-235 *)
    | EImport i => fp_with v (fp_out v) (fp_syntax v) (fp_package v) (fp_options v) (fp_imports v ++ [i]) true
    | _ => fp_hits v
    end.
  (** first_pass_visitor.go:82-146: an option that --fix sets: the one of the file, or a
      new one, with the given value *)
  Definition string_literal (s : string) : literal := mk_literal s true (Some dquote) [] [].
  Definition with_const (name : string) (o : option opt) (l : literal) : opt :=
    match o with
    | Some o => mk_opt (o_pos o) (o_name o) l (o_comment o) (o_inline o)
    | None => mk_opt (mk_pos 0 0) name l None None
    end.
  Definition managed (v : first_pass) (pkg : string) : list opt :=
    [with_const "go_package" (fp_go v) (string_literal (if fix_v2 fx then go_package_v2 pkg else go_package pkg));
     with_const "java_multiple_files" (fp_java_multiple v) (mk_literal "true" false None [] []);
     with_const "java_outer_classname" (fp_java_class v) (string_literal (java_outer_classname filename));
     with_const "java_package" (fp_java v) (string_literal (java_package_prefix_override pkg java_package_prefix))] ++
    (if fix_v2 fx then
       [with_const "csharp_namespace" (fp_csharp v) (string_literal (csharp_namespace pkg));
        with_const "objc_class_prefix" (fp_objc v) (string_literal (objc_class_prefix pkg));
        with_const "php_namespace" (fp_php v) (string_literal (php_namespace pkg))]
     else []).
  (** first_pass_visitor.go:288-305 *)
  Definition p_import (i : import) : string :=
    let kind := if is_empty (im_kind i) then im_kind i else im_kind i +++ " " in
    p_comment 0 (im_comment i) +++
    p_inline 0 (im_inline i) ["import "; kind; String dquote EmptyString; im_filename i; String dquote EmptyString +++ ";"].
  Definition p_imports (is : list import) : string := cat (map p_import (sort_imports is)).
  (** first_pass_visitor.go:60-172 *)
  Definition first_do (v : first_pass) : out :=
    let options :=
      if fix_none fx then fp_options v
      else match fp_package v with
           | None => fp_options v
           | Some p => fp_options v ++ managed v (pk_name p)
           end in
    outs
      [fp_out v;
       (if fix_none fx || is_empty file_header then says "" else says (P 0 [file_header] +++ P 0 []));
       match fp_syntax v with
       | None => says ""
       | Some s =>
           says (p_comment 0 (sx_comment s) +++
                 (match sx_comment s with None => "" | Some _ => P 0 [] end) +++
                 p_inline 0 (sx_inline s) ["syntax = " +++ String dquote EmptyString; sx_value s; String dquote EmptyString +++ ";"] +++
                 P 0 [])
       end;
       match fp_package v with
       | None => says ""
       | Some p => says (p_comment 0 (pk_comment p) +++ p_inline 0 (pk_inline p) ["package "; pk_name p; ";"] +++ P 0 [])
       end;
       match options with [] => says "" | _ => seq (p_options 0 false options) (says (P 0 [])) end;
       match fp_imports v with [] => says "" | _ => says (p_imports (fp_imports v) +++ P 0 []) end].

  (** ** transformer.go *)
  (** transformer.go:51-96, after parsing *)
  Definition transform_elements (es : list element) : result (string * list failure) :=
    let v := fold_left first_visit es first_pass_0 in
    let first := first_do v in
    do proto2 <-
      match fp_syntax v with
      | None => Ok true
      | Some s =>
          if String.eqb (sx_value s) "" then Ok true
          else if String.eqb (sx_value s) "proto2" then Ok true
          else if String.eqb (sx_value s) "proto3" then Ok false
          else Err ("unknown syntax: " +++ sx_value s)
      end;
    let main := main_loop proto2 false es in
    let s := trim_space (fst first +++ fst main) in
    Ok (if is_empty s then "" else s +++ endl, snd first ++ snd main).
End Format.
(** transformer.go:51-96.  The failures are sorted last. *)
Definition transform (sort_options : list opt -> list opt) (sort_imports : list import -> list import)
    (parse : string -> result (list element)) (fix_value : Z) (file_header java_package_prefix filename data : string)
    : result (string * list failure) :=
  do fx <- check_fix fix_value;
  do es <- parse data;
  do r <- transform_elements sort_options sort_imports filename fx file_header java_package_prefix es;
  Ok (fst r, concat (map (fun o => match o with Some f => [f] | None => [] end) (sort_failures (map Some (snd r))))).
