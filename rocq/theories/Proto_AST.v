(** Parsed .proto files: the part of the syntax tree of
    github.com/emicklei/proto v1.9.0 (go.mod) that internal/lint and
    internal/format read.  The parser itself is not modelled: a parsed file is
    any value of these types.

    Simplifications.
    - Positions hold only the line and column.  The Filename of every Position in
      a file is the name given to the parser (lint.go:442-446), so the model takes
      it from the file.
    - The Parent pointers are not fields: the parser sets them to the enclosing
      element, so the model takes the parent from the place in the tree. *)
From Verif Require Export GoStr.

Record position : Type := mk_pos { p_line : Z; p_column : Z }.

(** proto.Comment *)
Record comment : Type := mk_comment {
  c_pos : position;
  c_lines : list string;
  c_cstyle : bool
}.

(** proto.Literal.  [l_array] and [l_map] are Array and OrderedMap; Source is
    empty when one of them is set. *)
Inductive literal : Type := mk_literal {
  l_source : string;
  l_is_string : bool;
  l_quote : option ascii;
  l_array : list literal;
  l_map : list (string * literal)
}.

(** proto.Option *)
Record opt : Type := mk_opt {
  o_pos : position;
  o_name : string;
  o_const : literal;
  o_comment : option comment;
  o_inline : option comment
}.

(** proto.Field *)
Record field : Type := mk_field {
  fd_pos : position;
  fd_name : string;
  fd_type : string;
  fd_seq : Z;
  fd_options : list opt;
  fd_comment : option comment;
  fd_inline : option comment
}.
(** proto.NormalField, proto.OneOfField, proto.MapField: what each adds. *)
Inductive field_kind : Type :=
| Normal (repeated optional required : bool)
| InOneof
| InMap (key_type : string).

(** proto.Syntax, proto.Package, proto.Import *)
Record syntax : Type := mk_syntax {
  sx_pos : position; sx_value : string;
  sx_comment : option comment; sx_inline : option comment
}.
Record package : Type := mk_package {
  pk_pos : position; pk_name : string;
  pk_comment : option comment; pk_inline : option comment
}.
Record import : Type := mk_import {
  im_pos : position; im_filename : string; im_kind : string;
  im_comment : option comment; im_inline : option comment
}.

(** proto.Range *)
Record range : Type := mk_range { rg_from : Z; rg_to : Z; rg_max : bool }.
(** proto.Reserved, proto.Extensions *)
Record reserved : Type := mk_reserved {
  rs_pos : position; rs_ranges : list range; rs_names : list string;
  rs_comment : option comment; rs_inline : option comment
}.
Record extensions : Type := mk_extensions {
  xt_pos : position; xt_ranges : list range;
  xt_comment : option comment; xt_inline : option comment
}.

(** proto.EnumField *)
Record enum_field : Type := mk_enum_field {
  ef_pos : position; ef_name : string; ef_integer : Z;
  ef_comment : option comment; ef_inline : option comment
}.

(** What Message, Enum, Oneof, Group and Service have in common. *)
Record header : Type := mk_header {
  h_pos : position; h_name : string; h_comment : option comment
}.

(** proto.RPC; Options is the deprecated copy of the options in Elements that
    internal/format prints. *)
Record rpc : Type := mk_rpc {
  r_pos : position; r_name : string;
  r_request : string; r_streams_request : bool;
  r_returns : string; r_streams_returns : bool;
  r_options : list opt;
  r_comment : option comment; r_inline : option comment
}.

(** proto.Visitee *)
Inductive element : Type :=
| EComment (c : comment)
| ESyntax (s : syntax)
| EPackage (p : package)
| EImport (i : import)
| EOption (o : opt)
| EField (k : field_kind) (f : field)
| EReserved (r : reserved)
| EExtensions (x : extensions)
| EEnumField (f : enum_field) (es : list element)
| EEnum (h : header) (es : list element)
| EMessage (h : header) (extend : bool) (es : list element)
| EOneof (h : header) (es : list element)
| EGroup (h : header) (optional : bool) (seq : Z) (es : list element)
| EService (h : header) (es : list element)
| ERPC (r : rpc) (es : list element).

(** Induction with an hypothesis for every element of a nested list. *)
Section ElementInd.
  Variable P : element -> Prop.
  Hypothesis HComment : forall c, P (EComment c).
  Hypothesis HSyntax : forall s, P (ESyntax s).
  Hypothesis HPackage : forall p, P (EPackage p).
  Hypothesis HImport : forall i, P (EImport i).
  Hypothesis HOption : forall o, P (EOption o).
  Hypothesis HField : forall k f, P (EField k f).
  Hypothesis HReserved : forall r, P (EReserved r).
  Hypothesis HExtensions : forall x, P (EExtensions x).
  Hypothesis HEnumField : forall f es, Forall P es -> P (EEnumField f es).
  Hypothesis HEnum : forall h es, Forall P es -> P (EEnum h es).
  Hypothesis HMessage : forall h x es, Forall P es -> P (EMessage h x es).
  Hypothesis HOneof : forall h es, Forall P es -> P (EOneof h es).
  Hypothesis HGroup : forall h o n es, Forall P es -> P (EGroup h o n es).
  Hypothesis HService : forall h es, Forall P es -> P (EService h es).
  Hypothesis HRPC : forall r es, Forall P es -> P (ERPC r es).
  Fixpoint element_ind' (e : element) : P e :=
    let go := fix go (es : list element) : Forall P es :=
      match es with
      | [] => Forall_nil P
      | x :: es' => Forall_cons x (element_ind' x) (go es')
      end in
    match e with
    | EComment c => HComment c
    | ESyntax s => HSyntax s
    | EPackage p => HPackage p
    | EImport i => HImport i
    | EOption o => HOption o
    | EField k f => HField k f
    | EReserved r => HReserved r
    | EExtensions x => HExtensions x
    | EEnumField f es => HEnumField f es (go es)
    | EEnum h es => HEnum h es (go es)
    | EMessage h x es => HMessage h x es (go es)
    | EOneof h es => HOneof h es (go es)
    | EGroup h o n es => HGroup h o n es (go es)
    | EService h es => HService h es (go es)
    | ERPC r es => HRPC r es (go es)
    end.
End ElementInd.
