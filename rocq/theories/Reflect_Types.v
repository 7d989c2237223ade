(** The messages of internal/reflect/proto/uber/proto/reflect/v1/reflect.proto
    (generated Go in internal/reflect/gen/uber/proto/reflect/v1).  Numbers are
    int32 in Go and Z here.  Nil elements of repeated fields are not modelled:
    neither internal/reflect nor proto.Unmarshal produces them. *)
From Verif Require Export GoStr.

(** reflect.proto, message EnumValue / Enum *)
Record enum_value : Type := mk_enum_value { ev_name : string; ev_number : Z }.
Record enum : Type := mk_enum { en_name : string; en_values : list enum_value }.
(** reflect.proto, message MessageField *)
Record field : Type := mk_field {
  fd_name : string; fd_number : Z; fd_label : Z; fd_type : Z; fd_type_name : string
}.
(** reflect.proto, message MessageOneof *)
Record oneof : Type := mk_oneof { oo_name : string; oo_numbers : list Z }.
(** reflect.proto, message Message *)
Inductive message : Type :=
  mk_message (name : string) (fields : list field) (oneofs : list oneof)
    (nested : list message) (enums : list enum).
Definition msg_name (m : message) : string := let '(mk_message n _ _ _ _) := m in n.
Definition msg_fields (m : message) : list field := let '(mk_message _ f _ _ _) := m in f.
Definition msg_oneofs (m : message) : list oneof := let '(mk_message _ _ o _ _) := m in o.
Definition msg_nested (m : message) : list message := let '(mk_message _ _ _ n _) := m in n.
Definition msg_enums (m : message) : list enum := let '(mk_message _ _ _ _ e) := m in e.
(** reflect.proto, message ServiceMethod / Service *)
Record method : Type := mk_method {
  mt_name : string; mt_request : string; mt_response : string;
  mt_client_streaming : bool; mt_server_streaming : bool
}.
Record service : Type := mk_service { sv_name : string; sv_methods : list method }.
(** reflect.proto, message Package / PackageSet *)
Record package : Type := mk_package {
  pk_name : string; pk_deps : list string; pk_enums : list enum;
  pk_messages : list message; pk_services : list service
}.
Definition package_set : Type := list package.

(** settings.BreakConfig (settings.go), the two fields the runner reads. *)
Record break_config : Type := mk_break_config { include_beta : bool; allow_beta_deps : bool }.
