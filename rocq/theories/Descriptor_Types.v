(** The parts of google/protobuf/descriptor.proto that internal/reflect and
    internal/desc read (generated Go in
    github.com/golang/protobuf/protoc-gen-go/descriptor).  An absent scalar is
    its default, as the Get... accessors return it.  int32 is Z. *)
From Verif Require Export Reflect_Types.

(** FieldDescriptorProto; [fdd_oneof] is OneofIndex, nil or a number. *)
Record field_desc : Type := mk_field_desc {
  fdd_name : string; fdd_number : Z; fdd_label : Z; fdd_type : Z;
  fdd_type_name : string; fdd_oneof : option Z
}.
(** DescriptorProto; a OneofDescriptorProto is its name, an EnumDescriptorProto
    its name and values in file order (the same shape as [enum]). *)
Inductive message_desc : Type :=
  mk_message_desc (name : string) (fields : list field_desc) (oneofs : list string)
    (nested : list message_desc) (enums : list enum).
Definition md_name (m : message_desc) : string := let '(mk_message_desc n _ _ _ _) := m in n.
(** MethodDescriptorProto and ServiceDescriptorProto have the shape of [method]
    and [service]; type names there start with a dot. *)

(** FileDescriptorProto.  [fl_data] is proto.Marshal of the whole message. *)
Record file_desc : Type := mk_file_desc {
  fl_name : string; fl_package : string; fl_deps : list string;
  fl_messages : list message_desc; fl_enums : list enum; fl_services : list service;
  fl_data : string
}.
(** FileDescriptorSet *)
Definition file_set : Type := list file_desc.
