(** Files that no package set can be made of, and what is said of them. *)
From Verif Require Import GoStrFacts Descriptor_Types Reflect_Spec.

(** A name that is not complete: it lacks the leading dot. *)
Inductive incomplete : string -> string -> Prop :=
| Empty_name : incomplete "" "name empty"
| No_dot s : s <> "" -> has_prefix s "." = false -> incomplete s (s +++ " does not start with '.'").
(** [bad_field oneofs f t]: in a message with these oneofs. *)
Inductive bad_field (oneofs : list string) (f : field_desc) : string -> Prop :=
| Bad_type t : fdd_type_name f <> "" -> incomplete (fdd_type_name f) t -> bad_field oneofs f t
| Bad_oneof i : fdd_oneof f = Some i -> ~ (0 <= i < Z.of_nat (length oneofs))%Z -> bad_field oneofs f "index out of range".
Inductive bad_message : message_desc -> string -> Prop :=
| Bad_inner name fields oneofs nested enums m t : In m nested -> bad_message m t -> bad_message (mk_message_desc name fields oneofs nested enums) t
| Bad_own name fields oneofs nested enums f t : In f fields -> bad_field oneofs f t -> bad_message (mk_message_desc name fields oneofs nested enums) t.

Inductive unusable (fs : list file_desc) : string -> Prop :=
| No_package f : In f fs -> fl_package f = "" -> unusable fs "no package on FileDescriptorProto"
| Dotted f r : In f fs -> fl_package f = "." +++ r -> unusable fs ("malformed package fully-qualified name " +++ fl_package f)
| Unequal f g : In f fs -> In g fs -> fl_package f = fl_package g -> fl_name f = fl_name g -> fl_data f <> fl_data g ->
    unusable fs ("unequal FileDescriptorProtos for " +++ fl_name f)
| Two_packages f g : In f fs -> In g fs -> fl_name f = fl_name g -> fl_package f <> fl_package g ->
    unusable fs ("mismatched packages names " +++ fl_package f +++ " and " +++ fl_package g +++ " for file " +++ fl_name f)
| No_import f d : In f fs -> In d (fl_deps f) -> (forall g, In g fs -> fl_name g <> d) -> unusable fs ("no package for dep " +++ d)
| Bad_message f m t : In f fs -> In m (fl_messages f) -> bad_message m t -> unusable fs t
| Bad_method f s m n t : In f fs -> In s (fl_services f) -> In m (sv_methods s) -> n = mt_request m \/ n = mt_response m -> incomplete n t -> unusable fs t.
