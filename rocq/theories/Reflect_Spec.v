(** What a package set says about a set of files, stated without the model. *)
From Verif Require Export Descriptor_Types Strs_Spec.
From Coq Require Export Permutation.

(** The serialized bytes determine the file. *)
Definition faithful (fs : list file_desc) : Prop :=
  forall f g, In f fs -> In g fs -> fl_data f = fl_data g -> f = g.
(** [fs] lists every file of the sets exactly once. *)
Definition distinct_files (sets : list file_set) (fs : list file_desc) : Prop :=
  NoDup fs /\ forall f, In f fs <-> exists s, In s sets /\ In f s.

Definition files_of (pkg : string) (fs : list file_desc) : list file_desc :=
  filter (fun f => String.eqb (fl_package f) pkg) fs.
Definition messages_of (pkg : string) (fs : list file_desc) : list message_desc :=
  flat_map fl_messages (files_of pkg fs).
Definition enums_of (pkg : string) (fs : list file_desc) : list enum :=
  flat_map fl_enums (files_of pkg fs).
Definition services_of (pkg : string) (fs : list file_desc) : list service :=
  flat_map fl_services (files_of pkg fs).
(** Some file of [pkg] imports some file of another package [dep]. *)
Definition depends (fs : list file_desc) (pkg dep : string) : Prop :=
  exists f g, In f fs /\ In g fs /\ In (fl_name g) (fl_deps f) /\
              fl_package f = pkg /\ fl_package g = dep /\ dep <> pkg.

(** ** The same thing, up to order *)
(** [list_reflects R l l']: the elements of [l] correspond, one to one, to those
    of [l'], in any order. *)
Definition list_reflects {A B} (R : A -> B -> Prop) (l : list A) (l' : list B) : Prop :=
  exists l0, Forall2 R l l0 /\ Permutation l0 l'.
(** "" stays, ".a.b" becomes "a.b". *)
Inductive strips : string -> string -> Prop :=
| strips_dot : forall s, strips (String "." s) s.
Definition reflects_field (d : field_desc) (f : field) : Prop :=
  fd_name f = fdd_name d /\ fd_number f = fdd_number d /\ fd_label f = fdd_label d /\
  fd_type f = fdd_type d /\
  (fdd_type_name d = "" /\ fd_type_name f = "" \/ strips (fdd_type_name d) (fd_type_name f)).
Definition reflects_enum (d e : enum) : Prop :=
  en_name e = en_name d /\ Permutation (en_values d) (en_values e).
Definition reflects_method (d m : method) : Prop :=
  mt_name m = mt_name d /\ strips (mt_request d) (mt_request m) /\ strips (mt_response d) (mt_response m) /\
  mt_client_streaming m = mt_client_streaming d /\ mt_server_streaming m = mt_server_streaming d.
Definition reflects_service (d s : service) : Prop :=
  sv_name s = sv_name d /\ list_reflects reflects_method (sv_methods d) (sv_methods s).
(** The field is declared in the oneof called [name]. *)
Definition field_in_oneof (oneofs : list string) (name : string) (f : field_desc) : Prop :=
  exists i, fdd_oneof f = Some i /\ (0 <= i)%Z /\ nth_error oneofs (Z.to_nat i) = Some name.
(** [numbers] are the numbers of the fields of [fields] in the oneof [name]. *)
Definition oneof_numbers (oneofs : list string) (name : string) (fields : list field_desc) (numbers : list Z) : Prop :=
  exists inside outside, Permutation fields (inside ++ outside) /\
    Forall (field_in_oneof oneofs name) inside /\
    Forall (fun f => ~ field_in_oneof oneofs name f) outside /\
    Permutation (map fdd_number inside) numbers.
Inductive reflects_message : message_desc -> message -> Prop :=
| reflects_message_intro : forall name dfields doneofs dnested denums fields oneofs nested enums nested0,
    list_reflects reflects_field dfields fields ->
    NoDup (map oo_name oneofs) ->
    (forall n, In n doneofs <-> exists o, In o oneofs /\ oo_name o = n) ->
    (forall o, In o oneofs -> oneof_numbers doneofs (oo_name o) dfields (oo_numbers o)) ->
    Forall2 reflects_message dnested nested0 -> Permutation nested0 nested ->
    list_reflects reflects_enum denums enums ->
    reflects_message (mk_message_desc name dfields doneofs dnested denums)
      (mk_message name fields oneofs nested enums).

(** The package set [ps] describes the files [fs]: one package per package name,
    in name order, holding everything declared in any file of the package. *)
Definition describes (fs : list file_desc) (ps : package_set) : Prop :=
  Increasing (map pk_name ps) /\
  (forall pkg, (exists p, In p ps /\ pk_name p = pkg) <-> exists f, In f fs /\ fl_package f = pkg) /\
  (forall p, In p ps ->
     Increasing (pk_deps p) /\
     (forall d, In d (pk_deps p) <-> depends fs (pk_name p) d) /\
     list_reflects reflects_message (messages_of (pk_name p) fs) (pk_messages p) /\
     list_reflects reflects_enum (enums_of (pk_name p) fs) (pk_enums p) /\
     list_reflects reflects_service (services_of (pk_name p) fs) (pk_services p)).

(** ** Files as protoc makes them *)
Definition valid_field_desc (oneofs : list string) (f : field_desc) : Prop :=
  (1 <= fdd_label f <= 3)%Z /\ (1 <= fdd_type f <= 18)%Z /\
  (fdd_type_name f = "" /\ fdd_type f <> 10%Z /\ fdd_type f <> 11%Z /\ fdd_type f <> 14%Z
   \/ exists s, s <> "" /\ fdd_type_name f = String "." s) /\
  (forall i, fdd_oneof f = Some i -> (0 <= i < Z.of_nat (length oneofs))%Z).
Inductive valid_message_desc : message_desc -> Prop :=
| valid_message_desc_intro : forall name fields oneofs nested enums,
    Forall (valid_field_desc oneofs) fields ->
    NoDup (map fdd_number fields) ->
    NoDup oneofs ->
    Forall valid_message_desc nested ->
    valid_message_desc (mk_message_desc name fields oneofs nested enums).
Definition valid_method_desc (m : method) : Prop :=
  (exists s, mt_request m = String "." s) /\ (exists s, mt_response m = String "." s).
Definition valid_file (f : file_desc) : Prop :=
  (exists c s, fl_package f = String c s /\ c <> "."%char) /\
  Forall valid_message_desc (fl_messages f) /\
  Forall (fun s => Forall valid_method_desc (sv_methods s)) (fl_services f).
(** Every import is one of the files. *)
Definition imports_resolve (fs : list file_desc) : Prop :=
  forall f d, In f fs -> In d (fl_deps f) -> exists g, In g fs /\ fl_name g = d.
(** One file name names one file. *)
Definition names_unique (fs : list file_desc) : Prop :=
  forall f g, In f fs -> In g fs -> fl_name f = fl_name g -> f = g.
Definition valid_files (fs : list file_desc) : Prop :=
  Forall valid_file fs /\ imports_resolve fs /\ names_unique fs.

(** ** Moving definitions between the files of their packages *)
Definition same_declarations (fs gs : list file_desc) : Prop :=
  forall pkg,
    ((exists f, In f fs /\ fl_package f = pkg) <-> (exists g, In g gs /\ fl_package g = pkg)) /\
    Permutation (messages_of pkg fs) (messages_of pkg gs) /\
    Permutation (enums_of pkg fs) (enums_of pkg gs) /\
    Permutation (services_of pkg fs) (services_of pkg gs) /\
    (forall dep, depends fs pkg dep <-> depends gs pkg dep).
(** No two definitions of one kind in one package have the same name. *)
Definition unique_definitions (fs : list file_desc) : Prop :=
  forall pkg, NoDup (map md_name (messages_of pkg fs)) /\
              NoDup (map en_name (enums_of pkg fs)) /\ NoDup (map sv_name (services_of pkg fs)).
