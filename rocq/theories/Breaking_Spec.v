(** Independent vocabulary for the break check properties: what it means for
    something to be declared in a package set, and for it to be deleted or
    changed in a newer one. *)
From Verif Require Export Reflect_Types GoFmt Strs_Spec.

(** ** Declarations *)
(** [declares key l k x]: [x] is the declaration with key [k] in [l].  If the
    key is repeated the last one counts; where keys are distinct, as protoc
    ensures for everything but enum value numbers, this is plain membership. *)
Definition declares {A K} (key : A -> K) (l : list A) (k : K) (x : A) : Prop :=
  exists before after, l = before ++ x :: after /\ key x = k /\ Forall (fun y => key y <> k) after.
(** Nothing in [l] has key [k]. *)
Definition absent {A K} (key : A -> K) (l : list A) (k : K) : Prop :=
  forall x, In x l -> key x <> k.

(** A package name ending in vNbetaM. *)
Definition beta_name (name : string) : Prop :=
  exists base part major beta,
    last_component name base part /\ VersionPart part major beta /\ (0 < beta)%N.

(** The packages a break check looks at: all, or all that are not beta. *)
Definition packages_of (with_beta : bool) (ps : package_set) (name : string) (p : package) : Prop :=
  declares pk_name ps name p /\ (with_beta = true \/ ~ beta_name name).
Definition packages := string -> package -> Prop.

(** [scope_in ms es path ms' es']: starting from a package (or message) whose
    messages and enums are [ms] and [es], following the message names in [path]
    leads to a message whose nested messages and enums are [ms'] and [es']. *)
Inductive scope_in : list message -> list enum -> list string -> list message -> list enum -> Prop :=
| scope_here : forall ms es, scope_in ms es [] ms es
| scope_down : forall ms es n m path ms' es',
    declares msg_name ms n m ->
    scope_in (msg_nested m) (msg_enums m) path ms' es' ->
    scope_in ms es (n :: path) ms' es'.
(** The scope reached in package [pkg]. *)
Definition scope_at (ps : packages) (pkg : string) (path : list string)
  (ms : list message) (es : list enum) : Prop :=
  exists p, ps pkg p /\ scope_in (pk_messages p) (pk_enums p) path ms es.
Definition message_at (ps : packages) (pkg : string) (path : list string) (n : string) (m : message) : Prop :=
  exists ms es, scope_at ps pkg path ms es /\ declares msg_name ms n m.
Definition enum_at (ps : packages) (pkg : string) (path : list string) (n : string) (e : enum) : Prop :=
  exists ms es, scope_at ps pkg path ms es /\ declares en_name es n e.
Definition service_at (ps : packages) (pkg : string) (n : string) (s : service) : Prop :=
  exists p, ps pkg p /\ declares sv_name (pk_services p) n s.
(** The field number is part of the declared oneof [o]. *)
Definition in_oneof (m : message) (number : Z) (o : oneof) : Prop :=
  declares oo_name (msg_oneofs m) (oo_name o) o /\ In number (oo_numbers o).

(** Full name of [n] inside the messages [path] of [pkg]. *)
Definition full_name (pkg : string) (path : list string) (n : string) : string :=
  join "." (pkg :: path ++ [n]).
(** A number in double quotes. *)
Definition number_text (z : Z) : string := String dquote (itoa z +++ String dquote EmptyString).

(** ** Deletions: rule and message *)
Inductive deleted (from to : packages) : string -> string -> Prop :=
| del_package : forall n p, from n p -> (forall t, ~ to n t) ->
    deleted from to "PACKAGES_NOT_DELETED" ("Package " +++ quote n +++ " was deleted.")
| del_message : forall pkg path n m ms es,
    message_at from pkg path n m -> scope_at to pkg path ms es -> absent msg_name ms n ->
    deleted from to "MESSAGES_NOT_DELETED" ("Message " +++ quote (full_name pkg path n) +++ " was deleted.")
| del_enum : forall pkg path n e ms es,
    enum_at from pkg path n e -> scope_at to pkg path ms es -> absent en_name es n ->
    deleted from to "ENUMS_NOT_DELETED" ("Enum " +++ quote (full_name pkg path n) +++ " was deleted.")
| del_field : forall pkg path n m t f,
    message_at from pkg path n m -> message_at to pkg path n t ->
    In f (msg_fields m) -> absent fd_number (msg_fields t) (fd_number f) ->
    deleted from to "MESSAGE_FIELDS_NOT_DELETED"
      ("Message field " +++ number_text (fd_number f) +++ " on message " +++ quote (full_name pkg path n) +++ " was deleted.")
| del_oneof : forall pkg path n m t o,
    message_at from pkg path n m -> message_at to pkg path n t ->
    In o (msg_oneofs m) -> absent oo_name (msg_oneofs t) (oo_name o) ->
    deleted from to "MESSAGE_ONEOFS_NOT_DELETED"
      ("Message oneof " +++ quote (oo_name o) +++ " on message " +++ quote (full_name pkg path n) +++ " was deleted.")
| del_enum_value : forall pkg path n e t v,
    enum_at from pkg path n e -> enum_at to pkg path n t ->
    In v (en_values e) -> absent ev_number (en_values t) (ev_number v) ->
    deleted from to "ENUM_VALUES_NOT_DELETED"
      ("Enum value " +++ number_text (ev_number v) +++ " on enum " +++ quote (full_name pkg path n) +++ " was deleted.")
| del_service : forall pkg p t s,
    from pkg p -> to pkg t -> In s (pk_services p) -> absent sv_name (pk_services t) (sv_name s) ->
    deleted from to "SERVICES_NOT_DELETED" ("Service " +++ quote (full_name pkg [] (sv_name s)) +++ " was deleted.")
| del_method : forall pkg n s t m,
    service_at from pkg n s -> service_at to pkg n t ->
    In m (sv_methods s) -> absent mt_name (sv_methods t) (mt_name m) ->
    deleted from to "SERVICE_METHODS_NOT_DELETED"
      ("Service method " +++ quote (mt_name m) +++ " on service " +++ quote (full_name pkg [] n) +++ " was deleted.").

(** ** Changes: rule and message *)
Definition label_name (z : Z) : string :=
  nth (Z.to_nat z) [""; "optional"; "required"; "repeated"] "".
Definition type_name (z : Z) : string :=
  nth (Z.to_nat z)
    [""; "double"; "float"; "int64"; "uint64"; "int32"; "fixed64"; "fixed32"; "bool"; "string"; "group";
     "message"; "bytes"; "uint32"; "enum"; "sfixed32"; "sfixed64"; "sint32"; "sint64"] "".
(** Group, message and enum fields refer to a type by name. *)
Definition named_type (z : Z) : Prop := z = 10%Z \/ z = 11%Z \/ z = 14%Z.

(** The same field of the same message in both versions. *)
Definition field_pair (from to : packages) (pkg : string) (path : list string) (n : string)
  (m t : message) (number : Z) (f g : field) : Prop :=
  message_at from pkg path n m /\ message_at to pkg path n t /\
  declares fd_number (msg_fields m) number f /\ declares fd_number (msg_fields t) number g.
Definition method_pair (from to : packages) (pkg n : string) (name : string) (m t : method) : Prop :=
  exists s s', service_at from pkg n s /\ service_at to pkg n s' /\
    declares mt_name (sv_methods s) name m /\ declares mt_name (sv_methods s') name t.

Definition field_text (number : Z) (full : string) (what a b : string) : string :=
  "Message field " +++ number_text number +++ " on message " +++ quote full +++ " changed" +++ what
  +++ " from " +++ quote a +++ " to " +++ quote b +++ ".".
Definition method_text (name full what : string) : string :=
  "Service method " +++ quote name +++ " on service " +++ quote full +++ " changed " +++ what +++ ".".
Definition streaming_text (kind : string) (was : bool) : string :=
  if was then "from " +++ kind +++ " streaming to not " +++ kind +++ " streaming"
  else "from not " +++ kind +++ " streaming to " +++ kind +++ " streaming".

Inductive changed (from to : packages) : string -> string -> Prop :=
| ch_field_name : forall pkg path n m t number f g,
    field_pair from to pkg path n m t number f g -> fd_name f <> fd_name g ->
    changed from to "MESSAGE_FIELDS_SAME_NAME"
      (field_text number (full_name pkg path n) "" (fd_name f) (fd_name g))
| ch_field_label : forall pkg path n m t number f g,
    field_pair from to pkg path n m t number f g -> fd_label f <> fd_label g ->
    changed from to "MESSAGE_FIELDS_SAME_LABEL"
      (field_text number (full_name pkg path n) "" (label_name (fd_label f)) (label_name (fd_label g)))
| ch_field_type : forall pkg path n m t number f g,
    field_pair from to pkg path n m t number f g -> fd_type f <> fd_type g ->
    changed from to "MESSAGE_FIELDS_SAME_TYPE"
      (field_text number (full_name pkg path n) " type" (type_name (fd_type f)) (type_name (fd_type g)))
| ch_field_type_name : forall pkg path n m t number f g,
    field_pair from to pkg path n m t number f g ->
    fd_type f = fd_type g -> named_type (fd_type f) -> fd_type_name f <> fd_type_name g ->
    changed from to "MESSAGE_FIELDS_SAME_TYPE"
      (field_text number (full_name pkg path n) " type" (fd_type_name f) (fd_type_name g))
| ch_field_into_oneof : forall pkg path n m t number f g o,
    field_pair from to pkg path n m t number f g ->
    (forall o', ~ in_oneof m number o') -> in_oneof t number o ->
    changed from to "MESSAGE_FIELDS_SAME_ONEOF"
      ("Message field " +++ number_text number +++ " on message " +++ quote (full_name pkg path n)
       +++ " moved from outside any oneof to inside the oneof " +++ quote (oo_name o) +++ ".")
| ch_oneof_field_removed : forall pkg path n m t name o o' number,
    message_at from pkg path n m -> message_at to pkg path n t ->
    declares oo_name (msg_oneofs m) name o -> declares oo_name (msg_oneofs t) name o' ->
    In number (oo_numbers o) -> ~ In number (oo_numbers o') ->
    changed from to "MESSAGE_ONEOFS_FIELDS_NOT_REMOVED"
      ("Message oneof " +++ quote name +++ " on message " +++ quote (full_name pkg path n)
       +++ " had field " +++ number_text number +++ " removed.")
| ch_enum_value_name : forall pkg path n e t number v w,
    enum_at from pkg path n e -> enum_at to pkg path n t ->
    declares ev_number (en_values e) number v -> declares ev_number (en_values t) number w ->
    ev_name v <> ev_name w ->
    changed from to "ENUM_VALUES_SAME_NAME"
      ("Enum value " +++ number_text number +++ " on enum " +++ quote (full_name pkg path n)
       +++ " changed from " +++ quote (ev_name v) +++ " to " +++ quote (ev_name w) +++ ".")
| ch_request : forall pkg n name m t,
    method_pair from to pkg n name m t -> mt_request m <> mt_request t ->
    changed from to "SERVICE_METHODS_SAME_REQUEST_TYPE"
      (method_text name (full_name pkg [] n)
         ("request type from " +++ quote (mt_request m) +++ " to " +++ quote (mt_request t)))
| ch_response : forall pkg n name m t,
    method_pair from to pkg n name m t -> mt_response m <> mt_response t ->
    changed from to "SERVICE_METHODS_SAME_RESPONSE_TYPE"
      (method_text name (full_name pkg [] n)
         ("response type from " +++ quote (mt_response m) +++ " to " +++ quote (mt_response t)))
| ch_client_streaming : forall pkg n name m t,
    method_pair from to pkg n name m t -> mt_client_streaming m <> mt_client_streaming t ->
    changed from to "SERVICE_METHODS_SAME_CLIENT_STREAMING"
      (method_text name (full_name pkg [] n) (streaming_text "client" (mt_client_streaming m)))
| ch_server_streaming : forall pkg n name m t,
    method_pair from to pkg n name m t -> mt_server_streaming m <> mt_server_streaming t ->
    changed from to "SERVICE_METHODS_SAME_SERVER_STREAMING"
      (method_text name (full_name pkg [] n) (streaming_text "server" (mt_server_streaming m))).

(** ** Beta dependencies *)
Inductive beta_dependency (to : packages) : string -> string -> Prop :=
| beta_dep : forall n p d, to n p -> In d (pk_deps p) -> beta_name d ->
    beta_dependency to "PACKAGES_NO_BETA_DEPS"
      ("Package " +++ quote n +++ " depends on beta package " +++ quote d +++ " which is not allowed.").

(** ** The rules behind [deleted] and [changed] *)
Definition deletion_rules : list string :=
  ["PACKAGES_NOT_DELETED"; "MESSAGES_NOT_DELETED"; "ENUMS_NOT_DELETED"; "MESSAGE_FIELDS_NOT_DELETED";
   "MESSAGE_ONEOFS_NOT_DELETED"; "ENUM_VALUES_NOT_DELETED"; "SERVICES_NOT_DELETED"; "SERVICE_METHODS_NOT_DELETED"].
Definition change_rules : list string :=
  ["MESSAGE_FIELDS_SAME_NAME"; "MESSAGE_FIELDS_SAME_LABEL"; "MESSAGE_FIELDS_SAME_TYPE"; "MESSAGE_FIELDS_SAME_ONEOF";
   "MESSAGE_ONEOFS_FIELDS_NOT_REMOVED"; "ENUM_VALUES_SAME_NAME"; "SERVICE_METHODS_SAME_REQUEST_TYPE";
   "SERVICE_METHODS_SAME_RESPONSE_TYPE"; "SERVICE_METHODS_SAME_CLIENT_STREAMING"; "SERVICE_METHODS_SAME_SERVER_STREAMING"].

(** ** What a break check reports: rule and message *)
Definition reported (cfg : break_config) (from to : package_set) (id msg : string) : Prop :=
  let F := packages_of (include_beta cfg) from in
  let T := packages_of (include_beta cfg) to in
  deleted F T id msg \/ changed F T id msg \/
  (include_beta cfg = false /\ allow_beta_deps cfg = false /\ beta_dependency T id msg).

(** ** Well-formedness, as protoc and prototool's own extraction guarantee *)
Definition valid_field (f : field) : Prop :=
  (1 <= fd_label f <= 3)%Z /\ (1 <= fd_type f <= 18)%Z /\ (named_type (fd_type f) -> fd_type_name f <> "").
Inductive valid_message : message -> Prop :=
| valid_message_intro : forall name fields oneofs nested enums,
    Forall valid_field fields ->
    (forall o n, In o oneofs -> In n (oo_numbers o) -> exists f, In f fields /\ fd_number f = n) ->
    Forall valid_message nested ->
    valid_message (mk_message name fields oneofs nested enums).
(** Every dependency is itself in the set, every message is valid. *)
Definition valid_set (ps : package_set) : Prop :=
  Forall (fun p => pk_name p <> "" /\ Forall valid_message (pk_messages p) /\
                   (forall d, In d (pk_deps p) -> exists q, In q ps /\ pk_name q = d)) ps.
Definition packages_named (ps : package_set) : Prop := Forall (fun p => pk_name p <> "") ps.
(** A field number belongs to at most one oneof of its message. *)
Definition oneofs_disjoint (ps : packages) : Prop :=
  forall pkg path n m number o o', message_at ps pkg path n m ->
    in_oneof m number o -> in_oneof m number o' -> o = o'.

(** ** [to] has everything [from] has, unchanged, and possibly more *)
Definition keeps {A K} (key : A -> K) (same : A -> A -> Prop) (l l' : list A) : Prop :=
  forall k x, declares key l k x -> exists y, declares key l' k y /\ same x y.
Definition same_field (f g : field) : Prop :=
  fd_name f = fd_name g /\ fd_label f = fd_label g /\ fd_type f = fd_type g /\
  (named_type (fd_type f) -> fd_type_name f = fd_type_name g).
Definition same_enum (e e' : enum) : Prop := keeps ev_number eq (en_values e) (en_values e').
Inductive message_extends : message -> message -> Prop :=
| message_extends_intro : forall m t,
    keeps fd_number same_field (msg_fields m) (msg_fields t) ->
    keeps oo_name (fun o o' => incl (oo_numbers o) (oo_numbers o')) (msg_oneofs m) (msg_oneofs t) ->
    (forall k f, declares fd_number (msg_fields m) k f ->
       (forall o, ~ in_oneof m k o) -> forall o, ~ in_oneof t k o) ->
    keeps en_name same_enum (msg_enums m) (msg_enums t) ->
    keeps msg_name message_extends (msg_nested m) (msg_nested t) ->
    message_extends m t.
Definition service_extends (s t : service) : Prop := keeps mt_name eq (sv_methods s) (sv_methods t).
Definition package_extends (p t : package) : Prop :=
  keeps en_name same_enum (pk_enums p) (pk_enums t) /\
  keeps msg_name message_extends (pk_messages p) (pk_messages t) /\
  keeps sv_name service_extends (pk_services p) (pk_services t).
Definition set_extends (from to : package_set) : Prop :=
  keeps pk_name package_extends from to.

(** The same packages in the same order, except that beta packages may be added,
    removed or different. *)
Inductive same_but_beta : package_set -> package_set -> Prop :=
| sbb_nil : same_but_beta [] []
| sbb_keep : forall p l l', same_but_beta l l' -> same_but_beta (p :: l) (p :: l')
| sbb_left : forall p l l', beta_name (pk_name p) -> same_but_beta l l' -> same_but_beta (p :: l) l'
| sbb_right : forall p l l', beta_name (pk_name p) -> same_but_beta l l' -> same_but_beta l (p :: l').
