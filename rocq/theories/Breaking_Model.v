(** Model of internal/breaking.  A check returns the messages of the failures it
    adds, in order, or an error.  Failures added before an error are not
    represented: runner.go:73-75 drops them.  The loops over Go maps follow the
    order of the association lists; the theorems about checks do not depend on
    that order. *)
From Verif Require Export Extract_Model GoFmt Text_Model.

Definition check : Type := x_package_set -> x_package_set -> result (list string).

(** for k, v := range from { if w, ok := to[k]; ok { f(v, w) } } — the body
    shared by all forEach...Pair helpers in helpers.go *)
Definition for_each_pair {K V} {key : Key K} (f : V -> V -> result (list string))
  (from to : list (K * V)) : result (list string) :=
  concatM (fun kv => match gget (fst kv) to with
                     | Some w => f (snd kv) w
                     | None => Ok []
                     end) from.
(** for k, v := range from { if _, ok := to[k]; !ok { addFailure(msg(k, v)) } } *)
Definition for_each_missing {K V} {key : Key K} (msg : K -> V -> string)
  (from to : list (K * V)) : result (list string) :=
  concatM (fun kv => if has (fst kv) to then Ok [] else Ok [msg (fst kv) (snd kv)]) from.

(** helpers.go:30-50 *)
Definition for_each_package_pair (f : x_package -> x_package -> result (list string)) : check :=
  fun from to => for_each_pair f from to.
(** helpers.go:72-93 *)
Section MessagePair.
  Variable f : x_message -> x_message -> result (list string).
  Fixpoint message_pair_rec (m t : x_message) {struct m} : result (list string) :=
    do a <- f m t;
    do b <- (fix go (l : list (string * x_message)) : result (list string) :=
       match l with
       | [] => Ok []
       | (n, m') :: l' =>
           do x <- (match gget n (xm_nested t) with
                    | Some t' => message_pair_rec m' t'
                    | None => Ok []
                    end);
           do y <- go l'; Ok (x ++ y)
       end) (xm_nested m);
    Ok (a ++ b).
  Definition for_each_message_pair_rec (from to : list (string * x_message)) : result (list string) :=
    for_each_pair message_pair_rec from to.
End MessagePair.
(** helpers.go:52-70 *)
Definition for_each_message_pair (f : x_message -> x_message -> result (list string)) : check :=
  for_each_package_pair (fun p q => for_each_message_pair_rec f (xp_messages p) (xp_messages q)).
(** helpers.go:95-122; the callback also gets the message the field is on. *)
Definition for_each_message_field_pair (f : x_message -> x_field -> x_field -> result (list string)) : check :=
  for_each_message_pair (fun m t => for_each_pair (f m) (xm_fields m) (xm_fields t)).
(** helpers.go:124-151 *)
Definition for_each_message_oneof_pair (f : x_message -> oneof -> oneof -> result (list string)) : check :=
  for_each_message_pair (fun m t => for_each_pair (f m) (xm_oneofs m) (xm_oneofs t)).
(** helpers.go:153-201 *)
Definition for_each_enum_pair (f : x_enum -> x_enum -> result (list string)) : check :=
  fun from to =>
    do a <- for_each_package_pair (fun p q => for_each_pair f (xp_enums p) (xp_enums q)) from to;
    do b <- for_each_message_pair (fun m t => for_each_pair f (xm_enums m) (xm_enums t)) from to;
    Ok (a ++ b).
(** helpers.go:203-230 *)
Definition for_each_enum_value_pair (f : x_enum -> enum_value -> enum_value -> result (list string)) : check :=
  for_each_enum_pair (fun e e' => for_each_pair (f e) (xe_values e) (xe_values e')).
(** helpers.go:232-259 *)
Definition for_each_service_pair (f : x_service -> x_service -> result (list string)) : check :=
  for_each_package_pair (fun p q => for_each_pair f (xp_services p) (xp_services q)).
(** helpers.go:261-288 *)
Definition for_each_service_method_pair (f : x_service -> method -> method -> result (list string)) : check :=
  for_each_service_pair (fun s s' => for_each_pair (f s) (xs_methods s) (xs_methods s')).

Definition q : string := String dquote EmptyString.
Definition num (z : Z) : string := q +++ itoa z +++ q.

(** ** Checks *)
(** check_enums_not_deleted.go:45-56 *)
Definition enums_not_deleted_map (from to : list (string * x_enum)) : result (list string) :=
  for_each_missing (fun _ e => "Enum " +++ quote (xe_fqn e) +++ " was deleted.") from to.
(** check_enums_not_deleted.go:28-43 *)
Definition check_enums_not_deleted : check := fun from to =>
  do a <- for_each_package_pair (fun p t => enums_not_deleted_map (xp_enums p) (xp_enums t)) from to;
  do b <- for_each_message_pair (fun m t => enums_not_deleted_map (xm_enums m) (xm_enums t)) from to;
  Ok (a ++ b).
(** check_enum_values_not_deleted.go:28-45 *)
Definition check_enum_values_not_deleted : check :=
  for_each_enum_pair (fun e t =>
    for_each_missing (fun n _ => "Enum value " +++ num n +++ " on enum " +++ quote (xe_fqn e) +++ " was deleted.")
      (xe_values e) (xe_values t)).
(** check_enum_values_same_name.go:28-44 *)
Definition check_enum_values_same_name : check :=
  for_each_enum_value_pair (fun e v w =>
    if String.eqb (ev_name v) (ev_name w) then Ok []
    else Ok ["Enum value " +++ num (ev_number v) +++ " on enum " +++ quote (xe_fqn e)
             +++ " changed from " +++ quote (ev_name v) +++ " to " +++ quote (ev_name w) +++ "."]).
(** check_messages_not_deleted.go:36-50 *)
Fixpoint messages_not_deleted_rec (m t : x_message) {struct m} : result (list string) :=
  (fix go (l : list (string * x_message)) : result (list string) :=
     match l with
     | [] => Ok []
     | (n, m') :: l' =>
         do x <- (match gget n (xm_nested t) with
                  | None => Ok ["Message " +++ quote (xm_fqn m') +++ " was deleted."]
                  | Some t' => messages_not_deleted_rec m' t'
                  end);
         do y <- go l'; Ok (x ++ y)
     end) (xm_nested m).
Definition messages_not_deleted_map (from to : list (string * x_message)) : result (list string) :=
  concatM (fun nm => match gget (fst nm) to with
                     | None => Ok ["Message " +++ quote (xm_fqn (snd nm)) +++ " was deleted."]
                     | Some t => messages_not_deleted_rec (snd nm) t
                     end) from.
(** check_messages_not_deleted.go:28-34 *)
Definition check_messages_not_deleted : check :=
  for_each_package_pair (fun p t => messages_not_deleted_map (xp_messages p) (xp_messages t)).
(** check_message_fields_not_deleted.go:28-45 *)
Definition check_message_fields_not_deleted : check :=
  for_each_message_pair (fun m t =>
    for_each_missing (fun n _ => "Message field " +++ num n +++ " on message " +++ quote (xm_fqn m) +++ " was deleted.")
      (xm_fields m) (xm_fields t)).

(** strings.go:30-34, 57-63 *)
Definition label_string (z : Z) : result string :=
  match z with
  | 1 => Ok "optional" | 2 => Ok "required" | 3 => Ok "repeated"
  | _ => Err ("unknown MessageField.Label: " +++ itoa z)
  end%Z.
(** strings.go:35-54, 65-71 *)
Definition type_string (z : Z) : result string :=
  match z with
  | 1 => Ok "double" | 2 => Ok "float" | 3 => Ok "int64" | 4 => Ok "uint64" | 5 => Ok "int32"
  | 6 => Ok "fixed64" | 7 => Ok "fixed32" | 8 => Ok "bool" | 9 => Ok "string" | 10 => Ok "group"
  | 11 => Ok "message" | 12 => Ok "bytes" | 13 => Ok "uint32" | 14 => Ok "enum" | 15 => Ok "sfixed32"
  | 16 => Ok "sfixed64" | 17 => Ok "sint32" | 18 => Ok "sint64"
  | _ => Err ("unknown MessageField.Type: " +++ itoa z)
  end%Z.

(** "Message field N on message M changed..." *)
Definition field_changed (m : x_message) (n : Z) (what from to : string) : string :=
  "Message field " +++ num n +++ " on message " +++ quote (xm_fqn m) +++ " changed" +++ what
  +++ " from " +++ quote from +++ " to " +++ quote to +++ ".".
(** check_message_fields_same_label.go:28-52 *)
Definition check_message_fields_same_label : check :=
  for_each_message_field_pair (fun m f t =>
    if (fd_label (fst f) =? fd_label (fst t))%Z then Ok []
    else do a <- label_string (fd_label (fst f));
         do b <- label_string (fd_label (fst t));
         Ok [field_changed m (fd_number (fst f)) "" a b]).
(** check_message_fields_same_name.go:28-44 *)
Definition check_message_fields_same_name : check :=
  for_each_message_field_pair (fun m f t =>
    if String.eqb (fd_name (fst f)) (fd_name (fst t)) then Ok []
    else Ok [field_changed m (fd_number (fst f)) "" (fd_name (fst f)) (fd_name (fst t))]).
(** check_message_fields_same_oneof.go:28-44 *)
Definition check_message_fields_same_oneof : check :=
  for_each_message_field_pair (fun m f t =>
    match snd f, snd t with
    | None, Some o =>
        Ok ["Message field " +++ num (fd_number (fst f)) +++ " on message " +++ quote (xm_fqn m)
            +++ " moved from outside any oneof to inside the oneof " +++ quote (oo_name o) +++ "."]
    | _, _ => Ok []
    end).
(** check_message_fields_same_type.go:32-71 *)
Definition check_message_fields_same_type : check :=
  for_each_message_field_pair (fun m f t =>
    let ft := fd_type (fst f) in
    if negb (ft =? fd_type (fst t))%Z then
      do a <- type_string ft;
      do b <- type_string (fd_type (fst t));
      Ok [field_changed m (fd_number (fst f)) " type" a b]
    else if (ft =? 14)%Z || (ft =? 10)%Z || (ft =? 11)%Z then
      let fn := fd_type_name (fst f) in
      let tn := fd_type_name (fst t) in
      if is_empty fn then Err "fromTypeName empty"
      else if is_empty tn then Err "toTypeName empty"
      else if String.eqb fn tn then Ok []
      else Ok [field_changed m (fd_number (fst f)) " type" fn tn]
    else Ok []).
(** check_message_oneofs_not_deleted.go:28-45 *)
Definition check_message_oneofs_not_deleted : check :=
  for_each_message_pair (fun m t =>
    for_each_missing (fun n _ => "Message oneof " +++ quote n +++ " on message " +++ quote (xm_fqn m) +++ " was deleted.")
      (xm_oneofs m) (xm_oneofs t)).
(** check_message_oneofs_fields_not_removed.go:28-53 *)
Definition check_message_oneofs_fields_not_removed : check :=
  for_each_message_oneof_pair (fun m o t =>
    for_each_missing (fun n _ => "Message oneof " +++ quote (oo_name o) +++ " on message " +++ quote (xm_fqn m)
                                 +++ " had field " +++ num n +++ " removed.")
      (build (map (fun n => (n, tt)) (oo_numbers o))) (build (map (fun n => (n, tt)) (oo_numbers t)))).
(** check_packages_not_deleted.go:28-41 *)
Definition check_packages_not_deleted : check := fun from to =>
  for_each_missing (fun n _ => "Package " +++ quote n +++ " was deleted.") from to.
(** check_services_not_deleted.go:28-47 *)
Definition check_services_not_deleted : check :=
  for_each_package_pair (fun p t =>
    for_each_missing (fun _ s => "Service " +++ quote (xs_fqn s) +++ " was deleted.") (xp_services p) (xp_services t)).
(** check_service_methods_not_deleted.go:28-45 *)
Definition check_service_methods_not_deleted : check :=
  for_each_service_pair (fun s t =>
    for_each_missing (fun n _ => "Service method " +++ quote n +++ " on service " +++ quote (xs_fqn s) +++ " was deleted.")
      (xs_methods s) (xs_methods t)).
Definition method_changed (s : x_service) (m : method) (what : string) : string :=
  "Service method " +++ quote (mt_name m) +++ " on service " +++ quote (xs_fqn s) +++ " changed " +++ what +++ ".".
(** "from X to Y", swapped when the old value is set: lines 42-49 of
    check_service_methods_same_{client,server}_streaming.go *)
Definition streaming_change (kind : string) (from : bool) : string :=
  if from then "from " +++ kind +++ " streaming to not " +++ kind +++ " streaming"
  else "from not " +++ kind +++ " streaming to " +++ kind +++ " streaming".
(** check_service_methods_same_client_streaming.go:28-49 *)
Definition check_service_methods_same_client_streaming : check :=
  for_each_service_method_pair (fun s m t =>
    if Bool.eqb (mt_client_streaming m) (mt_client_streaming t) then Ok []
    else Ok [method_changed s m (streaming_change "client" (mt_client_streaming m))]).
(** check_service_methods_same_request_type.go:28-44 *)
Definition check_service_methods_same_request_type : check :=
  for_each_service_method_pair (fun s m t =>
    if String.eqb (mt_request m) (mt_request t) then Ok []
    else Ok [method_changed s m ("request type from " +++ quote (mt_request m) +++ " to " +++ quote (mt_request t))]).
(** check_service_methods_same_response_type.go:28-44 *)
Definition check_service_methods_same_response_type : check :=
  for_each_service_method_pair (fun s m t =>
    if String.eqb (mt_response m) (mt_response t) then Ok []
    else Ok [method_changed s m ("response type from " +++ quote (mt_response m) +++ " to " +++ quote (mt_response t))]).
(** check_service_methods_same_server_streaming.go:28-49 *)
Definition check_service_methods_same_server_streaming : check :=
  for_each_service_method_pair (fun s m t =>
    if Bool.eqb (mt_server_streaming m) (mt_server_streaming t) then Ok []
    else Ok [method_changed s m (streaming_change "server" (mt_server_streaming m))]).
(** check_packages_no_beta_deps.go:29-44 *)
Definition check_packages_no_beta_deps : check := fun _ to =>
  concatM (fun np =>
    concatM (fun d =>
      match major_beta_version d with
      | Some (_, beta) =>
          if (0 <? beta)%N
          then Ok ["Package " +++ quote (xp_fqn (snd np)) +++ " depends on beta package " +++ quote d
                   +++ " which is not allowed."]
          else Ok []
      | None => Ok []
      end) (pk_deps (xp_proto (snd np)))) to.

(** breaking.go:35-126 *)
Definition all_checkers : list (string * check) := [
  ("ENUMS_NOT_DELETED", check_enums_not_deleted);
  ("ENUM_VALUES_NOT_DELETED", check_enum_values_not_deleted);
  ("ENUM_VALUES_SAME_NAME", check_enum_values_same_name);
  ("MESSAGES_NOT_DELETED", check_messages_not_deleted);
  ("MESSAGE_FIELDS_NOT_DELETED", check_message_fields_not_deleted);
  ("MESSAGE_FIELDS_SAME_LABEL", check_message_fields_same_label);
  ("MESSAGE_FIELDS_SAME_NAME", check_message_fields_same_name);
  ("MESSAGE_FIELDS_SAME_ONEOF", check_message_fields_same_oneof);
  ("MESSAGE_FIELDS_SAME_TYPE", check_message_fields_same_type);
  ("MESSAGE_ONEOFS_NOT_DELETED", check_message_oneofs_not_deleted);
  ("MESSAGE_ONEOFS_FIELDS_NOT_REMOVED", check_message_oneofs_fields_not_removed);
  ("PACKAGES_NOT_DELETED", check_packages_not_deleted);
  ("SERVICES_NOT_DELETED", check_services_not_deleted);
  ("SERVICE_METHODS_NOT_DELETED", check_service_methods_not_deleted);
  ("SERVICE_METHODS_SAME_CLIENT_STREAMING", check_service_methods_same_client_streaming);
  ("SERVICE_METHODS_SAME_REQUEST_TYPE", check_service_methods_same_request_type);
  ("SERVICE_METHODS_SAME_RESPONSE_TYPE", check_service_methods_same_response_type);
  ("SERVICE_METHODS_SAME_SERVER_STREAMING", check_service_methods_same_server_streaming)
].
(** breaking.go:130-134 *)
Definition packages_no_beta_deps_checker : string * check :=
  ("PACKAGES_NO_BETA_DEPS", check_packages_no_beta_deps).

(** runner.go:46-78.  An extract.PackageSet holds its proto message
    (extract.go:32-36), and WithoutBeta rebuilds from it, so the arguments here
    are the proto messages; both are first wrapped by extract.NewPackageSet
    (extract.go:295-297), as exec/runner.go does before calling Run. *)
Definition run_break (cfg : break_config) (from to : package_set) : result (list failure) :=
  do from0 <- new_package_set from false;
  do to0 <- new_package_set to false;
  do from1 <- (if include_beta cfg then Ok from0 else new_package_set from true);
  do to1 <- (if include_beta cfg then Ok to0 else new_package_set to true);
  let checkers :=
    if negb (include_beta cfg) && negb (allow_beta_deps cfg)
    then all_checkers ++ [packages_no_beta_deps_checker] else all_checkers in
  concatM (fun c =>
    do msgs <- snd c from1 to1;
    Ok (map (fun m => mk_failure "" 0 0 (fst c) m) msgs)) checkers.
