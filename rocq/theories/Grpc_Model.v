(** Model of the grpc command: internal/exec/runner.go:595-675, 1049-1084 and 1219-1224,
    internal/grpc/grpc.go, internal/grpc/handler.go and
    internal/grpc/invocation_event_handler.go.

    Simplifications.
    - grpcurl, protoreflect and the network are arguments: making credentials and
      descriptors, dialing, and the events of a call.
    - time.ParseDuration is an argument.  Requests are decoded by the call (handler.go:219-228).
    - Writing to the standard output does not fail; logging is left out. *)
From Verif Require Export Desc_Model Exec_Model Grpc_Types.

(** ** handler.go *)
(** strings.SplitN(s, sep, 2), for a separator that is not empty: None if there is one part *)
Fixpoint split_once (sep s : string) : option (string * string) :=
  if has_prefix s sep then Some ("", sdrop (String.length sep) s)
  else
    match s with
    | EmptyString => None
    | String c s' =>
        match split_once sep s' with
        | Some (a, b) => Some (String c a, b)
        | None => None
        end
    end.
(** handler.go:129-140 *)
Definition get_network_address (address : string) : result (string * string) :=
  match split_once "://" address with
  | None => Ok ("tcp", address)
  | Some (network, rest) =>
      if String.eqb network "tcp" || String.eqb network "unix" then Ok (network, rest)
      else Err ("invalid network, only tcp or unix allowed: " +++ network)
  end.
(** handler.go:211-217 *)
Definition get_service_for_method (method : string) : result string :=
  match split_char "/" method with
  | [service; _] => Ok service
  | _ => Err ("invalid gRPC method: " +++ method)
  end.
(** handler.go:276-285 *)
Fixpoint find_service (path package : string) (services : list service) (found : option service) : result (option service) :=
  match services with
  | [] => Ok found
  | sv :: r =>
      if String.eqb (package +++ "." +++ sv_name sv) path then
        match found with
        | Some _ => Err ("duplicate services for path " +++ path)
        | None => find_service path package r (Some sv)
        end
      else find_service path package r found
  end.
(** handler.go:269-287 *)
Definition find_service_descriptor (path : string) (f : file_desc) : result (option service) :=
  if is_empty (fl_package f) then Err "no package on FileDescriptorProto"
  else if negb (has_prefix path (fl_package f)) then Ok None
  else find_service path (fl_package f) (fl_services f) None.
(** handler.go:247-259 *)
Fixpoint find_file (path : string) (files : list file_desc) (found : option (service * file_desc)) : result (option (service * file_desc)) :=
  match files with
  | [] => Ok found
  | f :: r =>
      do sv <- find_service_descriptor path f;
      match sv, found with
      | None, _ => find_file path r found
      | Some sv, None => find_file path r (Some (sv, f))
      | Some _, Some _ => Err ("duplicate services for path " +++ path)
      end
  end.
(** handler.go:246-267 *)
Fixpoint find_set (path : string) (sets : list file_set) : result (service * file_desc * file_set) :=
  match sets with
  | [] => Err ("no service for path " +++ path)
  | fs :: r =>
      do found <- find_file path fs None;
      match found with
      | Some (sv, f) => Ok (sv, f, fs)
      | None => find_set path r
      end
  end.
(** handler.go:236-274 *)
Definition get_service_info (sets : list file_set) (path : string) : result (service * file_desc * file_set) :=
  match path with
  | EmptyString => Err "empty path"
  | String c rest => find_set (if Ascii.eqb c "." then rest else path) sets
  end.

(** handler.go:47-60; the logger is left out *)
Record handler : Type := mk_handler {
  h_call_timeout : Z; h_connect_timeout : Z; h_keepalive_time : Z; h_headers : list string; h_details : bool;
  h_tls : bool; h_settings : tls_settings
}.
(** grpc.go:43-44 *)
Definition handler_option : Type := handler -> handler.
(** grpc.go:59-63 *)
Definition handler_with_details : handler_option := fun h =>
  mk_handler (h_call_timeout h) (h_connect_timeout h) (h_keepalive_time h) (h_headers h) true (h_tls h) (h_settings h).
(** grpc.go:70-74 *)
Definition handler_with_call_timeout (t : Z) : handler_option := fun h =>
  mk_handler t (h_connect_timeout h) (h_keepalive_time h) (h_headers h) (h_details h) (h_tls h) (h_settings h).
(** grpc.go:79-83 *)
Definition handler_with_connect_timeout (t : Z) : handler_option := fun h =>
  mk_handler (h_call_timeout h) t (h_keepalive_time h) (h_headers h) (h_details h) (h_tls h) (h_settings h).
(** grpc.go:88-92 *)
Definition handler_with_keepalive_time (t : Z) : handler_option := fun h =>
  mk_handler (h_call_timeout h) (h_connect_timeout h) t (h_headers h) (h_details h) (h_tls h) (h_settings h).
(** grpc.go:95-102 *)
Definition handler_with_header (key value : string) : handler_option := fun h =>
  mk_handler (h_call_timeout h) (h_connect_timeout h) (h_keepalive_time h) (h_headers h ++ [key +++ ":" +++ value]) (h_details h) (h_tls h) (h_settings h).
(** grpc.go:105-115 *)
Definition handler_with_tls (insecure : bool) (cacert cert key server_name : string) : handler_option := fun h =>
  mk_handler (h_call_timeout h) (h_connect_timeout h) (h_keepalive_time h) (h_headers h) (h_details h) true (mk_tls insecure cacert cert key server_name).
(** grpc.go:32-37 *)
Definition second : Z := 1000000000.
Definition default_call_timeout : Z := 60 * second.
Definition default_connect_timeout : Z := 10 * second.
(** handler.go:62-76 *)
Definition new_handler (options : list handler_option) : handler :=
  let h := fold_left (fun h (o : handler_option) => o h) options (mk_handler 0 0 0 [] false false (mk_tls false "" "" "" "")) in
  let h := if Z.eqb (h_call_timeout h) 0 then handler_with_call_timeout default_call_timeout h else h in
  if Z.eqb (h_connect_timeout h) 0 then handler_with_connect_timeout default_connect_timeout h else h.

(** A proto.Message: nil, or what jsonpb makes of it *)
Definition proto_message : Type := option (result string).
(** metadata.MD: what json.Marshal makes of it if it is not empty *)
Definition metadata : Type := option string.
(** What the server sends, in order (invocation_event_handler.go:59-90).  A status has an
    error unless its code is OK. *)
Inductive rpc_event : Type :=
| ReceivedHeaders (headers : metadata)
| ReceivedResponse (message : proto_message)
| ReceivedTrailers (status_error : option string) (status : proto_message) (trailers : metadata).

(** invocation_event_handler.go:118-126 *)
Definition marshal_sanitize (details : bool) (s details_key : string) : string :=
  let s := if String.eqb s "{}" then "" else s in
  if details && negb (is_empty details_key) && negb (is_empty s) then
    "{" +++ String dquote "" +++ details_key +++ String dquote "" +++ ":" +++ s +++ "}"
  else s.
(** invocation_event_handler.go:92-104; println is the one of the runner, without the error *)
Definition print_proto_message (details : bool) (m : proto_message) (details_key : string) : cmd unit :=
  match m with
  | Some (Ok s) => println (marshal_sanitize details s details_key)
  | _ => ret tt
  end.
(** invocation_event_handler.go:106-116 *)
Definition print_metadata (details : bool) (m : metadata) (details_key : string) : cmd unit :=
  match m with
  | Some s => println (marshal_sanitize details s details_key)
  | None => ret tt
  end.
(** invocation_event_handler.go:63-86: prints, and the new error *)
Definition on_event (details : bool) (err : option string) (e : rpc_event) : cmd (option string) :=
  match e with
  | ReceivedHeaders headers =>
      if negb details then ret err
      else print_metadata details headers "headers" ;; ret err
  | ReceivedResponse m =>
      if negb details then print_proto_message details m "" ;; ret err
      else print_proto_message details m "response" ;; ret err
  | ReceivedTrailers status_error status trailers =>
      let err := match status_error with Some e => Some e | None => err end in
      if negb details then ret err
      else print_proto_message details status "status" ;; print_metadata details trailers "trailers" ;; ret err
  end.
Fixpoint on_events (details : bool) (err : option string) (es : list rpc_event) : cmd (option string) :=
  match es with
  | [] => ret err
  | e :: r => run err <- on_event details err e; on_events details err r
  end.

Section Grpc.
  Variable ord : map_order.
  Variable cwd work_dir error_format : string.
  Variable json : bool.
  Variable to_json : failure -> string.
  Variable stat : string -> result file_kind.
  Variable get_for_dir : string -> string -> result proto_set.
  Variable compiler : bool -> bool -> option (bool * bool) -> (string -> result string) -> proto_set -> result (list failure * list file_set).
  Variable commands : bool -> proto_set -> result (list string).
  (** time.ParseDuration, in nanoseconds *)
  Variable parse_duration : string -> result Z.
  (** protoreflectdesc.CreateFileDescriptorFromSet *)
  Variable create_descriptor : file_set -> result unit.
  (** grpcurl.DescriptorSourceFromFileDescriptorSet *)
  Variable create_source : file_set -> result unit.
  (** grpcurl.ClientTransportCredentials and OverrideServerName *)
  Variable credentials : tls_settings -> result unit.
  (** grpcurl.BlockingDial *)
  Variable dial : connection -> result unit.
  (** grpcurl.InvokeRPC: the events it hands over and its error *)
  Variable invoke_rpc : connection -> call -> list rpc_event * option string.

  (** handler.go:174-194: the file descriptors are those of these sets *)
  Definition get_any_resolver (sets : list file_set) : result (list file_set) :=
    mapM (fun p : file_set * file_desc =>
      do sorted <- sort_file_descriptor_set (fst p) (snd p);
      do _ <- create_descriptor sorted;
      Ok sorted) (concat (map (fun fs => map (fun f => (fs, f)) fs) sets)).
  (** handler.go:196-209 *)
  Definition get_descriptor_source (sets : list file_set) (method : string) : result file_set :=
    do path <- get_service_for_method method;
    do info <- get_service_info sets path;
    do sorted <- sort_file_descriptor_set (snd info) (snd (fst info));
    do _ <- create_source sorted;
    Ok sorted.
  (** handler.go:115-127 and 142-172 *)
  Definition dial_handler (h : handler) (address : string) : cmd connection :=
    match get_network_address address with
    | Err e => fail ("grpc dial: " +++ e)
    | Ok (network, address) =>
        let c := mk_connection network address (if h_tls h then Some (h_settings h) else None) (h_keepalive_time h) (h_connect_timeout h) in
        match (if h_tls h then credentials (h_settings h) else Ok tt) with
        | Err e => fail ("grpc credentials: " +++ e)
        | Ok _ => emit (Dialed c) ;; run _ <- check (dial c); ret c
        end
    end.
  (** handler.go:78-113 *)
  Definition invoke (h : handler) (sets : list file_set) (address method : string) (i : input) : cmd unit :=
    run source <- check (get_descriptor_source sets method);
    run resolver <- check (get_any_resolver sets);
    run c <- dial_handler h address;
    let ca := mk_call method source resolver (h_headers h) (h_call_timeout h) i in
    emit (Called ca) ;;
    run err <- on_events (h_details h) None (fst (invoke_rpc c ca));
    match snd (invoke_rpc c ca) with
    | Some e => fail e
    | None => match err with Some e => fail e | None => ret tt end
    end.

  (** The flags of the command. *)
  Record grpc_flags : Type := mk_grpc_flags {
    g_headers : list string; g_address : string; g_method : string; g_data : string;
    g_call_timeout : string; g_connect_timeout : string; g_keepalive_time : string;
    g_stdin : bool; g_details : bool; g_tls : bool; g_insecure : bool;
    g_cacert : string; g_cert : string; g_key : string; g_server_name : string
  }.
  (** runner.go:596-618 *)
  Definition check_flags (g : grpc_flags) : option string :=
    if is_empty (g_address g) then Some "must set address"
    else if is_empty (g_method g) then Some "must set method"
    else if is_empty (g_data g) && negb (g_stdin g) then Some "must set one of data or stdin"
    else if negb (is_empty (g_data g)) && g_stdin g then Some "must set only one of data or stdin"
    else if g_tls g then
      if g_insecure g && (negb (is_empty (g_cacert g)) || negb (is_empty (g_cert g)) || negb (is_empty (g_key g)) || negb (is_empty (g_server_name g))) then
        Some "if insecure then cacert, cert, key, and server-name must not be specified"
      else if negb (Bool.eqb (negb (is_empty (g_cert g))) (negb (is_empty (g_key g)))) then
        Some "if cert is specified, key must be specified"
      else None
    else if g_insecure g || negb (is_empty (g_cacert g)) || negb (is_empty (g_cert g)) || negb (is_empty (g_key g)) || negb (is_empty (g_server_name g)) then
      Some "tls must be specified if insecure, cacert, cert, key or server-name are specified"
    else None.
  (** runner.go:1219-1224 *)
  Definition get_input (data : string) (stdin : bool) : input := if stdin then FromStdin else FromData data.
  (** runner.go:621-628 *)
  Fixpoint parse_headers (headers : list string) (m : list (string * string)) : result (list (string * string)) :=
    match headers with
    | [] => Ok m
    | h :: r =>
        match split_once ":" h with
        | None => Err ("headers must be key:value but got " +++ h)
        | Some (k, v) => parse_headers r (gput k v m)
        end
    end.
  (** runner.go:633-650 *)
  Definition parse_time (s : string) : result Z := if is_empty s then Ok 0%Z else parse_duration s.
  (** runner.go:1049-1084 *)
  Definition new_grpc_handler (headers : list (string * string)) (call_timeout connect_timeout keepalive_time : Z)
      (details tls insecure : bool) (cacert cert key server_name : string) : handler :=
    new_handler
      (map (fun kv => handler_with_header (fst kv) (snd kv)) (ord "newGRPCHandler" _ headers)
       ++ (if Z.eqb call_timeout 0 then [] else [handler_with_call_timeout call_timeout])
       ++ (if Z.eqb connect_timeout 0 then [] else [handler_with_connect_timeout connect_timeout])
       ++ (if Z.eqb keepalive_time 0 then [] else [handler_with_keepalive_time keepalive_time])
       ++ (if details then [handler_with_details] else [])
       ++ (if tls then [handler_with_tls insecure cacert cert key server_name] else [])).
  (** runner.go:595-675 *)
  Definition grpc (args : list string) (g : grpc_flags) : cmd unit :=
    match check_flags g with
    | Some e => exit255 e
    | None =>
        run headers <- check (parse_headers (g_headers g) []);
        run call_timeout <- check (parse_time (g_call_timeout g));
        run connect_timeout <- check (parse_time (g_connect_timeout g));
        run keepalive_time <- check (parse_time (g_keepalive_time g));
        run m <- get_meta work_dir stat get_for_dir args;
        run sets <- compile cwd error_format json to_json file_set compiler commands false true false m;
        match sets with
        | [] => fail "no FileDescriptorSets returned"
        | _ =>
            invoke (new_grpc_handler headers call_timeout connect_timeout keepalive_time (g_details g) (g_tls g)
                (g_insecure g) (g_cacert g) (g_cert g) (g_key g) (g_server_name g))
              sets (g_address g) (g_method g) (get_input (g_data g) (g_stdin g))
        end
    end.
End Grpc.
