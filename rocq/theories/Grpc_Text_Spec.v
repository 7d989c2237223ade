(** What is said of a call that cannot be made. *)
From Verif Require Import Grpc_Types Grpc_Model.
From Verif Require Export Grpc_Spec.

(** Of headers and times: the first header that is not one, then the first time that cannot be read. *)
Inductive says_malformed (parse : string -> result Z) (g : grpc_flags) : string -> Prop :=
| Bad_header before h after : g_headers g = before ++ h :: after -> headers_fit before -> (forall name value, ~ header h name value) ->
    says_malformed parse g ("headers must be key:value but got " +++ h)
| Bad_time before t after m : headers_fit (g_headers g) -> [g_call_timeout g; g_connect_timeout g; g_keepalive_time g] = before ++ t :: after ->
    (forall t', In t' before -> t' <> "" -> exists z, parse t' = Ok z) -> t <> "" -> parse t = Err m -> says_malformed parse g m.
(** Of the method, the address and the credentials. *)
Inductive says_no_call (credentials : tls_settings -> result unit) (sets : list file_set) (g : grpc_flags) : string -> Prop :=
| No_files : sets = [] -> says_no_call credentials sets g "no FileDescriptorSets returned"
| Bad_method : sets <> [] -> (forall path name, g_method g = path +++ "/" +++ name -> no_slash path -> ~ no_slash name) ->
    says_no_call credentials sets g ("invalid gRPC method: " +++ g_method g)
| Nameless_service name : sets <> [] -> g_method g = "/" +++ name -> no_slash name -> says_no_call credentials sets g "empty path"
| No_such_service full : sets <> [] -> about_service (g_method g) full -> (forall fs f, In fs sets -> In f fs -> ~ has_service f full) ->
    says_no_call credentials sets g ("no service for path " +++ full)
| Two_services full earlier fs later f : about_service (g_method g) full -> sets = earlier ++ fs :: later ->
    (forall es f', In es earlier -> In f' es -> ~ has_service f' full) -> In f fs -> has_service f full -> (forall f' sv, ~ only_service fs full f' sv) ->
    says_no_call credentials sets g ("duplicate services for path " +++ full)
| Bad_network full fs f sv network rest : about_service (g_method g) full -> provides sets full fs f sv ->
    first_split "://" (g_address g) network rest -> network <> "tcp" -> network <> "unix" ->
    says_no_call credentials sets g ("grpc dial: invalid network, only tcp or unix allowed: " +++ network)
| No_credentials full fs f sv network rest m : about_service (g_method g) full -> provides sets full fs f sv -> network_of (g_address g) network rest ->
    g_tls g = true -> credentials (tls_asked g) = Err m -> says_no_call credentials sets g ("grpc credentials: " +++ m).
