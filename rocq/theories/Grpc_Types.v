(** What internal/grpc/handler.go dials and calls. *)
From Verif Require Export Descriptor_Types.

(** The arguments of HandlerWithTLS (grpc.go:105-115). *)
Record tls_settings : Type := mk_tls {
  tls_insecure : bool; tls_cacert : string; tls_cert : string; tls_key : string; tls_server_name : string
}.
(** The arguments of grpcurl.BlockingDial (handler.go:115-127): no credentials without TLS,
    the keepalive time is 0 if there is none.  Times are in nanoseconds. *)
Record connection : Type := mk_connection {
  cn_network : string; cn_address : string; cn_tls : option tls_settings; cn_keepalive : Z; cn_timeout : Z
}.
(** Where the requests are read from (runner.go:1219-1224). *)
Inductive input : Type := FromData (data : string) | FromStdin.
(** The arguments of grpcurl.InvokeRPC (handler.go:100-109); the descriptor source and the
    any resolver are given by the files they are made from. *)
Record call : Type := mk_call {
  ca_method : string; ca_source : file_set; ca_resolver : list file_set; ca_headers : list string;
  ca_timeout : Z; ca_input : input
}.
