(** Independent vocabulary for the grpc command. *)
From Verif Require Export Exec_Spec.
From Verif Require Import Grpc_Types Grpc_Model.

(** ** Flags *)
(** What the documentation asks of the flags: an address, a method, one of data and stdin;
    the TLS flags need tls, insecure excludes the others, cert and key need each other. *)
Definition flags_fit (g : grpc_flags) : Prop :=
  g_address g <> "" /\ g_method g <> "" /\
  ((g_data g <> "" /\ g_stdin g = false) \/ (g_data g = "" /\ g_stdin g = true)) /\
  (g_tls g = false \/ g_insecure g = true -> g_cacert g = "" /\ g_cert g = "" /\ g_key g = "" /\ g_server_name g = "") /\
  (g_insecure g = true -> g_tls g = true) /\
  (g_cert g = "" <-> g_key g = "").
(** [s] split at the first [sep]. *)
Definition first_split (sep s a b : string) : Prop :=
  s = a +++ sep +++ b /\ forall a' b', s = a' +++ sep +++ b' -> String.length a <= String.length a'.
(** A header name:value. *)
Definition header (h name value : string) : Prop := first_split ":" h name value.
Definition headers_fit (hs : list string) : Prop := forall h, In h hs -> exists name value, header h name value.
(** The last value that is given for a name. *)
Definition last_value (hs : list string) (name value : string) : Prop :=
  exists before h after, hs = before ++ h :: after /\ header h name value /\
    forall h' v, In h' after -> ~ header h' name v.
(** One line for every name, with the last value. *)
Definition last_values (hs lines : list string) : Prop :=
  exists kvs, Permutation lines (map (fun kv => fst kv +++ ":" +++ snd kv) kvs) /\ NoDup (map fst kvs) /\
    forall name value, In (name, value) kvs <-> last_value hs name value.
(** A time given as a flag; the default is for no flag and for zero. *)
Definition time_asked (parse : string -> result Z) (flag : string) (default t : Z) : Prop :=
  (flag = "" /\ t = default) \/ (flag <> "" /\ parse flag = Ok t /\ t <> 0%Z) \/ (flag <> "" /\ parse flag = Ok 0%Z /\ t = default).
Definition times_fit (parse : string -> result Z) (g : grpc_flags) : Prop :=
  forall flag, In flag [g_call_timeout g; g_connect_timeout g; g_keepalive_time g] -> flag <> "" -> exists t, parse flag = Ok t.
(** tcp://..., unix://..., or an address for tcp. *)
Definition network_of (address network rest : string) : Prop :=
  (first_split "://" address network rest /\ (network = "tcp" \/ network = "unix")) \/
  ((forall a b, address <> a +++ "://" +++ b) /\ network = "tcp" /\ rest = address).
Definition seconds (n : Z) : Z := (n * 1000000000)%Z.
Definition tls_asked (g : grpc_flags) : tls_settings := mk_tls (g_insecure g) (g_cacert g) (g_cert g) (g_key g) (g_server_name g).
Definition connection_asked (parse : string -> result Z) (g : grpc_flags) (c : connection) : Prop :=
  network_of (g_address g) (cn_network c) (cn_address c) /\
  cn_tls c = (if g_tls g then Some (tls_asked g) else None) /\
  time_asked parse (g_keepalive_time g) 0%Z (cn_keepalive c) /\
  time_asked parse (g_connect_timeout g) (seconds 10) (cn_timeout c).
Definition call_asked (parse : string -> result Z) (g : grpc_flags) (ca : call) : Prop :=
  ca_method ca = g_method g /\ last_values (g_headers g) (ca_headers ca) /\
  time_asked parse (g_call_timeout g) (seconds 60) (ca_timeout ca) /\
  ca_input ca = (if g_stdin g then FromStdin else FromData (g_data g)).
(** The connections and the calls that were made. *)
Definition dials (es : list event) : list connection := concat (map (fun e => match e with Dialed c => [c] | _ => [] end) es).
Definition calls (es : list event) : list call := concat (map (fun e => match e with Called c => [c] | _ => [] end) es).

(** ** Methods *)
Definition no_slash (s : string) : Prop := forall a b, s <> a +++ "/" +++ b.
(** The method service/name is about the service with the full name [full]. *)
Definition about_service (method full : string) : Prop :=
  exists path name, method = path +++ "/" +++ name /\ no_slash path /\ no_slash name /\
    (path = "." +++ full \/ (path = full /\ full <> "" /\ forall r, path <> "." +++ r)).
Definition full_name (f : file_desc) (sv : service) : string := fl_package f +++ "." +++ sv_name sv.
Definition has_service (f : file_desc) (full : string) : Prop := exists sv, In sv (fl_services f) /\ full_name f sv = full.
(** The only service of the files with the name. *)
Definition only_service (fs : file_set) (full : string) (f : file_desc) (sv : service) : Prop :=
  exists fb fa sb sa, fs = fb ++ f :: fa /\ fl_services f = sb ++ sv :: sa /\ full_name f sv = full /\
    (forall g, In g (fb ++ fa) -> ~ has_service g full) /\ (forall sv', In sv' (sb ++ sa) -> full_name f sv' <> full).
(** [fs] is the first set that has the service, and has only one. *)
Definition provides (sets : list file_set) (full : string) (fs : file_set) (f : file_desc) (sv : service) : Prop :=
  exists earlier later, sets = earlier ++ fs :: later /\ (forall es g, In es earlier -> In g es -> ~ has_service g full) /\ only_service fs full f sv.
(** The files of the set, [f] last. *)
Definition with_last (fs : file_set) (f : file_desc) (r : file_set) : Prop :=
  exists before after, fs = before ++ f :: after /\ r = before ++ after ++ [f].

(** What is handed over to resolve embedded messages: one set per file. *)
Definition resolver_for (sets : list file_set) (r : list file_set) : Prop := forall x, In x r <-> exists fs f, In fs sets /\ In f fs /\ with_last fs f x.
(** Sets as protoc writes them. *)
Definition named_files (sets : list file_set) : Prop :=
  forall fs, In fs sets -> NoDup (map fl_name fs) /\ forall f, In f fs -> fl_name f <> "" /\ fl_package f <> "".

(** ** Output *)
(** An object with one key, nothing for an empty object. *)
Definition object_of (key s : string) : list string :=
  if String.eqb s "" || String.eqb s "{}" then []
  else ["{" +++ String dquote "" +++ key +++ String dquote "" +++ ":" +++ s +++ "}"].
Definition text_of (m : proto_message) : string := match m with Some (Ok s) => s | _ => "" end.
Definition metadata_text (m : metadata) : string := match m with Some s => s | None => "" end.
(** The lines for what the server sends: the responses, or with details all of it. *)
Definition plain_lines (e : rpc_event) : list string :=
  match e with
  | ReceivedResponse m => if String.eqb (text_of m) "" || String.eqb (text_of m) "{}" then [] else [text_of m]
  | _ => []
  end.
Definition detailed_lines (e : rpc_event) : list string :=
  match e with
  | ReceivedHeaders h => object_of "headers" (metadata_text h)
  | ReceivedResponse m => object_of "response" (text_of m)
  | ReceivedTrailers _ status trailers => object_of "status" (text_of status) ++ object_of "trailers" (metadata_text trailers)
  end.
Definition lines_for (details : bool) (es : list rpc_event) : list string :=
  concat (map (if details then detailed_lines else plain_lines) es).
(** The error of the last status that is not OK. *)
Definition status_of (es : list rpc_event) (e : option string) : Prop :=
  (e = None /\ forall m st tr, ~ In (ReceivedTrailers (Some m) st tr) es) \/
  exists before after m st tr, e = Some m /\ es = before ++ ReceivedTrailers (Some m) st tr :: after /\
    forall m' st' tr', ~ In (ReceivedTrailers (Some m') st' tr') after.
(** One text per line. *)
Definition on_lines (l : list string) : string := join "" (map (fun x => x +++ String newline "") l).
(** What the command returns for a call: its error, or else that of the status. *)
Definition call_result (rpc : list rpc_event * option string) (r : outcome unit) : Prop :=
  exists st, status_of (fst rpc) st /\ r = match snd rpc, st with Some e, _ => Fail e | None, Some e => Fail e | None, None => Value tt end.
