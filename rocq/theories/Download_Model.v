(** Model of internal/protoc/downloader.go: options, where protoc is cached, where it is
    downloaded from and what is deleted.  The download itself is in Cache_Model.

    Simplifications.
    - What os.Stat finds, the environment and the digest of a URL are arguments.
    - Logging is left out. *)
From Verif Require Export GoStr GoPath GoFmt Settings_Types File_Model.

(** internal/vars/vars.go:32 *)
Definition default_protoc_version : string := "3.11.0".

(** What os.Stat finds; another error, for example for lack of permission. *)
Inductive stat_info : Type := IsDir | IsOther | NotExist | StatError (m : string).
(** downloader.go:53-70, the options *)
Record downloader : Type := mk_downloader {
  d_version : string;
  d_cache_path : string;
  d_url : string;
  d_bin_path : string;
  d_wkt_path : string
}.
(** What newDownloader does: an error, or a nil pointer is used. *)
Inductive made : Type := Made (d : downloader) | Refused (m : string) | NilPointer.

(** downloader.go:72-110; [stat] is os.Stat. *)
Definition not_exist (p : string) : string := "stat " +++ p +++ ": no such file or directory".
Definition new_downloader (stat : string -> stat_info) (version cache_path url bin_path wkt_path : string) : made :=
  let version := if is_empty version then default_protoc_version else version in
  if negb (is_empty bin_path) || negb (is_empty wkt_path) then
    if negb (is_empty url) then Refused "cannot use protoc-url in combination with either protoc-bin-path or protoc-wkt-path"
    else if is_empty bin_path || is_empty wkt_path then Refused "both protoc-bin-path and protoc-wkt-path must be set"
    else
      let bin := path_clean bin_path in
      match stat bin with
      | NotExist => Refused (not_exist bin)
      | _ =>
          let wkt := path_clean wkt_path in
          match stat wkt with
          | NotExist => Refused (not_exist wkt)
          | _ =>
              let protobuf := path_join [wkt; "google"; "protobuf"] in
              match stat protobuf with
              | NotExist => Refused (not_exist protobuf)
              | StatError _ => NilPointer
              | IsOther => Refused (quote protobuf +++ " is not a valid well-known types directory")
              | IsDir => Made (mk_downloader version cache_path url bin wkt)
              end
          end
      end
  else Made (mk_downloader version cache_path url bin_path wkt_path).

(** downloader.go:440-458 *)
Definition get_uname (goos goarch : string) : result (string * string) :=
  do s <-
    (if String.eqb goos "darwin" then Ok "Darwin"
     else if String.eqb goos "linux" then Ok "Linux"
     else Err ("unsupported value for runtime.GOOS: " +++ goos));
  if String.eqb goarch "amd64" then Ok (s, "x86_64")
  else Err ("unsupported value for runtime.GOARCH: " +++ goarch).
(** downloader.go:429-438 *)
Definition get_protoc_s (goos : string) : result string :=
  if String.eqb goos "darwin" then Ok "osx"
  else if String.eqb goos "linux" then Ok "linux"
  else Err ("unsupported value for runtime.GOOS: " +++ goos).

(** downloader.go:315-317: the expression (rc)-(\d+$) and its replacement *)
Fixpoint all_digits (s : string) : bool :=
  match s with EmptyString => true | String c r => is_digit c && all_digits r end.
Fixpoint drop_rc_hyphen (s : string) : string :=
  match s with
  | EmptyString => EmptyString
  | String c r =>
      if has_prefix s "rc-" && negb (is_empty (sdrop 3 s)) && all_digits (sdrop 3 s) then "rc" +++ sdrop 3 s
      else String c (drop_rc_hyphen r)
  end.

Section Places.
  (** runtime.GOOS, runtime.GOARCH, os.Getenv, the working directory *)
  Variable goos goarch : string.
  Variable getenv : string -> string.
  Variable cwd : string.
  (** base64.URLEncoding of sha512 *)
  Variable digest : string -> string.
  Variable d : downloader.

  (** downloader.go:302-326 *)
  Definition get_protoc_url : result string :=
    if negb (is_empty (d_url d)) then Ok (d_url d)
    else
      do u <- get_uname goos goarch;
      do s <- get_protoc_s goos;
      Ok ("https://github.com/protocolbuffers/protobuf/releases/download/v" +++ drop_rc_hyphen (d_version d)
          +++ "/protoc-" +++ d_version d +++ "-" +++ s +++ "-" +++ snd u +++ ".zip").
  (** downloader.go:265-299.  [read_file] is ioutil.ReadFile, [http_get] http.Get with the
      status and the body that is read. *)
  Inductive response : Type := NoResponse (m : string) | Response (status : Z) (body : result string).
  Definition get_download_data (read_file : string -> result string) (http_get : string -> response) : result string :=
    do url <- get_protoc_url;
    if has_prefix url "file://" then read_file (sdrop 7 url)
    else if has_prefix url "http://" || has_prefix url "https://" then
      let hint m := "error downloading " +++ url +++ ": " +++ m +++ String newline "Make sure GitHub Releases has a proper protoc zip file of the form protoc-VERSION-OS-ARCH.zip at https://github.com/protocolbuffers/protobuf/releases/v" +++ d_version d +++ String newline "Note that many micro versions do not have this, and no version before 3.0.0-beta-2 has this" in
      match http_get url with
      | NoResponse m => if is_empty (d_url d) then Err (hint m) else Err m
      | Response status body =>
          if (status =? 200)%Z then body
          else if is_empty (d_url d) then Err (hint "<nil>")
          else Ok ""  (* return nil, err, and err is nil *)
      end
    else Err ("unknown url, can only handle http, https, file: " +++ url).
  (** downloader.go:402-427 *)
  Definition default_base_no_osarch : result string :=
    do u <- get_uname goos goarch;
    if negb (is_empty (getenv "XDG_CACHE_HOME")) then Ok (path_join [getenv "XDG_CACHE_HOME"; "prototool"])
    else if is_empty (getenv "HOME") then Err "HOME is not set"
    else if String.eqb (fst u) "Darwin" then Ok (path_join [getenv "HOME"; "Library"; "Caches"; "prototool"])
    else if String.eqb (fst u) "Linux" then Ok (path_join [getenv "HOME"; ".cache"; "prototool"])
    else Err ("invalid value for uname -s: " +++ fst u).
  (** downloader.go:386-400 *)
  Definition default_base : result string :=
    do b <- default_base_no_osarch;
    do u <- get_uname goos goarch;
    Ok (path_join [b; fst u; snd u]).
  (** internal/file/file.go:144-151 *)
  Definition check_abs (p : string) : result string :=
    if is_abs p then Ok p else Err ("expected absolute path but was " +++ p).
  (** downloader.go:336-354 *)
  Definition base_no_version_osarch : result string :=
    do b <- (if is_empty (d_cache_path d) then default_base_no_osarch else Ok (abs_clean cwd (d_cache_path d)));
    check_abs b.
  (** downloader.go:356-374 *)
  Definition base_no_version : result string :=
    do b <- (if is_empty (d_cache_path d) then default_base else Ok (abs_clean cwd (d_cache_path d)));
    do b <- check_abs b;
    Ok (path_join [b; "protobuf"]).
  (** downloader.go:376-384 *)
  Definition version_part : string := if negb (is_empty (d_url d)) then digest (d_url d) else d_version d.
  (** downloader.go:328-334 *)
  Definition base_path : result string :=
    do b <- base_no_version;
    Ok (path_join [b; version_part]).
  (** downloader.go:460-467 *)
  Definition lock_path (base : string) : string := base +++ ".lock".
  (** downloader.go:144-152: what os.RemoveAll is called with *)
  Definition deleted_path : result string := base_no_version_osarch.
  (** downloader.go:112-142; [cached] is what cache returns, see Cache_Model *)
  Definition protoc_path (cached : result string) : result string :=
    if negb (is_empty (d_bin_path d)) then Ok (d_bin_path d)
    else do b <- cached; Ok (path_join [b; "bin"; "protoc"]).
  Definition wkt_include_path (cached : result string) : result string :=
    if negb (is_empty (d_wkt_path d)) then Ok (d_wkt_path d)
    else do b <- cached; Ok (path_join [b; "include"]).
End Places.

(** downloader.go:246: where a file of the archive is written *)
Definition write_path (base name : string) : string := path_join [base; name].

(** internal/cmd/templates.go:595-605 (and :617-638): the flag, or else the environment *)
Definition flag_or_env (flag env : string) : string := if negb (is_empty flag) then flag else env.
(** internal/cmd/templates.go:588-640 and internal/exec/runner.go:918-947: the downloader that
    a command uses; [cache], [bin] and [wkt] are flags, and [url]. *)
Definition command_downloader (getenv : string -> string) (stat : string -> stat_info) (version cache url bin wkt : string) : made :=
  new_downloader stat version (flag_or_env cache (getenv "PROTOTOOL_CACHE_PATH")) url
    (flag_or_env bin (getenv "PROTOTOOL_PROTOC_BIN_PATH")) (flag_or_env wkt (getenv "PROTOTOOL_PROTOC_WKT_PATH")).
(** internal/cmd/templates.go:132-147, internal/exec/runner.go:208-219: cache delete, which has
    no flags.  The configuration and os.Stat do not matter for what is deleted. *)
Definition cache_delete (goos goarch : string) (getenv : string -> string) (cwd : string) (stat : string -> stat_info) (version : string) : made * option (result string) :=
  let m := command_downloader getenv stat version "" "" "" "" in
  (m, match m with Made d => Some (deleted_path goos goarch getenv cwd d) | _ => None end).
