(** Independent vocabulary for where protoc is kept and where it comes from. *)
From Verif Require Export Download_Model GoPathFacts.

(** The absolute path [p] names the directory with the elements [cs]. *)
Definition names (p : string) (cs : list string) : Prop := is_abs p = true /\ ok_comps cs /\ path_clean p = abs_path cs.
(** A path, from the working directory if it is not absolute. *)
Definition names_from (cwd p : string) (cs : list string) : Prop :=
  p <> "" /\ (if is_abs p then names p cs else names (cwd +++ "/" +++ p) cs).
(** Go's names for the systems that protoc is downloaded for. *)
Definition supported (goos goarch : string) : Prop := (goos = "linux" \/ goos = "darwin") /\ goarch = "amd64".
(** The default cache, as documented: $XDG_CACHE_HOME/prototool, else
    $HOME/.cache/prototool on Linux and $HOME/Library/Caches/prototool on macOS. *)
Inductive default_cache (goos : string) (getenv : string -> string) : list string -> Prop :=
| XdgCache xs : names (getenv "XDG_CACHE_HOME") xs -> default_cache goos getenv (xs ++ ["prototool"])
| LinuxCache hs : goos = "linux" -> getenv "XDG_CACHE_HOME" = "" -> names (getenv "HOME") hs ->
    default_cache goos getenv (hs ++ [".cache"; "prototool"])
| DarwinCache hs : goos = "darwin" -> getenv "XDG_CACHE_HOME" = "" -> names (getenv "HOME") hs ->
    default_cache goos getenv (hs ++ ["Library"; "Caches"; "prototool"]).
(** uname -s *)
Definition system_name (goos : string) : string := if String.eqb goos "darwin" then "Darwin" else "Linux".
(** The directory below which all versions are kept: the one given, or the default one
    with the names of the system and of the machine. *)
Definition cache_root (goos goarch : string) (getenv : string -> string) (cwd given : string) (cs : list string) : Prop :=
  (given = "" /\ supported goos goarch /\ exists d, default_cache goos getenv d /\ cs = d ++ [system_name goos; "x86_64"]) \/
  names_from cwd given cs.
(** Release candidates: the hyphen in rc-1 is not in the name of the release. *)
Definition digits (s : string) : Prop := s <> "" /\ all_digits s = true.
Definition release_name (version name : string) : Prop :=
  (exists a n, version = a +++ "rc-" +++ n /\ digits n /\ name = a +++ "rc" +++ n) \/
  ((forall a n, version = a +++ "rc-" +++ n -> ~ digits n) /\ name = version).
(** The two options for a local protoc: neither, or both with what must be there. *)
Definition local_protoc (stat : string -> stat_info) (url bin wkt : string) : Prop :=
  url = "" /\ bin <> "" /\ wkt <> "" /\ stat (path_clean bin) <> NotExist /\ stat (path_clean wkt) <> NotExist /\
  stat (path_join [path_clean wkt; "google"; "protobuf"]) = IsDir.
(** What is said of the two options. *)
Inductive says_local (stat : string -> stat_info) (url bin wkt : string) : string -> Prop :=
| Both_ways : (bin <> "" \/ wkt <> "") -> url <> "" ->
    says_local stat url bin wkt "cannot use protoc-url in combination with either protoc-bin-path or protoc-wkt-path"
| Only_one : url = "" -> (bin = "" <-> wkt <> "") -> says_local stat url bin wkt "both protoc-bin-path and protoc-wkt-path must be set"
| No_program : url = "" -> bin <> "" -> wkt <> "" -> stat (path_clean bin) = NotExist ->
    says_local stat url bin wkt ("stat " +++ path_clean bin +++ ": no such file or directory")
| No_types : url = "" -> bin <> "" -> wkt <> "" -> stat (path_clean bin) <> NotExist -> stat (path_clean wkt) = NotExist ->
    says_local stat url bin wkt ("stat " +++ path_clean wkt +++ ": no such file or directory")
| No_directory : url = "" -> bin <> "" -> wkt <> "" -> stat (path_clean bin) <> NotExist -> stat (path_clean wkt) <> NotExist ->
    stat (path_join [path_clean wkt; "google"; "protobuf"]) = NotExist ->
    says_local stat url bin wkt ("stat " +++ path_join [path_clean wkt; "google"; "protobuf"] +++ ": no such file or directory")
| Other_thing : url = "" -> bin <> "" -> wkt <> "" -> stat (path_clean bin) <> NotExist -> stat (path_clean wkt) <> NotExist ->
    stat (path_join [path_clean wkt; "google"; "protobuf"]) = IsOther ->
    says_local stat url bin wkt (quote (path_join [path_clean wkt; "google"; "protobuf"]) +++ " is not a valid well-known types directory").
(** What is said if the archive cannot be had from [url]; [custom] if the user gave it. *)
Inductive says_no_archive (read_file : string -> result string) (http_get : string -> response) (version url : string) (custom : bool) : string -> Prop :=
| No_file p m : url = "file://" +++ p -> read_file p = Err m -> says_no_archive read_file http_get version url custom m
| No_answer m : has_prefix url "http://" = true \/ has_prefix url "https://" = true -> http_get url = NoResponse m -> custom = true ->
    says_no_archive read_file http_get version url custom m
| No_body m : has_prefix url "http://" = true \/ has_prefix url "https://" = true -> http_get url = Response 200 (Err m) ->
    says_no_archive read_file http_get version url custom m
| No_release m : has_prefix url "http://" = true \/ has_prefix url "https://" = true -> custom = false ->
    (http_get url = NoResponse m \/ (exists status body, http_get url = Response status body /\ status <> 200%Z /\ m = "<nil>")) ->
    says_no_archive read_file http_get version url custom
      (join (String newline "") ["error downloading " +++ url +++ ": " +++ m;
        "Make sure GitHub Releases has a proper protoc zip file of the form protoc-VERSION-OS-ARCH.zip at https://github.com/protocolbuffers/protobuf/releases/v" +++ version;
        "Note that many micro versions do not have this, and no version before 3.0.0-beta-2 has this"])
| No_scheme : ~ (has_prefix url "file://" = true \/ has_prefix url "http://" = true \/ has_prefix url "https://" = true) ->
    says_no_archive read_file http_get version url custom ("unknown url, can only handle http, https, file: " +++ url).
