(** What is said where there is no cache or no release of protoc. *)
From Verif Require Import GoStrFacts GoPath Download_Spec.

Inductive says_system (goos goarch : string) : string -> Prop :=
| Bad_system : goos <> "darwin" -> goos <> "linux" -> says_system goos goarch ("unsupported value for runtime.GOOS: " +++ goos)
| Bad_machine : goos = "darwin" \/ goos = "linux" -> goarch <> "amd64" -> says_system goos goarch ("unsupported value for runtime.GOARCH: " +++ goarch).
(** The variable that says where the default cache is, and where it is below that. *)
Inductive cache_variable (goos : string) (getenv : string -> string) : string -> list string -> Prop :=
| By_xdg : getenv "XDG_CACHE_HOME" <> "" -> cache_variable goos getenv (getenv "XDG_CACHE_HOME") ["prototool"]
| By_home_linux : getenv "XDG_CACHE_HOME" = "" -> goos = "linux" -> cache_variable goos getenv (getenv "HOME") [".cache"; "prototool"]
| By_home_darwin : getenv "XDG_CACHE_HOME" = "" -> goos = "darwin" -> cache_variable goos getenv (getenv "HOME") ["Library"; "Caches"; "prototool"].
(** [place] is what is made of the path of the default cache before it is looked at. *)
Inductive says_no_cache (goos goarch : string) (getenv : string -> string) (place : string -> string) : string -> Prop :=
| No_system t : says_system goos goarch t -> says_no_cache goos goarch getenv place t
| No_home : supported goos goarch -> getenv "XDG_CACHE_HOME" = "" -> getenv "HOME" = "" -> says_no_cache goos goarch getenv place "HOME is not set"
| Relative v l : supported goos goarch -> cache_variable goos getenv v l -> v <> "" -> has_prefix v "/" = false ->
    says_no_cache goos goarch getenv place ("expected absolute path but was " +++ place (path_join (v :: l))).
