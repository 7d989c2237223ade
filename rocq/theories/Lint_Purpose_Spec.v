(** How the listings of the lint rules describe a rule: in the words of docs/lint.md, but for the
    rules that the documentation describes in other words. *)
From Verif Require Import GoStr Lint_Doc2.

(** Texts are compared without quotes, in lower case and with single spaces. *)
Definition quoting (c : ascii) : bool := existsb (Ascii.eqb c) ["`"%char; "'"%char; """"%char].
Fixpoint squeezed (s : string) : string :=
  match s with
  | String " " ((String " " _) as s') => squeezed s'
  | String c s' => String c (squeezed s')
  | EmptyString => EmptyString
  end.
Fixpoint unquoted (s : string) : string :=
  match s with
  | EmptyString => EmptyString
  | String c s' => if quoting c then unquoted s' else String c (unquoted s')
  end.
Definition same_words (s t : string) : Prop := to_lower (squeezed (unquoted s)) = to_lower (squeezed (unquoted t)).

(** The rules that are described in other words than in the documentation. *)
Definition reworded : list (string * string) := [
  ("MESSAGE_FIELDS_DURATION", "Verifies that all non-map fields that contain ""duration"" in their name are google.protobuf.Durations.");
  ("MESSAGE_FIELDS_TIME", "Verifies that all non-map fields that contain ""time"" in their name are google.protobuf.Timestamps.");
  ("NAMES_NO_COMMON", "Verifies that no type name contains the word ""common"".");
  ("NAMES_NO_DATA", "Verifies that no type name contains the word ""data"".");
  ("NAMES_NO_UUID", "Verifies that no type name contains the word ""uuid"".");
  ("PACKAGE_IS_DECLARED", "Verifies that there is a package declaration.");
  ("PACKAGE_LOWER_CASE", "Verifies that the package name only contains characters in the range a-z0-9 and periods.");
  ("PACKAGE_LOWER_SNAKE_CASE", "Verifies that the package is lower_snake.case.");
  ("PACKAGE_MAJOR_BETA_VERSIONED", "Verifies that the package is of the form ""package.vMAJORVERSION"" or ""package.vMAJORVERSIONbetaBETAVERSION"" with versions >=1.");
  ("PACKAGE_NO_KEYWORDS", "Verifies that no packages contain one of the keywords ""internal,public,private,protected,std"" as part of the name when split on '.'.");
  ("REQUEST_RESPONSE_NAMES_MATCH_RPC", "Verifies that all request names are RpcNameRequest and all response names are RpcNameResponse.");
  ("SERVICE_NAMES_MATCH_FILE_NAME", "Verifies that there is one service per file and the file name is service_name_lower_snake_case.proto.");
  ("WKT_DURATION_SUFFIX", "Verifies that all google.protobuf.Duration field names are ""duration"" or end in ""_duration"".");
  ("WKT_TIMESTAMP_SUFFIX", "Verifies that all google.protobuf.Timestamp field names are ""time"" or end in ""_time"".")
].
(** The rules that a comment can suppress, with what the comment says; only where the
    configuration allows it. *)
Definition suppressible : list (string * string) := [
  ("MESSAGE_FIELDS_NOT_FLOATS", "floats"); ("NAMES_NO_COMMON", "naming"); ("NAMES_NO_DATA", "naming"); ("NAMES_NO_UUID", "naming");
  ("PACKAGE_NO_KEYWORDS", "keywords"); ("RPC_OPTIONS_NO_GOOGLE_API_HTTP", "google-api-http"); ("SERVICE_NAMES_NO_PLURALS", "plurals")
].
Definition in_words (id t : string) : Prop :=
  In (id, t) reworded \/ (~ In id (map fst reworded) /\ exists d, In (id, d) documented_purposes /\ same_words t d).
Definition describes (allowed : bool) (id t : string) : Prop :=
  exists u, in_words id u /\
    ((exists a, allowed = true /\ In (id, a) suppressible /\ t = "Suppressable with ""@suppresswarnings " +++ a +++ """. " +++ u) \/
     ((allowed = false \/ ~ In id (map fst suppressible)) /\ t = u)).
(** A description is one line: it has no tab and no line break. *)
Definition one_line (t : string) : Prop := forall c, In c (list_ascii_of_string t) -> 32 <= nat_of_ascii c.
