(** What is said of a command line that cannot be read. *)
From Verif Require Import GoStrFacts GoFmt Cmd_Spec.

(** A character that Go shows as itself between single quotes. *)
Definition shows_itself (l : ascii) : Prop := (32 <= code l < 127) /\ l <> "'"%char /\ l <> backslash.
(** How Go shows a character between single quotes: a single quote and a backslash behind a backslash. *)
Definition shows (l : ascii) (t : string) : Prop :=
  (shows_itself l /\ t = String l "") \/ ((l = "'"%char \/ l = backslash) /\ t = String backslash (String l "")).
(** "-o, --output-path", or only the name if there is no letter for it. *)
Definition flag_names (c : command) (name : string) : string :=
  match find (fun l => String.eqb (fst l) name) (c_letters c) with Some l => "-" +++ String (snd l) ", " | None => "" end +++ "--" +++ name.
(** The words that turn a switch on or off. *)
Definition switch_words : list string := ["1"; "t"; "T"; "true"; "True"; "TRUE"; "0"; "f"; "F"; "false"; "False"; "FALSE"].

(** [unreadable csv c items rest m]: behind the command and the flags and arguments [items], which it
    takes, the words [rest] are wrong, and [m] says why. *)
Inductive unreadable (csv : string -> result (list string)) (c : command) (items : list item) : list string -> string -> Prop :=
| Unknown_flag : forall name value rest, name <> "help" -> (forall k, ~ takes c name k) -> flag_word name ->
    unreadable csv c items (("--" +++ name +++ match value with Some v => "=" +++ v | None => "" end) :: rest) ("unknown flag: --" +++ name)
| Unknown_letter : forall letter t more rest, letter <> "h"%char -> letter <> "-"%char -> ~ In letter (map snd (c_letters c)) -> shows letter t ->
    (forall r, String letter more <> "test." +++ r) ->
    unreadable csv c items (String "-" (String letter more) :: rest)
      ("unknown shorthand flag: '" +++ t +++ "' in -" +++ String letter more)
| Bad_syntax : forall word rest, (exists r, word = "--=" +++ r \/ word = "---" +++ r) ->
    unreadable csv c items (word :: rest) ("bad flag syntax: " +++ word)
| No_value : forall name k, takes c name k -> k <> OnOff ->
    unreadable csv c items ["--" +++ name] ("flag needs an argument: --" +++ name)
| No_value_letter : forall name letter k, In (name, letter) (c_letters c) -> takes c name k -> k <> OnOff ->
    unreadable csv c items [String "-" (String letter "")] ("flag needs an argument: '" +++ String letter "' in -" +++ String letter "")
| Bad_word : forall name v rest, takes c name OnOff -> ~ In v switch_words ->
    unreadable csv c items (("--" +++ name +++ "=" +++ v) :: rest)
      ("invalid argument " +++ quote v +++ " for " +++ quote (flag_names c name) +++ " flag: strconv.ParseBool: parsing " +++ quote v +++ ": invalid syntax")
| Bad_list : forall name v rest m, takes c name Repeated -> csv v = Err m ->
    unreadable csv c items (("--" +++ name +++ "=" +++ v) :: rest)
      ("invalid argument " +++ quote v +++ " for " +++ quote (flag_names c name) +++ " flag: " +++ m)
| None_allowed : forall more a l, c_least c = 0 -> c_most c = Some 0 -> arguments items ++ tail_args more = a :: l ->
    unreadable csv c items (tail_words more) ("unknown command " +++ quote a +++ " for " +++ quote (join " " ("prototool" :: c_words c)))
| Too_many : forall more n, c_most c = Some (S n) -> S n < length (arguments items ++ tail_args more) ->
    unreadable csv c items (tail_words more)
      ("accepts at most " +++ itoa (Z.of_nat (S n)) +++ " arg(s), received " +++ itoa (Z.of_nat (length (arguments items ++ tail_args more))))
| Too_few : forall more, length (arguments items ++ tail_args more) < c_least c ->
    unreadable csv c items (tail_words more)
      ("requires at least " +++ itoa (Z.of_nat (c_least c)) +++ " arg(s), only received " +++ itoa (Z.of_nat (length (arguments items ++ tail_args more)))).
