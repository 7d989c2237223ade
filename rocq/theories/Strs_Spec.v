(** Independent vocabulary for the string properties. *)
From Verif Require Export GoStr.

(** [Decimal s n]: [s] is a decimal numeral (leading zeros allowed) denoting [n]. *)
Definition digit_value (c : ascii) : N := N.of_nat (nat_of_ascii c - 48).
Inductive Decimal : string -> N -> Prop :=
| Decimal_one : forall c, is_digit c = true -> Decimal (String c EmptyString) (digit_value c)
| Decimal_more : forall s n c, Decimal s n -> is_digit c = true ->
    Decimal (s +++ String c EmptyString) (10 * n + digit_value c).

(** A version number: from 1 to the largest unsigned 64-bit number. *)
Definition version_number (n : N) : Prop := (1 <= n <= 18446744073709551615)%N.

(** The last component of a versioned package: vN (stable, beta 0) or vNbetaM. *)
Inductive VersionPart : string -> N -> N -> Prop :=
| Stable : forall d n, Decimal d n -> version_number n -> VersionPart ("v" +++ d) n 0
| Beta : forall d n e m, Decimal d n -> version_number n -> Decimal e m -> version_number m ->
    VersionPart ("v" +++ d +++ "beta" +++ e) n m.

(** [s] does not contain the byte [c]. *)
Fixpoint lacks (c : ascii) (s : string) : Prop :=
  match s with EmptyString => True | String a s' => a <> c /\ lacks c s' end.

(** A package name ending in the component [part]: something, a dot, [part]. *)
Definition last_component (pkg base part : string) : Prop :=
  pkg = base +++ "." +++ part /\ lacks "." part.

(** Every byte satisfies [f]. *)
Definition all_chars (f : ascii -> Prop) (s : string) : Prop :=
  forall a c b, s = a +++ String c b -> f c.
(** Documented shape of snake case: only the given letters, digits and
    underscores; not empty; no underscore at either end. *)
Definition snake_shape (letter : ascii -> bool) (s : string) : Prop :=
  s <> EmptyString
  /\ all_chars (fun c => letter c = true \/ is_digit c = true \/ c = "_"%char) s
  /\ (forall r, s <> "_" +++ r) /\ (forall r, s <> r +++ "_").
(** CamelCase: letters and digits only, not empty. *)
Definition camel_shape (s : string) : Prop :=
  s <> EmptyString /\ all_chars (fun c => is_letter c = true \/ is_digit c = true) s.

(** The string without its underscores. *)
Fixpoint without_underscores (s : string) : string :=
  match s with
  | EmptyString => EmptyString
  | String c s' => if Ascii.eqb c "_" then without_underscores s' else String c (without_underscores s')
  end.

(** A Protobuf identifier. *)
Definition ident (s : string) : Prop :=
  exists c r, s = String c r /\ (is_letter c = true \/ c = "_"%char)
    /\ all_chars (fun c => is_letter c = true \/ is_digit c = true \/ c = "_"%char) r.
(** First letter in upper case, the rest unchanged. *)
Definition capitalize (s : string) : string :=
  match s with EmptyString => EmptyString | String c r => String (upper_char c) r end.

(** First letter, in upper case. *)
Definition initial (s : string) : string :=
  match s with EmptyString => EmptyString | String c _ => String (upper_char c) EmptyString end.

(** Strictly increasing list of strings. *)
Inductive Increasing : list string -> Prop :=
| Inc_nil : Increasing []
| Inc_cons : forall x l, (forall y, In y l -> str_ltb x y = true) -> Increasing l -> Increasing (x :: l).

(** A word starts at [c], after [p] and before [rest]: [c] is upper case, and follows a
    lower case letter or is not followed by another upper case letter. *)
Definition word_starts (p c : ascii) (rest : string) : Prop :=
  is_upper c = true /\ (is_lower p = true \/ exists n r, rest = String n r /\ is_upper n = false).
(** [ws] are the words of [s]. *)
Definition words_of (s : string) (ws : list string) : Prop :=
  Forall (fun w => w <> EmptyString) ws /\ s = join EmptyString ws /\
  forall a p c r, s = a +++ String p (String c r) ->
    (word_starts p c r <->
     exists w1 w2, ws = w1 ++ w2 /\ join EmptyString w1 = a +++ String p EmptyString /\ join EmptyString w2 = String c r).
