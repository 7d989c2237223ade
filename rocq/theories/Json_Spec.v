(** Reading JSON (RFC 8259) and UTF-8 (RFC 3629), as far as flat objects of strings and whole
    numbers need it.  Nothing here is taken from the model. *)
From Coq Require Import String Ascii NArith ZArith List Bool.
Import ListNotations.
Open Scope string_scope.

(** ** UTF-8 *)
Definition octet (n : N) : ascii := ascii_of_N n.
Definition utf8 (n : N) : string :=
  if (n <? 128)%N then String (octet n) ""
  else if (n <? 2048)%N then String (octet (192 + n / 64)) (String (octet (128 + n mod 64)) "")
  else if (n <? 65536)%N then
    String (octet (224 + n / 4096)) (String (octet (128 + (n / 64) mod 64)) (String (octet (128 + n mod 64)) ""))
  else
    String (octet (240 + n / 262144)) (String (octet (128 + (n / 4096) mod 64))
      (String (octet (128 + (n / 64) mod 64)) (String (octet (128 + n mod 64)) ""))).
(** The code points of characters: not the surrogates. *)
Definition character (n : N) : Prop := (n < 55296 \/ (57344 <= n /\ n < 1114112))%N.
Inductive in_utf8 : string -> Prop :=
| utf8_none : in_utf8 ""
| utf8_more n s : character n -> in_utf8 s -> in_utf8 (utf8 n ++ s).
(** The text with U+FFFD for each byte that no character starts at. *)
Inductive legible : string -> string -> Prop :=
| legible_none : legible "" ""
| legible_char n s t : character n -> legible s t -> legible (utf8 n ++ s) (utf8 n ++ t)
| legible_byte c s t : (forall n r, character n -> String c s <> utf8 n ++ r) -> legible s t ->
    legible (String c s) (utf8 65533 ++ t).

(** ** JSON *)
Inductive value : Type := JText (s : string) | JNumber (z : Z).
Definition hex_digit (c : ascii) : option N :=
  let n := N_of_ascii c in
  if (48 <=? n)%N && (n <=? 57)%N then Some (n - 48)%N
  else if (97 <=? n)%N && (n <=? 102)%N then Some (n - 87)%N
  else if (65 <=? n)%N && (n <=? 70)%N then Some (n - 55)%N
  else None.
Definition hex_four (a b c d : ascii) : option N :=
  match hex_digit a, hex_digit b, hex_digit c, hex_digit d with
  | Some a, Some b, Some c, Some d => Some (((a * 16 + b) * 16 + c) * 16 + d)%N
  | _, _, _, _ => None
  end.
Definition quotation : ascii := """".
Definition reverse_solidus : ascii := "\".
Definition put (s : string) (r : option (string * string)) : option (string * string) :=
  match r with Some (t, rest) => Some (s ++ t, rest) | None => None end.
(** The characters up to the quotation mark, and what follows it.  An escaped surrogate is not
    read. *)
Fixpoint read_chars (s : string) : option (string * string) :=
  match s with
  | "" => None
  | String a s1 =>
      if Ascii.eqb a quotation then Some ("", s1)
      else if Ascii.eqb a reverse_solidus then
        match s1 with
        | "" => None
        | String e s2 =>
            if Ascii.eqb e quotation || Ascii.eqb e reverse_solidus || Ascii.eqb e "/" then put (String e "") (read_chars s2)
            else if Ascii.eqb e "b" then put (utf8 8) (read_chars s2)
            else if Ascii.eqb e "f" then put (utf8 12) (read_chars s2)
            else if Ascii.eqb e "n" then put (utf8 10) (read_chars s2)
            else if Ascii.eqb e "r" then put (utf8 13) (read_chars s2)
            else if Ascii.eqb e "t" then put (utf8 9) (read_chars s2)
            else if Ascii.eqb e "u" then
              match s2 with
              | String h1 (String h2 (String h3 (String h4 s3))) =>
                  match hex_four h1 h2 h3 h4 with
                  | Some n => if (55296 <=? n)%N && (n <? 57344)%N then None else put (utf8 n) (read_chars s3)
                  | None => None
                  end
              | _ => None
              end
            else None
        end
      else if (N_of_ascii a <? 32)%N then None
      else put (String a "") (read_chars s1)
  end.
Definition white (c : ascii) : bool :=
  let n := N_of_ascii c in (n =? 32)%N || (n =? 9)%N || (n =? 10)%N || (n =? 13)%N.
Fixpoint skip (s : string) : string :=
  match s with String c r => if white c then skip r else s | "" => "" end.
Definition digit (c : ascii) : option N :=
  let n := N_of_ascii c in if (48 <=? n)%N && (n <=? 57)%N then Some (n - 48)%N else None.
Fixpoint read_digits (n : N) (s : string) : N * string :=
  match s with
  | String c r => match digit c with Some d => read_digits (10 * n + d) r | None => (n, s) end
  | "" => (n, s)
  end.
(** No zero at the front of other digits. *)
Definition read_natural (s : string) : option (N * string) :=
  match s with
  | String c r =>
      match digit c with
      | Some d => if (d =? 0)%N then Some (0%N, r) else Some (read_digits d r)
      | None => None
      end
  | "" => None
  end.
Definition read_value (s : string) : option (value * string) :=
  match s with
  | "" => None
  | String c r =>
      if Ascii.eqb c quotation then match read_chars r with Some (t, rest) => Some (JText t, rest) | None => None end
      else if Ascii.eqb c "-" then match read_natural r with Some (n, rest) => Some (JNumber (- Z.of_N n), rest) | None => None end
      else match read_natural s with Some (n, rest) => Some (JNumber (Z.of_N n), rest) | None => None end
  end.
(** The members up to the closing brace, of which there are at most so many. *)
Fixpoint read_members (most : nat) (s : string) : option (list (string * value) * string) :=
  match most with
  | 0 => None
  | S most =>
      match skip s with
      | String c r =>
          if Ascii.eqb c quotation then
            match read_chars r with
            | Some (name, r) =>
                match skip r with
                | String c r =>
                    if Ascii.eqb c ":" then
                      match read_value (skip r) with
                      | Some (v, r) =>
                          match skip r with
                          | String c r =>
                              if Ascii.eqb c "," then
                                match read_members most r with Some (l, r) => Some ((name, v) :: l, r) | None => None end
                              else if Ascii.eqb c "}" then Some ([(name, v)], r)
                              else None
                          | "" => None
                          end
                      | None => None
                      end
                    else None
                | "" => None
                end
            | None => None
            end
          else None
      | "" => None
      end
  end.
(** The names and values of the object that is the whole text. *)
Definition read_object (s : string) : option (list (string * value)) :=
  match skip s with
  | String c r =>
      if Ascii.eqb c "{" then
        match skip r with
        | String c' r' =>
            if Ascii.eqb c' "}" then (if String.eqb (skip r') "" then Some [] else None)
            else match read_members (String.length r) r with
                 | Some (l, rest) => if String.eqb (skip rest) "" then Some l else None
                 | None => None
                 end
        | "" => None
        end
      else None
  | "" => None
  end.
