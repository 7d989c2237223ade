(** The %q verb of Go's fmt on byte strings.  Simplification: bytes >= 0x80 are
    copied (true for printable UTF-8). *)
From Verif Require Export GoStr.

Definition hex_char (n : nat) : ascii :=
  if n <? 10 then ascii_of_nat (48 + n) else ascii_of_nat (87 + n).
Definition quote_char (c : ascii) : string :=
  let esc (x : ascii) := String backslash (String x EmptyString) in
  let n := code c in
  if Ascii.eqb c dquote || Ascii.eqb c backslash then esc c
  else if n =? 7 then esc "a"%char
  else if n =? 8 then esc "b"%char
  else if n =? 12 then esc "f"%char
  else if n =? 10 then esc "n"%char
  else if n =? 13 then esc "r"%char
  else if n =? 9 then esc "t"%char
  else if n =? 11 then esc "v"%char
  else if (n <? 32) || (n =? 127)
    then String backslash (String "x" (String (hex_char (n / 16)) (String (hex_char (n mod 16)) EmptyString)))
  else String c EmptyString.
Fixpoint quote_body (s : string) : string :=
  match s with
  | EmptyString => EmptyString
  | String c s' => quote_char c +++ quote_body s'
  end.
Definition quote (s : string) : string :=
  String dquote (quote_body s +++ String dquote EmptyString).
