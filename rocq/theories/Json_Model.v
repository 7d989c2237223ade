(** Model of the JSON texts that internal/exec/runner.go prints with --json: json.Marshal of a
    text.Failure (runner.go:1175-1181, internal/text/text.go:110-116) and json.Encoder with an
    indent for the version (runner.go:146-150).  encoding/json is not part of the code base;
    of it what these calls use is modelled: strings, whole numbers, omitempty and flat
    structs. *)
From Verif Require Export GoStr GoFmt Text_Model.

(** unicode/utf8.DecodeRuneInString: whether so many bytes are one character that is not ASCII *)
Definition byte (c : ascii) : N := N_of_ascii c.
Definition in_bytes (lo hi : N) (c : ascii) : bool := (lo <=? byte c)%N && (byte c <=? hi)%N.
Definition more (c : ascii) : bool := in_bytes 128 191 c.
Definition two_bytes (a b : ascii) : bool := in_bytes 194 223 a && more b.
Definition three_bytes (a b c : ascii) : bool :=
  (if (byte a =? 224)%N then in_bytes 160 191 b
   else if (byte a =? 237)%N then in_bytes 128 159 b
   else in_bytes 225 239 a && more b) && more c.
Definition four_bytes (a b c d : ascii) : bool :=
  (if (byte a =? 240)%N then in_bytes 144 191 b
   else if (byte a =? 244)%N then in_bytes 128 143 b
   else in_bytes 241 243 a && more b) && more c && more d.

(** encoding/json, encodeState.string: one ASCII byte; the characters of HTML are escaped *)
Definition json_char (c : ascii) : string :=
  if Ascii.eqb c dquote || Ascii.eqb c backslash then String backslash (String c "")
  else if Ascii.eqb c newline then String backslash "n"
  else if (byte c =? 13)%N then String backslash "r"
  else if (byte c =? 9)%N then String backslash "t"
  else if (byte c <? 32)%N || Ascii.eqb c "<" || Ascii.eqb c ">" || Ascii.eqb c "&" then
    String backslash ("u00" +++ String (hex_char (code c / 16)) (String (hex_char (code c mod 16)) ""))
  else String c "".
(** U+2028 and U+2029 are escaped, a byte that is not part of a character is replaced. *)
Definition separator (a b c : ascii) : bool := (byte a =? 226)%N && (byte b =? 128)%N && in_bytes 168 169 c.
Fixpoint json_chars (s : string) : string :=
  match s with
  | EmptyString => EmptyString
  | String a s1 =>
      if (byte a <? 128)%N then json_char a +++ json_chars s1
      else
        let replaced := String backslash ("ufffd" +++ json_chars s1) in
        match s1 with
        | EmptyString => replaced
        | String b s2 =>
            if two_bytes a b then String a (String b (json_chars s2))
            else match s2 with
            | EmptyString => replaced
            | String c s3 =>
                if three_bytes a b c then
                  if separator a b c then String backslash ("u202" +++ String (hex_char (code c mod 16)) (json_chars s3))
                  else String a (String b (String c (json_chars s3)))
                else match s3 with
                | EmptyString => replaced
                | String d s4 =>
                    if four_bytes a b c d then String a (String b (String c (String d (json_chars s4)))) else replaced
                end
            end
        end
  end.
Definition json_string (s : string) : string := String dquote (json_chars s +++ String dquote "").

(** A field that is not left out: its name and its value. *)
Definition text_field (name value : string) : list (string * string) :=
  if is_empty value then [] else [(name, json_string value)].
Definition number_field (name : string) (value : Z) : list (string * string) :=
  if Z.eqb value 0 then [] else [(name, itoa value)].
(** internal/text/text.go:110-116 *)
Definition failure_fields (f : failure) : list (string * string) :=
  text_field "filename" (f_filename f) ++ number_field "line" (f_line f) ++ number_field "column" (f_column f)
  ++ text_field "lint_id" (f_lint_id f) ++ text_field "message" (f_message f).
(** json.Marshal *)
Definition failure_json (f : failure) : string :=
  "{" +++ join "," (map (fun kv => json_string (fst kv) +++ ":" +++ snd kv) (failure_fields f)) +++ "}".
(** json.Encoder.Encode after SetIndent("", "  ") *)
Definition indented_json (fields : list (string * string)) : string :=
  match fields with
  | [] => "{}" +++ String newline ""
  | _ =>
      "{" +++ String newline (join ("," +++ String newline "") (map (fun kv => "  " +++ json_string (fst kv) +++ ": " +++ snd kv) fields)
      +++ String newline ("}" +++ String newline ""))
  end.
(** runner.go:131-150: all fields are strings and left out if empty *)
Definition version_json (fields : list (string * string)) : string :=
  indented_json (concat (map (fun kv => text_field (fst kv) (snd kv)) fields)).
