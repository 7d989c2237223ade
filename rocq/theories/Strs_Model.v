(** Model of internal/strs/strs.go and internal/protostrs/protostrs.go.

    Strings are byte strings.  Go iterates over runes; for valid UTF-8 the
    bytes of a multi-byte rune are all >= 0x80, so every ASCII test below is
    false on them and they are copied unchanged, as in Go.  Simplification:
    invalid UTF-8 (which Go replaces by U+FFFD) and case mapping of non-ASCII
    letters are not modelled. *)
From Verif Require Export GoStr GoPath.

Definition underscore : ascii := "_".
Definition is_underscore (c : ascii) : bool := Ascii.eqb c underscore.

(** First and last byte. *)
Definition head_is (f : ascii -> bool) (s : string) : bool :=
  match s with EmptyString => false | String c _ => f c end.
Definition last_is (f : ascii -> bool) (s : string) : bool := head_is f (srev s).

(** strs.go:37-43 *)
Definition is_capitalized (s : string) : bool := head_is is_upper s.
(** strs.go:48-58 *)
Definition is_camel_case (s : string) : bool :=
  negb (is_empty s) && sforall (fun c => is_letter c || is_digit c) s.
(** strs.go:62-72 *)
Definition is_lower_snake_case (s : string) : bool :=
  negb (is_empty s || head_is is_underscore s || last_is is_underscore s)
  && sforall (fun c => is_lower c || is_digit c || is_underscore c) s.
(** strs.go:76-86 *)
Definition is_upper_snake_case (s : string) : bool :=
  negb (is_empty s || head_is is_underscore s || last_is is_underscore s)
  && sforall (fun c => is_upper c || is_digit c || is_underscore c) s.
(** strs.go:248-258 *)
Definition is_snake (s : string) : bool :=
  negb (is_empty s || head_is is_underscore s || last_is is_underscore s)
  && sforall (fun c => is_letter c || is_digit c || is_underscore c) s.

(** strs.go:265-271, the loop for i > 0.  [prev] is s[i-1]; it is also the last
    byte of the output so far, since every iteration ends by writing s[i]. *)
Fixpoint snake_loop (prev : ascii) (s : string) : string :=
  match s with
  | EmptyString => EmptyString
  | String c s' =>
      let next_not_upper :=
        match s' with EmptyString => false | String n _ => negb (is_upper n) end in
      if is_upper c && negb (is_underscore prev) && (next_not_upper || is_lower prev)
      then String underscore (String c (snake_loop c s'))
      else String c (snake_loop c s')
  end.
(** strs.go:262-273 *)
Definition to_snake (s : string) : string :=
  match trim_space s with
  | EmptyString => EmptyString
  | String c s' => String c (snake_loop c s')
  end.
(** strs.go:89-91 *)
Definition to_lower_snake_case (s : string) : string := to_lower (to_snake s).
(** strs.go:94-96 *)
Definition to_upper_snake_case (s : string) : string := to_upper (to_snake s).

(** strs.go:291-293 *)
Definition is_delimiter (c : ascii) : bool :=
  Ascii.eqb c "-" || is_underscore c || Ascii.eqb c " "
  || Ascii.eqb c (ascii_of_nat 9) || Ascii.eqb c newline || Ascii.eqb c (ascii_of_nat 13).
(** strs.go:109-118; [start] is "i == 0 || isDelimiter(previous)". *)
Fixpoint camel_loop (start : bool) (s : string) : string :=
  match s with
  | EmptyString => EmptyString
  | String c s' =>
      if is_delimiter c then camel_loop true s'
      else String (if start || is_upper c then upper_char c else lower_char c) (camel_loop false s')
  end.
(** strs.go:106-120 *)
Definition to_upper_camel_case (s : string) : string := camel_loop true (trim_space s).

(** strs.go:152-163; [prev_us] is "previous == '_'", [cur] is curWord. *)
Fixpoint words_loop (prev_us : bool) (cur : string) (s : string) : list string :=
  match s with
  | EmptyString => if is_empty cur then [] else [cur]
  | String c s' =>
      if is_underscore c then words_loop true cur s'
      else if prev_us then
        (if is_empty cur then [] else [cur]) ++ words_loop false (String c EmptyString) s'
      else words_loop false (cur +++ String c EmptyString) s'
  end.
(** strs.go:141-168; nil is the empty list. *)
Definition split_snake_case_word (s : string) : list string :=
  let s := trim_space s in
  if is_snake s then words_loop false EmptyString s else [].
(** strs.go:126-135 *)
Definition split_camel_case_word (s : string) : list string :=
  let s := trim_space s in
  if is_camel_case s then split_snake_case_word (to_snake s) else [].

(** strs.go:191-198; the map is its list of keys in some order. *)
Definition map_to_sorted_slice (m : list string) : list string := sort_strings m.
(** strs.go:177-188 *)
Definition sort_uniq_modify (modifier : string -> string) (s : list string) : list string :=
  map_to_sorted_slice (dedup (filter (fun e => negb (is_empty e)) (map modifier s))).
(** strs.go:171-173 *)
Definition sort_uniq (s : list string) : list string := sort_uniq_modify (fun x => x) s.
(** strs.go:202-228 *)
Definition intersection (one two : list string) : list string :=
  let m1 := dedup (filter (fun e => negb (is_empty e)) one) in
  let m2 := dedup (filter (fun e => negb (is_empty e)) two) in
  sort_strings (filter (fun k => mem k m2) m1).
(** strs.go:231-236 *)
Definition is_lowercase (s : string) : bool := negb (is_empty s) && String.eqb (to_lower s) s.
(** strs.go:239-244 *)
Definition is_uppercase (s : string) : bool := negb (is_empty s) && String.eqb (to_upper s) s.

(** ** protostrs *)
(** strconv.ParseUint(s, 10, 64) *)
Definition two_64 : N := 18446744073709551616%N.
Fixpoint digits_value (acc : N) (s : string) : option N :=
  match s with
  | EmptyString => Some acc
  | String c s' =>
      if is_digit c then digits_value (acc * 10 + N.of_nat (code c - 48)) s' else None
  end.
Definition parse_uint (s : string) : option N :=
  if is_empty s then None
  else match digits_value 0 s with
       | Some n => if (n <? two_64)%N then Some n else None
       | None => None
       end.

(** strings.Split(s, sub) for a non-empty [sub]; the fuel [S (length s)] is
    always enough because every cut consumes at least one byte. *)
Fixpoint cut_str (sub s : string) : option (string * string) :=
  if has_prefix s sub then Some (EmptyString, sdrop (String.length sub) s)
  else match s with
       | EmptyString => None
       | String c s' =>
           match cut_str sub s' with
           | Some (a, b) => Some (String c a, b)
           | None => None
           end
       end.
Fixpoint split_str_fuel (fuel : nat) (sub s : string) : list string :=
  match fuel with
  | 0 => [s]
  | S f =>
      match cut_str sub s with
      | None => [s]
      | Some (a, b) => a :: split_str_fuel f sub b
      end
  end.
Definition split_str (sub s : string) : list string := split_str_fuel (S (String.length s)) sub s.

(** protostrs.go:174-227.  [None] is the result (0, 0, false). *)
Definition major_beta_version (pkg : string) : option (N * N) :=
  if is_empty pkg then None
  else
    let split := split_char dot pkg in
    if length split <? 2 then None
    else
      let version_part := last split EmptyString in
      if String.length version_part <? 2 then None
      else match version_part with
      | EmptyString => None
      | String v version_string =>
          if negb (Ascii.eqb v "v") then None
          else match split_str "beta" version_string with
          | [_] =>
              match parse_uint version_string with
              | None => None
              | Some version => if (version =? 0)%N then None else Some (version, 0%N)
              end
          | [major_string; beta_string] =>
              if is_empty major_string || is_empty beta_string then None
              else match parse_uint major_string with
              | None => None
              | Some major =>
                  match parse_uint beta_string with
                  | None => None
                  | Some beta =>
                      if (major =? 0)%N || (beta =? 0)%N then None else Some (major, beta)
                  end
              end
          | _ => None
          end
      end.

(** strings.Title on ASCII: a letter is upper-cased when the byte before it is
    a separator, that is neither letter, digit nor underscore. *)
Fixpoint title_loop (start : bool) (s : string) : string :=
  match s with
  | EmptyString => EmptyString
  | String c s' =>
      String (if start then upper_char c else c)
        (title_loop (negb (is_letter c || is_digit c || is_underscore c)) s')
  end.
Definition title (s : string) : string := title_loop true s.

(** int(v) for a uint64 [v] on a 64-bit platform: two's complement. *)
Definition two_63 : N := 9223372036854775808%N.
Definition int_of_uint64 (v : N) : Z :=
  if (v <? two_63)%N then Z.of_N v else (Z.of_N v - Z.of_N two_64)%Z.
(** protostrs.go:39-51 *)
Definition csharp_namespace (pkg : string) : string :=
  if is_empty pkg then EmptyString
  else match major_beta_version pkg with
  | None => title pkg
  | Some (major, beta) =>
      if (major =? 0)%N || (beta =? 0)%N then title pkg
      else title (join "." (removelast (split_char dot pkg)))
           +++ ".V" +++ itoa (int_of_uint64 major) +++ "Beta" +++ itoa (int_of_uint64 beta)
  end.
(** protostrs.go:56-58 *)
Definition two_backslashes : string := String backslash (String backslash EmptyString).
Definition php_namespace (pkg : string) : string :=
  replace_char dot two_backslashes (csharp_namespace pkg).
(** protostrs.go:64-70 *)
Definition go_package (pkg : string) : string :=
  if is_empty pkg then EmptyString else last (split_char dot pkg) EmptyString +++ "pb".
(** protostrs.go:75-84 *)
Definition go_package_v2 (pkg : string) : string :=
  if is_empty pkg then EmptyString
  else match major_beta_version pkg with
  | None => go_package pkg
  | Some _ =>
      let split := split_char dot pkg in
      last (removelast split) EmptyString +++ last split EmptyString
  end.
(** protostrs.go:91-98 *)
Definition java_outer_classname (filename : string) : string :=
  if is_empty filename then EmptyString
  else
    let filename := path_base filename in
    let filename := trim_suffix filename (path_ext filename) in
    to_upper_camel_case filename +++ "Proto".
(** protostrs.go:103-108 *)
Definition java_package (pkg : string) : string :=
  if is_empty pkg then EmptyString else "com." +++ pkg.
(** protostrs.go:114-122 *)
Definition java_package_prefix_override (pkg prefix_override : string) : string :=
  if is_empty pkg then EmptyString
  else if negb (is_empty prefix_override) then prefix_override +++ "." +++ pkg
  else "com." +++ pkg.
(** protostrs.go:130-167 *)
Fixpoint first_letters (parts : list string) : string :=
  match parts with
  | [] => EmptyString
  | EmptyString :: ps => first_letters ps
  | String c _ :: ps => String (upper_char c) (first_letters ps)
  end.
Definition objc_class_prefix (pkg : string) : string :=
  if is_empty pkg then EmptyString
  else
    let split := split_char dot pkg in
    let split := match major_beta_version pkg with Some _ => removelast split | None => split end in
    let s := first_letters split in
    match String.length s with
    | 0 => EmptyString
    | 1 => s +++ "XX"
    | 2 => s +++ "X"
    | 3 => if String.eqb s "GPB" then "GPX" else s
    | _ => s
    end.
