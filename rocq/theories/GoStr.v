(** Model of the parts of Go's [strings] and [sort] packages that prototool
    uses.  Go strings are byte strings; case mapping is modelled on ASCII only
    (simplification: Unicode case folding of non-ASCII input is the identity). *)
From Coq Require Export String Ascii List Bool Arith NArith ZArith.
From Coq Require Export Permutation.
Export ListNotations.
Open Scope string_scope.
Open Scope list_scope.
Open Scope bool_scope.
Open Scope nat_scope.

Infix "+++" := String.append (right associativity, at level 60).

(** A Go call that returns [(T, error)]; the error value is its message. *)
Inductive result (A : Type) : Type :=
| Ok (a : A)
| Err (msg : string).
Arguments Ok {A} a.
Arguments Err {A} msg.

Definition is_ok {A} (r : result A) : bool :=
  match r with Ok _ => true | Err _ => false end.

Definition bind {A B} (r : result A) (f : A -> result B) : result B :=
  match r with Ok a => f a | Err m => Err m end.

Notation "'do' x <- r ; k" := (bind r (fun x => k))
  (at level 200, x name, r at level 100, k at level 200).

(** Sequencing over a list, stopping at the first error. *)
Fixpoint mapM {A B} (f : A -> result B) (l : list A) : result (list B) :=
  match l with
  | [] => Ok []
  | x :: l' => do y <- f x; do ys <- mapM f l'; Ok (y :: ys)
  end.

(** ** Characters *)
Definition code (c : ascii) : nat := nat_of_ascii c.
Definition in_range (lo hi : ascii) (c : ascii) : bool :=
  (code lo <=? code c) && (code c <=? code hi).
Definition is_upper (c : ascii) : bool := in_range "A" "Z" c.
Definition is_lower (c : ascii) : bool := in_range "a" "z" c.
Definition is_letter (c : ascii) : bool := is_upper c || is_lower c.
Definition is_digit (c : ascii) : bool := in_range "0" "9" c.
(** unicode.IsSpace restricted to ASCII: tab, newline, vertical tab, form feed,
    carriage return, space. *)
Definition is_space (c : ascii) : bool :=
  ((9 <=? code c) && (code c <=? 13)) || (code c =? 32).
Definition lower_char (c : ascii) : ascii :=
  if is_upper c then ascii_of_nat (code c + 32) else c.
Definition upper_char (c : ascii) : ascii :=
  if is_lower c then ascii_of_nat (code c - 32) else c.

Definition newline : ascii := ascii_of_nat 10.
Definition slash : ascii := "/".
Definition dquote : ascii := ascii_of_nat 34.
Definition backslash : ascii := ascii_of_nat 92.

(** ** Strings *)
Fixpoint smap (f : ascii -> ascii) (s : string) : string :=
  match s with
  | EmptyString => EmptyString
  | String c s' => String (f c) (smap f s')
  end.
Fixpoint sforall (f : ascii -> bool) (s : string) : bool :=
  match s with
  | EmptyString => true
  | String c s' => f c && sforall f s'
  end.
Fixpoint sexists (f : ascii -> bool) (s : string) : bool :=
  match s with
  | EmptyString => false
  | String c s' => f c || sexists f s'
  end.
(** strings.ToLower / strings.ToUpper *)
Definition to_lower : string -> string := smap lower_char.
Definition to_upper : string -> string := smap upper_char.

Definition is_empty (s : string) : bool :=
  match s with EmptyString => true | _ => false end.

(** strings.HasPrefix *)
Fixpoint has_prefix (s p : string) {struct p} : bool :=
  match p, s with
  | EmptyString, _ => true
  | String _ _, EmptyString => false
  | String a p', String b s' => Ascii.eqb a b && has_prefix s' p'
  end.

(** [s] without its first [n] bytes. *)
Fixpoint sdrop (n : nat) (s : string) : string :=
  match n, s with
  | 0, _ => s
  | S _, EmptyString => EmptyString
  | S n', String _ s' => sdrop n' s'
  end.
Fixpoint stake (n : nat) (s : string) : string :=
  match n, s with
  | 0, _ => EmptyString
  | S _, EmptyString => EmptyString
  | S n', String c s' => String c (stake n' s')
  end.

(** strings.HasSuffix *)
Definition has_suffix (s p : string) : bool :=
  (String.length p <=? String.length s)
  && String.eqb (sdrop (String.length s - String.length p) s) p.

(** strings.TrimPrefix / strings.TrimSuffix *)
Definition trim_prefix (s p : string) : string :=
  if has_prefix s p then sdrop (String.length p) s else s.
Definition trim_suffix (s p : string) : string :=
  if has_suffix s p then stake (String.length s - String.length p) s else s.

(** strings.Contains *)
Fixpoint contains (s sub : string) : bool :=
  has_prefix s sub
  || match s with
     | EmptyString => false
     | String _ s' => contains s' sub
     end.

Fixpoint srev_app (s acc : string) : string :=
  match s with
  | EmptyString => acc
  | String c s' => srev_app s' (String c acc)
  end.
Definition srev (s : string) : string := srev_app s EmptyString.

(** strings.TrimLeftFunc / TrimRightFunc / TrimFunc *)
Fixpoint trim_left (f : ascii -> bool) (s : string) : string :=
  match s with
  | EmptyString => EmptyString
  | String c s' => if f c then trim_left f s' else s
  end.
Fixpoint trim_right (f : ascii -> bool) (s : string) : string :=
  match s with
  | EmptyString => EmptyString
  | String c s' =>
      match trim_right f s' with
      | EmptyString => if f c then EmptyString else String c EmptyString
      | r => String c r
      end
  end.
Definition trim_space (s : string) : string :=
  trim_right is_space (trim_left is_space s).

(** strings.Split with a one-byte separator; never returns the empty list. *)
Fixpoint split_char (sep : ascii) (s : string) : list string :=
  match s with
  | EmptyString => [EmptyString]
  | String c s' =>
      if Ascii.eqb c sep then EmptyString :: split_char sep s'
      else match split_char sep s' with
           | [] => [String c EmptyString]
           | h :: t => String c h :: t
           end
  end.

(** strings.Join *)
Fixpoint join (sep : string) (l : list string) : string :=
  match l with
  | [] => EmptyString
  | [x] => x
  | x :: l' => x +++ sep +++ join sep l'
  end.

(** strings.Replace(s, string(c), r, -1) for a one-byte needle. *)
Fixpoint replace_char (c : ascii) (r : string) (s : string) : string :=
  match s with
  | EmptyString => EmptyString
  | String a s' =>
      if Ascii.eqb a c then r +++ replace_char c r s'
      else String a (replace_char c r s')
  end.

(** strings.Repeat *)
Fixpoint srepeat (s : string) (n : nat) : string :=
  match n with
  | 0 => EmptyString
  | S n' => s +++ srepeat s n'
  end.

(** ** Bytewise order, as used by [<] on Go strings *)
Fixpoint str_leb (a b : string) : bool :=
  match a, b with
  | EmptyString, _ => true
  | String _ _, EmptyString => false
  | String x a', String y b' =>
      if code x <? code y then true
      else if code y <? code x then false
      else str_leb a' b'
  end.
Definition str_ltb (a b : string) : bool := negb (str_leb b a).

(** ** Sorting *)
(** sort.Stable / sort.Strings: insertion sort.  For [sort.Slice], which is not
    stable, theorems about orders with ties quantify over every sorted
    permutation instead. *)
Section Sort.
  Context {A : Type} (leb : A -> A -> bool).
  Fixpoint insert (x : A) (l : list A) : list A :=
    match l with
    | [] => [x]
    | y :: l' => if leb x y then x :: l else y :: insert x l'
    end.
  Fixpoint isort (l : list A) : list A :=
    match l with
    | [] => []
    | x :: l' => insert x (isort l')
    end.
End Sort.

Definition sort_strings : list string -> list string := isort str_leb.

Definition mem (s : string) (l : list string) : bool := existsb (String.eqb s) l.

(** Distinct elements, keeping the last occurrence of each. *)
Fixpoint dedup (l : list string) : list string :=
  match l with
  | [] => []
  | x :: l' => if mem x l' then dedup l' else x :: dedup l'
  end.

(** ** Maps with string keys as association lists.  Later bindings of a key are
    removed by [mset], so a map built with [mset] has distinct keys. *)
Section Maps.
  Context {V : Type}.
  Fixpoint mget (k : string) (m : list (string * V)) : option V :=
    match m with
    | [] => None
    | (k', v) :: m' => if String.eqb k k' then Some v else mget k m'
    end.
  Fixpoint mset (k : string) (v : V) (m : list (string * V)) : list (string * V) :=
    match m with
    | [] => [(k, v)]
    | (k', v') :: m' =>
        if String.eqb k k' then (k, v) :: m' else (k', v') :: mset k v m'
    end.
End Maps.
Definition mkeys {V} (m : list (string * V)) : list string := map fst m.

(** Decimal rendering of numbers, as fmt's %d / strconv.Itoa do. *)
Definition digit_char (n : N) : ascii := ascii_of_N (48 + n).
Fixpoint digits_fuel (fuel : nat) (n : N) (acc : string) : string :=
  match fuel with
  | 0 => acc
  | S f =>
      let acc' := String (digit_char (N.modulo n 10)) acc in
      if (n <? 10)%N then acc' else digits_fuel f (N.div n 10) acc'
  end.
Definition itoa_N (n : N) : string := digits_fuel (S (N.to_nat (N.size n))) n EmptyString.
Definition itoa (z : Z) : string :=
  match z with
  | Z0 => itoa_N 0
  | Zpos p => itoa_N (Npos p)
  | Zneg p => "-" +++ itoa_N (Npos p)
  end.
