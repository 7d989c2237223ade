(** The part of Go's [regexp] that internal/protoc uses: leftmost matches, greedy
    repetition, no nested groups.  Bytes stand for characters; the text has no newline,
    so a dot is any byte. *)
From Verif Require Export GoStr.

Inductive item : Type :=
| Lit (s : string)   (* the text itself *)
| Dot                (* .  *)
| Dots               (* .* *)
| Nums               (* \d+ *)
| Open | Close       (* ( and ) *)
| End.               (* $ *)
(** The bytes of the open group, if there is one. *)
Definition took (cur : option string) (s : string) : option string :=
  match cur with None => None | Some g => Some (g +++ s) end.
(** Match all of [is] at the beginning of [s]; the text of the groups. *)
Fixpoint match_at (is : list item) (s : string) (cur : option string) {struct is} : option (list string) :=
  match is with
  | [] => Some []
  | Lit l :: r => if has_prefix s l then match_at r (sdrop (String.length l) s) (took cur l) else None
  | Dot :: r => match s with String c s' => match_at r s' (took cur (String c EmptyString)) | EmptyString => None end
  | Dots :: r =>
      (fix dots (s : string) (cur : option string) {struct s} : option (list string) :=
         match s with
         | EmptyString => match_at r s cur
         | String c s' =>
             match dots s' (took cur (String c EmptyString)) with
             | Some g => Some g
             | None => match_at r s cur
             end
         end) s cur
  | Nums :: r =>
      (fix nums (first : bool) (s : string) (cur : option string) {struct s} : option (list string) :=
         let stop := if first then None else match_at r s cur in
         match s with
         | EmptyString => stop
         | String c s' =>
             if is_digit c then
               match nums false s' (took cur (String c EmptyString)) with
               | Some g => Some g
               | None => stop
               end
             else stop
         end) true s cur
  | Open :: r => match_at r s (Some EmptyString)
  | Close :: r =>
      match cur with
      | None => None
      | Some g => match match_at r s None with Some gs => Some (g :: gs) | None => None end
      end
  | End :: r => match s with EmptyString => match_at r s cur | String _ _ => None end
  end.
(** The leftmost match. *)
Fixpoint search (is : list item) (s : string) : option (list string) :=
  match match_at is s None with
  | Some g => Some g
  | None => match s with EmptyString => None | String _ s' => search is s' end
  end.
(** FindStringSubmatch without its first element; [anchored] when the expression begins
    with ^. *)
Record regexp : Type := mk_regexp { re_anchored : bool; re_items : list item }.
Definition re_find (re : regexp) (s : string) : option (list string) :=
  if re_anchored re then match_at (re_items re) s None else search (re_items re) s.
