(** Go slices of strings: backing arrays on a heap, lengths and capacities, append. *)
From Verif Require Export GoStr.

(** The backing arrays made so far. *)
Definition heap : Type := list (list string).
(** A slice that starts at the beginning of its array; nil has no array. *)
Record slice : Type := mk_slice { sl_array : option nat; sl_len : nat }.
Definition nil_slice : slice := mk_slice None 0.
Definition array_of (h : heap) (s : slice) : list string :=
  match sl_array s with None => [] | Some i => nth i h [] end.
(** The elements of a slice. *)
Definition sl_elements (h : heap) (s : slice) : list string := firstn (sl_len s) (array_of h s).
Fixpoint set_nth (i : nat) (a : list string) (h : heap) : heap :=
  match h, i with
  | [], _ => []
  | _ :: r, 0 => a :: r
  | x :: r, S i => x :: set_nth i a r
  end.
(** append(s, xs...): in place when the capacity is enough, else into a new array.
    [grow], given the old capacity and the new length, is how much is spare there. *)
Definition sl_append (grow : nat -> nat -> nat) (h : heap) (s : slice) (xs : list string) : heap * slice :=
  let a := array_of h s in
  let n := sl_len s + length xs in
  if n <=? length a then
    match sl_array s with
    | None => (h, s)
    | Some i => (set_nth i (firstn (sl_len s) a ++ xs ++ skipn n a) h, mk_slice (Some i) n)
    end
  else
    (h ++ [firstn (sl_len s) a ++ xs ++ repeat "" (grow (length a) n)], mk_slice (Some (length h)) n).
