(** Go maps with string or int32 keys, as association lists in insertion order.
    A map built with [gput] has distinct keys.  Go leaves the iteration order
    unspecified; theorems about loops over maps state facts that do not depend
    on the order of the list (membership, error or no error). *)
From Verif Require Export GoStr.

Class Key (K : Type) : Type := {
  keqb : K -> K -> bool;
  keqb_eq : forall a b, keqb a b = true <-> a = b
}.
#[export] Instance key_string : Key string := {| keqb := String.eqb; keqb_eq := String.eqb_eq |}.
#[export] Instance key_Z : Key Z := {| keqb := Z.eqb; keqb_eq := Z.eqb_eq |}.

Section GMap.
  Context {K V : Type} {key : Key K}.
  (** v, ok := m[k] *)
  Fixpoint gget (k : K) (m : list (K * V)) : option V :=
    match m with
    | [] => None
    | (k', v) :: m' => if keqb k k' then Some v else gget k m'
    end.
  (** m[k] = v *)
  Fixpoint gput (k : K) (v : V) (m : list (K * V)) : list (K * V) :=
    match m with
    | [] => [(k, v)]
    | (k', v') :: m' => if keqb k k' then (k, v) :: m' else (k', v') :: gput k v m'
    end.
  (** for _, x := range l { m[k] = v } on an empty map *)
  Definition build (l : list (K * V)) : list (K * V) :=
    fold_left (fun m kv => gput (fst kv) (snd kv) m) l [].
  Definition has (k : K) (m : list (K * V)) : bool :=
    match gget k m with Some _ => true | None => false end.
End GMap.

(** A loop that appends to one slice and stops at the first error. *)
Definition concatM {A B} (f : A -> result (list B)) : list A -> result (list B) :=
  fix go (l : list A) : result (list B) :=
    match l with
    | [] => Ok []
    | x :: l' => do a <- f x; do b <- go l'; Ok (a ++ b)
    end.
