(** Model of the parts of Go's [path/filepath] (Unix flavour) that prototool
    uses.  The separator is always "/", there are no volume names. *)
From Verif Require Export GoStr.

(** filepath.IsAbs *)
Definition is_abs (p : string) : bool := has_prefix p "/".

(** One step of the element loop of filepath.Clean.  The stack holds the
    elements written so far, last one first. *)
Definition clean_step (rooted : bool) (stack : list string) (c : string) : list string :=
  if is_empty c || String.eqb c "." then stack
  else if String.eqb c ".." then
    match stack with
    | [] => if rooted then [] else [".."]
    | top :: rest => if String.eqb top ".." then ".." :: stack else rest
    end
  else c :: stack.
Definition clean_comps (rooted : bool) (cs : list string) : list string :=
  rev (fold_left (clean_step rooted) cs []).

(** filepath.Clean *)
Definition path_clean (p : string) : string :=
  let cs := clean_comps (is_abs p) (split_char slash p) in
  if is_abs p then "/" +++ join "/" cs
  else match cs with [] => "." | _ => join "/" cs end.

(** The path up to and including its last separator; empty if there is none. *)
Definition upto_last_slash (p : string) : string :=
  srev (trim_left (fun c => negb (Ascii.eqb c slash)) (srev p)).
(** The path after its last separator. *)
Definition after_last_slash (p : string) : string :=
  last (split_char slash p) EmptyString.

(** filepath.Dir *)
Definition path_dir (p : string) : string := path_clean (upto_last_slash p).

(** filepath.Base *)
Definition path_base (p : string) : string :=
  if is_empty p then "."
  else
    let p1 := trim_right (fun c => Ascii.eqb c slash) p in
    let b := after_last_slash p1 in
    if is_empty b then "/" else b.

(** filepath.Ext: the suffix of the last element from its last dot. *)
Definition dot : ascii := ".".
Definition path_ext (p : string) : string :=
  let b := after_last_slash p in
  if sexists (fun c => Ascii.eqb c dot) b
  then "." +++ last (split_char dot b) EmptyString
  else EmptyString.

(** filepath.Join *)
Fixpoint path_join (elems : list string) : string :=
  match elems with
  | [] => EmptyString
  | e :: es => if is_empty e then path_join es else path_clean (join "/" elems)
  end.

(** filepath.Abs, given the current working directory. *)
Definition path_abs (cwd p : string) : string :=
  if is_abs p then path_clean p else path_join [cwd; p].

(** Elements of a cleaned path. *)
Definition elems (p : string) : list string :=
  filter (fun c => negb (is_empty c)) (split_char slash p).
Fixpoint strip_common (a b : list string) : list string * list string :=
  match a, b with
  | x :: a', y :: b' => if String.eqb x y then strip_common a' b' else (a, b)
  | _, _ => (a, b)
  end.
(** filepath.Rel; [Err] when the target cannot be made relative. *)
Definition path_rel (base targ : string) : result string :=
  let b := path_clean base in
  let t := path_clean targ in
  if String.eqb t b then Ok "."
  else
    let b := if String.eqb b "." then EmptyString else b in
    if negb (Bool.eqb (is_abs b) (is_abs t)) then Err ("Rel: can't make " +++ targ +++ " relative to " +++ base)
    else
      let '(rb, rt) := strip_common (elems b) (elems t) in
      match rb with
      | [] => Ok (join "/" rt)
      | x :: _ =>
          if String.eqb x ".." then Err ("Rel: can't make " +++ targ +++ " relative to " +++ base)
          else Ok (join "/" (map (fun _ => "..") rb ++ rt))
      end.
