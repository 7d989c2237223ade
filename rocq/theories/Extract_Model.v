(** Model of internal/extract/extract.go.

    Pointers between wrappers are modelled by names: a package's dependency and
    importer maps hold the names of the packages they point to (the pointers
    always point into packageNameToPackage), and the back pointers Message(),
    Enum() and Service() by passing the parent to whoever needs it.  The maps
    fieldNameToField, valueNameToValue and those of MessageOneof are not read by
    any code in the repository and are left out. *)
From Verif Require Export GoMap Reflect_Types Strs_Model.

(** extract.go:456-461 *)
Definition fully_qualified_name (encapsulating name : string) : string :=
  if is_empty encapsulating then name else encapsulating +++ "." +++ name.

(** extract.go:463-471 *)
Definition ignore_package (without_beta : bool) (name : string) : bool :=
  without_beta && match major_beta_version name with
                  | Some (_, beta) => (0 <? beta)%N
                  | None => false
                  end.

(** extract.go:108-114, 348-361 *)
Record x_enum : Type := mk_x_enum { xe_fqn : string; xe_values : list (Z * enum_value) }.
Definition new_enum (e : enum) (encapsulating : string) : x_enum :=
  mk_x_enum (fully_qualified_name encapsulating (en_name e))
    (build (map (fun v => (ev_number v, v)) (en_values e))).

(** extract.go:258-260, 421-432 *)
Record x_service : Type := mk_x_service { xs_fqn : string; xs_methods : list (string * method) }.
Definition new_service (s : service) (encapsulating : string) : x_service :=
  mk_x_service (fully_qualified_name encapsulating (sv_name s))
    (build (map (fun m => (mt_name m, m)) (sv_methods s))).

(** extract.go:201-206: a field and the oneof it is linked to. *)
Definition x_field : Type := (field * option oneof)%type.

(** extract.go:154-163 *)
Inductive x_message : Type :=
  mk_x_message (fqn : string) (enums : list (string * x_enum)) (nested : list (string * x_message))
    (fields : list (Z * x_field)) (oneofs : list (string * oneof)).
Definition xm_fqn (m : x_message) := let '(mk_x_message q _ _ _ _) := m in q.
Definition xm_enums (m : x_message) := let '(mk_x_message _ e _ _ _) := m in e.
Definition xm_nested (m : x_message) := let '(mk_x_message _ _ n _ _) := m in n.
Definition xm_fields (m : x_message) := let '(mk_x_message _ _ _ f _) := m in f.
Definition xm_oneofs (m : x_message) := let '(mk_x_message _ _ _ _ o) := m in o.

(** extract.go:443-451: the inner loop over one oneof's field numbers. *)
Fixpoint link_oneof (o : oneof) (numbers : list Z) (fields : list (Z * x_field))
  : result (list (Z * x_field)) :=
  match numbers with
  | [] => Ok fields
  | n :: rest =>
      match gget n fields with
      | None => Err ("oneof " +++ oo_name o +++ " has field number " +++ itoa n
                     +++ " which is not in the encapsulating message")
      | Some (f, _) => link_oneof o rest (gput n (f, Some o) fields)
      end
  end.
(** extract.go:441-454 *)
Fixpoint link_message_fields_oneofs (fields : list (Z * x_field)) (oneofs : list (string * oneof))
  : result (list (Z * x_field)) :=
  match oneofs with
  | [] => Ok fields
  | (_, o) :: rest =>
      do fields' <- link_oneof o (oo_numbers o) fields;
      link_message_fields_oneofs fields' rest
  end.

(** extract.go:370-403 *)
Fixpoint new_message (m : message) (encapsulating : string) {struct m} : result x_message :=
  let '(mk_message name fields oneofs nested enums) := m in
  let fqn := fully_qualified_name encapsulating name in
  let x_enums := build (map (fun e => (en_name e, new_enum e fqn)) enums) in
  do nested_list <-
    (fix go (l : list message) : result (list (string * x_message)) :=
       match l with
       | [] => Ok []
       | n :: l' => do x <- new_message n fqn; do xs <- go l'; Ok ((msg_name n, x) :: xs)
       end) nested;
  let x_fields := build (map (fun f => (fd_number f, (f, None))) fields) in
  let x_oneofs := build (map (fun o => (oo_name o, o)) oneofs) in
  do linked <- link_message_fields_oneofs x_fields x_oneofs;
  Ok (mk_x_message fqn x_enums (build nested_list) linked x_oneofs).

(** extract.go:56-65 *)
Record x_package : Type := mk_x_package {
  xp_proto : package;
  xp_deps : list (string * unit);
  xp_importers : list (string * unit);
  xp_enums : list (string * x_enum);
  xp_messages : list (string * x_message);
  xp_services : list (string * x_service)
}.
(** extract.go:72-75 *)
Definition xp_fqn (p : x_package) : string := pk_name (xp_proto p).
(** extract.go:32-36; the map packageNameToPackage. *)
Definition x_package_set : Type := list (string * x_package).

(** extract.go:304-316 *)
Definition base_packages (ps : package_set) (without_beta : bool) : x_package_set :=
  build (map (fun p => (pk_name p, mk_x_package p [] [] [] [] []))
             (filter (fun p => negb (ignore_package without_beta (pk_name p))) ps)).

Definition add_dep (d : string) (p : x_package) : x_package :=
  mk_x_package (xp_proto p) (gput d tt (xp_deps p)) (xp_importers p) (xp_enums p) (xp_messages p) (xp_services p).
Definition add_importer (i : string) (p : x_package) : x_package :=
  mk_x_package (xp_proto p) (xp_deps p) (gput i tt (xp_importers p)) (xp_enums p) (xp_messages p) (xp_services p).
(** m[k] = f(m[k]) through a pointer: does nothing when [k] is absent. *)
Definition modify {V} (k : string) (f : V -> V) (m : list (string * V)) : list (string * V) :=
  match gget k m with Some v => gput k (f v) m | None => m end.

(** extract.go:318-328 *)
Fixpoint link_deps (without_beta : bool) (name : string) (deps : list string) (xs : x_package_set)
  : result x_package_set :=
  match deps with
  | [] => Ok xs
  | d :: rest =>
      match gget d xs with
      | None =>
          if ignore_package without_beta d then link_deps without_beta name rest xs
          else Err ("no package for name " +++ d)
      | Some _ => link_deps without_beta name rest (modify d (add_importer name) (modify name (add_dep d) xs))
      end
  end.
(** extract.go:317-329; the loop ranges over the entries of the map as built. *)
Fixpoint link_packages (without_beta : bool) (entries : x_package_set) (xs : x_package_set)
  : result x_package_set :=
  match entries with
  | [] => Ok xs
  | (name, p) :: rest =>
      do xs' <- link_deps without_beta name (pk_deps (xp_proto p)) xs;
      link_packages without_beta rest xs'
  end.
(** extract.go:331-343 *)
Definition fill_package (name : string) (p : x_package) : result x_package :=
  let proto := xp_proto p in
  do messages <- mapM (fun m => do x <- new_message m name; Ok (msg_name m, x)) (pk_messages proto);
  Ok (mk_x_package proto (xp_deps p) (xp_importers p)
        (build (map (fun e => (en_name e, new_enum e name)) (pk_enums proto)))
        (build messages)
        (build (map (fun s => (sv_name s, new_service s name)) (pk_services proto)))).
(** extract.go:330-344 *)
Definition fill_packages (xs : x_package_set) : result x_package_set :=
  mapM (fun np => do p <- fill_package (fst np) (snd np); Ok (fst np, p)) xs.
(** extract.go:299-346 *)
Definition new_package_set (ps : package_set) (without_beta : bool) : result x_package_set :=
  let base := base_packages ps without_beta in
  do linked <- link_packages without_beta base base;
  fill_packages linked.
