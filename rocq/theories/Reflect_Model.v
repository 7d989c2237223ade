(** Model of internal/reflect/reflect.go.  Go panics are errors here.  The
    sort.Slice calls are insertion sorts: they agree with any sort when the
    keys are distinct, which protoc ensures for every key but the numbers of
    aliased enum values.  There the model keeps the file order, Go's sort may
    permute the aliases, but as a function of the enum descriptor alone. *)
From Verif Require Export Descriptor_Types GoMap Strs_Model.

(** reflect.go:393-401 *)
Definition verify_fully_qualified_name_and_strip (s : string) : result string :=
  match s with
  | EmptyString => Err "name empty"
  | String c s' => if Ascii.eqb c "." then Ok s' else Err (s +++ " does not start with '.'")
  end.
(** reflect.go:260-272 *)
Definition new_enum (e : enum) : enum :=
  mk_enum (en_name e) (isort (fun a b => (ev_number a <=? ev_number b)%Z) (en_values e)).
(** reflect.go:244-258 *)
Definition get_enums (l : list enum) : list enum :=
  isort (fun a b => str_leb (en_name a) (en_name b)) (map new_enum l).
(** reflect.go:311-328, one field *)
Definition new_field (f : field_desc) : result field :=
  do t <- (if is_empty (fdd_type_name f) then Ok EmptyString
           else verify_fully_qualified_name_and_strip (fdd_type_name f));
  Ok (mk_field (fdd_name f) (fdd_number f) (fdd_label f) (fdd_type f) t).
(** descriptorProto.GetOneofDecl()[i], panics out of range (reflect.go:331) *)
Definition oneof_at (oneofs : list string) (i : Z) : result string :=
  if (i <? 0)%Z then Err "index out of range"
  else match nth_error oneofs (Z.to_nat i) with Some n => Ok n | None => Err "index out of range" end.
(** reflect.go:304-309 *)
Definition base_oneofs (oneofs : list string) : list (string * list Z) :=
  build (map (fun n => (n, [])) oneofs).
(** reflect.go:310-334: the fields in order and the field numbers per oneof. *)
Fixpoint add_fields (oneofs : list string) (l : list field_desc) (m : list (string * list Z))
  : result (list field * list (string * list Z)) :=
  match l with
  | [] => Ok ([], m)
  | f :: l' =>
      do f' <- new_field f;
      do m' <- (match fdd_oneof f with
                | None => Ok m
                | Some i =>
                    do n <- oneof_at oneofs i;
                    match gget n m with
                    | None => Err "nil pointer dereference"
                    | Some ns => Ok (gput n (ns ++ [fdd_number f]) m)
                    end
                end);
      do r <- add_fields oneofs l' m';
      Ok (f' :: fst r, snd r)
  end.
(** reflect.go:335-338, 340 *)
Definition sorted_oneofs (m : list (string * list Z)) : list oneof :=
  isort (fun a b => str_leb (oo_name a) (oo_name b))
    (map (fun kv => mk_oneof (fst kv) (isort Z.leb (snd kv))) m).
(** reflect.go:339 *)
Definition sort_fields (l : list field) : list field :=
  isort (fun a b => (fd_number a <=? fd_number b)%Z) l.
(** reflect.go:286 *)
Definition sort_messages (l : list message) : list message :=
  isort (fun a b => str_leb (msg_name a) (msg_name b)) l.
(** reflect.go:290-342; the loop is getMessages (reflect.go:274-288) *)
Fixpoint new_message (d : message_desc) {struct d} : result message :=
  match d with
  | mk_message_desc name fields oneofs nested enums =>
      do nested' <- (fix go (l : list message_desc) : result (list message) :=
         match l with
         | [] => Ok []
         | x :: l' => do y <- new_message x; do ys <- go l'; Ok (y :: ys)
         end) nested;
      do r <- add_fields oneofs fields (base_oneofs oneofs);
      Ok (mk_message name (sort_fields (fst r)) (sorted_oneofs (snd r))
            (sort_messages nested') (get_enums enums))
  end.
(** reflect.go:274-288 *)
Definition get_messages (l : list message_desc) : result (list message) :=
  do ms <- mapM new_message l; Ok (sort_messages ms).
(** reflect.go:375-391 *)
Definition new_service_method (m : method) : result method :=
  do req <- verify_fully_qualified_name_and_strip (mt_request m);
  do resp <- verify_fully_qualified_name_and_strip (mt_response m);
  Ok (mk_method (mt_name m) req resp (mt_client_streaming m) (mt_server_streaming m)).
(** reflect.go:360-373 *)
Definition new_service (s : service) : result service :=
  do ms <- mapM new_service_method (sv_methods s);
  Ok (mk_service (sv_name s) (isort (fun a b => str_leb (mt_name a) (mt_name b)) ms)).
(** reflect.go:344-358 *)
Definition get_services (l : list service) : result (list service) :=
  do ss <- mapM new_service l;
  Ok (isort (fun a b => str_leb (sv_name a) (sv_name b)) ss).

(** packageNameToFileNameToFileDescriptorProto *)
Definition file_map : Type := list (string * file_desc).
Definition package_map : Type := list (string * file_map).
(** reflect.go:77-108, one file *)
Definition add_file (m : package_map) (f : file_desc) : result package_map :=
  match fl_package f with
  | EmptyString => Err "no package on FileDescriptorProto"
  | String c _ =>
      if Ascii.eqb c "." then Err ("malformed package fully-qualified name " +++ fl_package f)
      else
        let fm := match gget (fl_package f) m with Some fm => fm | None => [] end in
        match gget (fl_name f) fm with
        | Some g =>
            if String.eqb (fl_data f) (fl_data g) then Ok (gput (fl_package f) fm m)
            else Err ("unequal FileDescriptorProtos for " +++ fl_name f)
        | None => Ok (gput (fl_package f) (gput (fl_name f) f fm) m)
        end
  end.
(** reflect.go:73-112 *)
Fixpoint add_files (m : package_map) (l : list file_desc) : result package_map :=
  match l with
  | [] => Ok m
  | f :: l' => do m' <- add_file m f; add_files m' l'
  end.
(** reflect.go:227-242; the pairs (file name, package name) in map order *)
Definition file_packages (pm : package_map) : list (string * string) :=
  concat (map (fun pf => map (fun nf => (fst nf, fst pf)) (snd pf)) pm).
Fixpoint get_file_name_to_package_name (l : list (string * string)) (m : list (string * string))
  : result (list (string * string)) :=
  match l with
  | [] => Ok m
  | (file, pkg) :: l' =>
      match gget file m with
      | Some p => if String.eqb p pkg then get_file_name_to_package_name l' m
                  else Err ("mismatched packages names " +++ p +++ " and " +++ pkg +++ " for file " +++ file)
      | None => get_file_name_to_package_name l' (gput file pkg m)
      end
  end.
(** reflect.go:136-153, one package *)
Definition get_deps (ftp : list (string * string)) (pkg : string) (fm : file_map) : result (list string) :=
  do ds <- concatM (fun nf => concatM (fun dep =>
             match gget dep ftp with
             | None => Err ("no package for dep " +++ dep)
             | Some d => Ok (if String.eqb d pkg then [] else [d])
             end) (fl_deps (snd nf))) fm;
  Ok (sort_uniq ds).
(** reflect.go:54-68 and 158-209, one package.  Go runs populateDependencies for
    all packages before the others; the order only decides which of several
    errors is returned. *)
Definition new_package (ftp : list (string * string)) (pf : string * file_map) : result package :=
  let '(pkg, fm) := pf in
  do deps <- get_deps ftp pkg fm;
  do messages <- concatM (fun nf => get_messages (fl_messages (snd nf))) fm;
  do services <- concatM (fun nf => get_services (fl_services (snd nf))) fm;
  let enums := concat (map (fun nf => get_enums (fl_enums (snd nf))) fm) in
  Ok (mk_package pkg deps
        (isort (fun a b => str_leb (en_name a) (en_name b)) enums)
        (sort_messages messages)
        (isort (fun a b => str_leb (sv_name a) (sv_name b)) services)).
(** reflect.go:39-70 and 212-224 *)
Definition new_package_set_of (sets : list file_set) : result package_set :=
  do pm <- add_files [] (concat sets);
  do ftp <- get_file_name_to_package_name (file_packages pm) [];
  do ps <- mapM (new_package ftp) pm;
  Ok (isort (fun a b => str_leb (pk_name a) (pk_name b)) ps).
