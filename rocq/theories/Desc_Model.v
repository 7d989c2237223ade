(** Model of internal/desc/desc.go. *)
From Verif Require Export Descriptor_Types GoMap.
From Verif Require GoFmt.

(** Go's %x of bytes *)
Fixpoint hex (s : string) : string :=
  match s with
  | EmptyString => EmptyString
  | String c s' => String (GoFmt.hex_char (code c / 16)) (String (GoFmt.hex_char (code c mod 16)) (hex s'))
  end.
(** Go's %v of a map[string]struct{}: the keys in order *)
Definition names_map (names : list string) : string :=
  "map[" +++ join " " (map (fun n => n +++ ":{}") (isort str_leb names)) +++ "]".

(** desc.go:39-48: the set of names, or an error *)
Fixpoint collect_names (l : file_set) (names : list string) : result (list string) :=
  match l with
  | [] => Ok names
  | f :: l' =>
      if is_empty (fl_name f) then Err "no name on FileDescriptorProto"
      else if mem (fl_name f) names then Err ("duplicate FileDescriptorProto in FileDescriptorSet: " +++ fl_name f)
      else collect_names l' (fl_name f :: names)
  end.
(** desc.go:37-60; neither argument is nil. *)
Definition sort_file_descriptor_set (fs : file_set) (f : file_desc) : result file_set :=
  do names <- collect_names fs [];
  if mem (fl_name f) names then
    Ok (filter (fun g => negb (String.eqb (fl_name g) (fl_name f))) fs ++ [f])
  else Err ("no FileDescriptorProto named " +++ fl_name f +++ " in FileDescriptorSet with names " +++ names_map names).

Section Merge.
  (** sha256.Sum256 of the serialized bytes (desc.go:104-111) *)
  Variable sha256 : string -> string.
  (** desc.go:76-96; the file list is nil-able (option), result in reverse *)
  Fixpoint merge_files (l : list (option file_desc)) (st : list (string * string) * list file_desc)
    : result (list (string * string) * list file_desc) :=
    match l with
    | [] => Ok st
    | None :: _ => Err "nil FileDescriptorProto"
    | Some f :: l' =>
        if is_empty (fl_name f) then Err "no name on FileDescriptorProto"
        else
          let sum := sha256 (fl_data f) in
          match gget (fl_name f) (fst st) with
          | Some existing =>
              if String.eqb existing sum then merge_files l' st
              else Err ("mismatched sums " +++ hex existing +++ " " +++ hex sum +++ " for file " +++ GoFmt.quote (fl_name f))
          | None => merge_files l' (gput (fl_name f) sum (fst st), snd st ++ [f])
          end
    end.
  (** desc.go:72-97 *)
  Fixpoint merge_sets (sets : list (option (list (option file_desc)))) (st : list (string * string) * list file_desc)
    : result (list (string * string) * list file_desc) :=
    match sets with
    | [] => Ok st
    | None :: _ => Err "nil FileDescriptorSet"
    | Some l :: sets' => do st' <- merge_files l st; merge_sets sets' st'
    end.
  (** desc.go:64-102; nil sets and files are None *)
  Definition merge_file_descriptor_sets (sets : list (option (list (option file_desc)))) : result file_set :=
    do st <- merge_sets sets ([], []);
    Ok (isort (fun a b => str_leb (fl_name a) (fl_name b)) (snd st)).
End Merge.
