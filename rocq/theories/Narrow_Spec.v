(** What a command that is given a file does, beside the same command for its directory. *)
From Verif Require Import GoStr GoPath Exec_Model Exec_Spec.

(** A failure is about a file: its path is that of the file, or names the same place from the
    working directory. *)
Definition about_file (cwd file : string) (f : failure) : Prop :=
  f_filename f = file \/ (f_filename f <> "" /\ path_abs cwd (f_filename f) = path_abs cwd file).
(** The commands whose work does not depend on whether a file of a directory or the directory is
    asked for: all but format and all, which format only that file. *)
Definition narrows (words : list string) (against : string) : Prop :=
  (words = ["break"; "check"] /\ against <> "") \/
  In words [["break"; "descriptor-set"]; ["cache"; "update"]; ["compile"]; ["descriptor-set"]; ["files"]; ["generate"]; ["grpc"]; ["lint"];
            ["x"; "inspect"; "packages"]; ["x"; "inspect"; "package-deps"]; ["x"; "inspect"; "package-importers"]].
(** What was done for the file, and what was done for the directory: the same; or the same, and
    at last failures were listed, for the directory all of them, for the file the ones about it. *)
Inductive narrower (cwd file format : string) (json : bool) (to_json : failure -> string) : list event -> list event -> Prop :=
| NarrowSame es : narrower cwd file format json to_json es es
| NarrowLess es fs kept less more : fs <> [] -> picks (about_file cwd file) fs kept ->
    Forall (fun e => exists t, e = Printed t) less -> Forall (fun e => exists t, e = Printed t) more ->
    listing json to_json format kept (printed less) -> listing json to_json format fs (printed more) ->
    narrower cwd file format json to_json (es ++ less) (es ++ more).
