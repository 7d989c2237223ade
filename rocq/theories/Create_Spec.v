(** Specification of file creation. *)
From Verif Require Import GoStrFacts GoPathFacts Settings_Spec Create_Model.

(** ** C28 *)
(** A requested path that cannot be created: it is empty, its directory is not there, or
    there is something other than an empty file. *)
Definition not_creatable (cwd : string) (fs : fsys) (file : string) : Prop :=
  file = "" \/ fs (path_abs cwd (path_dir file)) <> Directory \/
  (fs (path_abs cwd file) <> Missing /\ fs (path_abs cwd file) <> Regular "").

(** ** C29 *)
(** Names below a directory as a package. *)
Definition package_below (base : string) (rs : list string) (default p : string) : Prop :=
  match base, rs with
  | "", [] => p = default
  | _, [] => p = base
  | "", _ => p = join "." rs
  | _, _ => p = join "." (base :: rs)
  end.
(** [d] is a configured directory that contains directory [ds], [base] its package. *)
Definition mapped (m : list (string * string)) (ds d : list string) (base : string) : Prop :=
  ok_comps d /\ In (abs_path d, base) m /\ exists rs, ds = d ++ rs.
(** The package for a file in directory [ds], with the configuration in directory [cd]. *)
Inductive package_for (m : list (string * string)) (cd ds : list string) (default : string) : string -> Prop :=
| pf_mapped : forall d base rs p,
    mapped m ds d base -> (forall d' base', mapped m ds d' base' -> length d' <= length d) ->
    ds = d ++ rs -> package_below base rs default p -> package_for m cd ds default p
| pf_relative : forall rs p,
    (forall d base, ~ mapped m ds d base) -> ds = cd ++ rs -> package_below "" rs default p -> package_for m cd ds default p
| pf_outside : (forall d base, ~ mapped m ds d base) -> (forall rs, ds <> cd ++ rs) -> package_for m cd ds default default.
(** No configured directory has a name that is a proper beginning of the name of a
    directory on the way to [ds]. *)
Definition no_sibling (d ds : list string) : Prop :=
  forall parent name k rest, d = parent ++ [name] -> ds = parent ++ (name +++ k) :: rest -> k = "".
(** The package of a file for which the configuration says nothing. *)
Definition default_of (c : config) (default : string) : Prop :=
  (lc_group (cfg_lint c) = "uber2" /\ default = "uber.prototool.generated.v1") \/
  (lc_group (cfg_lint c) <> "uber2" /\ default = "uber.prototool.generated").
(** After lines that are the configured header, the text is a proto3 file of package [p]. *)
Definition states_package (header text p : string) : Prop :=
  exists rest,
    text = (if String.eqb header "" then "" else header +++ nl +++ nl) +++
           "syntax = " +++ quoted "proto3" +++ ";" +++ nl +++ nl +++ "package " +++ p +++ ";" +++ nl +++ rest.
