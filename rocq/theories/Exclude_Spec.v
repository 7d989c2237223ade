(** Excluded directories. *)
From Verif Require Import GoStr GoPath GoPathFacts Settings_Model Settings_Spec File_Model File_Spec Exec_Model Main_Model.

(** The tree with nothing in the directory that the names lead to. *)
Fixpoint hollow (names : list string) (n : node) {struct names} : node :=
  match n with
  | NDir es =>
      match names with
      | [] => NDir []
      | x :: names => NDir (map (fun e => (fst e, if String.eqb (fst e) x then hollow names (snd e) else snd e)) es)
      end
  | _ => n
  end.
(** When files are looked for from directory [d], directory [names] of [root] is excluded: by the
    configuration that is found for [d], that of [root], or by the one on the command line, which is
    one of the working directory [here]. *)
Definition excludes (w : world) (data : string) (disk : string -> result string) (here d root names : list string) : Prop :=
  (data = "" /\ searched (exists_at w disk) d root /\ entry (exists_at w disk) disk (w_decode_json w) (w_decode_yaml w) root (abs_path (root ++ names))) \/
  (data <> "" /\ root = here /\ exists e x, w_decode_json w data = Ok e /\ In x (x_excludes e) /\ x <> "" /\ against (abs_path here) x = abs_path (here ++ names)).
