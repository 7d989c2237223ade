(** What is said of descriptor sets that cannot be merged, or put in order for a call. *)
From Verif Require Import GoStrFacts GoFmt Descriptor_Types Strs_Spec.
From Coq Require Import Permutation.

(** Bytes as Go shows them with %x. *)
Inductive in_hex : string -> string -> Prop :=
| Hex_nil : in_hex "" ""
| Hex_byte c s t i j x y : code c = 16 * i + j -> String.get i "0123456789abcdef" = Some x -> String.get j "0123456789abcdef" = Some y ->
    in_hex s t -> in_hex (String c s) (String x (String y t)).

Inductive entry : Type := Nil_set | Nil_file | File (f : file_desc).
(** All that the sets hold, in order. *)
Definition entries (sets : list (option (list (option file_desc)))) : list entry :=
  flat_map (fun s => match s with
    | None => [Nil_set]
    | Some l => map (fun x => match x with None => Nil_file | Some f => File f end) l
    end) sets.
(** What is wrong with an entry behind the files [before]. *)
Inductive wrong (sum : file_desc -> string) (before : list file_desc) : entry -> string -> Prop :=
| Wrong_set : wrong sum before Nil_set "nil FileDescriptorSet"
| Wrong_file : wrong sum before Nil_file "nil FileDescriptorProto"
| Wrong_name f : fl_name f = "" -> wrong sum before (File f) "no name on FileDescriptorProto"
| Wrong_sum f g x y : fl_name f <> "" -> In g before -> fl_name g = fl_name f -> sum g <> sum f -> in_hex (sum g) x -> in_hex (sum f) y ->
    wrong sum before (File f) ("mismatched sums " +++ x +++ " " +++ y +++ " for file " +++ quote (fl_name f)).
(** The files are named, and those of the same name have the same sum. *)
Definition fine_together (sum : file_desc -> string) (l : list file_desc) : Prop :=
  (forall f, In f l -> fl_name f <> "") /\ forall f g, In f l -> In g l -> fl_name f = fl_name g -> sum f = sum g.
Definition says_unmergeable (sum : file_desc -> string) (sets : list (option (list (option file_desc)))) (t : string) : Prop :=
  exists before bad after, entries sets = map File before ++ bad :: after /\ fine_together sum before /\ wrong sum before bad t.

Inductive says_unordered (fs : file_set) (f : file_desc) : string -> Prop :=
| No_name_in before g after : fs = before ++ g :: after -> ~ In "" (map fl_name before) -> NoDup (map fl_name before) -> fl_name g = "" ->
    says_unordered fs f "no name on FileDescriptorProto"
| Twice before g after : fs = before ++ g :: after -> ~ In "" (map fl_name before) -> NoDup (map fl_name before) -> In (fl_name g) (map fl_name before) ->
    says_unordered fs f ("duplicate FileDescriptorProto in FileDescriptorSet: " +++ fl_name g)
| Not_there names : ~ In "" (map fl_name fs) -> NoDup (map fl_name fs) -> ~ In (fl_name f) (map fl_name fs) ->
    Permutation names (map fl_name fs) -> Increasing names ->
    says_unordered fs f ("no FileDescriptorProto named " +++ fl_name f +++ " in FileDescriptorSet with names map[" +++
      join " " (map (fun n => n +++ ":{}") names) +++ "]").
