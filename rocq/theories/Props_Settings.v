(** Configuration discovery and validation: C37, C38, C40. *)
From Coq Require Import Permutation.
From Verif Require Import GoStrFacts GoPathFacts Strs_Spec Settings_Model Settings_Spec Settings_Proofs Settings_Proofs2 File_Model File_Spec File_Proofs File_Proofs2.

(** ** Values for the examples *)
Definition files_at (l : list string) (p : string) : bool := mem p l.
Definition no_file (p : string) : result string := Err ("open " +++ p).
Definition a_plugin : ext_plugin := mk_ext_plugin "go" "go" "plugins=grpc" "gen/go" "" "" false false.
Definition sample : external_config :=
  mk_external_config ["vendor"] false "3.8.0" ["/usr/include"] [mk_ext_package "idl" "acme"] "Uber2"
    [mk_ext_ignore "syntax_proto3" ["a.proto"; "b/../c.proto"]] false ["enum_names_camel_case"] ["COMMENTS_NO_C_STYLE"]
    (mk_ext_header "" " Copyright  " false) "" false true false "example.com/x" [] [a_plugin].

(** ** C37: config discovery *)
(** GetFilePathForDir: the file found is the only one of the nearest directory that has
    any, and nothing is found exactly if no directory up to the root has one. *)
Theorem C37_nearest : forall exists_file dir d p,
  is_abs dir = true -> ok_comps d -> path_clean dir = abs_path d ->
  (get_file_path_for_dir exists_file dir = Ok p <-> governs exists_file d p).
Proof. exact discovery_governs. Qed.
Print Assumptions C37_nearest.
(** It fails exactly if the nearest directory with a file has two. *)
Theorem C37_two_files : forall exists_file dir d,
  is_abs dir = true -> ok_comps d -> path_clean dir = abs_path d ->
  ((exists m, get_file_path_for_dir exists_file dir = Err m) <->
   exists a, nearest exists_file d a /\ two_configs exists_file a).
Proof. exact discovery_error. Qed.
Print Assumptions C37_two_files.
(** Files elsewhere have no influence. *)
Theorem C37_local : forall exists_file exists_file' dir d,
  is_abs dir = true -> ok_comps d -> path_clean dir = abs_path d ->
  (forall a b p, d = a ++ b -> In p (config_paths a) -> exists_file p = exists_file' p) ->
  get_file_path_for_dir exists_file dir = get_file_path_for_dir exists_file' dir.
Proof. exact discovery_local. Qed.
Print Assumptions C37_local.
(** GetForDir uses the file found, for the directory the file is in, and the empty
    configuration if there is none. *)
Theorem C37_used : forall exists_file read_file decode_json decode_yaml look_path sort_plugins devel d c,
  ok_comps d ->
  (get_for_dir exists_file read_file decode_json decode_yaml look_path sort_plugins devel (abs_path d) = Ok c <->
   (governs exists_file d "" /\
    external_config_to_config read_file look_path sort_plugins devel empty_external (abs_path d) = Ok c)
   \/ exists a file e, nearest exists_file d a /\ the_config exists_file a file /\
        decoded read_file decode_json decode_yaml a file e /\
        external_config_to_config read_file look_path sort_plugins devel e (abs_path a) = Ok c).
Proof. exact get_for_dir_iff. Qed.
Print Assumptions C37_used.
Example C37_ex :
  let fs := files_at ["/w/prototool.yaml"; "/w/a/b/prototool.json"; "/z/prototool.yaml"; "/z/prototool.json"] in
  get_file_path_for_dir fs "/w/a/x/.." = Ok "/w/prototool.yaml" /\
  get_file_path_for_dir fs "/w/a/b/c" = Ok "/w/a/b/prototool.json" /\
  get_file_path_for_dir fs "/other" = Ok "" /\
  (exists m, get_file_path_for_dir fs "/z/q" = Err m) /\
  path_clean "/w/a/x/.." = abs_path ["w"; "a"] /\ ok_comps ["w"; "a"].
Proof.
  cbv zeta. split; [vm_compute; reflexivity|]. split; [vm_compute; reflexivity|]. split; [vm_compute; reflexivity|].
  split; [eexists; vm_compute; reflexivity|]. split; [vm_compute; reflexivity|]. repeat constructor.
Qed.

(** ** C38: config validation *)
(** GetForData accepts a configuration exactly if it meets the constraints. *)
Theorem C38_accepted : forall read_file decode_json look_path sort_plugins devel dir data e,
  sorts sort_plugins -> is_abs dir = true -> decode_json data = Ok e ->
  ((exists c, get_for_data read_file decode_json look_path sort_plugins devel dir data = Ok c) <->
   acceptable read_file devel e (path_clean dir)).
Proof. exact get_for_data_accepts. Qed.
Print Assumptions C38_accepted.
(** ... and what it returns is the normalised configuration. *)
Theorem C38_normalised : forall read_file decode_json look_path sort_plugins devel dir data e c,
  sorts sort_plugins -> is_abs dir = true -> decode_json data = Ok e ->
  get_for_data read_file decode_json look_path sort_plugins devel dir data = Ok c ->
  becomes read_file look_path e (path_clean dir) c /\
  clean_abs (cfg_dir c) /\
  Forall clean_abs (cfg_exclude_prefixes c) /\ Forall clean_abs (cc_include_paths (cfg_compile c)) /\
  Forall (fun d => clean_abs (fst d)) (cr_dir_to_base (cfg_create c)) /\
  Forall (fun i => Forall clean_abs (snd i)) (lc_ignores (cfg_lint c)) /\
  Forall (fun g => clean_abs (gp_output_abs g)) (gc_plugins (cfg_gen c)).
Proof. exact get_for_data_normalises. Qed.
Print Assumptions C38_normalised.
(** The same for Get, reading a file: it is accepted exactly if it decodes and meets the
    constraints for the directory it is in, and becomes the normalised configuration. *)
Theorem C38_file : forall read_file decode_json decode_yaml look_path sort_plugins devel d file c,
  sorts sort_plugins -> ok_comps d -> In file (config_paths d) ->
  (get_for_file read_file decode_json decode_yaml look_path sort_plugins devel file = Ok c ->
   exists e, decoded read_file decode_json decode_yaml d file e /\
     acceptable read_file devel e (abs_path d) /\ becomes read_file look_path e (abs_path d) c) /\
  (forall e, decoded read_file decode_json decode_yaml d file e -> acceptable read_file devel e (abs_path d) ->
   exists c, get_for_file read_file decode_json decode_yaml look_path sort_plugins devel file = Ok c).
Proof. intros; now apply get_for_file_iff. Qed.
Print Assumptions C38_file.
(** The lists of exclude and include paths need not be without duplicates or in order:
    entries are compared before they are made absolute and clean. *)
Theorem C38_duplicates_refuted :
  ~ forall read_file decode_json look_path sort_plugins devel dir data e c,
      sorts sort_plugins -> is_abs dir = true -> decode_json data = Ok e ->
      get_for_data read_file decode_json look_path sort_plugins devel dir data = Ok c ->
      NoDup (cfg_exclude_prefixes c) /\ Increasing (cc_include_paths (cfg_compile c)).
Proof.
  intros H.
  set (e := mk_external_config ["a"; "a/"] false "" ["b"; "/a"] [] "" [] false [] [] (mk_ext_header "" "" false) "" false false false "" [] []).
  destruct (get_for_data no_file (fun _ => Ok e) no_file by_name false "/w" "{}") as [c|] eqn:E.
  - specialize (H no_file (fun _ => Ok e) no_file _ false "/w" "{}" e c by_name_sorts eq_refl eq_refl E) as [N _].
    vm_compute in E. injection E as <-. cbn in N. inversion N as [|? ? N1 _]. apply N1. now left.
  - vm_compute in E. discriminate.
Qed.
Print Assumptions C38_duplicates_refuted.
(** Without a configuration file GetForDir keeps the directory as it was given. *)
Theorem C38_default_directory_refuted :
  ~ forall exists_file read_file decode_json decode_yaml look_path sort_plugins devel dir c,
      sorts sort_plugins -> is_abs dir = true ->
      get_for_dir exists_file read_file decode_json decode_yaml look_path sort_plugins devel dir = Ok c ->
      clean_abs (cfg_dir c).
Proof.
  intros H. destruct (get_for_dir (fun _ => false) no_file (fun _ => Err "") (fun _ => Err "") no_file by_name false "/a/") as [c|] eqn:E.
  - specialize (H _ _ _ _ _ _ _ "/a/" c by_name_sorts eq_refl E). vm_compute in E. injection E as <-.
    apply clean_abs_fix in H. vm_compute in H. discriminate.
  - vm_compute in E. discriminate.
Qed.
Print Assumptions C38_default_directory_refuted.
Example C38_ex : sorts by_name /\
  match get_for_data no_file (fun _ => Ok sample) no_file by_name false "/w/./x" "data" with
  | Ok c => cfg_exclude_prefixes c = ["/w/x/vendor"] /\ lc_group (cfg_lint c) = "uber2" /\
            lc_ignores (cfg_lint c) = [("SYNTAX_PROTO3", ["/w/x/a.proto"; "/w/x/c.proto"])] /\
            lc_file_header (cfg_lint c) = "// Copyright" /\ cr_dir_to_base (cfg_create c) = [("/w/x/idl", "acme")] /\
            map gp_output_abs (gc_plugins (cfg_gen c)) = ["/w/x/gen/go"]
  | Err _ => False
  end.
Proof. split; [exact by_name_sorts|]. vm_compute. repeat split. Qed.

(** ** C40: file header *)
(** Every line of a header not said to be commented is a comment, and the text without
    blank space around its lines can be read back from it. *)
Theorem C40_header : forall read_file decode_json look_path sort_plugins devel dir data e c,
  sorts sort_plugins -> is_abs dir = true -> decode_json data = Ok e ->
  get_for_data read_file decode_json look_path sort_plugins devel dir data = Ok c ->
  eh_is_commented (x_header e) = false ->
  eh_path (x_header e) <> "" \/ eh_content (x_header e) <> "" ->
  exists text, header_text read_file (path_clean dir) (x_header e) text /\
    let lines := split_char newline (lc_file_header (cfg_lint c)) in
    Forall (fun l => l = "//" \/ exists t, t <> "" /\ l = "// " +++ t) lines /\
    Forall2 (fun raw l => trim_space raw = "" /\ l = "//" \/ trim_space raw <> "" /\ l = "// " +++ trim_space raw)
      (split_char newline (trim_space text)) lines.
Proof. exact header_comments. Qed.
Print Assumptions C40_header.
(** A header said to be commented is not checked. *)
Theorem C40_commented_refuted :
  ~ forall read_file decode_json look_path sort_plugins devel dir data e c,
      sorts sort_plugins -> is_abs dir = true -> decode_json data = Ok e ->
      get_for_data read_file decode_json look_path sort_plugins devel dir data = Ok c ->
      Forall (fun l => exists r, l = "//" +++ r) (split_char newline (lc_file_header (cfg_lint c))) \/ lc_file_header (cfg_lint c) = "".
Proof.
  intros H.
  set (e := mk_external_config [] false "" [] [] "" [] false [] [] (mk_ext_header "" "not a comment" true) "" false false false "" [] []).
  destruct (get_for_data no_file (fun _ => Ok e) no_file by_name false "/w" "{}") as [c|] eqn:E.
  - specialize (H no_file (fun _ => Ok e) no_file _ false "/w" "{}" e c by_name_sorts eq_refl eq_refl E).
    vm_compute in E. injection E as <-. destruct H as [H|H]; [|vm_compute in H; discriminate].
    vm_compute in H. inversion H as [|? ? (r & Hr) _]. discriminate.
  - vm_compute in E. discriminate.
Qed.
Print Assumptions C40_commented_refuted.
Example C40_ex :
  let nl := String newline EmptyString in
  let e := mk_external_config [] false "" [] [] "" [] false [] []
             (mk_ext_header "" (nl +++ " Copyright " +++ nl +++ nl +++ "All rights") false) "" false false false "" [] [] in
  match get_for_data no_file (fun _ => Ok e) no_file by_name false "/w" "{}" with
  | Ok c => lc_file_header (cfg_lint c) = "// Copyright" +++ nl +++ "//" +++ nl +++ "// All rights"
  | Err _ => False
  end.
Proof. vm_compute. reflexivity. Qed.
