(** Chance: what is not the same in two runs of the program on the same files. *)
From Verif Require Import Exec_Model Main_Model.

(** The same world, but other orders in which maps are ranged over, another order in which the
    runs of protoc end and another way in which slices grow. *)
Definition other_chance (w : world) (order : map_order) (ended : nat -> list nat) (grow : nat -> nat -> nat) : world :=
  mk_world (w_goos w) (w_goarch w) (w_go_version w) (w_getenv w) (w_getwd w) (w_parse_duration w)
    (w_read_csv w) (w_usage w) (w_help w) (w_suggestions w) (w_help_topic w)
    order
    (w_stat w) (w_node_at w) (w_mkdir_all w) (w_write_error w) (w_remove_all w) (w_temp_file w) (w_temp_dir w) (w_look_path w)
    (w_too_slow w)
    (w_decode_json w) (w_decode_yaml w) (w_encode_ignores w) (w_sort_plugins w) (w_sort_options w) (w_sort_imports w)
    (w_parse w) (w_singularize w)
    (w_diff w)
    (w_download w) (w_digest w) (w_stat_info w)
    (w_protoc_temp w) (w_protoc w) (w_protoc_set w) ended grow
    (w_sha256 w) (w_marshal w) (w_set_json w) (w_unmarshal w) (w_git w)
    (w_create_descriptor w) (w_create_source w) (w_credentials w) (w_dial w) (w_invoke_rpc w).
(** Every run of protoc ends, once. *)
Definition ends_once (ended : nat -> list nat) : Prop := forall n, Permutation.Permutation (ended n) (List.seq 0 n).
(** The same files, and the same things said and done, maybe in another order. *)
Definition same_but_order (s s' : io) : Prop :=
  (forall q, io_disk s q = io_disk s' q) /\ Permutation.Permutation (io_done s) (io_done s').
