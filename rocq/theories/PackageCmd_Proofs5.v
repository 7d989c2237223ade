(** What a run of a command about packages or descriptor sets tells about the compiler. *)
From Verif Require Import GoStrFacts Exec_Spec Exec_Proofs Exec_Proofs3 PackageCmd_Model PackageCmd_Spec PackageCmd_Proofs.

Lemma fields_known format : (exists fields, fields_of format fields) \/ (forall fields, ~ fields_of format fields).
Proof.
  destruct (parse_colon_separated_failure_fields format) as [fields|e] eqn:E; [left; exists fields; now apply fields_of_ok|right]. intros fields H. apply fields_of_ok in H. congruence.
Qed.

Section Facts.
  Variable ord : map_order.
  Variable cwd work_dir error_format : string.
  Variable json : bool.
  Variable to_json : failure -> string.
  Variable stat : string -> result file_kind.
  Variable get_for_dir : string -> string -> result proto_set.
  Variable compiler : bool -> bool -> option (bool * bool) -> (string -> result string) -> proto_set -> result (list failure * list file_set).
  Variable commands : bool -> proto_set -> result (list string).
  Variable sha256 : string -> string.
  Variable marshal to_jsonpb : file_set -> result string.
  Variable unmarshal : string -> result file_set.
  Variable write_error : string -> string -> option (result string * string).
  Variable temp_file : result string.
  Variable temp_dir : result string.
  Variable git : list string -> result unit.
  Hypothesis Htemp : temp_file <> Ok "".
  Notation do_compile := (do_compile cwd error_format json to_json file_set compiler).
  Notation descriptor_set := (descriptor_set cwd work_dir error_format json to_json stat get_for_dir compiler sha256 marshal to_jsonpb write_error temp_file).
  Notation get_packages := (get_package_set_and_config cwd error_format json to_json stat get_for_dir compiler commands).
  Notation encode all := (if json then to_jsonpb all else marshal all).
  Notation deliver := (deliver write_error temp_file).

  (** The compiler had failures, and these were printed. *)
  Definition compile_failed (gen set : bool) (full : option (bool * bool)) (m : meta) (s s' : io) (e : string) : Prop :=
    exists f fs sets es kept, compiler gen set full (io_disk s) (m_set m) = Ok (f :: fs, sets) /\ s' = adds s (Compiled gen :: es) /\
      picks (about cwd m) (f :: fs) kept /\ listing json to_json error_format kept (printed es) /\ only_prints es /\ e = "".
  Lemma do_compile_inv gen set full m s s' o : do_compile gen set full m s = (s', o) ->
    (forall sets, o = Value sets -> (exists fields, fields_of error_format fields) /\ compiler gen set full (io_disk s) (m_set m) = Ok ([], sets) /\ s' = adds s [Compiled gen]) /\
    (forall e, o = Exit e -> compile_failed gen set full m s s' e).
  Proof.
    intros H. destruct (compile_pure cwd error_format json to_json file_set compiler gen set full m (io_disk s)) as (es & r & P & Op & K1 & K2 & K3).
    rewrite P in H by reflexivity. injection H as <- <-.
    destruct (compiler gen set full (io_disk s) (m_set m)) as [[fs ds]|e] eqn:C; [|destruct (K1 e eq_refl) as (_ & ->); split; discriminate].
    destruct (fields_known error_format) as [Hf|Hf]; [|destruct (K3 _ _ eq_refl Hf) as (e & ->); split; discriminate].
    destruct (K2 _ _ eq_refl Hf) as (-> & kept & Pk & L). destruct fs as [|f fs]; (split; [|intros e [= <-]]).
    - intros sets [= <-]. split; [exact Hf|]. split; [reflexivity|]. pose proof (compile_clean cwd error_format json to_json compiler Hf gen set full m ds s C) as X. rewrite P in X by reflexivity. exact (f_equal fst X).
    - discriminate.
    - exists f, fs, ds, es, kept. auto 8.
  Qed.
  Lemma deliver_value output tmp data s s' : negb (is_empty output) && tmp = false -> deliver output tmp data s = (s', Value tt) ->
    exists d, destination_of output tmp temp_file d /\ writable write_error d data.
  Proof.
    intros N. unfold PackageCmd_Proofs.deliver. destruct (is_empty output) eqn:E; cbn [negb andb] in *; [destruct tmp; cbn [negb]|].
    - apply is_empty_true in E. subst output. unfold Exec_Model.check, and_then. destruct temp_file as [name|e]; [|discriminate]. unfold ret at 1. unfold write_file.
      destruct (write_error name data) as [[rest e]|] eqn:W; [discriminate|]. intros _. exists (ToTemp name). cbn. auto.
    - apply is_empty_true in E. subst output. intros _. exists Stdout. cbn. auto.
    - subst tmp. apply is_empty_false in E. unfold write_file. destruct (write_error output data) as [[rest e]|] eqn:W; [discriminate|]. intros _. exists (ToFile output). cbn. auto.
  Qed.
  Lemma deliver_exit output tmp data s s' e : deliver output tmp data s <> (s', Exit e).
  Proof.
    unfold PackageCmd_Proofs.deliver. destruct (is_empty output && negb tmp); [discriminate|]. destruct (negb (is_empty output)).
    - unfold write_file. destruct (write_error output data) as [[rest m]|]; discriminate.
    - unfold Exec_Model.check, and_then. destruct temp_file as [name|m]; [|discriminate]. unfold ret at 1, write_file. destruct (write_error name data) as [[rest m]|]; [discriminate|]. rewrite println_adds. discriminate.
  Qed.
  Lemma descriptor_set_inv args ii si output tmp m s s' o : found work_dir stat get_for_dir args m -> descriptor_set args ii si output tmp s = (s', o) ->
    (o = Value tt -> exists d sets all data, compiler false false (Some (ii, si)) (io_disk s) (m_set m) = Ok ([], sets) /\ (tells_apart sha256 sets -> consistent sets /\ joined sets all) /\
       encode all = Ok data /\ destination_of output tmp temp_file d /\ delivered d data s s') /\
    (forall e, o = Exit e -> (output <> "" /\ tmp = true /\ s' = s) \/ compile_failed false false (Some (ii, si)) m s s' e).
  Proof.
    intros F H. destruct (negb (is_empty output) && tmp) eqn:N.
    { unfold PackageCmd_Model.descriptor_set in H. rewrite N in H. injection H as <- <-. split; [discriminate|]. intros e _. left. apply andb_true_iff in N as (N & ->). apply negb_true_iff, is_empty_false in N. auto. }
    erewrite descriptor_set_eq in H by eassumption. unfold and_then at 1 in H.
    destruct (do_compile false false (Some (ii, si)) m s) as [s1 o1] eqn:E. apply do_compile_inv in E as (K1 & K2).
    destruct o1 as [sets|e|e]; [|injection H as <- <-; split; [discriminate|]; intros e' [= <-]; right; now apply K2|injection H as <- <-; split; discriminate].
    destruct (K1 sets eq_refl) as (_ & C & ->). clear K1 K2. unfold and_then, produce in H.
    destruct (merge_file_descriptor_sets sha256 (opt_sets sets)) as [all|e] eqn:M; [|injection H as <- <-; split; discriminate]. cbn [bind] in H.
    destruct (encode all) as [data|e] eqn:En; [|injection H as <- <-; split; discriminate]. cbn [Exec_Model.check] in H. unfold ret at 1 in H. split.
    - intros ->. destruct (deliver_value _ _ _ _ _ N H) as (d & D & W).
      assert (Ne : forall p, d = ToTemp p -> p <> "") by (intros p -> ->; cbn in D; now destruct D as (_ & _ & ->)).
      destruct (deliver_ok write_error temp_file output tmp d data (adds s [Compiled false]) s D W Ne eq_refl) as (s2 & E2 & Dl); [exists [Compiled false]; repeat split|].
      rewrite H in E2. injection E2 as <-. exists d, sets, all, data. split; [exact C|]. split; [|auto]. intros T. assert (Hc := merge_consistent _ _ _ T M). split; [exact Hc|].
      destruct (merge_joined sha256 sets T Hc) as (all' & M' & J). rewrite M in M'. injection M' as <-. exact J.
    - intros e ->. now apply deliver_exit in H.
  Qed.
  Lemma get_packages_inv dir args m s s' o : found dir stat get_for_dir args m -> get_packages dir args s = (s', o) ->
    (forall x, o = Value x -> (exists fields, fields_of error_format fields) /\ snd x = ps_config (m_set m) /\ exists sets, compiler false true None (io_disk s) (m_set m) = Ok ([], sets) /\ s' = adds s [Compiled false] /\
       packages_of_sets sets = Ok (fst x)) /\
    (forall e, o = Exit e -> compile_failed false true None m s s' e) /\
    (forall sets fs, compiler false true None (io_disk s) (m_set m) = Ok ([], sets) -> distinct_files sets fs -> faithful fs -> valid_files fs -> tree stat get_for_dir compiler (io_disk s) dir args fs (ps_config (m_set m))).
  Proof.
    intros F H. unfold get_package_set_and_config, and_then in H. rewrite (get_meta_found _ _ _ _ _ _ F) in H. unfold compile in H.
    destruct (do_compile false true None m s) as [s1 o1] eqn:E. apply do_compile_inv in E as (K1 & K2). split; [|split].
    - intros x ->. destruct o1 as [sets|e|e]; [|discriminate H..]. destruct (K1 sets eq_refl) as (Hf & C & ->). split; [exact Hf|].
      destruct (packages_of_sets sets) as [xs|e] eqn:P; [|discriminate H]. injection H as <- <-. split; [reflexivity|]. exists sets. auto.
    - intros e ->. destruct o1 as [sets|e'|e']; [|injection H as <- <-; now apply K2|discriminate H]. destruct (packages_of_sets sets); discriminate H.
    - intros sets fs C D Fa Va. exists m, sets. auto 8.
  Qed.
End Facts.
