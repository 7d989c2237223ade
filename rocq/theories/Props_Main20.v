(** C110: it makes no difference how the path of the directory or file is written. *)
From Verif Require Import GoStrFacts GoPathFacts Exec_Spec Cmd_Spec Main_Model Main_Spec Props_Main Props_Main2 Props_Main3 Props_Main4 Props_Main5 Props_Main12 Props_Main15 Props_Main19.
From Verif Require Import Place_Spec Place_Proofs.

(** The commands that look for files from a directory or a file. *)
Definition looks_for_files (c : command) (items : list item) : Prop :=
  (c_words c = ["break"; "check"] /\ text items "descriptor-set-path" <> "") \/
  In (c_words c) [["all"]; ["break"; "descriptor-set"]; ["cache"; "update"]; ["compile"]; ["descriptor-set"]; ["files"]; ["format"]; ["generate"]; ["grpc"]; ["lint"];
                  ["x"; "inspect"; "packages"]; ["x"; "inspect"; "package-deps"]; ["x"; "inspect"; "package-importers"]].
(** The same flags have the same values. *)
Definition same_flags (items items' : list item) : Prop := forall name, values items name = values items' name.

Lemma same_options w items items' : same_flags items items' -> the_options w items = the_options w items'.
Proof. intros F. unfold the_options, options, text, on. rewrite !F. reflexivity. Qed.
Lemma same_asked csv c items items' args args' k : looks_for_files c items -> same_flags items items' -> asked csv c items args = Some k ->
  of_args args k /\ exists k', asked csv c items' args' = Some k' /\ elsewhere args' k = Some k'.
Proof.
  intros L F. unfold asked. destruct L as [(L & D)|L].
  { rewrite L. intros [= <-]. split; [reflexivity|]. eexists. split; [reflexivity|]. cbn [elsewhere]. apply is_empty_false in D. rewrite D. unfold text. rewrite !F. reflexivity. }
  unfold headers, text, on. rewrite !F. cbn [In] in L.
  repeat match type of L with
         | _ \/ _ => destruct L as [L|L]; [rewrite <- L; intros [= <-]; (split; [reflexivity|]); eexists; (split; reflexivity)|]
         end. destruct L.
Qed.

(** Two lines that say the same but for the way in which they write the path do the same, and
    end with the same status.  Only if no package set can be made, or the path is neither a
    directory nor a file, the message, which repeats the path, may differ, and then nothing else
    is done. *)
Theorem C110_spelling : forall w here l c items args l' items' args' s s1 z s2 z',
  ordinary w (abs_path here) -> ok_comps here -> looks_for_files c items ->
  means (w_read_csv w) l c items args -> means (w_read_csv w) l' c items' args' -> same_flags items items' ->
  same_target w here (Exec_Spec.target args) (Exec_Spec.target args') ->
  main w l s = (s1, z) -> main w l' s = (s2, z') ->
  z = z' /\ (s1 = s2 \/ (z = 1%Z /\ exists m m', s1 = fst (println m s) /\ s2 = fst (println m' s))).
Proof.
  intros w here l c items args l' items' args' s s1 z s2 z' (V & G & Wd & Cl & Nm & St) Hh Lk M M' F T.
  destruct (line_is w l c items args G M) as (k & Ak & L). destruct (line_is w l' c items' args' G M') as (k' & Ak' & L').
  destruct (same_asked _ _ _ _ _ args' _ Lk F Ak) as (Of & k2 & Ak2 & El). assert (k' = k2) as -> by congruence. rewrite L, L'. rewrite <- (same_options w _ _ F).
  destruct (the_options w items) as [r|m] eqn:Op.
  - rewrite !with_options. pose proof (options_here w _ items r Wd Op) as Hr.
    pose proof (method_alike w here Hh St r Hr args args' T k k2 s Of El) as [E|(m & m' & E & E')]; unfold process.
    + rewrite E. intros X Y. rewrite X in Y. injection Y as -> ->. auto.
    + rewrite E, E'. intros [= <- <-] [= <- <-]. split; [reflexivity|]. right. split; [reflexivity|]. exists m, m'. auto.
  - rewrite !no_options. intros [= <- <-] [= <- <-]. auto.
Qed.
Print Assumptions C110_spelling.

(** ** Examples: the directory /w, that was /w/b. *)
Definition exw20_stat (p : string) : result file_kind :=
  if mem p ["/w"; "."; "./"; "b/.."; "../w"; "/w/b"; "b"; "./b"; "b/"; "../w//b"] then Ok Exec_Model.Directory
  else if mem p ["/w/a.proto"; "a.proto"; "./a.proto"; "b/../a.proto"; "/w/b/bad.proto"; "b/bad.proto"] then Ok Exec_Model.Regular else Err "no such file".
Definition exw20 : world := mk_world "linux" "amd64" "go1.13" (fun v => if String.eqb v "HOME" then "/home" else "") (Ok "/w") (fun s => if String.eqb s "3s" then Ok 3%Z else Err "bad time")
  (fun s => Ok [s]) (fun _ => "usage") (fun _ => "help") (fun _ => "") (fun _ => "topic")
  (fun _ A l => l) exw20_stat exw15_node (fun _ => None) (fun _ _ => None) (fun _ => None) (Ok "/tmp/f") (Ok "/tmp/d") (fun _ => Err "not found")
  (fun _ _ => None) (fun _ => Err "no json") (fun _ => Ok Props_Init.exi_config) (fun _ => Ok "")
  Settings_Proofs2.by_name (fun l => l) (fun l => l) (fun _ _ => Ok []) (fun s => s) (fun _ _ _ => Ok "")
  (fun d => if String.eqb d "/home/.cache/prototool/Linux/x86_64/protobuf/3.11.0" then Ok tt else Err "no such release") (fun s => s) (fun _ => NotExist) exw12_temp
  (fun _ c => Protoc_Model.Ended "" Protoc_Model.NoError)
  exw12_set (fun n => rev (seq 0 n)) (fun _ n => n) (fun s => s) Props_PackageCmd.kx_marshal Props_PackageCmd.kx_jsonpb Props_PackageCmd.kx_unmarshal
  (fun _ => Ok tt) (fun _ => Ok tt) (fun _ => Ok tt) (fun _ => Ok tt) (fun _ => Ok tt) (fun _ _ => ([], None)).
Lemma exw20_ordinary : ordinary exw20 (abs_path ["w"]).
Proof. destruct exw15_ordinary as (V & G & Wd & Cl & Nm & St). split; [exact V|]. split; [exact G|]. split; [reflexivity|]. split; [exact Cl|]. split; [exact Nm|intros k; discriminate]. Qed.
Ltac plain_now := exists None; split; [cbn; tauto|]; split; [constructor; [right; discriminate|constructor]|split; [reflexivity|split; [split; cbn; auto with arith|reflexivity]]].
Ltac same_now := split; [reflexivity|]; split; [reflexivity|]; split; [intros X; try discriminate X; split; intros Y; cbn in Y; intuition discriminate|intros; reflexivity].
Example C110_spelling_ex : ordinary exw20 (abs_path ["w"]) /\ ok_comps ["w"] /\ looks_for_files (exw_command ["lint"]) [Plain "b"] /\
  means (w_read_csv exw20) ["lint"; "b"] (exw_command ["lint"]) [Plain "b"] ["b"] /\ means (w_read_csv exw20) ["lint"; "../w//b"] (exw_command ["lint"]) [Plain "../w//b"] ["../w//b"] /\
  same_flags [Plain "b"] [Plain "../w//b"] /\ same_target exw20 ["w"] "b" "../w//b" /\ same_target exw20 ["w"] "b" "/w/b" /\ same_target exw20 ["w"] (Exec_Spec.target []) "b/.." /\
  same_target exw20 ["w"] "a.proto" "b/../a.proto" /\
  main exw20 ["lint"; "b"] exw15_s = main exw20 ["lint"; "../w//b"] exw15_s /\ snd (main exw20 ["lint"; "b"] exw15_s) = 255%Z /\
  main exw20 ["lint"; "a.proto"] exw15_s = main exw20 ["lint"; "b/../a.proto"] exw15_s /\ main exw20 ["lint"; "a.proto"] exw15_s <> main exw20 ["lint"; "b"] exw15_s.
Proof.
  split; [exact exw20_ordinary|]. split; [repeat constructor|]. split; [right; cbn; tauto|]. split; [plain_now|]. split; [plain_now|]. split; [intros n; reflexivity|].
  split; [same_now|]. split; [same_now|]. split; [same_now|]. split; [same_now|]. split; [vm_compute; reflexivity|]. split; [vm_compute; reflexivity|]. split; [vm_compute; reflexivity|].
  vm_compute. discriminate.
Qed.
(** Without --descriptor-set-path, break check takes only a relative path. *)
Theorem C110_break_refuted : ~ (forall w here l c items args l' items' args' s s1 z s2 z',
  ordinary w (abs_path here) -> ok_comps here -> c_words c = ["break"; "check"] ->
  means (w_read_csv w) l c items args -> means (w_read_csv w) l' c items' args' -> same_flags items items' ->
  same_target w here (Exec_Spec.target args) (Exec_Spec.target args') ->
  main w l s = (s1, z) -> main w l' s = (s2, z') -> z = z').
Proof.
  intros H. assert (X : 255%Z = 1%Z); [|discriminate X].
  apply (H (exw12 true) ["w"] ["break"; "check"; "."] (exw_command ["break"; "check"]) [Plain "."] ["."] ["break"; "check"; "/w"] [Plain "/w"] ["/w"] exw12_edited
    (fst (main (exw12 true) ["break"; "check"; "."] exw12_edited)) 255%Z (fst (main (exw12 true) ["break"; "check"; "/w"] exw12_edited)) 1%Z).
  - exact (exw12_ordinary true).
  - repeat constructor.
  - reflexivity.
  - plain_now.
  - plain_now.
  - intros n. reflexivity.
  - same_now.
  - vm_compute. reflexivity.
  - vm_compute. reflexivity.
Qed.
Print Assumptions C110_break_refuted.
