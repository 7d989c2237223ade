(** C111: files that are not protobuf files, configurations or license headers make no difference. *)
From Verif Require Import GoStrFacts GoPathFacts Settings_Model Exec_Model Exec_Spec Cmd_Spec Main_Model Main_Spec Main_Proofs Props_Main Props_Main2 Props_Main3 Props_Main4 Props_Main5 Props_Main12 Props_Main15 Props_Main19 Props_Main20.
From Verif Require Import Local_Spec Local_Proofs Local_Proofs2 Local_Proofs3.
From Verif Require File_Spec Place_Proofs.

Lemma reads_asked d d' csv c items args k : looks_for_files c items -> (c_words c = ["break"; "check"] -> d (text items "descriptor-set-path") = d' (text items "descriptor-set-path")) ->
  asked csv c items args = Some k -> reads_files d d' k.
Proof.
  intros L B. unfold asked. destruct L as [(L & D)|L].
  { rewrite L. intros [= <-]. split; [exact D|apply B, L]. }
  cbn [In] in L.
  repeat match type of L with
         | _ \/ _ => destruct L as [L|L]; [rewrite <- L; intros [= <-]; exact I|]
         end. destruct L.
Qed.

Lemma args_asked csv c items args k : looks_for_files c items -> asked csv c items args = Some k -> Place_Proofs.of_args args k.
Proof. intros L Ak. now destruct (same_asked _ _ _ items _ args _ L (fun _ => eq_refl) Ak). Qed.

Lemma visited ord : visits_all ord -> visits ord.
Proof. intros V place A l x I. eapply Permutation_in; [apply Permutation_sym, V|exact I]. Qed.

(** A line that looks for files does the same, and ends with the same status, on any two disks on
    which the files that matter are the same, and it leaves every file that it does not write
    as it was. *)
Theorem C111_local : forall w here l c items args s s' s1 z s2 z',
  ordinary w here -> looks_for_files c items -> means (w_read_csv w) l c items args ->
  io_done s = io_done s' -> (forall p, matters w (text items "config-data") (io_disk s) p -> io_disk s p = io_disk s' p) ->
  (c_words c = ["break"; "check"] -> io_disk s (text items "descriptor-set-path") = io_disk s' (text items "descriptor-set-path")) ->
  protoc_looks_at w (matters w (text items "config-data") (io_disk s)) ->
  main w l s = (s1, z) -> main w l s' = (s2, z') ->
  z = z' /\ io_done s1 = io_done s2 /\ changed_alike s s' s1 s2.
Proof.
  intros w here l c items args [d done] [d' done'] s1 z s2 z' (V & G & Wd & Cl & Nm & St) Lk M E A B Pl. cbn [io_done io_disk] in *. subst done'.
  destruct (line_is w l c items args G M) as (k & Ak & L). rewrite !L. pose proof (reads_asked d d' _ _ _ _ _ Lk B Ak) as K.
  destruct (the_options w items) as [r|m] eqn:Op.
  - rewrite !with_options. assert (Hd : r_config_data r = text items "config-data").
    { unfold the_options in Op. rewrite Wd in Op. destruct (if String.eqb (text items "walk-timeout") "" then Ok 0%Z else w_parse_duration w (text items "walk-timeout")) as [x|]; [|discriminate]. cbn [bind] in Op. injection Op as <-. reflexivity. }
    rewrite <- Hd in A, Pl. pose proof (method_local w (visited _ V) r d d' A Pl args k done (args_asked _ _ _ _ _ Lk Ak) K) as X.
    unfold process. destruct (Main_Model.method w r k {| io_disk := d; io_done := done |}) as [t o], (Main_Model.method w r k {| io_disk := d'; io_done := done |}) as [t' o'].
    destruct X as (Y & D & P & R). cbn [fst snd] in *. subst o'.
    assert (Pr : forall m, io_done (fst (println m t)) = io_done (fst (println m t')) /\ changed_alike {| io_disk := d; io_done := done |} {| io_disk := d'; io_done := done |} (fst (println m t)) (fst (println m t'))).
    { intros m. unfold println. destruct (is_empty m); cbn; [auto|]. split; [now rewrite D|exact R]. }
    destruct o as [u|e|e]; intros [= <- <-] [= <- <-]; (split; [reflexivity|]); [split; [exact D|exact R]|apply Pr|apply Pr].
  - rewrite !no_options. intros [= <- <-] [= <- <-]. split; [reflexivity|]. unfold println. destruct (is_empty m); cbn; (split; [reflexivity|]); intros p; cbn; auto.
Qed.
Print Assumptions C111_local.

(** ** Example: with and without a file that says what there is in the directory. *)
Definition exw22_s : io := mk_io (fun p => if String.eqb p "/w/README.md" then Ok "what there is" else io_disk exw15_s p) [].
Definition exw22_t : io := mk_io (fun p => if String.eqb p "/w/prototool.yaml" then Ok "lint:" else io_disk exw15_s p) [].
Example C111_local_ex : ordinary exw20 "/w" /\ looks_for_files (exw_command ["lint"]) [Plain "b"] /\ means (w_read_csv exw20) ["lint"; "b"] (exw_command ["lint"]) [Plain "b"] ["b"] /\
  io_done exw15_s = io_done exw22_s /\ io_disk exw15_s "/w/README.md" <> io_disk exw22_s "/w/README.md" /\
  (forall p, matters exw20 "" (io_disk exw15_s) p -> io_disk exw15_s p = io_disk exw22_s p) /\ protoc_looks_at exw20 (matters exw20 "" (io_disk exw15_s)) /\
  matters exw20 "" (io_disk exw15_s) "/w/a.proto" /\ matters exw20 "" (io_disk exw15_s) "/w/prototool.yaml" /\
  (exists m, main exw20 ["lint"; "b"] exw15_s = (mk_io (io_disk exw15_s) m, 255%Z) /\ main exw20 ["lint"; "b"] exw22_s = (mk_io (io_disk exw22_s) m, 255%Z) /\
    io_done (fst (main exw20 ["lint"; "b"] exw22_t)) <> m).
Proof.
  split; [exact exw20_ordinary|]. split; [right; cbn; tauto|]. split; [plain_now|]. split; [reflexivity|]. split; [discriminate|]. split.
  - intros p M. unfold exw22_s. cbn [io_disk]. destruct (String.eqb_spec p "/w/README.md") as [->|]; [|reflexivity]. exfalso.
    remember "/w/README.md" as q eqn:Q. destruct M as [X|M]; [|revert Q; destruct M as [p D X|p text e D X Y Z N|e dir D Z N]; intros Q].
    + subst q. vm_compute in X. discriminate X.
    + subst p. destruct X as [X|X]; vm_compute in X; discriminate X.
    + destruct Z as [Z|Z]; [discriminate Z|]. injection Z as <-. now apply N.
    + now destruct D.
  - split; [intros d d' E; split; [reflexivity|]; intros cs t; change (exw12_set d cs t = exw12_set d' cs t); unfold exw12_set; rewrite (E "/w/a.proto") by (left; reflexivity); reflexivity|]. split; [left; reflexivity|]. split; [right; constructor; [reflexivity|left; reflexivity]|]. eexists. split; [vm_compute; reflexivity|]. split; [vm_compute; reflexivity|]. vm_compute. discriminate.
Qed.

(** Nor does it matter whether there are other files: the same goes for two trees that only differ
    in files that are not protobuf files, with all configuration files in both, unless the line
    gives the configuration. *)
Theorem C111_files : forall w stat node_at here l c items args s s' s1 z s2 z',
  ordinary w (abs_path here) -> ok_comps here -> (forall p, File_Spec.named (node_at p)) -> looks_for_files c items -> means (w_read_csv w) l c items args ->
  (forall cs, cs = here \/ on_the_way w here (Exec_Spec.target args) cs -> bare (w_node_at w (abs_path cs)) = bare (node_at (abs_path cs))) ->
  w_stat w (Exec_Spec.target args) = stat (Exec_Spec.target args) -> (text items "config-data" = "" -> forall p, config_name p -> w_stat w p = stat p) ->
  io_done s = io_done s' -> (forall p, matters w (text items "config-data") (io_disk s) p -> io_disk s p = io_disk s' p) ->
  (c_words c = ["break"; "check"] -> io_disk s (text items "descriptor-set-path") = io_disk s' (text items "descriptor-set-path")) ->
  protoc_looks_at w (matters w (text items "config-data") (io_disk s)) ->
  main w l s = (s1, z) -> main (other_files w stat node_at) l s' = (s2, z') ->
  z = z' /\ io_done s1 = io_done s2 /\ changed_alike s s' s1 s2.
Proof.
  intros w stat node_at here l c items args s s' s1 z s2 z' O Hh Nm' Lk M Bw Et Ec E A B Pl X Y.
  apply (C111_local w (abs_path here) l c items args s s' s1 z s2 z' O Lk M E A B Pl X). rewrite <- Y.
  destruct O as (V & G & Wd & Cl & Nm & St). set (w' := other_files w stat node_at).
  destruct (line_is w l c items args G M) as (k & Ak & L). destruct (line_is w' l c items args G M) as (k' & Ak' & L').
  change (w_read_csv w') with (w_read_csv w) in Ak'. assert (k' = k) as -> by congruence. rewrite L, L'. change (the_options w' items) with (the_options w items).
  destruct (the_options w items) as [r|m] eqn:Op; [|reflexivity]. rewrite !with_options. unfold process.
  assert (Hd : r_config_data r = text items "config-data").
  { unfold the_options in Op. rewrite Wd in Op. destruct (if String.eqb (text items "walk-timeout") "" then Ok 0%Z else w_parse_duration w (text items "walk-timeout")) as [x|]; [|discriminate]. cbn [bind] in Op. injection Op as <-. reflexivity. }
  rewrite <- Hd in Ec. rewrite (method_other w stat node_at r Nm Nm' here Hh (options_here w _ items r Wd Op) St Ec (io_disk s) (io_disk s') args k s'); [reflexivity|..].
  - now apply (args_asked _ _ _ _ _ Lk Ak).
  - now apply (reads_asked _ _ _ _ _ _ _ Lk B Ak).
  - exact Et.
  - exact Bw.
Qed.
Print Assumptions C111_files.
(** With a directory of notes, too. *)
Definition exw22_stat (p : string) : result file_kind := if String.eqb p "/w/README.md" then Ok Exec_Model.Regular else exw20_stat p.
Definition exw22_node (p : string) : node :=
  if String.eqb p "/w" then NDir [("README.md", NFile); ("a.proto", NFile); ("b", NDir [("LICENSE", NFile); ("bad.proto", NFile)])]
  else if String.eqb p "/w/b" then NDir [("LICENSE", NFile); ("bad.proto", NFile)] else if String.eqb p "/w/README.md" then NFile else exw15_node p.
Example C111_files_ex : (forall p, File_Spec.named (exw22_node p)) /\
  (forall cs, cs = ["w"] \/ on_the_way exw20 ["w"] (Exec_Spec.target ["b"]) cs -> bare (w_node_at exw20 (abs_path cs)) = bare (exw22_node (abs_path cs))) /\
  on_the_way exw20 ["w"] (Exec_Spec.target ["b"]) ["w"; "b"] /\ on_the_way exw20 ["w"] "b/bad.proto" ["w"; "b"] /\
  w_stat exw20 (Exec_Spec.target ["b"]) = exw22_stat (Exec_Spec.target ["b"]) /\ (forall p, config_name p -> w_stat exw20 p = exw22_stat p) /\
  w_node_at exw20 "/w" <> exw22_node "/w" /\
  (exists m, main exw20 ["lint"; "b"] exw15_s = (mk_io (io_disk exw15_s) m, 255%Z) /\ main (other_files exw20 exw22_stat exw22_node) ["lint"; "b"] exw22_s = (mk_io (io_disk exw22_s) m, 255%Z)).
Proof.
  split; [|split; [|split; [|split; [|split; [|split; [|split]]]]]].
  - destruct exw15_ordinary as (_ & _ & _ & _ & Nm & _). intros p. unfold exw22_node. destruct (String.eqb p "/w"); [|destruct (String.eqb p "/w/b"); [|destruct (String.eqb p "/w/README.md"); [constructor|apply Nm]]].
    + constructor; [repeat constructor|repeat constructor; cbn; intuition discriminate|]. intros n c [[= <- <-]|[[= <- <-]|[[= <- <-]|[]]]]; try constructor; [repeat constructor|repeat constructor; cbn; intuition discriminate|]. intros n c [[= <- <-]|[[= <- <-]|[]]]; constructor.
    + constructor; [repeat constructor|repeat constructor; cbn; intuition discriminate|]. intros n c [[= <- <-]|[[= <- <-]|[]]]; constructor.
  - intros cs [->|(t & X)]; [reflexivity|]. change (["w"; "b"] = cs ++ t) in X. destruct cs as [|a [|b [|]]]; cbn in X; try discriminate X; [reflexivity| |]; injection X; intros; subst; reflexivity.
  - exists []. reflexivity.
  - exists []. reflexivity.
  - reflexivity.
  - intros p [X|X]; unfold exw22_stat; destruct (String.eqb_spec p "/w/README.md") as [->|]; try reflexivity; vm_compute in X; discriminate X.
  - discriminate.
  - eexists. split; vm_compute; reflexivity.
Qed.
