(** C113: what is in an excluded directory makes no difference. *)
From Verif Require Import GoStrFacts GoPathFacts Settings_Model Settings_Spec Exec_Model Exec_Spec Cmd_Spec Main_Model Main_Spec Main_Proofs Props_Main Props_Main2 Props_Main3 Props_Main4 Props_Main5 Props_Main12 Props_Main15 Props_Main19 Props_Main20 Props_Main22.
From Verif Require Import Local_Spec Local_Proofs Local_Proofs2 Local_Proofs3 Exclude_Spec Exclude_Proofs2.
From Verif Require File_Spec Place_Spec Place_Proofs Main_Proofs7.

(** A line that looks for files does the same, and ends with the same status, in any two worlds in
    which the trees and the files only differ in an excluded directory: whatever is there, and
    whatever is in it, as long as it is no file that settings come from and protoc does not look
    there. *)
Theorem C113_excluded : forall w stat node_at here l c items args root names s s' s1 z s2 z',
  ordinary w (abs_path here) -> ok_comps here -> (forall p, File_Spec.named (node_at p)) -> looks_for_files c items -> means (w_read_csv w) l c items args ->
  ok_comps names -> names <> [] ->
  excludes w (text items "config-data") (io_disk s) here
    (Place_Spec.place here (match w_stat w (Exec_Spec.target args) with Ok Regular => path_dir (Exec_Spec.target args) | _ => Exec_Spec.target args end)) root names ->
  hollow names (w_node_at w (abs_path root)) = hollow names (node_at (abs_path root)) ->
  w_stat w (Exec_Spec.target args) = stat (Exec_Spec.target args) -> (text items "config-data" = "" -> forall p, config_name p -> w_stat w p = stat p) ->
  io_done s = io_done s' ->
  (forall p, ~ within (abs_path (root ++ names)) p \/ settings_file w (text items "config-data") (io_disk s) p -> io_disk s p = io_disk s' p) ->
  (c_words c = ["break"; "check"] -> io_disk s (text items "descriptor-set-path") = io_disk s' (text items "descriptor-set-path")) ->
  protoc_looks_at w (fun p => ~ within (abs_path (root ++ names)) p) ->
  main w l s = (s1, z) -> main (other_files w stat node_at) l s' = (s2, z') ->
  z = z' /\ io_done s1 = io_done s2 /\ changed_alike s s' s1 s2.
Proof.
  intros w stat node_at here l c items args root names [d done] [d' done'] s1 z s2 z' (V & G & Wd & Cl & Nm & St) Hh Nm' Lk M Hn Nn Ex Eh Et Ec E A B Pl. cbn [io_done io_disk] in *. subst done'.
  set (w' := other_files w stat node_at).
  destruct (line_is w l c items args G M) as (k & Ak & L). destruct (line_is w' l c items args G M) as (k' & Ak' & L').
  change (w_read_csv w') with (w_read_csv w) in Ak'. assert (k' = k) as -> by congruence. rewrite L, L'. change (the_options w' items) with (the_options w items).
  pose proof (reads_asked d d' _ _ _ _ _ Lk B Ak) as K. pose proof (args_asked _ _ _ _ _ Lk Ak) as O.
  destruct (the_options w items) as [r|m] eqn:Op.
  - rewrite !with_options. assert (Hd : r_config_data r = text items "config-data").
    { unfold the_options in Op. rewrite Wd in Op. destruct (if String.eqb (text items "walk-timeout") "" then Ok 0%Z else w_parse_duration w (text items "walk-timeout")) as [x|]; [|discriminate]. cbn [bind] in Op. injection Op as <-. reflexivity. }
    rewrite <- Hd in *. pose proof (options_here w _ items r Wd Op) as Hr.
    assert (As : forall p, settings_file w (r_config_data r) d p -> d p = d' p) by (intros p X; apply A; now right).
    assert (W : Main_Model.method w r k {| io_disk := d'; io_done := done |} = Main_Model.method w' r k {| io_disk := d'; io_done := done |}).
    { apply (method_provider w stat node_at r St d d' args k _ O K Et). intros x _ dir N. cbn [io_disk].
      exact (provider_excluded w stat node_at Nm Nm' r here Hh Hr Ec d d' As args root names Hn Nn Ex Eh N). }
    set (P := fun p => ~ within (abs_path (root ++ names)) p \/ settings_file w (r_config_data r) d p).
    assert (X : same_end P d d' (Main_Model.method w r k {| io_disk := d; io_done := done |}) (Main_Model.method w r k {| io_disk := d'; io_done := done |})).
    { apply (method_simulates w (visited _ V) r d d' P args A); [|exact (provider_local w r d d' As)| |exact O|exact K].
      - intros x y Z. apply Pl. intros p Q. apply Z. now left.
      - intros dir ps x fs f Ed Nf F I1 I2. left. subst dir. refine (found_outside w (visited _ V) Nm r here Hh Hr d args root names Hn Nn Ex ps x fs f _ F I1 I2).
        destruct (w_stat w (Exec_Spec.target args)) as [[]|e] eqn:S; [|apply Main_Proofs7.path_clean_not_empty|..|now destruct (Nf e)]; intros X0; rewrite X0 in S; now apply St in S. }
    unfold process. rewrite <- W. destruct (Main_Model.method w r k {| io_disk := d; io_done := done |}) as [t o], (Main_Model.method w r k {| io_disk := d'; io_done := done |}) as [t' o'].
    destruct X as (Y & Dn & _ & R). cbn [fst snd] in *. subst o'.
    assert (Pr : forall m, io_done (fst (println m t)) = io_done (fst (println m t')) /\ changed_alike {| io_disk := d; io_done := done |} {| io_disk := d'; io_done := done |} (fst (println m t)) (fst (println m t'))).
    { intros m. unfold println. destruct (is_empty m); cbn; [auto|]. split; [now rewrite Dn|exact R]. }
    destruct o as [u|e|e]; intros [= <- <-] [= <- <-]; (split; [reflexivity|]); [split; [exact Dn|exact R]|apply Pr|apply Pr].
  - rewrite !no_options. intros [= <- <-] [= <- <-]. split; [reflexivity|]. unfold println. destruct (is_empty m); cbn; (split; [reflexivity|]); intros p; cbn; auto.
Qed.
Print Assumptions C113_excluded.

(** ** Example: the directory b of /w is excluded. *)
Definition exw24_yaml (t : string) : result external_config :=
  if String.eqb t "excludes: b" then Ok (Props_File.excluding ["b"]) else if String.eqb t "" then Ok (Props_File.excluding []) else Err "no yaml".
Definition exw24 : world := mk_world "linux" "amd64" "go1.13" (fun v => if String.eqb v "HOME" then "/home" else "") (Ok "/w") (fun s => if String.eqb s "3s" then Ok 3%Z else Err "bad time")
  (fun s => Ok [s]) (fun _ => "usage") (fun _ => "help") (fun _ => "") (fun _ => "topic")
  (fun _ A l => l) exw20_stat exw15_node (fun _ => None) (fun _ _ => None) (fun _ => None) (Ok "/tmp/f") (Ok "/tmp/d") (fun _ => Err "not found")
  (fun _ _ => None) (fun _ => Err "no json") exw24_yaml (fun _ => Ok "")
  Settings_Proofs2.by_name (fun l => l) (fun l => l) (fun _ _ => Ok []) (fun s => s) (fun _ _ _ => Ok "")
  (fun d => if String.eqb d "/home/.cache/prototool/Linux/x86_64/protobuf/3.11.0" then Ok tt else Err "no such release") (fun s => s) (fun _ => NotExist) exw12_temp
  (fun _ c => Protoc_Model.Ended "" Protoc_Model.NoError)
  exw12_set (fun n => rev (seq 0 n)) (fun _ n => n) (fun s => s) Props_PackageCmd.kx_marshal Props_PackageCmd.kx_jsonpb Props_PackageCmd.kx_unmarshal
  (fun _ => Ok tt) (fun _ => Ok tt) (fun _ => Ok tt) (fun _ => Ok tt) (fun _ => Ok tt) (fun _ _ => ([], None)).
Definition exw24_disk (config : string) (p : string) : result string := if String.eqb p "/w/prototool.yaml" then Ok config else io_disk exw15_s p.
Definition exw24_s (config : string) : io := mk_io (exw24_disk config) [].
Definition exw24_t (config : string) : io := mk_io (fun p => if String.eqb p "/w/b/other.proto" then Ok "more" else if String.eqb p "/w/b/bad.proto" then Err "no such file" else exw24_disk config p) [].
Definition exw24_node (p : string) : node :=
  if String.eqb p "/w" then NDir [("a.proto", NFile); ("b", NDir [("other.proto", NFile)])]
  else if String.eqb p "/w/b" then NDir [("other.proto", NFile)] else if mem p ["/w/a.proto"; "/w/b/other.proto"] then NFile else NBroken.
Definition exw24' : world := other_files exw24 exw20_stat exw24_node.
Lemma exw24_ordinary : ordinary exw24 (abs_path ["w"]).
Proof. exact exw20_ordinary. Qed.
Lemma exw24_named p : File_Spec.named (exw24_node p).
Proof.
  unfold exw24_node. destruct (String.eqb p "/w"); [|destruct (String.eqb p "/w/b"); [|destruct (mem p _); constructor]].
  - constructor; [repeat constructor|repeat constructor; cbn; intuition discriminate|]. intros n c [[= <- <-]|[[= <- <-]|[]]]; [constructor|]. constructor; [repeat constructor|repeat constructor; cbn; intuition discriminate|]. intros n c [[= <- <-]|[]]; constructor.
  - constructor; [repeat constructor|repeat constructor; cbn; intuition discriminate|]. intros n c [[= <- <-]|[]]; constructor.
Qed.
Lemma exw24_excludes : excludes exw24 "" (exw24_disk "excludes: b") ["w"] (Place_Spec.place ["w"] ".") ["w"] ["b"].
Proof.
  assert (T : the_config (exists_at exw24 (exw24_disk "excludes: b")) ["w"] "/w/prototool.yaml").
  { split; [left; reflexivity|]. split; [reflexivity|]. intros q [<-|[<-|[]]] X; [reflexivity|]. vm_compute in X. discriminate X. }
  left. split; [reflexivity|]. split.
  - right. exists "/w/prototool.yaml". split; [|exact T]. exists []. split; [reflexivity|]. split; [|intros b1 b2 X N; destruct b1; [contradiction|discriminate X]].
    intros N. specialize (N "/w/prototool.yaml" (or_introl eq_refl)). vm_compute in N. discriminate N.
  - exists "/w/prototool.yaml", (Props_File.excluding ["b"]), "b". split; [exact T|]. split; [right; exists "excludes: b"; split; [reflexivity|]; split; [discriminate|]; right; split; reflexivity|].
    split; [left; reflexivity|]. split; [discriminate|reflexivity].
Qed.
Lemma exw24_looks : protoc_looks_at exw24 (fun p => ~ within "/w/b" p).
Proof.
  intros d d' E. split; [reflexivity|]. intros cs t. unfold exw24. cbn [w_protoc_set]. unfold exw12_set. rewrite (E "/w/a.proto"); [reflexivity|].
  intros X. apply within_prefix in X. vm_compute in X. discriminate X.
Qed.
Example C113_excluded_ex : ordinary exw24 (abs_path ["w"]) /\ ok_comps ["w"] /\ (forall p, File_Spec.named (exw24_node p)) /\ looks_for_files (exw_command ["files"]) [] /\
  means (w_read_csv exw24) ["files"] (exw_command ["files"]) [] [] /\ ok_comps ["b"] /\
  excludes exw24 (text [] "config-data") (io_disk (exw24_s "excludes: b")) ["w"]
    (Place_Spec.place ["w"] (match w_stat exw24 (Exec_Spec.target []) with Ok Regular => path_dir (Exec_Spec.target []) | _ => Exec_Spec.target [] end)) ["w"] ["b"] /\
  hollow ["b"] (w_node_at exw24 (abs_path ["w"])) = hollow ["b"] (exw24_node (abs_path ["w"])) /\ w_node_at exw24 (abs_path ["w"]) <> exw24_node (abs_path ["w"]) /\
  io_done (exw24_s "excludes: b") = io_done (exw24_t "excludes: b") /\
  (forall p, ~ within (abs_path (["w"] ++ ["b"])) p \/ settings_file exw24 (text [] "config-data") (io_disk (exw24_s "excludes: b")) p -> io_disk (exw24_s "excludes: b") p = io_disk (exw24_t "excludes: b") p) /\
  io_disk (exw24_s "excludes: b") "/w/b/bad.proto" <> io_disk (exw24_t "excludes: b") "/w/b/bad.proto" /\
  protoc_looks_at exw24 (fun p => ~ within (abs_path (["w"] ++ ["b"])) p) /\
  main exw24 ["files"] (exw24_s "excludes: b") = (mk_io (io_disk (exw24_s "excludes: b")) (Main_Spec.shown ["a.proto"]), 0%Z) /\
  main exw24' ["files"] (exw24_t "excludes: b") = (mk_io (io_disk (exw24_t "excludes: b")) (Main_Spec.shown ["a.proto"]), 0%Z) /\
  main exw24' ["files"] (exw24_t "") = (mk_io (io_disk (exw24_t "")) (Main_Spec.shown ["a.proto"; "b/other.proto"]), 0%Z).
Proof.
  split; [exact exw24_ordinary|]. split; [repeat constructor|]. split; [exact exw24_named|]. split; [right; cbn; tauto|]. split; [means_now|]. split; [repeat constructor|]. split; [exact exw24_excludes|].
  split; [reflexivity|]. split; [discriminate|]. split; [reflexivity|]. split.
  { assert (W : forall f, ok_comp f = true -> within "/w/b" ("/w/b/" +++ f)) by (intros f O; exists ["w"; "b"], [f]; split; [repeat constructor|]; split; [constructor; [exact O|constructor]|]; split; reflexivity).
    assert (S : forall p, settings_file exw24 (text [] "config-data") (io_disk (exw24_s "excludes: b")) p -> config_name p).
    { intros p [q D C|q t e D C R [X|X] N|e dir D X N]; [exact C|discriminate X| |now destruct D]. exfalso. apply N. revert X. cbn [exw24 w_decode_yaml]. unfold exw24_yaml.
      destruct (String.eqb t "excludes: b"); [intros [= <-]; reflexivity|]. destruct (String.eqb t ""); [intros [= <-]; reflexivity|discriminate]. }
    intros p X. cbn [exw24_s exw24_t io_disk].
    destruct (String.eqb_spec p "/w/b/other.proto") as [->|]; [|destruct (String.eqb_spec p "/w/b/bad.proto") as [->|]; [|reflexivity]]; exfalso;
      (destruct X as [X|X]; [|apply S in X as [X|X]; vm_compute in X; discriminate X]); [exact (X (W "other.proto" eq_refl))|exact (X (W "bad.proto" eq_refl))]. }
  split; [discriminate|]. split; [exact exw24_looks|]. repeat split; vm_compute; reflexivity.
Qed.

(** An excluded directory with a configuration that cannot be used is in the way all the same. *)
Theorem C113_configuration_refuted : ~ (forall w stat node_at here l c items args root names s s' s1 z s2 z',
  ordinary w (abs_path here) -> ok_comps here -> (forall p, File_Spec.named (node_at p)) -> looks_for_files c items -> means (w_read_csv w) l c items args ->
  ok_comps names -> names <> [] ->
  excludes w (text items "config-data") (io_disk s) here
    (Place_Spec.place here (match w_stat w (Exec_Spec.target args) with Ok Regular => path_dir (Exec_Spec.target args) | _ => Exec_Spec.target args end)) root names ->
  hollow names (w_node_at w (abs_path root)) = hollow names (node_at (abs_path root)) ->
  w_stat w (Exec_Spec.target args) = stat (Exec_Spec.target args) -> (text items "config-data" = "" -> forall p, config_name p -> w_stat w p = stat p) ->
  io_done s = io_done s' ->
  (forall p, ~ within (abs_path (root ++ names)) p -> io_disk s p = io_disk s' p) ->
  (c_words c = ["break"; "check"] -> io_disk s (text items "descriptor-set-path") = io_disk s' (text items "descriptor-set-path")) ->
  protoc_looks_at w (fun p => ~ within (abs_path (root ++ names)) p) ->
  main w l s = (s1, z) -> main (other_files w stat node_at) l s' = (s2, z') -> z = z').
Proof.
  intros H. specialize (H exw24 exw20_stat exw15_node ["w"] ["files"] (exw_command ["files"]) [] [] ["w"] ["b"] (exw24_s "excludes: b")
    (mk_io (fun p => if String.eqb p "/w/b/prototool.yaml" then Ok "bad" else exw24_disk "excludes: b" p) [])
    (mk_io (io_disk (exw24_s "excludes: b")) (Main_Spec.shown ["a.proto"])) 0%Z
    (mk_io (fun p => if String.eqb p "/w/b/prototool.yaml" then Ok "bad" else exw24_disk "excludes: b" p) (Main_Spec.shown ["no yaml"])) 1%Z).
  assert (X : 0%Z = 1%Z); [|discriminate X]. destruct exw24_ordinary as (V & G & Wd & Cl & Nm & St). apply H.
  - exact exw24_ordinary.
  - repeat constructor.
  - exact Nm.
  - right; cbn; tauto.
  - means_now.
  - repeat constructor.
  - discriminate.
  - exact exw24_excludes.
  - reflexivity.
  - reflexivity.
  - reflexivity.
  - reflexivity.
  - intros p X. cbn [exw24_s io_disk]. destruct (String.eqb_spec p "/w/b/prototool.yaml") as [->|]; [|reflexivity]. exfalso. apply X. exists ["w"; "b"], ["prototool.yaml"]. split; [repeat constructor|]. split; [repeat constructor|]. split; reflexivity.
  - discriminate.
  - exact exw24_looks.
  - vm_compute. reflexivity.
  - vm_compute. reflexivity.
Qed.
Print Assumptions C113_configuration_refuted.
