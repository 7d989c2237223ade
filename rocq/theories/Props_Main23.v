(** C112: --config-data does what a prototool.json in the working directory does. *)
From Verif Require Import GoStrFacts GoPathFacts Settings_Model Settings_Spec Exec_Model Exec_Spec Cmd_Spec Main_Model Main_Spec Main_Proofs Props_Main Props_Main2 Props_Main3 Props_Main4 Props_Main5 Props_Main12 Props_Main15 Props_Main19 Props_Main20 Props_Main22.
From Verif Require Import Data_Proofs.
From Verif Require File_Spec Place_Spec Place_Proofs.

Section Given.
  Variable items items' : list item.
  Hypothesis F : forall name, name <> "config-data" -> values items name = values items' name.
  Lemma given_asked csv c args : asked csv c items args = asked csv c items' args.
  Proof. unfold asked, headers, text, on. rewrite !F by discriminate. reflexivity. Qed.
  Lemma given_options w r : text items' "config-data" = "" -> the_options w items = Ok r -> the_options w items' = Ok (mk_runner (r_work_dir r) (r_cache_path r) "" (r_json r) (r_protoc_bin_path r) (r_protoc_wkt_path r) (r_error_format r) (r_protoc_url r) (r_walk_timeout r)).
  Proof.
    unfold the_options, options. intros T.
    assert (E : forall n, n <> "config-data" -> text items' n = text items n) by (intros n N; unfold text; now rewrite F).
    assert (J : on items' "json" = on items "json") by (unfold on; now rewrite F by discriminate).
    rewrite T, J, !E by discriminate.
    destruct (if String.eqb (text items "walk-timeout") "" then _ else _) as [x|]; [|discriminate]. cbn [bind]. destruct (w_getwd w) as [d|]; [|discriminate]. cbn [bind]. intros [= <-]. reflexivity.
  Qed.
  Lemma given_no_options w m : the_options w items = Err m -> the_options w items' = Err m.
  Proof.
    unfold the_options, options.
    assert (E : forall n, n <> "config-data" -> text items' n = text items n) by (intros n N; unfold text; now rewrite F).
    rewrite (E "walk-timeout") by discriminate.
    destruct (if String.eqb (text items "walk-timeout") "" then _ else _) as [x|]; [|exact (fun X => X)]. cbn [bind]. destruct (w_getwd w) as [d|]; [discriminate|exact (fun X => X)].
  Qed.
End Given.
Lemma finds_asked csv c items args k : looks_for_files c items -> asked csv c items args = Some k -> finds_files k.
Proof.
  intros L. unfold asked. destruct L as [(L & D)|L].
  { rewrite L. intros [= <-]. exact D. }
  cbn [In] in L.
  repeat match type of L with
         | _ \/ _ => destruct L as [L|L]; [rewrite <- L; intros [= <-]; exact I|]
         end. destruct L.
Qed.

(** Two lines that say the same, but that the one gives a text with --config-data and the other
    gives none, do the same, and end with the same status, if that text is in the prototool.json of
    the working directory, there is no other configuration there or below it, and what the
    lines name is in that directory. *)
Theorem C112_given : forall w here es t l c items args l' items' s,
  ordinary w (abs_path here) -> ok_comps here -> w_node_at w (abs_path here) = NDir es -> looks_for_files c items ->
  means (w_read_csv w) l c items args -> means (w_read_csv w) l' c items' args ->
  (forall name, name <> "config-data" -> values items name = values items' name) ->
  text items "config-data" <> "" -> text items' "config-data" = "" ->
  io_disk s (abs_path (here ++ ["prototool.json"])) = Ok (text items "config-data") ->
  the_config (exists_at w (io_disk s)) here (abs_path (here ++ ["prototool.json"])) ->
  (forall below, below <> [] -> no_config (exists_at w (io_disk s)) (here ++ below)) ->
  Place_Spec.place here (match w_stat w (Exec_Spec.target args) with Ok Regular => path_dir (Exec_Spec.target args) | _ => Exec_Spec.target args end) = here ++ t ->
  main w l s = main w l' s.
Proof.
  intros w here es t l c items args l' items' [disk done] (V & G & Wd & Cl & Nm & St) Hh Dir Lk M M' F Nd T Hd Hc Hn Ht. cbn [io_disk] in *.
  destruct (line_is w l c items args G M) as (k & Ak & L). destruct (line_is w l' c items' args G M') as (k' & Ak' & L').
  rewrite <- (given_asked items items' F) in Ak'. assert (k' = k) as -> by congruence. rewrite L, L'.
  destruct (the_options w items) as [r|m] eqn:Op; [|rewrite (given_no_options items items' F w m Op), !no_options; reflexivity].
  pose proof (given_options items items' F w r T Op) as Op'. rewrite Op', !with_options. unfold process.
  assert (Er : r_config_data r = text items "config-data").
  { unfold the_options in Op. rewrite Wd in Op. destruct (if String.eqb (text items "walk-timeout") "" then Ok 0%Z else w_parse_duration w (text items "walk-timeout")) as [x|]; [|discriminate]. cbn [bind] in Op. injection Op as <-. reflexivity. }
  rewrite <- Er in Nd, Hd.
  rewrite (method_data w (visited _ V) Nm St r _ eq_refl here Hh (options_here w _ items r Wd Op) disk Hc Hn Nd Hd es Dir args t Ht k done); [reflexivity| |].
  - now apply (args_asked _ _ _ _ _ Lk Ak).
  - now apply (finds_asked _ _ _ _ _ Lk Ak).
Qed.
Print Assumptions C112_given.

(** Configuration files, by their names. *)
Definition config_file (p : string) : Prop := exists dir, ok_comps dir /\ In p (config_paths dir).
Lemma config_file_ext p : config_file p -> path_ext p <> ".proto".
Proof.
  intros (dir & O & [<-|[<-|[]]]); rewrite path_ext_abs; try (exact O || discriminate); repeat constructor; assumption.
Qed.
(** A line that gives the configuration, and in it no file with a license header, does not look
    at any configuration file: on two disks that only differ in these it does the same. *)
Theorem C112_instead : forall w here l c items args s s' s1 z s2 z',
  ordinary w here -> looks_for_files c items -> means (w_read_csv w) l c items args ->
  text items "config-data" <> "" -> (forall e, w_decode_json w (text items "config-data") = Ok e -> eh_path (x_header e) = "") ->
  io_done s = io_done s' -> (forall p, ~ config_file p -> io_disk s p = io_disk s' p) ->
  (c_words c = ["break"; "check"] -> ~ config_file (text items "descriptor-set-path")) ->
  Local_Spec.protoc_looks_at w (fun p => path_ext p = ".proto") ->
  main w l s = (s1, z) -> main w l s' = (s2, z') ->
  z = z' /\ io_done s1 = io_done s2 /\ Local_Spec.changed_alike s s' s1 s2.
Proof.
  intros w here l c items args s s' s1 z s2 z' O Lk M Nd Nh E A B Pl.
  assert (Mt : forall p, Local_Spec.matters w (text items "config-data") (io_disk s) p -> path_ext p = ".proto").
  { intros p [X|[q D X|q t e D X Y Z N|e dir D Z N]]; [exact X|contradiction|contradiction|]. now rewrite (Nh _ Z) in N. }
  apply (C111_local w here l c items args s s' s1 z s2 z' O Lk M E).
  - intros p X. apply A. intros C. exact (config_file_ext _ C (Mt _ X)).
  - intros X. apply A, B, X.
  - intros d d' X. apply Pl. intros p Y. apply X. now left.
Qed.
Print Assumptions C112_instead.

(** ** Example: a configuration that is empty but for its braces. *)
Definition exw23 : world := mk_world "linux" "amd64" "go1.13" (fun v => if String.eqb v "HOME" then "/home" else "") (Ok "/w") (fun s => if String.eqb s "3s" then Ok 3%Z else Err "bad time")
  (fun s => Ok [s]) (fun _ => "usage") (fun _ => "help") (fun _ => "") (fun _ => "topic")
  (fun _ A l => l) exw20_stat exw15_node (fun _ => None) (fun _ _ => None) (fun _ => None) (Ok "/tmp/f") (Ok "/tmp/d") (fun _ => Err "not found")
  (fun _ _ => None) (fun s => if String.eqb s "{}" then Ok Props_Init.exi_config else Err "no json") (fun _ => Err "no yaml") (fun _ => Ok "")
  Settings_Proofs2.by_name (fun l => l) (fun l => l) (fun _ _ => Ok []) (fun s => s) (fun _ _ _ => Ok "")
  (fun d => if String.eqb d "/home/.cache/prototool/Linux/x86_64/protobuf/3.11.0" then Ok tt else Err "no such release") (fun s => s) (fun _ => NotExist) exw12_temp
  (fun _ c => Protoc_Model.Ended "" Protoc_Model.NoError)
  (fun d cs t => exw12_set (fun p => if String.eqb (path_ext p) ".proto" then d p else Err "no such file") cs t) (fun n => rev (seq 0 n)) (fun _ n => n) (fun s => s) Props_PackageCmd.kx_marshal Props_PackageCmd.kx_jsonpb Props_PackageCmd.kx_unmarshal
  (fun _ => Ok tt) (fun _ => Ok tt) (fun _ => Ok tt) (fun _ => Ok tt) (fun _ => Ok tt) (fun _ _ => ([], None)).
Definition exw23_s : io := mk_io (fun p => if String.eqb p "/w/prototool.json" then Ok "{}" else io_disk exw15_s p) [].
Definition exw23_bad : io := mk_io (fun p => if String.eqb p "/w/prototool.json" then Ok "{" else io_disk exw15_s p) [].
Lemma exw23_ordinary : ordinary exw23 (abs_path ["w"]).
Proof. exact exw20_ordinary. Qed.
Lemma exw23_disk p : exists_at exw23 (io_disk exw23_s) p = true -> path_ext p = ".json" \/ path_ext p = ".yaml" -> p = "/w/prototool.json".
Proof.
  unfold exists_at, exw23_s, exw15_s. cbn [io_disk]. destruct (String.eqb_spec p "/w/prototool.json") as [->|N]; [reflexivity|].
  intros E X. exfalso. assert (Y : forall l, mem p l = true -> In p l) by (intros l H; now apply mem_In).
  destruct (mem p ["/w/a.proto"; "/w/b/bad.proto"]) eqn:M1.
  { apply Y in M1. destruct M1 as [<-|[<-|[]]]; destruct X; discriminate. }
  change (w_stat exw23 p) with (exw20_stat p) in E. unfold exw20_stat in E. destruct (mem p _) eqn:M2 in E.
  { apply Y in M2. repeat (destruct M2 as [<-|M2]; [destruct X; discriminate|]). destruct M2. }
  destruct (mem p _) eqn:M3 in E; [|discriminate E].
  apply Y in M3. repeat (destruct M3 as [<-|M3]; [destruct X; discriminate|]). destruct M3.
Qed.
Example C112_given_ex : ordinary exw23 (abs_path ["w"]) /\ ok_comps ["w"] /\ (exists es, w_node_at exw23 (abs_path ["w"]) = NDir es) /\
  looks_for_files (exw_command ["lint"]) [Given "config-data" LongEquals "{}"; Plain "b"] /\
  means (w_read_csv exw23) ["lint"; "--config-data={}"; "b"] (exw_command ["lint"]) [Given "config-data" LongEquals "{}"; Plain "b"] ["b"] /\
  means (w_read_csv exw23) ["lint"; "b"] (exw_command ["lint"]) [Plain "b"] ["b"] /\
  (forall name, name <> "config-data" -> values [Given "config-data" LongEquals "{}"; Plain "b"] name = values [Plain "b"] name) /\
  text [Given "config-data" LongEquals "{}"; Plain "b"] "config-data" <> "" /\ text [Plain "b"] "config-data" = "" /\
  io_disk exw23_s (abs_path ["w"; "prototool.json"]) = Ok (text [Given "config-data" LongEquals "{}"; Plain "b"] "config-data") /\
  the_config (exists_at exw23 (io_disk exw23_s)) ["w"] (abs_path ["w"; "prototool.json"]) /\
  (forall below, below <> [] -> no_config (exists_at exw23 (io_disk exw23_s)) (["w"] ++ below)) /\
  Place_Spec.place ["w"] (match w_stat exw23 (Exec_Spec.target ["b"]) with Ok Regular => path_dir (Exec_Spec.target ["b"]) | _ => Exec_Spec.target ["b"] end) = ["w"] ++ ["b"] /\
  main exw23 ["lint"; "--config-data={}"; "b"] exw23_s = main exw23 ["lint"; "b"] exw23_s /\ snd (main exw23 ["lint"; "b"] exw23_s) = 255%Z /\ snd (main exw23 ["lint"; "b"] exw23_bad) = 1%Z /\
  main exw23 ["lint"; "b"] exw15_s <> main exw23 ["lint"; "b"] exw23_bad.
Proof.
  split; [exact exw23_ordinary|]. split; [repeat constructor|]. split; [eexists; reflexivity|]. split; [right; cbn; tauto|].
  split. { exists None. split; [cbn; tauto|]. split; [constructor; [|constructor; [right; discriminate|constructor]]|split; [reflexivity|split; [split; cbn; auto with arith|reflexivity]]]. split; [intros [X|[X|X]]; discriminate X|]. split; [discriminate|]. eexists. split; [unfold takes; cbn; tauto|split; discriminate]. }
  split; [plain_now|]. split; [intros n N; unfold values; cbn [map concat app]; destruct (String.eqb_spec "config-data" n) as [E|]; [now destruct N|reflexivity]|]. split; [discriminate|]. split; [reflexivity|]. split; [reflexivity|].
  assert (X : forall d p, In p (config_paths d) -> path_ext p = ".json" \/ path_ext p = ".yaml").
  { intros d p [<-|[<-|[]]]; rewrite path_ext_abs by reflexivity; auto. }
  split. { split; [right; left; reflexivity|]. split; [reflexivity|]. intros q I E. now apply exw23_disk, (X _ _ I). }
  split. { intros below N p I. destruct (exists_at exw23 (io_disk exw23_s) p) eqn:E; [|reflexivity]. exfalso. apply exw23_disk in E; [|now apply (X _ _ I)]. subst p. destruct below as [|b bs]; [now apply N|].
    assert (L : forall f, String.length (abs_path ((["w"] ++ b :: bs) ++ [f])) >= 4 + String.length f).
    { intros f. rewrite abs_path_snoc. unfold abs_prefix, abs_path. cbn [app]. rewrite join_cons by discriminate. rewrite !slength_app. cbn. lia. }
    destruct I as [I|[I|[]]]; match type of I with abs_path (_ ++ [?f]) = _ => specialize (L f); rewrite I in L end; cbn in L; lia. }
  split; [reflexivity|]. split; [vm_compute; reflexivity|]. split; [vm_compute; reflexivity|]. split; [vm_compute; reflexivity|]. vm_compute. discriminate.
Qed.
Example C112_instead_ex : text [Given "config-data" LongEquals "{}"; Plain "b"] "config-data" <> "" /\ (forall e, w_decode_json exw23 "{}" = Ok e -> eh_path (x_header e) = "") /\
  io_done exw23_s = io_done exw23_bad /\ (forall p, ~ config_file p -> io_disk exw23_s p = io_disk exw23_bad p) /\ io_disk exw23_s "/w/prototool.json" <> io_disk exw23_bad "/w/prototool.json" /\
  Local_Spec.protoc_looks_at exw23 (fun p => path_ext p = ".proto") /\
  snd (main exw23 ["lint"; "--config-data={}"; "b"] exw23_s) = 255%Z /\ snd (main exw23 ["lint"; "--config-data={}"; "b"] exw23_bad) = 255%Z /\
  io_done (fst (main exw23 ["lint"; "--config-data={}"; "b"] exw23_s)) = io_done (fst (main exw23 ["lint"; "--config-data={}"; "b"] exw23_bad)).
Proof.
  split; [discriminate|]. split; [intros e [= <-]; reflexivity|]. split; [reflexivity|]. split.
  { intros p N. unfold exw23_s, exw23_bad. cbn [io_disk]. destruct (String.eqb_spec p "/w/prototool.json") as [->|]; [|reflexivity]. exfalso. apply N. exists ["w"]. split; [repeat constructor|]. right. left. reflexivity. }
  split; [discriminate|]. split.
  { intros d d' E. split; [reflexivity|]. intros cs t. unfold exw23. cbn [w_protoc_set]. unfold exw12_set. rewrite (E "/w/a.proto") by reflexivity. reflexivity. }
  split; [vm_compute; reflexivity|]. split; vm_compute; reflexivity.
Qed.
