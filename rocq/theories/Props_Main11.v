(** C92, C93, C94: create, version and cache delete, for the whole program. *)
From Coq Require Import Permutation.
From Verif Require Json_Spec Props_Json.
From Verif Require CreateOut_Proofs Props_CreateOut Settings_Proofs2 Props_Format.
From Verif Require Import GoStrFacts GoPathFacts Settings_Spec File_Spec Exec_Spec Exec_Proofs Cmd_Spec Download_Spec Download_Proofs Create_Spec CreateOut_Spec Format_Spec Main_Model Main_Spec Main_Spec2
  Main_Spec3 Main_Proofs Main_Proofs2 Main_Proofs5 Main_Proofs6 Main_Proofs7 Main_Proofs13 Main_Proofs14 Props_Main Props_Main2 Props_Main3 Props_Main4 Props_Main5.

Lemma path_abs_clean cwd f : clean_abs cwd -> clean_abs (path_abs cwd f).
Proof. intros C. unfold path_abs. destruct (is_abs f) eqn:E; [now apply path_clean_clean_abs|now apply path_join_abs_clean]. Qed.
Lemma options_are w cwd items r : w_getwd w = Ok cwd -> the_options w items = Ok r -> exists z, r = options (w_getenv w) cwd z items.
Proof. intros Wd Or. unfold the_options in Or. rewrite Wd in Or. destruct (if String.eqb _ _ then _ else _) as [z|] in Or; [|discriminate Or]. cbn [bind] in Or. injection Or as <-. eauto. Qed.

(** ** C92 *)
Theorem C92_create : forall w cwd l c items args s s' z, ordinary w cwd -> sorts (w_sort_plugins w) ->
  means (w_read_csv w) l c items args -> c_words c = ["create"] -> main w l s = (s', z) ->
  ((exists f, In f args /\ in_the_way w (io_disk s) cwd f) -> z = 1%Z /\ io_disk s' = io_disk s) /\
  (z = 0%Z -> NoDup (map (path_abs cwd) args) -> forall f, In f args ->
   exists d conf text p, ok_comps d /\ path_dir (path_abs cwd f) = abs_path d /\ in_force_for_new w (io_disk s) (Cmd_Spec.text items "config-data") d conf /\
     io_disk s' (path_abs cwd f) = Ok text /\ states_package (header_of_config conf) text p /\
     (Cmd_Spec.text items "package" <> "" -> p = Cmd_Spec.text items "package") /\
     (Cmd_Spec.text items "package" = "" -> Cmd_Spec.text items "config-data" = "" ->
      (forall d' base, ok_comps d' -> In (abs_path d', base) (cr_dir_to_base (cfg_create conf)) -> no_sibling d' d) ->
      exists cd default, searched (exists_at w (io_disk s)) d cd /\ default_of conf default /\ package_for (cr_dir_to_base (cfg_create conf)) cd d default p) /\
     forall sort_options es hts, a_package p -> quotes_free f -> quotes_free (prefix_of conf) -> contents_of conf p f es ->
       reads_as (header_of_config conf +++ String newline "") hts -> reads_as text (hts ++ concat (map (tokens sort_options) es))).
Proof.
  intros w cwd l c items args s s' z (V & G & Wd & Cl & Nm & St) So Mf Wf Ef.
  destruct (line_is w l c items args G Mf) as (k & K & L). rewrite L in Ef. clear L. unfold asked in K. rewrite Wf in K. injection K as <-.
  destruct (the_options w items) as [r|m] eqn:Or.
  2:{ rewrite no_options in Ef. injection Ef as <- <-. split; [|discriminate]. intros _. split; [reflexivity|]. unfold println. destruct (is_empty m); reflexivity. }
  rewrite with_options in Ef. destruct (options_are _ _ _ _ Wd Or) as (wt & Rw). assert (Hr : here r = cwd) by now rewrite Rw. assert (Cr : clean_abs (here r)) by now rewrite Hr.
  assert (Da : r_config_data r = Cmd_Spec.text items "config-data") by now rewrite Rw. split.
  - intros (f & If & W). rewrite <- Hr in W. destruct (create_blocked w r args (Cmd_Spec.text items "package") s f If W) as (m & E).
    unfold process in Ef. change (Main_Model.method w r (CallCreate args (Cmd_Spec.text items "package")) s) with (create_cmd w r args (Cmd_Spec.text items "package") s) in Ef.
    rewrite E in Ef. injection Ef as <- <-. split; [reflexivity|]. unfold println. destruct (is_empty m); reflexivity.
  - intros -> Nd f If. apply process_value in Ef as ([] & Ef).
    change (create_cmd w r args (Cmd_Spec.text items "package") s = (s', Value tt)) in Ef.
    destruct (path_dir_clean_abs _ (path_abs_clean cwd f Cl)) as (d & Hd & Ed). rewrite <- Hr in Nd, Ed |- *.
    destruct (create_made w V So r args _ s s' f d Ef If Nd Hd Ed) as (_ & conf & p & C1 & C2 & C3 & C4). rewrite Da in C1, C4.
    exists d, conf, (CreateOut_Proofs.created_text (header_of_config conf) p (created_settings (in_uber2 conf) p f (prefix_of conf))), p.
    split; [exact Hd|]. split; [exact Ed|]. split; [exact C1|]. split; [exact C2|]. split; [apply Props_CreateOut.created_states|]. split; [exact C3|]. split; [exact C4|].
    intros so es hts Hp Hq Hx D Hh. now apply CreateOut_Proofs.created_reads.
Qed.
Print Assumptions C92_create.

(** ** C93 *)
Definition what_version_tells (w : world) : list (string * string) :=
  [("Version:", "1.11.0-dev"); ("Default protoc version:", "3.11.0"); ("Go version:", w_go_version w); ("OS/Arch:", w_goos w +++ "/" +++ w_goarch w)].
Definition what_version_tells_json (w : world) : list (string * string) :=
  [("version", "1.11.0-dev"); ("default_protoc_version", "3.11.0"); ("go_version", w_go_version w); ("goos", w_goos w); ("goarch", w_goarch w)].
(** A table of two columns. *)
Definition table (rows : list (string * string)) (text : string) : Prop :=
  exists column, text = join "" (map (fun row => fst row +++ srepeat " " (column - String.length (fst row)) +++ snd row +++ String newline "") rows) /\
    forall row, In row rows -> String.length (fst row) < column.
Theorem C93_version : forall w cwd l c items args s, ordinary w cwd -> means (w_read_csv w) l c items args -> c_words c = ["version"] -> (exists t, w_parse_duration w (text items "walk-timeout") = Ok t) ->
  exists out, main w l s = (mk_io (io_disk s) (io_done s ++ [Printed out]), 0%Z) /\
    (on items "json" = false -> table (what_version_tells w) out) /\
    (on items "json" = true -> Json_Spec.in_utf8 (w_go_version w) -> Json_Spec.in_utf8 (w_goos w) -> Json_Spec.in_utf8 (w_goarch w) ->
      Json_Spec.read_object out = Some (map (fun kv => (fst kv, Json_Spec.JText (snd kv))) (filter (fun kv => negb (String.eqb (snd kv) "")) (what_version_tells_json w)))).
Proof.
  intros w cwd l c items args s (V & G & Wd & Cl & Nm & St) Mf Wf Wt.
  destruct (line_is w l c items args G Mf) as (k & K & L). rewrite L. clear L. unfold asked in K. rewrite Wf in K. injection K as <-.
  destruct (the_options w items) as [r|m] eqn:Or; [|destruct Wt as (t & Wt); unfold the_options in Or; rewrite Wd, Wt in Or; destruct (String.eqb _ _); discriminate Or]. rewrite with_options. destruct (options_are _ _ _ _ Wd Or) as (wt & Rw).
  assert (Js : r_json r = on items "json") by now rewrite Rw. unfold process. change (Main_Model.method w r CallVersion s) with (version_cmd w r s). unfold version_cmd. rewrite Js.
  destruct (on items "json").
  - eexists. split; [reflexivity|]. split; [discriminate|]. intros _ U1 U2 U3. apply Props_Json.C107_version.
    intros k v H. cbn [version_fields In] in H. repeat (destruct H as [H|H]; [apply pair_equal_spec in H as (<- & <-); split; [now apply Props_Json.ascii_utf8|first [assumption|now apply Props_Json.ascii_utf8]]|]). destruct H.
  - eexists. split; [reflexivity|]. split; [|discriminate]. intros _. exists 25. split; [unfold version_cells, what_version_tells; cbn [map fst snd]; unfold LintCmd_Model.pad; rewrite !sapp_assoc; reflexivity|].
    intros row H. cbn in H. repeat (destruct H as [<-|H]; [cbn; auto 30 with arith|]). destruct H.
Qed.
Print Assumptions C93_version.

(** ** C94 *)
Theorem C94_delete : forall w cwd l c items s s' z, ordinary w cwd -> means (w_read_csv w) l c items [] -> c_words c = ["cache"; "delete"] -> main w l s = (s', z) ->
  let cache := if String.eqb (text items "cache-path") "" then w_getenv w "PROTOTOOL_CACHE_PATH" else text items "cache-path" in
  z = 0%Z -> exists cs, io_done s' = io_done s ++ [Removed (abs_path cs)] /\ io_disk s' = io_disk s /\ w_remove_all w (abs_path cs) = None /\
    ((cache = "" /\ supported (w_goos w) (w_goarch w) /\ default_cache (w_goos w) (w_getenv w) cs) \/ names_from cwd cache cs).
Proof.
  intros w cwd l c items s s' z (V & G & Wd & Cl & Nm & St) Mf Wf Ef cache Z.
  destruct (line_is w l c items [] G Mf) as (k & K & L). rewrite L in Ef. clear L. unfold asked in K. rewrite Wf in K. injection K as <-. subst z.
  destruct (the_options w items) as [r|m] eqn:Or; [|rewrite no_options in Ef; discriminate Ef]. rewrite with_options in Ef. destruct (options_are _ _ _ _ Wd Or) as (wt & Rw).
  apply process_value in Ef as ([] & Ef). change (cache_delete_cmd w r s = (s', Value tt)) in Ef. unfold cache_delete_cmd in Ef. unfold and_then at 1 in Ef.
  destruct (Exec_Proofs.get_meta_pure (here r) (w_stat w) (provider w r (io_disk s)) []) as (o & E & [(m & -> & F)|((e & ->) & _)]); rewrite E in Ef; [|discriminate].
  unfold and_then at 1 in Ef. destruct (downloader_for w r (ps_config (m_set m))) as [d|] eqn:D; [|discriminate Ef]. cbn [Exec_Model.check ret] in Ef.
  unfold and_then at 1 in Ef. destruct (deleted_path (w_goos w) (w_goarch w) (w_getenv w) (here r) d) as [base|] eqn:B; [|discriminate Ef]. cbn [Exec_Model.check ret] in Ef.
  unfold and_then, emit in Ef. destruct (w_remove_all w base) eqn:Rm; [discriminate Ef|]. injection Ef as <-.
  assert (Hr : here r = cwd) by now rewrite Rw. rewrite Hr in B. apply deleted_ok in B; [|exact Cl]. destruct B as (cs & -> & B). exists cs. split; [reflexivity|]. split; [reflexivity|]. split; [exact Rm|].
  assert (Dc : d_cache_path d = cache).
  { unfold downloader_for in D. destruct (new_downloader _ _ _ _ _ _) as [d'| |] eqn:N; try discriminate D. injection D as ->. rewrite Rw in N.
    apply made_ok in N as [(_ & _ & ->)|(_ & ->)]; reflexivity. }
  rewrite Dc in B. exact B.
Qed.
Print Assumptions C94_delete.
(** A directory with a configuration, in which a file is to be created. *)
Definition exw11_config : external_config :=
  mk_external_config [] false "" [] [] "uber2" [] false [] [] (mk_ext_header "" "Copyright" false) "org" false false false "" [] [].
Definition exw11_node (p : string) : node :=
  if String.eqb p "/w" then NDir [("bar_baz.proto", NFile); ("prototool.yaml", NFile)] else if mem p ["/w/bar_baz.proto"; "/w/prototool.yaml"] then NFile else NBroken.
Definition exw11_stat (p : string) : result file_kind := if mem p ["/w"; "."] then Ok Exec_Model.Directory else Err "no such file".
Definition exw11_elements : list element :=
  [EComment (mk_comment (mk_pos 1 1) [" Copyright"] false); ESyntax (mk_syntax (mk_pos 3 1) "proto3" None None); EPackage (mk_package (mk_pos 5 1) "acme.foo.v1" None None)] ++
  map EOption (map (fun s => mk_opt (mk_pos 7 1) (fst s) (snd s) None None) (created_settings true "acme.foo.v1" "bar_baz.proto" "org")).
Definition exw11 : world := mk_world "linux" "amd64" "go1.13" (fun v => if String.eqb v "HOME" then "/home" else "") (Ok "/w") (fun s => if String.eqb s "3s" then Ok 3%Z else Err "bad time")
  (fun s => Ok [s]) (fun _ => "usage") (fun _ => "help") (fun _ => "") (fun _ => "topic")
  (fun _ A l => l) exw11_stat exw11_node (fun _ => None) (fun _ _ => None) (fun _ => None) (Ok "/tmp/f") (Ok "/tmp/d") (fun _ => Err "not found")
  (fun _ _ => None) (fun _ => Err "no json") (fun _ => Ok exw11_config) (fun _ => Ok "")
  Settings_Proofs2.by_name Props_Format.so Props_Format.si (fun _ _ => Ok exw11_elements) (fun s => s) (fun _ _ _ => Ok "")
  (fun _ => Ok tt) (fun s => s) (fun _ => NotExist) (fun _ => Ok "/tmp/p") (fun _ _ => Protoc_Model.Ended "" Protoc_Model.NoError)
  (fun _ _ _ => Ok []) (fun n => seq 0 n) (fun _ n => n) (fun s => s) (fun _ => Ok "") (fun _ => Ok "") (fun _ => Ok [])
  (fun _ => Ok tt) (fun _ => Ok tt) (fun _ => Ok tt) (fun _ => Ok tt) (fun _ => Ok tt) (fun _ _ => ([], None)).
Definition exw11_s : io := mk_io (fun p => if String.eqb p "/w/prototool.yaml" then Ok "yaml" else Err "no such file") [].
Definition exw_create : command := mk_command ["create"] [("config-data", Text); ("package", Text)] [] 1 None.
Lemma exw11_ordinary : ordinary exw11 "/w".
Proof.
  split; [intros place A l; apply Permutation_refl|]. split; [now right|]. split; [reflexivity|]. split; [exists ["w"]; split; [repeat constructor|reflexivity]|].
  split; [|intros k; discriminate]. intros p. cbn. unfold exw11_node.
  destruct (String.eqb p "/w"); [|destruct (mem p _); constructor].
  constructor; [repeat constructor|repeat constructor; cbn; intuition discriminate|]. intros n c [[= <- <-]|[[= <- <-]|[]]]; constructor.
Qed.
Example C92_create_ex : ordinary exw11 "/w" /\ sorts (w_sort_plugins exw11) /\
  means (w_read_csv exw11) ["create"; "bar_baz.proto"; "--package"; "acme.foo.v1"] exw_create [Plain "bar_baz.proto"; Given "package" LongSpace "acme.foo.v1"] ["bar_baz.proto"] /\
  snd (main exw11 ["create"; "bar_baz.proto"; "--package"; "acme.foo.v1"] exw11_s) = 0%Z /\
  match io_disk (fst (main exw11 ["create"; "bar_baz.proto"; "--package"; "acme.foo.v1"] exw11_s)) "/w/bar_baz.proto" with
  | Ok t => firstn 5 (split_char newline t) = ["// Copyright"; ""; "syntax = ""proto3"";"; ""; "package acme.foo.v1;"]
  | Err _ => False
  end /\
  a_package "acme.foo.v1" /\ quotes_free "bar_baz.proto" /\ quotes_free "org" /\
  in_the_way exw11 (io_disk (fst (main exw11 ["create"; "bar_baz.proto"] exw11_s))) "/w" "bar_baz.proto" /\
  snd (main exw11 ["create"; "bar_baz.proto"] (fst (main exw11 ["create"; "bar_baz.proto"] exw11_s))) = 1%Z.
Proof.
  split; [exact exw11_ordinary|]. split; [exact Settings_Proofs2.by_name_sorts|]. split.
  { exists None. split; [cbn; tauto|]. split; [|split; [reflexivity|split; [split; cbn; auto with arith|reflexivity]]].
    constructor; [right; discriminate|constructor; [|constructor]]. split; [intros [X|[X|X]]; discriminate X|]. split; [discriminate|]. exists Text. split; [unfold takes; cbn; tauto|split; discriminate]. }
  split; [vm_compute; reflexivity|]. split; [vm_compute; reflexivity|]. split; [split; [discriminate|reflexivity]|]. split; [repeat split|]. split; [repeat split|]. split; [|vm_compute; reflexivity].
  right. right. right. left. eexists. split; [vm_compute; reflexivity|discriminate].
Qed.
(** What create writes is not what format makes of it: the newline at the end is missing. *)
Theorem C92_newline_refuted : exists w s s1 s2, ordinary w "/w" /\ main w ["create"; "bar_baz.proto"; "--package"; "acme.foo.v1"] s = (s1, 0%Z) /\
  main w ["format"; "--lint"; "--fix"] s1 = (s2, 255%Z) /\ io_done s2 = io_done s1 ++ [Compiled false; Printed ("bar_baz.proto:1:1:Format returned a diff." +++ String newline "")] /\
  exists text, io_disk s1 "/w/bar_baz.proto" = Ok text /\ io_disk (fst (main w ["format"; "--overwrite"; "--fix"] s1)) "/w/bar_baz.proto" = Ok (text +++ String newline "").
Proof.
  exists exw11, exw11_s. eexists _, _. split; [exact exw11_ordinary|]. split; [apply surjective_pairing|]. split; [apply surjective_pairing|].
  vm_compute. eauto.
Qed.
Print Assumptions C92_newline_refuted.
Example C93_version_ex : (exists t, w_parse_duration exw11 (text [] "walk-timeout") = Ok t) /\
  main exw11 ["version"; "--json"] exw11_s = (mk_io (io_disk exw11_s) [Printed (join (String newline "")
    ["{"; "  ""version"": ""1.11.0-dev"","; "  ""default_protoc_version"": ""3.11.0"","; "  ""go_version"": ""go1.13"","; "  ""goos"": ""linux"","; "  ""goarch"": ""amd64"""; "}"; ""])], 0%Z) /\
  main exw11 ["version"] exw11_s = (mk_io (io_disk exw11_s) [Printed (join (String newline "")
    ["Version:                 1.11.0-dev"; "Default protoc version:  3.11.0"; "Go version:              go1.13"; "OS/Arch:                 linux/amd64"; ""])], 0%Z).
Proof. split; [now exists 3%Z|]. split; vm_compute; reflexivity. Qed.
Example C94_delete_ex : main exw11 ["cache"; "delete"] exw11_s = (mk_io (io_disk exw11_s) [Removed "/home/.cache/prototool"], 0%Z).
Proof. vm_compute. reflexivity. Qed.
