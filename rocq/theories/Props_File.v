(** File discovery: C39, C41, C42, C43, C44. *)
From Coq Require Import Permutation.
From Verif Require Import GoStrFacts GoPathFacts Strs_Spec Settings_Model Settings_Spec Settings_Proofs Settings_Proofs2.
From Verif Require Import Lint_Spec LintRun_Proofs Props_Lint Props_Settings.
From Verif Require Import File_Model File_Spec File_Proofs File_Proofs2 File_Proofs3 File_Proofs4 Walk_Model Walk_Proofs.

(** ** Values for the examples *)
(** /w has a configuration that excludes /w/vendor; /w/sub has none. *)
Definition tree : node :=
  NDir [("a.proto", NFile); ("prototool.yaml", NFile);
        ("sub", NDir [("b.proto", NFile); ("c.txt", NFile)]);
        ("vendor", NDir [("v.proto", NFile)])].
Definition tree_at (p : string) : node :=
  if String.eqb p "/w" then tree
  else if String.eqb p "/w/sub" then NDir [("b.proto", NFile); ("c.txt", NFile)]
  else NBroken.
Definition excluding (l : list string) : external_config :=
  mk_external_config l false "" [] [] "" [] false [] [] (mk_ext_header "" "" false) "" false false false "" [] [].
Definition tree_exists : string -> bool := files_at ["/w/prototool.yaml"].
Definition tree_read (p : string) : result string := if String.eqb p "/w/prototool.yaml" then Ok "yaml" else no_file p.
Definition tree_yaml (d : string) : result external_config := Ok (excluding ["vendor"]).
Definition bad_json (d : string) : result external_config := Err "not JSON".
Lemma named_dir es : forallb ok_comp (map fst es) = true -> dedup (map fst es) = map fst es ->
  Forall (fun e => named (snd e)) es -> named (NDir es).
Proof.
  intros A B C. constructor.
  - apply Forall_forall. intros x Hx. rewrite forallb_forall in A. auto.
  - rewrite <- B. apply dedup_NoDup.
  - intros name n Hn. rewrite Forall_forall in C. exact (C _ Hn).
Qed.
Ltac show_named := repeat first [apply Forall_nil | apply Forall_cons; cbn [snd] | apply named_dir; [reflexivity|reflexivity|] | constructor].
Lemma tree_named : forall p, named (tree_at p).
Proof.
  intros p. unfold tree_at, tree. destruct (String.eqb p "/w"); [|destruct (String.eqb p "/w/sub")]; show_named.
Qed.
Lemma tree_entry : forall d p, ok_comps d -> entry tree_exists tree_read bad_json tree_yaml d p -> d = ["w"] /\ p = "/w/vendor".
Proof.
  intros d p Hd (file & e & x & T & D & Hx & _ & ->).
  assert (file = "/w/prototool.yaml") as Ef.
  { destruct T as (_ & T & _). apply mem_In in T as [T|[]]. now symmetry. }
  assert (forall n, ok_comp n = true -> abs_path (d ++ [n]) = abs_path (["w"] ++ ["prototool.yaml"]) -> d = ["w"]) as K.
  { intros n Hn E. apply abs_path_inj in E.
    - now apply app_inj_tail in E.
    - apply ok_comps_app. split; [assumption|]. constructor; [assumption|constructor].
    - repeat constructor. }
  assert (d = ["w"]) as ->.
  { destruct T as ([E|[E|[]]] & _); rewrite Ef in E; [apply (K "prototool.yaml")|apply (K "prototool.json")]; reflexivity || exact E. }
  split; [reflexivity|].
  assert (e = excluding ["vendor"]) as ->.
  { subst file. destruct D as [[D _]|(data & _ & _ & [[D _]|[_ D]])]; [discriminate D|discriminate D|].
    unfold tree_yaml in D. congruence. }
  destruct Hx as [<-|[]]. reflexivity.
Qed.

(** ** C39: exclude paths *)
(** IsExcluded: for a file at or below the configuration directory the answer is yes
    exactly if an entry is at or above the file and not at or above the directory. *)
Theorem C39_hides : forall file dir excludes, within dir file ->
  (is_excluded file dir excludes = true <-> exists p, In p excludes /\ within p file /\ ~ within p dir).
Proof. exact excluded_iff. Qed.
Print Assumptions C39_hides.
Example C39_hides_ex : within "/w" "/w/vendor/x/y.proto" /\
  is_excluded "/w/vendor/x/y.proto" "/w" ["/w/vendor"] = true /\ is_excluded "/w/vendor2/y.proto" "/w" ["/w/vendor"] = false /\
  is_excluded "/w/a.proto" "/w" ["/w"] = false.
Proof.
  split; [|vm_compute; repeat split]. exists ["w"], ["vendor"; "x"; "y.proto"]. repeat split; repeat constructor.
Qed.
(** An accepted entry is strictly below the configuration's directory, or in a sibling
    directory whose name starts with the name of the configuration's directory. *)
Theorem C39_accepted_partial : forall read_file decode_json look_path sort_plugins devel d data e c x,
  sorts sort_plugins -> ok_comps d -> decode_json data = Ok e ->
  get_for_data read_file decode_json look_path sort_plugins devel (abs_path d) data = Ok c ->
  In x (x_excludes e) -> x <> "" ->
  In (against (abs_path d) x) (cfg_exclude_prefixes c) /\
  ((within (abs_path d) (against (abs_path d) x) /\ against (abs_path d) x <> abs_path d)
   \/ exists parent name k rest, d = parent ++ [name] /\ k <> "" /\ ok_comps (parent ++ (name +++ k) :: rest) /\
       against (abs_path d) x = abs_path (parent ++ (name +++ k) :: rest)).
Proof. exact accepted_entry. Qed.
Print Assumptions C39_accepted_partial.
(** An entry that is neither is rejected. *)
Theorem C39_rejected : forall read_file decode_json look_path sort_plugins devel d data e x,
  sorts sort_plugins -> ok_comps d -> decode_json data = Ok e -> In x (x_excludes e) -> x <> "" ->
  ~ (within (abs_path d) (against (abs_path d) x) /\ against (abs_path d) x <> abs_path d) ->
  ~ (exists parent name k rest, d = parent ++ [name] /\ k <> "" /\ ok_comps (parent ++ (name +++ k) :: rest) /\
       against (abs_path d) x = abs_path (parent ++ (name +++ k) :: rest)) ->
  exists m, get_for_data read_file decode_json look_path sort_plugins devel (abs_path d) data = Err m.
Proof. exact rejected_entry. Qed.
Print Assumptions C39_rejected.
Example C39_rejected_ex :
  (exists m, get_for_data no_file (fun _ => Ok (excluding ["../other"])) no_file by_name false "/w/a" "{}" = Err m) /\
  (exists m, get_for_data no_file (fun _ => Ok (excluding ["."])) no_file by_name false "/w/a" "{}" = Err m) /\
  against "/w/a" "../other" = "/w/other".
Proof. split; [eexists; vm_compute; reflexivity|]. split; [eexists; vm_compute; reflexivity|]. vm_compute. reflexivity. Qed.
(** The sibling is accepted, and hides files there: /a/b has the entry ../bc, and the
    file /a/bc/x.proto is not found from /a, though the configuration is not its own. *)
Definition sib_at (p : string) : node :=
  if String.eqb p "/a" then NDir [("b", NDir [("prototool.yaml", NFile)]); ("bc", NDir [("x.proto", NFile)])] else NBroken.
Definition sib_exists : string -> bool := files_at ["/a/b/prototool.yaml"].
Definition sib_read (p : string) : result string := if String.eqb p "/a/b/prototool.yaml" then Ok "yaml" else no_file p.
Definition sib_yaml (d : string) : result external_config := Ok (excluding ["../bc"]).
Theorem C39_sibling_refuted :
  (forall read_file look_path sort_plugins, sorts sort_plugins -> exists c,
     get_for_data read_file sib_yaml look_path sort_plugins false "/a/b" "yaml" = Ok c /\ cfg_exclude_prefixes c = ["/a/bc"]) /\
  governs sib_exists ["a"; "bc"] "" /\
  exists s, provider_get_for_dir in_order "/a" sib_at sib_exists sib_read bad_json sib_yaml no_file by_name false "" "/a" "/a" = Ok s /\
    ps_files s = [].
Proof.
  split.
  { intros read look sort S.
    destruct (proj2 (get_for_data_accepts read sib_yaml look sort false "/a/b" "yaml" _ S eq_refl eq_refl)) as (c & Hc).
    - split; cbn.
      + intros x [<-|[]] _. exists "c". split; [discriminate|vm_compute; reflexivity].
      + intros p [].
      + intros p [].
      + now left.
      + discriminate.
      + intros i j [].
    - exists c. split; [assumption|]. unfold get_for_data in Hc. cbn in Hc. 
      match type of Hc with (do _ <- ?x; _) = _ => destruct x; [|discriminate] end. cbn in Hc.
      now injection Hc as <-. }
  split.
  { left. split; [reflexivity|]. intros a b E p Hp. unfold config_paths in Hp.
    destruct a as [|x [|y [|z a]]]; cbn in E; [| | |discriminate].
    - destruct Hp as [<-|[<-|[]]]; reflexivity.
    - injection E as <- _. destruct Hp as [<-|[<-|[]]]; reflexivity.
    - injection E as <- <- _. destruct Hp as [<-|[<-|[]]]; reflexivity. }
  eexists. split; vm_compute; reflexivity.
Qed.
Print Assumptions C39_sibling_refuted.

(** ** C41: file discovery *)
(** The files found are exactly the .proto files below the directory searched that no
    configuration at or above them excludes, each once.  Missing, and false in general
    (see C39_sibling_refuted and C41_sibling_refuted): trees with a configuration that
    excludes something outside its own directory. *)
Theorem C41_discovery_partial : forall exists_file read_file decode_json decode_yaml node_at work root fs,
  clean_abs work -> ok_comps root -> named (node_at (abs_path root)) ->
  contained exists_file read_file decode_json decode_yaml root (node_at (abs_path root)) ->
  walk_and_get_all_proto_files node_at exists_file read_file decode_json decode_yaml "" work (abs_path root) = Ok fs ->
  (forall p, In p (map pf_path fs) <->
     exists cs, file_in (node_at (abs_path root)) cs /\ p = abs_path (root ++ cs) /\ path_ext p = ".proto" /\
       ~ hidden exists_file read_file decode_json decode_yaml root cs) /\
  NoDup (map pf_path fs) /\ Forall (fun f => shown work (pf_path f) (pf_display f)) fs.
Proof. exact files_exact. Qed.
Print Assumptions C41_discovery_partial.
(** With configuration data on the command line there is one list of entries, for the
    whole tree at the working directory. *)
Theorem C41_data : forall exists_file read_file decode_json decode_yaml node_at work data e fs,
  ok_comps work -> named (node_at (abs_path work)) -> data <> "" -> decode_json data = Ok e ->
  walk_and_get_all_proto_files node_at exists_file read_file decode_json decode_yaml data (abs_path work) (abs_path work) = Ok fs ->
  (forall x, In x (x_excludes e) -> x <> "" -> exclude_ok (abs_path work) x) /\
  (forall p, In p (map pf_path fs) <->
     exists cs, file_in (node_at (abs_path work)) cs /\ p = abs_path (work ++ cs) /\ path_ext p = ".proto" /\
       ~ exists x, In x (x_excludes e) /\ x <> "" /\ within (against (abs_path work) x) p) /\
  NoDup (map pf_path fs) /\ Forall (fun f => shown (abs_path work) (pf_path f) (pf_display f)) fs.
Proof. intros. eapply files_exact_data; eassumption. Qed.
Print Assumptions C41_data.
(** ... and no configuration file matters. *)
Theorem C41_data_ignores_files : forall ord cwd node_at exists_file exists_file' read_file decode_json decode_yaml look_path sort_plugins devel data work dir,
  data <> "" ->
  provider_get_for_dir ord cwd node_at exists_file read_file decode_json decode_yaml look_path sort_plugins devel data work dir =
  provider_get_for_dir ord cwd node_at exists_file' read_file decode_json decode_yaml look_path sort_plugins devel data work dir.
Proof. intros. now apply data_ignores_files. Qed.
Print Assumptions C41_data_ignores_files.
(** A readable tree with usable configurations is always searched to the end. *)
Theorem C41_total : forall exists_file read_file decode_json decode_yaml node_at work root,
  ok_comps root -> named (node_at (abs_path root)) -> readable (node_at (abs_path root)) ->
  (forall d, dir_in (node_at (abs_path root)) d -> usable exists_file read_file decode_json decode_yaml (root ++ d)) ->
  exists fs, walk_and_get_all_proto_files node_at exists_file read_file decode_json decode_yaml "" work (abs_path root) = Ok fs.
Proof. exact files_total. Qed.
Print Assumptions C41_total.
(** In the set returned each file is under the directory it is in. *)
Theorem C41_grouped : forall ord cwd node_at exists_file read_file decode_json decode_yaml look_path sort_plugins devel w d s,
  reorders ord -> (forall p, named (node_at p)) -> ok_comps w -> ok_comps d ->
  provider_get_for_dir ord cwd node_at exists_file read_file decode_json decode_yaml look_path sort_plugins devel "" (abs_path w) (abs_path d) = Ok s ->
  exists root fs, ok_comps root /\ searched exists_file d root /\
    walk_and_get_all_proto_files node_at exists_file read_file decode_json decode_yaml "" (abs_path w) (abs_path root) = Ok fs /\
    grouped fs (ps_files s).
Proof.
  intros ord cwd node_at ex read dj dy look sort devel w d s O N Hw Hd H.
  destruct (one_configuration ord O cwd node_at N ex read dj dy look sort devel w d s Hw Hd H) as (_ & _ & root & fs & cf & A & B & C & D & _). eauto 8.
Qed.
Print Assumptions C41_grouped.
Example C41_ex :
  ok_comps ["w"] /\ named (tree_at "/w") /\ contained tree_exists tree_read bad_json tree_yaml ["w"] (tree_at "/w") /\
  walk_and_get_all_proto_files tree_at tree_exists tree_read bad_json tree_yaml "" "/w/sub" "/w" =
    Ok [mk_proto_file "/w/a.proto" "../a.proto"; mk_proto_file "/w/sub/b.proto" "b.proto"].
Proof.
  split; [repeat constructor|]. split; [apply tree_named|]. split; [|vm_compute; reflexivity].
  intros d p Hd He. assert (ok_comps d) as Od by (eapply dir_in_ok; [apply tree_named|exact Hd]).
  apply tree_entry in He as [E ->].
  - rewrite E. exists ["w"], ["vendor"]. repeat split; repeat constructor.
  - apply ok_comps_app. split; [repeat constructor|assumption].
Qed.
Example C41_data_ex :
  walk_and_get_all_proto_files tree_at tree_exists tree_read (fun _ => Ok (excluding ["sub/b.proto"])) tree_yaml "{}" "/w" "/w" =
    Ok [mk_proto_file "/w/a.proto" "a.proto"; mk_proto_file "/w/vendor/v.proto" "vendor/v.proto"].
Proof. vm_compute. reflexivity. Qed.
(** Without that condition the characterisation is false. *)
Theorem C41_sibling_refuted :
  ~ forall exists_file read_file decode_json decode_yaml node_at work root fs,
      clean_abs work -> ok_comps root -> named (node_at (abs_path root)) ->
      walk_and_get_all_proto_files node_at exists_file read_file decode_json decode_yaml "" work (abs_path root) = Ok fs ->
      forall p, In p (map pf_path fs) <->
        exists cs, file_in (node_at (abs_path root)) cs /\ p = abs_path (root ++ cs) /\ path_ext p = ".proto" /\
          ~ hidden exists_file read_file decode_json decode_yaml root cs.
Proof.
  intros H. specialize (H sib_exists sib_read bad_json sib_yaml sib_at "/a" ["a"] []).
  assert (named (sib_at "/a")) as Hn by (change (sib_at "/a") with (NDir [("b", NDir [("prototool.yaml", NFile)]); ("bc", NDir [("x.proto", NFile)])]); show_named).
  assert (clean_abs "/a") as Hc by (exists ["a"]; split; [repeat constructor|reflexivity]).
  destruct (proj2 (H Hc ltac:(repeat constructor) Hn ltac:(vm_compute; reflexivity) "/a/bc/x.proto")).
  exists ["bc"; "x.proto"]. split; [|split; [reflexivity|split; [reflexivity|]]].
  - eapply fi_below; [right; left; reflexivity|]. eapply fi_below; [left; reflexivity|]. constructor.
  - intros (a & b & p & E & Hb & (file & e & x & T & _) & _).
    destruct T as (T1 & T2 & _). apply mem_In in T2 as [<-|[]].
    destruct a as [|n1 [|n2 [|n3 a]]]; cbn in E; [| | |discriminate].
    + destruct T1 as [F|[F|[]]]; discriminate F.
    + injection E as <- _. destruct T1 as [F|[F|[]]]; discriminate F.
    + injection E as <- <- <-. contradiction.
Qed.
Print Assumptions C41_sibling_refuted.
(** A file whose name starts with two dots, in the configuration's directory, makes
    the whole call fail. *)
Theorem C41_dotdot_refuted : exists node_at exists_file read_file decode_yaml m,
  named (node_at "/w") /\ file_in (node_at "/w") ["..x.proto"] /\ ok_comp "..x.proto" = true /\
  usable exists_file read_file bad_json decode_yaml ["w"] /\
  provider_get_for_dir in_order "/w" node_at exists_file read_file bad_json decode_yaml no_file by_name false "" "/w" "/w" = Err m.
Proof.
  exists (fun _ => NDir [("..x.proto", NFile); ("prototool.yaml", NFile)]), tree_exists, tree_read, tree_yaml. eexists.
  split.
  { show_named. }
  split; [eapply fi_below; [left; reflexivity|constructor]|]. split; [reflexivity|]. split.
  - right. exists "/w/prototool.yaml", (excluding ["vendor"]). split.
    + split; [now left|]. split; [reflexivity|]. intros q [<-|[<-|[]]]; [reflexivity|discriminate].
    + split; [right; exists "yaml"; split; [reflexivity|]; split; [discriminate|]; right; split; reflexivity|].
      intros x [<-|[]] _. exists "/vendor". split; [discriminate|reflexivity].
  - vm_compute. reflexivity.
Qed.
Print Assumptions C41_dotdot_refuted.

(** ** C42: one configuration *)
Theorem C42_one_configuration : forall ord cwd node_at exists_file read_file decode_json decode_yaml look_path sort_plugins devel w d s,
  reorders ord -> (forall p, named (node_at p)) -> ok_comps w -> ok_comps d ->
  provider_get_for_dir ord cwd node_at exists_file read_file decode_json decode_yaml look_path sort_plugins devel "" (abs_path w) (abs_path d) = Ok s ->
  ps_work_dir s = abs_path w /\ ps_dir s = abs_path d /\
  exists root fs cf,
    ok_comps root /\ searched exists_file d root /\
    walk_and_get_all_proto_files node_at exists_file read_file decode_json decode_yaml "" (abs_path w) (abs_path root) = Ok fs /\
    grouped fs (ps_files s) /\
    (forall f, In f fs -> file_governed exists_file f cf /\ inside (cfg_dir (ps_config s)) (pf_path f)) /\
    (fs = [] -> cf = "") /\
    (cf <> "" -> get_for_file read_file decode_json decode_yaml look_path sort_plugins devel cf = Ok (ps_config s)) /\
    (cf = "" -> get_for_dir exists_file read_file decode_json decode_yaml look_path sort_plugins devel (abs_path w) = Ok (ps_config s)).
Proof. intros. eapply one_configuration; eassumption. Qed.
Print Assumptions C42_one_configuration.
(** The same conditions are enough. *)
Theorem C42_accepted : forall ord cwd node_at exists_file read_file decode_json decode_yaml look_path sort_plugins devel w d root fs cf c,
  reorders ord -> (forall p, named (node_at p)) -> ok_comps w -> ok_comps d -> ok_comps root -> searched exists_file d root ->
  walk_and_get_all_proto_files node_at exists_file read_file decode_json decode_yaml "" (abs_path w) (abs_path root) = Ok fs ->
  (forall f, In f fs -> file_governed exists_file f cf /\ inside (cfg_dir c) (pf_path f)) ->
  (fs = [] -> cf = "") ->
  (cf <> "" -> get_for_file read_file decode_json decode_yaml look_path sort_plugins devel cf = Ok c) ->
  (cf = "" -> get_for_dir exists_file read_file decode_json decode_yaml look_path sort_plugins devel (abs_path w) = Ok c) ->
  exists s, provider_get_for_dir ord cwd node_at exists_file read_file decode_json decode_yaml look_path sort_plugins devel "" (abs_path w) (abs_path d) = Ok s
    /\ ps_config s = c.
Proof. intros. eapply one_configuration_accepted; eassumption. Qed.
Print Assumptions C42_accepted.
(** Two files with different configuration files: an error. *)
Theorem C42_two_configurations : forall ord cwd node_at exists_file read_file decode_json decode_yaml look_path sort_plugins devel w d root fs f g cf cg,
  reorders ord -> (forall p, named (node_at p)) -> ok_comps w -> ok_comps d -> ok_comps root -> searched exists_file d root ->
  walk_and_get_all_proto_files node_at exists_file read_file decode_json decode_yaml "" (abs_path w) (abs_path root) = Ok fs ->
  In f fs -> In g fs -> file_governed exists_file f cf -> file_governed exists_file g cg -> cf <> cg ->
  exists m, provider_get_for_dir ord cwd node_at exists_file read_file decode_json decode_yaml look_path sort_plugins devel "" (abs_path w) (abs_path d) = Err m.
Proof.
  intros ord cwd node_at ex read dj dy look sort devel w d root fs f g cf cg O N Hw Hd Hr S F Hf Hg Gf Gg Hn.
  exact (two_configurations ord O cwd node_at N ex read dj dy look sort devel w d root fs f g cf cg Hw Hd Hr S F Hf Hg Gf Gg Hn).
Qed.
Print Assumptions C42_two_configurations.
(** The order in which the maps are ranged over does not matter. *)
Theorem C42_order : forall ord ord' cwd node_at exists_file read_file decode_json decode_yaml look_path sort_plugins devel data work dir s,
  reorders ord -> reorders ord' ->
  provider_get_for_dir ord cwd node_at exists_file read_file decode_json decode_yaml look_path sort_plugins devel data work dir = Ok s ->
  exists s', provider_get_for_dir ord' cwd node_at exists_file read_file decode_json decode_yaml look_path sort_plugins devel data work dir = Ok s' /\
    ps_work_dir s' = ps_work_dir s /\ ps_dir s' = ps_dir s /\ ps_config s' = ps_config s /\ Permutation (ps_files s) (ps_files s').
Proof. intros ord ord' * O O' H. exact (provide_order ord ord' _ _ _ _ _ _ _ _ _ _ _ _ _ O O' H). Qed.
Print Assumptions C42_order.
(** With configuration data that is the configuration. *)
Theorem C42_data : forall ord cwd node_at exists_file read_file decode_json decode_yaml look_path sort_plugins devel data w dir s,
  reorders ord -> data <> "" -> ok_comps w ->
  provider_get_for_dir ord cwd node_at exists_file read_file decode_json decode_yaml look_path sort_plugins devel data (abs_path w) dir = Ok s ->
  get_for_data read_file decode_json look_path sort_plugins devel (abs_path w) data = Ok (ps_config s) /\
  exists fs, walk_and_get_all_proto_files node_at exists_file read_file decode_json decode_yaml data (abs_path w) (abs_path w) = Ok fs /\ grouped fs (ps_files s).
Proof. intros. eapply data_configuration; eassumption. Qed.
Print Assumptions C42_data.
(** A relative directory is one below the current directory. *)
Theorem C42_relative : forall ord cwd node_at exists_file read_file decode_json decode_yaml look_path sort_plugins devel data work dir s,
  clean_abs cwd -> dir <> "" -> is_abs dir = false ->
  (provider_get_for_dir ord cwd node_at exists_file read_file decode_json decode_yaml look_path sort_plugins devel data work dir = Ok s <->
   provider_get_for_dir ord cwd node_at exists_file read_file decode_json decode_yaml look_path sort_plugins devel data work (path_clean (cwd +++ "/" +++ dir)) = Ok s).
Proof. exact provide_relative. Qed.
Print Assumptions C42_relative.
Example C42_ex :
  match provider_get_for_dir reversed "/w" tree_at tree_exists tree_read bad_json tree_yaml no_file by_name false "" "/w/sub" "sub" with
  | Ok s => ps_dir s = "/w/sub" /\ cfg_dir (ps_config s) = "/w" /\
            ps_files s = [("/w", [mk_proto_file "/w/a.proto" "../a.proto"]); ("/w/sub", [mk_proto_file "/w/sub/b.proto" "b.proto"])]
  | Err _ => False
  end.
Proof. vm_compute. repeat split. Qed.
Example C42_two_ex :
  exists m, provider_get_for_dir in_order "/w" tree_at (files_at ["/w/prototool.yaml"; "/w/sub/prototool.yaml"])
    (fun _ => Ok "yaml") bad_json tree_yaml no_file by_name false "" "/w" "/w" = Err m.
Proof. eexists. vm_compute. reflexivity. Qed.

(** ** C43: display paths *)
Theorem C43_display : forall ord cwd node_at exists_file read_file decode_json decode_yaml look_path sort_plugins devel data w d s dir l f,
  reorders ord -> (forall p, named (node_at p)) -> ok_comps w -> ok_comps d ->
  provider_get_for_dir ord cwd node_at exists_file read_file decode_json decode_yaml look_path sort_plugins devel data (abs_path w) (abs_path d) = Ok s ->
  In (dir, l) (ps_files s) -> In f l ->
  path_dir (pf_path f) = dir /\ shown (abs_path w) (pf_path f) (pf_display f).
Proof. intros. eapply provide_shown; eassumption. Qed.
Print Assumptions C43_display.
Example C43_ex : shown "/w/sub" "/w/a.proto" "../a.proto".
Proof. repeat split; reflexivity. Qed.

(** ** C44: the walk timeout *)
(** A call that returns files has returned what a walk without a timeout returns; without
    a timeout it returns the error that walk has. *)
Theorem C44_complete : forall exists_file read_file decode_json decode_yaml data work root timeout node_at excludes w t r,
  initial_excludes decode_json data work = Ok excludes ->
  steps exists_file read_file decode_json decode_yaml data work root timeout
    (start root (node_at root) excludes) (mk_machine w t (Returned r)) ->
  match r with
  | Ok fs => walk_and_get_all_proto_files node_at exists_file read_file decode_json decode_yaml data work root = Ok fs
  | Err m => timeout = true \/ walk_and_get_all_proto_files node_at exists_file read_file decode_json decode_yaml data work root = Err m
  end.
Proof. exact timed_walk. Qed.
Print Assumptions C44_complete.
(** Once the timer has fired the call returns an error. *)
Theorem C44_late : forall exists_file read_file decode_json decode_yaml data work root timeout s w t r,
  ms_caller s = AfterTimeout ->
  steps exists_file read_file decode_json decode_yaml data work root timeout s (mk_machine w t (Returned r)) ->
  exists m, r = Err m.
Proof. intros *. apply timeout_late. Qed.
Print Assumptions C44_late.
(** Every execution comes to an end, and it ends with the call having returned. *)
Theorem C44_terminates : forall exists_file read_file decode_json decode_yaml data work root timeout n excludes,
  (forall s s', step exists_file read_file decode_json decode_yaml data work root timeout s s' -> measure s' < measure s) /\
  (forall s, steps exists_file read_file decode_json decode_yaml data work root timeout (start root n excludes) s ->
     (exists r, ms_caller s = Returned r) \/ exists s', step exists_file read_file decode_json decode_yaml data work root timeout s s').
Proof. intros. split; [intros; eapply step_measure; eassumption|intros; eapply progress; eassumption]. Qed.
Print Assumptions C44_terminates.
(** An execution that walks to the end, and one in which the timer fires after the walk
    has begun. *)
Example C44_ex : exists w t, steps (fun _ => false) no_file bad_json bad_json "" "/d" "/d" true
  (start "/d" (NDir [("a.proto", NFile)]) []) (mk_machine w t (Returned (Ok [mk_proto_file "/d/a.proto" "a.proto"]))).
Proof.
  exists Sent, false. set (fs := [mk_proto_file "/d/a.proto" "a.proto"]). set (st := mk_walk_state [] fs).
  apply (st_step _ _ _ _ _ _ _ _ _ (mk_machine (Sending (Ok st)) false Selecting)).
  2:{ exact (s_receive _ _ _ _ _ _ _ _ (Ok st) false). }
  apply (st_step _ _ _ _ _ _ _ _ _ (mk_machine (Walking [] st) false Selecting)); [|apply s_walked].
  apply (st_step _ _ _ _ _ _ _ _ _ (mk_machine (Walking [("/d/a.proto", NFile)] (mk_walk_state [] [])) false Selecting)).
  2:{ refine (s_walk _ _ _ _ _ _ _ _ false "/d/a.proto" NFile [] (mk_walk_state [] []) false Selecting _). discriminate. }
  apply (st_step _ _ _ _ _ _ _ _ _ (start "/d" (NDir [("a.proto", NFile)]) [])); [apply st_refl|].
  refine (s_walk _ _ _ _ _ _ _ _ false "/d" (NDir [("a.proto", NFile)]) [] (mk_walk_state [] []) false Selecting _). discriminate.
Qed.
Example C44_late_ex : exists w t m, steps (fun _ => false) no_file bad_json bad_json "" "/d" "/d" true
  (start "/d" (NDir [("a.proto", NFile)]) []) (mk_machine w t (Returned (Err m))).
Proof.
  exists Sent, true, timeout_message.
  apply (st_step _ _ _ _ _ _ _ _ _ (mk_machine (Sending (Err timeout_message)) true AfterTimeout)).
  2:{ exact (s_receive_late _ _ _ _ _ _ _ _ (Err timeout_message) true). }
  apply (st_step _ _ _ _ _ _ _ _ _ (mk_machine (Walking [("/d/a.proto", NFile)] (mk_walk_state [] [])) true AfterTimeout)).
  2:{ refine (s_walk _ _ _ _ _ _ _ _ true "/d/a.proto" NFile [] (mk_walk_state [] []) true AfterTimeout _). reflexivity. }
  apply (st_step _ _ _ _ _ _ _ _ _ (mk_machine (Walking [("/d/a.proto", NFile)] (mk_walk_state [] [])) false Selecting)).
  2:{ apply s_timer. reflexivity. }
  apply (st_step _ _ _ _ _ _ _ _ _ (start "/d" (NDir [("a.proto", NFile)]) [])); [apply st_refl|].
  refine (s_walk _ _ _ _ _ _ _ _ false "/d" (NDir [("a.proto", NFile)]) [] (mk_walk_state [] []) false Selecting _). discriminate.
Qed.
