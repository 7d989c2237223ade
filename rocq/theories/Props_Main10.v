(** C91: which commands of protoc compile and generate run, and how its answers decide how they
    end and what they print. *)
From Coq Require Import Permutation.
From Verif Require Settings_Proofs Settings_Proofs2.
From Verif Require Import GoStrFacts GoPathFacts Settings_Spec File_Spec Exec_Spec Exec_Proofs Exec_Proofs3 Cmd_Spec Main_Model Main_Spec Main_Spec2 Main_Spec3 Main_Proofs Main_Proofs2
  Main_Proofs5 Main_Proofs6 Main_Proofs7 Main_Proofs10 Main_Proofs11 Main_Proofs12 Main_Proofs13 Props_Main Props_Main2 Props_Main3 Props_Main4 Props_Main8.

Lemma group_of {A} (l : list (string * A)) d x y : NoDup (map fst l) -> In (d, x) l -> In (d, y) l -> x = y.
Proof.
  induction l as [|[d' x'] l IH]; intros N I J; [destruct I|]. inversion N as [|? ? N1 N2]. destruct I as [I|I]; destruct J as [J|J]; auto.
  - congruence.
  - injection I as -> ->. exfalso. apply N1. now apply (in_map fst) in J.
  - injection J as -> ->. exfalso. apply N1. now apply (in_map fst) in I.
Qed.
Lemma picks_perm {A} (P : A -> Prop) l l' k : Permutation l l' -> picks P l k -> exists k', Permutation k k' /\ picks P l' k'.
Proof.
  intros Q (b & B & ->). exists (filter b l'). split; [|exists b; split; [|reflexivity]].
  - clear B. induction Q as [|x l l' Q IH|x y l|l l' l'' Q1 IH1 Q2 IH2]; cbn; [constructor|destruct (b x); [now constructor|exact IH]|destruct (b x), (b y); try constructor; try reflexivity|etransitivity; eassumption].
  - intros x I. apply B. eapply Permutation_in; [symmetry; exact Q|exact I].
Qed.
Lemma listing_perm json to_json format l l' text : Permutation l l' -> listing json to_json format l text -> listing json to_json format l' text.
Proof. intros P (fields & sorted & A & B & C). exists fields, sorted. split; [exact A|]. split; [|exact C]. now rewrite <- P. Qed.

Lemma parse_fields_known format : (exists fields, Exec_Spec.fields_of format fields) \/ (forall fields, ~ Exec_Spec.fields_of format fields).
Proof.
  destruct (parse_colon_separated_failure_fields format) as [fields|e] eqn:E; [left; exists fields; now apply fields_of_ok|right]. intros fields H. apply fields_of_ok in H. congruence.
Qed.

Theorem C91_run : forall w cwd args (gen : bool) fl f fi dl d di s s1 s2, ordinary w cwd -> sorts (w_sort_plugins w) ->
  (forall n, Permutation (w_ended w n) (List.seq 0 n)) ->
  means (w_read_csv w) fl f fi args -> c_words f = ["files"] -> main w fl s = (s1, 0%Z) ->
  means (w_read_csv w) dl d di args -> c_words d = [if gen then "generate" else "compile"] -> on di "dry-run" = true -> same_settings fi di -> main w dl s = (s2, 0%Z) ->
  exists names commands, io_done s1 = io_done s ++ Main_Spec.shown names /\ io_done s2 = io_done s ++ Main_Spec.shown (map (join " ") commands) /\
    (names <> [] -> exists c protoc wkt,
      (forall n, In n names -> exists p, File_Spec.shown cwd p n /\ in_force w (io_disk s) cwd (text di "config-data") p c) /\
      the_protoc w cwd di c protoc wkt /\ cover cwd gen names c protoc wkt commands /\
      forall ll l li s3 z, means (w_read_csv w) ll l li args -> c_words l = c_words d -> on li "dry-run" = false -> alike di li -> main w ll s = (s3, z) ->
        let allow := cc_allow_unused_imports (cfg_compile c) in
        (z = 0%Z -> forall command, In command commands -> accepts w (io_disk s) allow command) /\
        ((exists command, In command commands /\ breaks_down w (io_disk s) command) -> z = 1%Z) /\
        (z = 255%Z -> exists fss kept out, Forall2 (complaints w (io_disk s) allow) commands fss /\ concat fss <> [] /\
           picks (to_show w cwd args) (concat fss) kept /\ listing (on li "json") Json_Model.failure_json (text li "error-format") kept (printed out) /\
           io_done s3 = io_done s ++ Compiled gen :: out) /\
        ((forall command, In command commands -> says_nothing w (io_disk s) command) -> (exists fields, Exec_Spec.fields_of (text li "error-format") fields) ->
         (gen = true -> forall dir, w_mkdir_all w dir = None) -> z = 0%Z)).
Proof.
  intros w cwd args gen fl f fi dl d di s s1 s2 (V & G & Wd & Cl & Nm & St) So En Mf Wf Ef Md Wdd Dr Sm Ed.
  destruct (line_is w fl f fi args G Mf) as (kf & Kf & Lf). rewrite Lf in Ef. clear Lf. unfold asked in Kf. rewrite Wf in Kf. injection Kf as <-.
  destruct (the_options w fi) as [r0|m] eqn:Or0; [|rewrite no_options in Ef; discriminate Ef]. rewrite with_options in Ef.
  apply process_value in Ef as ([] & Ef).
  assert (Hr0 : here r0 = cwd) by (eapply options_files; [exact Wd| |exact Or0|exact Or0]; split; reflexivity).
  assert (Cr0 : clean_abs (here r0)) by now rewrite Hr0.
  destruct (files_shows w V Nm St r0 Cr0 args s s1 Ef) as (m & names & F & -> & I).
  destruct (line_is w dl d di args G Md) as (k & K & Ll). rewrite Ll in Ed. clear Ll.
  assert (Kk : k = if gen then CallGen args true else CallCompile args true) by (unfold asked in K; rewrite Wdd, Dr in K; destruct gen; injection K as <-; reflexivity).
  rewrite Kk in Ed. clear k K Kk.
  destruct (options_some _ _ _ _ _ Wd Sm Or0) as (r & Or). rewrite Or, with_options in Ed. apply process_value in Ed as ([] & Ed).
  destruct (options_files _ _ _ _ _ _ Wd Sm Or0 Or) as (_ & Sr).
  assert (Hr : here r = cwd) by (rewrite <- Hr0; apply Sr). assert (Cr : clean_abs (here r)) by now rewrite Hr.
  assert (Fr : found (here r) (w_stat w) (provider w r (io_disk s)) args m).
  { rewrite Hr, <- Hr0. destruct F as [ps A B|ps A B]; [apply FoundDirectory|apply FoundFile]; try exact A; rewrite (provider_runner w r r0) by exact Sr; exact B. }
  assert (Rw : exists z, r = options (w_getenv w) cwd z di).
  { clear - Or Wd. unfold the_options in Or. rewrite Wd in Or. destruct (if String.eqb _ _ then _ else _) as [z|] in Or; [|discriminate Or]. cbn [bind] in Or. injection Or as <-. eauto. }
  destruct Rw as (walk & Rw). assert (Da : r_config_data r = text di "config-data") by now rewrite Rw.
  destruct (found_config w V So Nm St r Cr _ _ _ Fr) as (Fc & (e & dd & Cd & (_ & Tk)) & Nd). rewrite Hr, Da in Fc.
  destruct (dry_run_is _ _ _ _ _ _ Ed) as (m' & cs & Gm & Cs & S2). rewrite (get_meta_found _ _ _ _ _ _ Fr) in Gm. injection Gm as <-.
  rewrite (S2 (not_empty_commands _ _ _ _ _ Cs)). clear S2. apply commands_metas in Cs as (ms & Ms & ->).
  exists names, (map Protoc_Model.cm_args ms). split; [reflexivity|]. split; [reflexivity|]. intros Nn.
  set (c := ps_config (m_set m)) in *.
  assert (Wkt : cc_include_wkt (cfg_compile c) = true) by apply (be_compile _ _ _ _ _ Tk).
  assert (Cne : cfg_dir c <> "") by (rewrite (be_dir _ _ _ _ _ Tk); destruct Cd as (cd & _ & ->); discriminate).
  assert (Sd : exists d, In d (ps_files (m_set m)) /\ Protoc_Spec.requested (m_set m) d = true).
  { destruct names as [|n names]; [now destruct Nn|]. destruct (proj1 (I n) (or_introl eq_refl)) as (g & (d0 & l0 & B1 & B2 & B3) & _). exists (d0, l0). auto. }
  destruct (shape w V r gen (m_set m) Wkt Cne Sd ms Ms) as (protoc & wkt & P1 & P2 & Q1 & Q2).
  exists c, protoc, wkt. split.
  { intros n Hn. apply I in Hn as (g & (d0 & l0 & B1 & B2 & _) & <-). destruct (Fc _ _ _ B1 B2) as (A1 & _ & _ & A2). eauto. }
  split; [rewrite Rw in P1, P2; exact (which_protoc w di walk cwd Cl _ _ _ P1 P2)|].
  assert (Fi : forall d0 l0, In (d0, l0) (ps_files (m_set m)) -> Protoc_Spec.requested (m_set m) (d0, l0) = true -> files_in cwd names d0 (map pf_path l0)).
  { intros d0 l0 B1 B3. split.
    - pose proof (found_groups w V St r _ _ _ Fr _ _ B1) as Ne. destruct l0; [now destruct Ne|discriminate].
    - intros p. rewrite in_map_iff. split.
      + intros (g & <- & B2). destruct (Fc _ _ _ B1 B2) as (_ & _ & Pd & Sh). split; [exact Pd|]. exists (pf_display g). split; [|exact Sh]. apply I. exists g. split; [|reflexivity]. now exists d0, l0.
      + intros (Pd & n & Hn & Sh). apply I in Hn as (g & (d1 & l1 & C1 & C2 & C3) & <-). destruct (Fc _ _ _ C1 C2) as (_ & _ & Pd1 & Sh1).
        apply (shown_absolute _ _ _ Cl) in Sh, Sh1. rewrite Sh in Sh1. subst p. exists g. split; [now symmetry|]. rewrite Sh1 in Pd. rewrite Pd in Pd1. subst d1. now rewrite (group_of _ _ _ _ Nd B1 C1). }
  split.
  { split.
    - intros command Hc. destruct (Q1 _ Hc) as ([d0 l0] & want & flags & A1 & A2 & A3 & A4 & A5). exists d0, (map pf_path l0), want, flags. auto.
    - intros n p want Hn Sh Iw. apply I in Hn as (g & (d0 & l0 & B1 & B2 & B3) & <-). destruct (Fc _ _ _ B1 B2) as (_ & _ & Pd & Sh1).
      pose proof (shown_absolute _ _ _ Cl Sh) as X1. pose proof (shown_absolute _ _ _ Cl Sh1) as X2. rewrite X1 in X2. rewrite X2 in *. clear X1 X2 p Sh1.
      destruct (Q2 (d0, l0) want B1 B3 Iw) as (command & flags & Ic & Wf' & Rn). exists (map pf_path l0), flags, command. rewrite Pd. cbn [fst snd] in Rn.
      split; [exact (Fi _ _ B1 B3)|]. split; [now apply in_map|auto]. }
  intros ll l li s3 z Ml Wl Dl Al El allow. destruct (line_is w ll l li args G Ml) as (k & K & Lx). rewrite Lx in El. clear Lx.
  assert (Kk : k = if gen then CallGen args false else CallCompile args false) by (unfold asked in K; rewrite Wl, Wdd, Dl in K; destruct gen; injection K as <-; reflexivity).
  rewrite Kk, <- (alike_options w _ _ Al), Or, with_options in El. clear k K Kk.
  assert (Ef' : r_error_format r = text li "error-format") by (rewrite Rw; cbn; apply Al; cbn; tauto).
  assert (Js : r_json r = on li "json") by (rewrite Rw; apply Al).
  destruct (Main_Model.method w r (if gen then CallGen args false else CallCompile args false) s) as [s4 o] eqn:E4. unfold process in El. rewrite E4 in El.
  destruct (ran_is w r gen args m s s4 o Fr E4) as (es & Op & Es & X1 & X2). rewrite Ef', Js, Hr in X2.
  destruct (the_compiler w r gen false None (io_disk s) (m_set m)) as [[fs ds]|err] eqn:Ec.
  2:{ destruct X1 as (e' & ->); [eauto|]. injection El as <- <-. split; [discriminate|]. split; [reflexivity|]. split; [discriminate|].
      intros Sn _ Mk. rewrite (compiler_silent w V En r gen (m_set m) (io_disk s) ms Ms Sn Mk) in Ec. discriminate Ec. }
  destruct (X2 fs ds eq_refl) as (Y1 & Y2). clear X1 X2.
  assert (Zc : forall command, In command (map Protoc_Model.cm_args ms) -> ~ breaks_down w (io_disk s) command).
  { intros command Ic B. destruct (compiler_broken w V En r gen (m_set m) (io_disk s) ms Ms _ Ic B) as (e' & X). rewrite X in Ec. discriminate Ec. }
  split; [|split; [|split]].
  - intros ->. destruct o as [u|x|x]; [|discriminate El..].
    assert (fs = []) as -> by (destruct (parse_fields_known (text li "error-format")) as [Hf|Hf]; [destruct (Y1 Hf) as (X & _); destruct fs; [reflexivity|discriminate X]|destruct (Y2 Hf) as (? & X); discriminate X]).
    exact (compiler_clean w V En r gen (m_set m) (io_disk s) ms Ms ds Ec).
  - intros (command & Ic & B). exfalso. exact (Zc _ Ic B).
  - intros ->. destruct (parse_fields_known (text li "error-format")) as [Hf|Hf]; [|destruct (Y2 Hf) as (? & ->); discriminate El].
    destruct (Y1 Hf) as (-> & kept & Pk & Ls). destruct fs as [|x fs]; [discriminate El|]. injection El as <-.
    destruct (compiler_failures w V En r gen (m_set m) (io_disk s) ms Ms _ _ Ec) as (fss & F2 & Pm).
    destruct (picks_perm _ _ _ _ Pm Pk) as (kept' & Pk1 & Pk2). exists fss, kept', es. split; [exact F2|]. split.
    { intros X. rewrite X in Pm. symmetry in Pm. now apply Permutation_nil in Pm. }
    split.
    { destruct Pk2 as (b & B1 & B2). exists b. split; [|exact B2]. intros y Hy. rewrite (B1 y Hy). unfold about, to_show.
      destruct Fr as [ps A B|ps A B]; cbn [m_single].
      - split; [now left|now left].
      - rewrite A. split; [intros [X|X]; [rewrite X in A; now apply St in A|now right]|intros [X|X]; [discriminate X|now right]]. }
    split; [eapply listing_perm; eassumption|]. rewrite Es. reflexivity.
  - intros Sn Hf Mk. rewrite (compiler_silent w V En r gen (m_set m) (io_disk s) ms Ms Sn Mk) in Ec. injection Ec as <- <-.
    destruct (Y1 Hf) as (-> & _). now injection El as _ <-.
Qed.
Print Assumptions C91_run.
(** A tree with a configuration that names a release and a plugin; protoc rejects the files of
    one of the two directories. *)
Definition exw10_config : external_config :=
  mk_external_config [] false "3.8.0" ["inc"] [] "" [] false [] [] (mk_ext_header "" "" false) "" false false false "" []
    [mk_ext_plugin "java" "" "" "out" "" "" false false].
Definition exw10 (good : bool) : world := mk_world "linux" "amd64" "go1.13" (fun v => if String.eqb v "HOME" then "/home" else "") (Ok "/w") (fun s => if String.eqb s "3s" then Ok 3%Z else Err "bad time")
  (fun s => Ok [s]) (fun _ => "usage") (fun _ => "help") (fun _ => "") (fun _ => "topic")
  (fun _ A l => l) exw8_stat exw8_node (fun _ => None) (fun _ _ => None) (fun _ => None) (Ok "/tmp/f") (Ok "/tmp/d") (fun _ => Err "not found")
  (fun _ _ => None) (fun _ => Err "no json") (fun _ => Ok exw10_config) (fun _ => Ok "")
  Settings_Proofs2.by_name (fun l => l) (fun l => l) (fun _ _ => Ok []) (fun s => s) (fun _ _ _ => Ok "")
  (fun _ => Ok tt) (fun s => s) (fun _ => NotExist) (fun _ => Ok "/tmp/p")
  (fun _ c => if orb good (mem "/w/a.proto" c) then Protoc_Model.Ended "" Protoc_Model.NoError else Protoc_Model.Ended ("b/bad.proto:3:4: bad" +++ String newline "") (Protoc_Model.ExitError "exit status 1"))
  (fun _ _ _ => Ok []) (fun n => rev (seq 0 n)) (fun _ n => n) (fun s => s) (fun _ => Ok "") (fun _ => Ok "") (fun _ => Ok [])
  (fun _ => Ok tt) (fun _ => Ok tt) (fun _ => Ok tt) (fun _ => Ok tt) (fun _ => Ok tt) (fun _ _ => ([], None)).
Definition exw_generate : command := mk_command ["generate"] (compiling ++ [("dry-run", OnOff); ("error-format", Text); ("json", OnOff)]) [] 0 (Some 1).
Example C91_run_ex : ordinary (exw10 false) "/w" /\ sorts (w_sort_plugins (exw10 false)) /\ (forall n, Permutation (w_ended (exw10 false) n) (List.seq 0 n)) /\
  means (w_read_csv (exw10 false)) ["generate"; "--dry-run"] exw_generate [Given "dry-run" LongAlone "true"] [] /\
  same_settings [] [Given "dry-run" LongAlone "true"] /\ alike [Given "dry-run" LongAlone "true"] [] /\
  fst (main (exw10 false) ["files"] exw8_s) = mk_io (io_disk exw8_s) (Main_Spec.shown ["a.proto"; "b/bad.proto"]) /\
  main (exw10 false) ["generate"; "--dry-run"] exw8_s = (mk_io (io_disk exw8_s) (Main_Spec.shown (map (join " ")
    [["/home/.cache/prototool/Linux/x86_64/protobuf/3.8.0/bin/protoc"; "-I"; "/w/inc"; "-I"; "/home/.cache/prototool/Linux/x86_64/protobuf/3.8.0/include"; "-I"; "/w"; "--java_out=/w/out"; "/w/a.proto"];
     ["/home/.cache/prototool/Linux/x86_64/protobuf/3.8.0/bin/protoc"; "-I"; "/w/inc"; "-I"; "/home/.cache/prototool/Linux/x86_64/protobuf/3.8.0/include"; "-I"; "/w"; "--java_out=/w/out"; "/w/b/bad.proto"]])), 0%Z) /\
  main (exw10 false) ["generate"] exw8_s = (mk_io (io_disk exw8_s) [Compiled true; Printed ("b/bad.proto:3:4:bad" +++ String newline "")], 255%Z) /\
  main (exw10 true) ["generate"] exw8_s = (mk_io (io_disk exw8_s) [Compiled true], 0%Z).
Proof.
  split; [exact (proj1 C89_lint_ex)|]. split; [exact Settings_Proofs2.by_name_sorts|]. split; [intros n; symmetry; apply Permutation_rev|].
  split.
  { exists None. split; [cbn; tauto|]. split; [|split; [reflexivity|split; [split; cbn; auto with arith|reflexivity]]].
    constructor; [|constructor]. split; [intros [X|[X|X]]; discriminate X|]. split; [discriminate|]. exists OnOff. split; [unfold takes; cbn; tauto|]. reflexivity. }
  split; [split; reflexivity|]. split; [split; [|reflexivity]; intros name H; cbn in H; repeat (destruct H as [<-|H]; [reflexivity|]); destruct H|].
  split; [vm_compute; reflexivity|]. split; [vm_compute; reflexivity|]. split; vm_compute; reflexivity.
Qed.
