(** C90: what format --overwrite leaves in the files that are listed. *)
From Coq Require Import Permutation.
From Verif Require Import GoStrFacts GoPathFacts Settings_Spec File_Spec Exec_Spec Exec_Proofs Exec_Proofs3 Cmd_Spec LintRun_Spec Text_Spec Format_Model Format_Spec Main_Model Main_Spec Main_Spec2
  Main_Proofs Main_Proofs2 Main_Proofs6 Main_Proofs7 Main_Proofs9 Main_Proofs10 Props_Format Props_Main Props_Main2 Props_Main3 Props_Main4 Props_Main5 Props_Main8.

(** The options that --fix sets, by the group of rules of the configuration. *)
Definition set_by_fix (c : config) (path pkg : string) : list (string * literal) :=
  let prefix := lc_java_package_prefix (cfg_lint c) in
  if String.eqb (lc_group (cfg_lint c)) "uber2"
  then settings_v2 (go_package_v2 pkg) (java_outer_classname path) (java_package_prefix_override pkg prefix) (csharp_namespace pkg) (objc_class_prefix pkg) (php_namespace pkg)
  else settings_v1 (go_package pkg) (java_outer_classname path) (java_package_prefix_override pkg prefix).

Lemma transform_text so si parse v h p path data text es : transform so si parse v h p path data = Ok (text, []) -> parse data = Ok es ->
  forall fx text', check_fix v = Ok fx -> transform_elements so si path fx h p es = Ok (text', []) -> text = text'.
Proof. unfold transform. intros E Ep fx text' Ef E'. rewrite Ef, Ep in E. cbn [bind] in E. rewrite E' in E. cbn in E. now injection E as <-. Qed.
Lemma formatter_parsed w x m path input data : formatter (the_transform w) x m path input = Ok (data, []) -> exists es, w_parse w path input = Ok es.
Proof.
  unfold formatter, the_transform, transform. destruct x; (destruct (check_fix _); [|discriminate]; cbn [bind]; destruct (w_parse w path input) as [es|]; [eauto|discriminate]).
Qed.

Theorem C90_written : forall w cwd args fl f fi s s1, ordinary w cwd -> sorts (w_sort_plugins w) ->
  sorts_by o_name (w_sort_options w) -> sorts_by im_filename (w_sort_imports w) ->
  means (w_read_csv w) fl f fi args -> c_words f = ["files"] -> main w fl s = (s1, 0%Z) ->
  exists names, io_done s1 = io_done s ++ Main_Spec.shown names /\
    forall ll l li s2, means (w_read_csv w) ll l li args -> c_words l = ["format"] -> same_settings fi li -> on li "overwrite" = true ->
      w_stat w (Exec_Spec.target args) = Ok Exec_Model.Directory -> main w ll s = (s2, 0%Z) ->
      forall n, In n names -> exists p c input es text,
        File_Spec.shown cwd p n /\ in_force w (io_disk s) cwd (Cmd_Spec.text li "config-data") p c /\
        io_disk s p = Ok input /\ w_parse w p input = Ok es /\ io_disk s2 p = Ok text /\
        (on li "fix" = false -> kept_file es ->
           reads_as text (concat (map (tokens (w_sort_options w)) (canonical (w_sort_options w) (w_sort_imports w) es)))) /\
        (on li "fix" = true -> kept_file es -> forall pk hts, In (EPackage pk) es -> a_package (pk_name pk) ->
           quotes_free p -> quotes_free (lc_java_package_prefix (cfg_lint c)) ->
           let header := lc_file_header (cfg_lint c) in
           reads_as (header +++ String newline "") hts ->
           reads_as text ((if is_empty header then concat (map (tokens (w_sort_options w)) (leading es)) else hts) ++
             concat (map (tokens (w_sort_options w))
               (canonical_with (w_sort_options w) (w_sort_imports w) [] (fixed_options (set_by_fix c p (pk_name pk)) (own_options es)) es)))).
Proof.
  intros w cwd args fl f fi s s1 (V & G & Wd & Cl & Nm & St) So Sopt Simp Mf Wf Ef.
  destruct (line_is w fl f fi args G Mf) as (kf & Kf & Lf). rewrite Lf in Ef. clear Lf. unfold asked in Kf. rewrite Wf in Kf. injection Kf as <-.
  destruct (the_options w fi) as [r0|m] eqn:Or0; [|rewrite no_options in Ef; discriminate Ef]. rewrite with_options in Ef.
  apply process_value in Ef as ([] & Ef).
  assert (Hr0 : here r0 = cwd) by (eapply options_files; [exact Wd| |exact Or0|exact Or0]; split; reflexivity).
  assert (Cr0 : clean_abs (here r0)) by now rewrite Hr0.
  destruct (files_shows w V Nm St r0 Cr0 args s s1 Ef) as (m & names & F & -> & I). exists names. split; [reflexivity|].
  intros ll l li s2 Ml Wl Sm Ow Dir El. destruct (line_is w ll l li args G Ml) as (k & K & Ll). rewrite Ll in El. clear Ll.
  unfold asked in K. rewrite Wl, Ow in K. injection K as <-.
  destruct (options_some _ _ _ _ _ Wd Sm Or0) as (r & Or). rewrite Or, with_options in El.
  destruct (options_files _ _ _ _ _ _ Wd Sm Or0 Or) as (_ & Sr).
  assert (Hr : here r = cwd) by (rewrite <- Hr0; apply Sr). assert (Cr : clean_abs (here r)) by now rewrite Hr.
  assert (Fr : found (here r) (w_stat w) (provider w r (io_disk s)) args m).
  { rewrite Hr, <- Hr0. destruct F as [ps A B|ps A B]; [apply FoundDirectory|apply FoundFile]; try exact A; rewrite (provider_runner w r r0) by exact Sr; exact B. }
  assert (Da : r_config_data r = Cmd_Spec.text li "config-data").
  { clear - Or Wd. unfold the_options in Or. rewrite Wd in Or. destruct (if String.eqb _ _ then _ else _) in Or; [|discriminate Or]. cbn [bind] in Or. injection Or as <-. reflexivity. }
  destruct (found_config w V So Nm St r Cr _ _ _ Fr) as (Fc & _ & _). rewrite Hr, Da in Fc.
  apply process_value in El as ([] & El).
  assert (on li "diff" = false /\ on li "lint" = false) as (Dd & Dl).
  { destruct (format_fine w V Nm St r Cr r args m _ _ _ _ s s2 (conj eq_refl (conj eq_refl eq_refl)) Fr El) as ([] & Md & _); cbn in Md; intuition discriminate. }
  rewrite Dd, Dl in El.
  intros n Hn. apply I in Hn as (g & B & <-).
  assert (Ak : Exec_Spec.asked (here r) m g). { split; [exact B|]. left. destruct Fr as [ps X Y|ps X Y]; [reflexivity|]. rewrite Dir in X. discriminate X. }
  destruct (format_result w V Nm St r Cr args (on li "fix") s s2 m Fr El g Ak) as (input & text & R & T & R2).
  destruct (formatter_parsed _ _ _ _ _ _ T) as (es & P).
  destruct B as (d0 & l0 & B1 & B2 & _). destruct (Fc d0 l0 g B1 B2) as (Fo & _ & _ & Sh).
  exists (pf_path g), (ps_config (m_set m)), input, es, text. split; [exact Sh|]. split; [exact Fo|]. split; [exact R|]. split; [exact P|]. split; [exact R2|].
  unfold formatter, the_transform in T. split.
  - intros Fx Ke. rewrite Fx in T. destruct (C24_tokens (w_sort_options w) (w_sort_imports w) (pf_path g) "" "" es Sopt Simp Ke) as (text' & E' & Re).
    now rewrite (transform_text _ _ _ _ _ _ _ _ _ _ T P FixNone text' eq_refl E').
  - intros Fx Ke pk hts Pk Ap Qp Qx header Rh. rewrite Fx in T. unfold set_by_fix.
    destruct (String.eqb (lc_group (cfg_lint (ps_config (m_set m)))) "uber2").
    + destruct (C25_written (w_sort_options w) (w_sort_imports w) (pf_path g) FixV2 header _ es pk hts Sopt Simp Ke Pk Ap Qp Qx Rh ltac:(discriminate)) as (text' & E' & Re).
      now rewrite (transform_text _ _ _ _ _ _ _ _ _ _ T P FixV2 text' eq_refl E').
    + destruct (C25_written (w_sort_options w) (w_sort_imports w) (pf_path g) FixV1 header _ es pk hts Sopt Simp Ke Pk Ap Qp Qx Rh ltac:(discriminate)) as (text' & E' & Re).
      now rewrite (transform_text _ _ _ _ _ _ _ _ _ _ T P FixV1 text' eq_refl E').
Qed.
Print Assumptions C90_written.
(** A tree whose configuration asks for a header and a prefix of its own. *)
Definition exw9_config : external_config :=
  mk_external_config [] false "" [] [] "uber2" [] false [] [] (mk_ext_header "" "Copyright" false) "org" false false false "" [] [].
Definition exw9 : world := mk_world "linux" "amd64" "go1.13" (fun v => if String.eqb v "HOME" then "/home" else "") (Ok "/w") (fun s => if String.eqb s "3s" then Ok 3%Z else Err "bad time")
  (fun s => Ok [s]) (fun _ => "usage") (fun _ => "help") (fun _ => "") (fun _ => "topic")
  (fun _ A l => l) exw8_stat exw8_node (fun _ => None) (fun _ _ => None) (fun _ => None) (Ok "/tmp/f") (Ok "/tmp/d") (fun _ => Err "not found")
  (fun _ _ => None) (fun _ => Err "no json") (fun _ => Ok exw9_config) (fun _ => Ok "")
  Settings_Proofs2.by_name so si (fun _ _ => Ok small) (fun s => s) (fun _ _ _ => Ok "")
  (fun _ => Ok tt) (fun s => s) (fun _ => NotExist) (fun _ => Ok "/tmp/p") (fun _ _ => Protoc_Model.Ended "" Protoc_Model.NoError)
  (fun _ _ _ => Ok []) (fun n => seq 0 n) (fun _ n => n) (fun s => s) (fun _ => Ok "") (fun _ => Ok "") (fun _ => Ok [])
  (fun _ => Ok tt) (fun _ => Ok tt) (fun _ => Ok tt) (fun _ => Ok tt) (fun _ => Ok tt) (fun _ _ => ([], None)).
Example C90_written_ex : ordinary exw9 "/w" /\ sorts (w_sort_plugins exw9) /\ sorts_by o_name (w_sort_options exw9) /\ sorts_by im_filename (w_sort_imports exw9) /\
  kept_file small /\ quotes_free "/w/a.proto" /\ quotes_free "org" /\
  w_stat exw9 (Exec_Spec.target []) = Ok Exec_Model.Directory /\
  fst (main exw9 ["files"] exw8_s) = mk_io (io_disk exw8_s) (Main_Spec.shown ["a.proto"; "b/bad.proto"]) /\
  let lines l := match io_disk (fst (main exw9 l exw8_s)) "/w/b/bad.proto" with Ok t => split_char newline t | Err _ => [] end in
  snd (main exw9 ["format"; "-w"] exw8_s) = 0%Z /\ lines ["format"; "-w"] <> ["text"] /\
  snd (main exw9 ["format"; "-w"; "-f"] exw8_s) = 0%Z /\
  In "// Copyright" (lines ["format"; "-w"; "-f"]) /\ In "option java_package = ""org.acme.foo.v1"";" (lines ["format"; "-w"; "-f"]).
Proof.
  split; [exact (proj1 C89_lint_ex)|]. split; [exact Settings_Proofs2.by_name_sorts|]. split; [apply sort_by_sorts|]. split; [apply sort_by_sorts|].
  split; [exact small_kept|]. split; [repeat split|]. split; [repeat split|]. split; [reflexivity|]. split; [vm_compute; reflexivity|]. cbv zeta.
  split; [vm_compute; reflexivity|]. split; [vm_compute; discriminate|]. split; [vm_compute; reflexivity|]. split; (apply mem_In; vm_compute; reflexivity).
Qed.
