(** C87: after format --overwrite there is nothing left to format. *)
From Verif Require Text_Proofs.
From Verif Require Import GoStrFacts GoPathFacts Settings_Spec File_Spec Exec_Spec Exec_Proofs Cmd_Spec Format_Spec Format_Model Format_Same2 Main_Model Main_Spec Main_Proofs Main_Proofs2
  Main_Proofs6 Main_Proofs8 Main_Proofs9 Props_Format Props_Exec Props_Main Props_Main2 Props_Main3 Props_Main4 Props_Main5.

(** What is written for the file can be parsed, and has the contents of what was written: those
    of the file, in the order in which they are printed. *)
Definition reads_back (w : world) (p input : string) : Prop :=
  forall es text, w_parse w p input = Ok es ->
    transform_elements (w_sort_options w) (w_sort_imports w) p FixNone "" "" es = Ok (text, []) ->
    length (Format_Spec.syntaxes es) <= 1 /\ length (Format_Spec.packages es) <= 1 /\ NoDup (map o_name (own_options es)) /\ NoDup (map im_filename (own_imports es)) /\
    exists es', w_parse w p text = Ok es' /\ same_file (detached (canonical (w_sort_options w) (w_sort_imports w) es)) es'.

Lemma transform_again w p input data : sorts_by o_name (w_sort_options w) -> sorts_by im_filename (w_sort_imports w) -> reads_back w p input ->
  the_transform w 0 "" "" p input = Ok (data, []) -> the_transform w 0 "" "" p data = Ok (data, []).
Proof.
  intros So Si Rb. unfold the_transform, Format_Model.transform. cbn [check_fix Z.eqb bind].
  destruct (w_parse w p input) as [es|] eqn:P; [|discriminate]. cbn [bind].
  destruct (transform_elements _ _ p FixNone "" "" es) as [[text fs]|] eqn:T; [|discriminate]. cbn [bind fst snd]. intros [= -> F].
  assert (fs = []) as ->.
  { destruct (Text_Proofs.sort_failures_plain fs) as (ss & E & Pe & _). rewrite E in F. assert (ss = []) as -> by (destruct ss; [reflexivity|discriminate F]).
    now apply Permutation.Permutation_sym, Permutation.Permutation_nil in Pe. }
  destruct (Rb es data P T) as (H1 & H2 & H3 & H4 & es' & P' & H5). rewrite P'. cbn [bind].
  rewrite (reread_outcome _ _ So Si p "" "" es es' data H1 H2 H3 H4 H5 T). reflexivity.
Qed.
Theorem C87_settled_partial : forall w cwd args line line' cl c items items' ci s s1 s2,
  ordinary w cwd -> sorts_by o_name (w_sort_options w) -> sorts_by im_filename (w_sort_imports w) ->
  (forall d e, w_decode_json w d = Ok e \/ w_decode_yaml w d = Ok e -> header_elsewhere e) ->
  other_mode w args line line' items items' -> one_mode items' -> on items "overwrite" = true -> on items "fix" = false ->
  main w line s = (s1, 0%Z) ->
  means (w_read_csv w) cl c ci args -> c_words c = ["compile"] -> alike items ci -> on ci "dry-run" = false -> main w cl s1 = (s2, 0%Z) ->
  (forall p input, io_disk s p = Ok input -> reads_back w p input) ->
  nothing_to_do w line' s1.
Proof.
  intros w cwd args line line' cl c items items' ci s s1 s2 (V & G & Wd & Cl & Nm & St) So Si Hh O M Ov Fx E Mc Wc Ac Dc Ec Rb.
  destruct (modes_lines _ _ _ _ _ _ G O) as [(r & Or & L & L')|X].
  2:{ specialize (X s). rewrite E in X. discriminate X. }
  rewrite L in E. apply process_value in E as ([] & E). rewrite Ov, Fx in E. rewrite Fx in L'.
  assert (Hr : here r = cwd) by (eapply options_files; [exact Wd| |exact Or|exact Or]; split; reflexivity).
  assert (Cr : clean_abs (here r)) by now rewrite Hr.
  destruct (line_is w cl c ci args G Mc) as (k & K & Lc). unfold asked in K. rewrite Wc, Dc in K. injection K as <-.
  rewrite Lc, <- (alike_options w _ _ Ac), Or, with_options in Ec. apply process_value in Ec as ([] & Ec).
  assert (D : on items "diff" = false /\ on items "lint" = false).
  { destruct (more_than_one_set [true; on items "diff"; on items "lint"]) eqn:Q.
    - exfalso. revert E. unfold method, format_cmd. cbv zeta. rewrite Q. discriminate.
    - revert Q. destruct (on items "diff"), (on items "lint"); cbn; intros; auto; discriminate. }
  destruct D as (D1 & D2). rewrite D1, D2 in E.
  destruct (format_settles w V (visits_ok _ V) Nm St r Cr args false (fun d e H => Hh d e (or_introl H)) (fun d e H => Hh d e (or_intror H)) s s1 s2
    (on items' "overwrite") (on items' "diff") (on items' "lint") E Ec) as (es & E' & We).
  - intros m f input data _ _ Hi T _. revert T. unfold formatter. apply transform_again; [assumption..|now apply Rb].
  - now apply one_mode_set.
  - eexists. rewrite L'. split; [apply process_value; exists tt; exact E'|]. split; [reflexivity|].
    cbn [io_done]. change (Compiled false :: es) with ([Compiled false] ++ es). rewrite !written_app, We. apply app_nil_r.
Qed.
Print Assumptions C87_settled_partial.
(** A world in which the file is not formatted. *)
Definition exw_tidy : string := match transform_elements so si "/w/a.proto" FixNone "" "" untidy with Ok (t, _) => t | Err m => m end.
Definition exw_parse (p d : string) : result (list element) := if String.eqb d exw_tidy then Ok (detached (canonical so si untidy)) else Ok untidy.
Definition exw6 : world := mk_world "linux" "amd64" "go1.13" (fun v => if String.eqb v "HOME" then "/home" else "") (Ok "/w") (fun s => if String.eqb s "3s" then Ok 3%Z else Err "bad time")
  (fun s => Ok [s]) (fun _ => "usage") (fun _ => "help") (fun _ => "") (fun _ => "topic")
  (fun _ A l => l) exw_stat exw_node (fun _ => None) (fun _ _ => None) (fun _ => None) (Ok "/tmp/f") (Ok "/tmp/d") (fun _ => Err "not found")
  (fun _ _ => None) (fun _ => Err "no json") (fun _ => Err "no yaml") (fun _ => Ok "")
  (fun l => l) so si exw_parse (fun s => s) (fun _ _ _ => Ok "")
  (fun _ => Ok tt) (fun s => s) (fun _ => NotExist) (fun _ => Ok "/tmp/p") (fun _ _ => Protoc_Model.Ended "" Protoc_Model.NoError)
  (fun _ _ _ => Ok []) (fun n => List.seq 0 n) (fun _ n => n) (fun s => s) (fun _ => Ok "") (fun _ => Ok "") (fun _ => Ok [])
  (fun _ => Ok tt) (fun _ => Ok tt) (fun _ => Ok tt) (fun _ => Ok tt) (fun _ => Ok tt) (fun _ _ => ([], None)).
Example C87_settled_partial_ex :
  let s1 := fst (main exw6 ["format"; "-w"] exw_s) in
  ordinary exw6 "/w" /\ sorts_by o_name so /\ sorts_by im_filename si /\
  snd (main exw6 ["format"; "-l"] exw_s) = 255%Z /\
  snd (main exw6 ["format"; "-w"] exw_s) = 0%Z /\ io_disk s1 "/w/a.proto" = Ok exw_tidy /\ snd (main exw6 ["compile"] s1) = 0%Z /\
  (forall p input, exw_disk p = Ok input -> reads_back exw6 p input) /\ snd (main exw6 ["format"; "-l"] s1) = 0%Z.
Proof.
  cbv zeta. split; [exact exw_ordinary|]. split; [apply sort_by_sorts|]. split; [apply sort_by_sorts|].
  split; [vm_compute; reflexivity|]. split; [vm_compute; reflexivity|]. split; [vm_compute; reflexivity|]. split; [vm_compute; reflexivity|].
  split; [|vm_compute; reflexivity].
  intros p input. unfold exw_disk. destruct (String.eqb_spec p "/w/a.proto") as [->|]; [|discriminate]. intros [= <-] es text.
  replace (w_parse exw6 "/w/a.proto" "syntax = ""proto3"";") with (Ok untidy) by (vm_compute; reflexivity). intros [= <-] T.
  destruct C24_ex as ((K1 & K2 & _) & S & N1 & N2 & _). split; [exact K1|]. split; [exact K2|]. split; [exact N1|]. split; [exact N2|].
  exists (detached (canonical so si untidy)). split; [|exact S].
  assert (text = exw_tidy) as -> by (unfold exw_tidy; change (w_sort_options exw6) with so in T; change (w_sort_imports exw6) with si in T; now rewrite T).
  change (exw_parse "/w/a.proto" exw_tidy = Ok (detached (canonical so si untidy))). unfold exw_parse. now rewrite String.eqb_refl.
Qed.

(** With --fix and a file header it is not so: the comment attached to syntax is printed on its
    own under the header, where the next run takes it for an old header and drops it. *)
Definition with_remark : list element := [ESyntax (mk_syntax (Props_Lint.at_line 2) "proto3" (Some (remark " about")) None)].
Definition with_header : list element := [EComment (remark " H"); EComment (remark " about"); ESyntax (mk_syntax (Props_Lint.at_line 5) "proto3" None None)].
Theorem C87_fix_refuted : ~ forall header es es' text,
  transform_elements so si "/w/a.proto" FixV1 header "" es = Ok (text, []) ->
  reads_as text (concat (map (tokens so) es')) -> detached es' = es' ->
  transform_elements so si "/w/a.proto" FixV1 header "" es' = Ok (text, []).
Proof.
  intros H. specialize (H "// H" with_remark with_header _ eq_refl).
  specialize (H ltac:(vm_compute; reflexivity) ltac:(vm_compute; reflexivity)). vm_compute in H. discriminate H.
Qed.
Print Assumptions C87_fix_refuted.
