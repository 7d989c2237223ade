(** The files command together with the discovery of files: C59. *)
From Coq Require Import Permutation.
From Verif Require Import GoStrFacts GoPathFacts Strs_Spec Settings_Model Settings_Spec Lint_Spec Props_Lint Props_Settings.
From Verif Require Import Settings_Proofs2 File_Model File_Spec File_Proofs File_Proofs2 Props_File Exec_Proofs3 Props_Exec.

(** A set of files that discovery returns has each file once, with a name. *)
Lemma nodup_filter_map {A B} (g : A -> B) (b : A -> bool) l : NoDup (map g l) -> NoDup (map g (filter b l)).
Proof.
  induction l as [|x l IH]; [constructor|]. cbn [map filter]. intros H. apply NoDup_cons_iff in H as (N & H). destruct (b x); [|auto].
  cbn. constructor; [|auto]. intros K. apply N. apply in_map_iff in K as (y & E & K). apply filter_In in K as (K & _). rewrite <- E. now apply in_map.
Qed.
Lemma groups_distinct fs m : NoDup (map fst m) -> (forall d l, In (d, l) m -> l = files_of_dir d fs) -> NoDup (map pf_path fs) ->
  NoDup (map pf_path (concat (map snd m))).
Proof.
  intros N H Nf. induction m as [|[d l] m IH]; [constructor|]. cbn [map concat fst snd] in *. apply NoDup_cons_iff in N as (Nd & N).
  rewrite map_app. apply nodup_app.
  - rewrite (H d l) by now left. now apply nodup_filter_map.
  - apply IH; [exact N|]. intros d' l' Hin. apply H. now right.
  - intros p H1 H2. apply Nd. rewrite (H d l) in H1 by now left. apply in_map_iff in H1 as (f & <- & H1). apply filter_In in H1 as (_ & H1). apply String.eqb_eq in H1.
    apply in_map_iff in H2 as (g & E & H2). apply in_concat in H2 as (l' & Hl & Hg). apply in_map_iff in Hl as ((d' & l2) & <- & Hl). cbn [snd] in Hg.
    rewrite (H d' l2) in Hg by now right. apply filter_In in Hg as (_ & Hg). apply String.eqb_eq in Hg. rewrite E in Hg. assert (d' = d) as -> by congruence.
    apply in_map_iff. exists (d, l2). auto.
Qed.
Section Tree.
  Variable ord : order.
  Variable cwd : string.
  Variable node_at : string -> node.
  Variable exists_file : string -> bool.
  Variable read_file : string -> result string.
  Variable decode_json decode_yaml : string -> result external_config.
  Variable look_path : string -> result string.
  Variable sort_plugins : list gen_plugin -> list gen_plugin.
  Variable devel : bool.
  Variable stat : string -> result file_kind.
  Notation provide := (provider_get_for_dir ord cwd node_at exists_file read_file decode_json decode_yaml look_path sort_plugins devel "").
  (** What files prints for a directory: the names, in order and each once, of the .proto
      files of the tree searched that are not excluded, in the directories whose path starts
      with that of the directory asked for.  Missing, and false, see C59_sibling_refuted: that
      only files below that directory are listed; and trees with a configuration that excludes
      something outside its own directory (see C41). *)
  Theorem C59_tree_partial w d s disk : reorders ord -> (forall p, named (node_at p)) -> ok_comps w -> ok_comps d ->
    stat (abs_path d) = Ok Directory -> provide (abs_path w) (abs_path d) = Ok s ->
    (forall root, searched exists_file d root -> contained exists_file read_file decode_json decode_yaml root (node_at (abs_path root))) ->
    exists root fs sorted, ok_comps root /\ searched exists_file d root /\
      snd (files_cmd ord (abs_path w) stat provide [abs_path d] (mk_io disk [])) = Value tt /\
      printed (io_done (fst (files_cmd ord (abs_path w) stat provide [abs_path d] (mk_io disk [])))) = join "" (map (fun p => p +++ String newline "") sorted) /\
      Permutation (map pf_display fs) sorted /\ StronglySorted (fun a b => str_leb a b = true) sorted /\
      NoDup (map pf_path fs) /\ Forall (fun f => shown (abs_path w) (pf_path f) (pf_display f)) fs /\
      forall p, In p (map pf_path fs) <-> exists cs, file_in (node_at (abs_path root)) cs /\ p = abs_path (root ++ cs) /\ path_ext p = ".proto" /\
        ~ hidden exists_file read_file decode_json decode_yaml root cs /\ has_prefix (path_dir p) (abs_path d) = true.
  Proof.
    intros O N Hw Hd St P C. destruct (C42_one_configuration ord cwd node_at exists_file read_file decode_json decode_yaml look_path sort_plugins devel w d s O N Hw Hd P)
      as (_ & Ed & root & all & cf & Hr & Hs & Hf & G & _).
    destruct (C41_discovery_partial exists_file read_file decode_json decode_yaml node_at (abs_path w) root all (ex_intro _ w (conj Hw eq_refl)) Hr (N _) (C root Hs) Hf) as (F1 & F2 & F3).
    assert (Gi : forall dir l f, In (dir, l) (ps_files s) -> In f l -> In f all /\ dir = path_dir (pf_path f)).
    { intros dir l f H1 H2. apply (proj2 G) in H1 as (_ & ->). apply filter_In in H2 as (H2 & E). apply String.eqb_eq in E. auto. }
    destruct (files_cmd ord (abs_path w) stat provide [abs_path d] (mk_io disk [])) as [s' r] eqn:E.
    destruct (C59_files ord (abs_path w) stat provide O [abs_path d] (mk_meta s "") (mk_io disk []) s' r) as (-> & _ & fs & sorted & es & K1 & K2 & K3 & K4 & K5 & _ & K6); [| | |exact E|].
    - apply FoundDirectory; [exact St|exact P].
    - unfold distinct_paths. cbn [m_set]. destruct G as (Gn & Gm). apply (groups_distinct all); [exact Gn| |exact F2]. intros dir l H. now apply Gm in H as (_ & H).
    - intros f (dir & l & H1 & H2 & _). destruct (Gi _ _ _ H1 H2) as (Hin & _). rewrite Forall_forall in F3. apply F3 in Hin as (_ & H & _). intros H0. rewrite H0 in H. discriminate.
    - exists root, fs, sorted. split; [exact Hr|]. split; [exact Hs|]. split; [reflexivity|]. cbn [fst io_done] in *. cbn in K5. subst es. rewrite K6.
      split; [reflexivity|]. split; [exact K3|]. split; [exact K4|]. split; [exact K2|].
      assert (B : forall f, In f fs <-> In f all /\ has_prefix (path_dir (pf_path f)) (abs_path d) = true).
      { intros f. rewrite K1. unfold below. cbn [m_set]. rewrite Ed. split.
        - intros (dir & l & H1 & H2 & H3). destruct (Gi _ _ _ H1 H2) as (Hin & ->). auto.
        - intros (Hin & H3). destruct (grouped_file _ _ _ G Hin) as (l & H1 & H2). eauto. }
      split; [apply Forall_forall; intros f Hin; apply B in Hin as (Hin & _); rewrite Forall_forall in F3; now apply F3|].
      intros p. split.
      + intros H. apply in_map_iff in H as (f & <- & H). apply B in H as (H & Hp). assert (H' : In (pf_path f) (map pf_path all)) by now apply in_map.
        apply F1 in H' as (cs & A1 & A2 & A3 & A4). exists cs. auto.
      + intros (cs & A1 & A2 & A3 & A4 & A5). assert (H' : In p (map pf_path all)) by (apply F1; eauto). apply in_map_iff in H' as (f & <- & H'). apply in_map. apply B. auto.
  Qed.
End Tree.
Print Assumptions C59_tree_partial.
Definition sib_tree : node := NDir [("a", NDir [("x.proto", NFile)]); ("ab", NDir [("y.proto", NFile)]); ("prototool.yaml", NFile)].
Definition sib_tree_at (p : string) : node := if String.eqb p "/w" then sib_tree else if String.eqb p "/w/a" then NDir [("x.proto", NFile)] else NBroken.
Definition all_dirs (p : string) : result file_kind := Ok Directory.
(** files for /w/a also lists the files of /w/ab. *)
Theorem C59_sibling_refuted : exists s, provider_get_for_dir in_order "/w" sib_tree_at tree_exists tree_read bad_json (fun _ => Ok (excluding [])) no_file by_name false "" "/w" "/w/a" = Ok s /\
  ~ within "/w/a" "/w/ab/y.proto" /\
  printed (io_done (fst (files_cmd in_order "/w" all_dirs (provider_get_for_dir in_order "/w" sib_tree_at tree_exists tree_read bad_json (fun _ => Ok (excluding [])) no_file by_name false "")
     ["/w/a"] (mk_io no_file [])))) = "a/x.proto" +++ String newline ("ab/y.proto" +++ String newline "").
Proof.
  eexists. split; [vm_compute; reflexivity|]. split; [|vm_compute; reflexivity].
  intros (ds & rs & O1 & O2 & E1 & E2).
  change "/w/a" with (abs_path ["w"; "a"]) in E1. change "/w/ab/y.proto" with (abs_path ["w"; "ab"; "y.proto"]) in E2.
  apply abs_path_inj in E1; [|now repeat constructor|assumption]. subst ds.
  apply abs_path_inj in E2; [discriminate|now repeat constructor|]. apply Forall_app. now split.
Qed.
Print Assumptions C59_sibling_refuted.
