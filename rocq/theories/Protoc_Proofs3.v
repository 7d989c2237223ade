(** The commands: what they consist of, altogether. *)
From Verif Require Import Lint_Model Lint_Spec GoMapFacts Protoc_Model Protoc_Spec Protoc_Proofs Protoc_Proofs2 GoPathFacts GoStrFacts.
From Coq Require Import Lia.

Lemma Forall2_map_eq {A B} (R : A -> B -> Prop) f l : (forall x, In x l -> R x (f x)) -> Forall2 R l (map f l).
Proof. induction l as [|x l IH]; cbn; intros H; constructor; auto. Qed.
Lemma mapM_ok_F2 {A B} (f : A -> result B) l ys : mapM f l = Ok ys -> Forall2 (fun x y => f x = Ok y) l ys.
Proof.
  revert ys; induction l as [|x l IH]; cbn [mapM]; intros ys H; [injection H as <-; constructor|].
  destruct (f x) as [y|] eqn:E; [|discriminate]. cbn [bind] in H. destruct (mapM f l) as [ys'|] eqn:E'; [|discriminate].
  cbn [bind] in H. injection H as <-. constructor; auto.
Qed.

Section Params.
  Variable ord : order.
  Variable set : proto_set.
  Hypothesis Hord : reorders ord.
  Lemma file_modifier_is cs import out p f rs x : cfg_dir (ps_config set) = abs_path cs -> ok_comps cs ->
    pf_path f = abs_path (cs ++ rs ++ [x]) -> ok_comps (rs ++ [x]) -> ok_comps import -> import <> [] -> ok_comps out ->
    gc_import_path (cfg_gen (ps_config set)) = join "/" import -> gp_output_rel p = rel_path out ->
    file_modifier set p f = (join "/" (rs ++ [x]), join "/" (import ++ out ++ rs)).
  Proof.
    intros Hd Hc Hf Hr Hi Hn Ho Hg Hp. unfold file_modifier. rewrite Hd, Hf, path_rel_under by (auto; now destruct rs).
    apply ok_comps_app in Hr as [Hr Hx]. inversion Hx; subst. rewrite rel_dir by auto. f_equal. rewrite Hg, Hp.
    replace (join "/" import) with (rel_path import) by now destruct import. rewrite rel_join3 by auto. now destruct import.
  Qed.
  Lemma parameters_ok dir p : parameters set dir p (get_proto_flags ord set dir p).
  Proof.
    unfold parameters, get_proto_flags. set (loop := fun s => s +++ " " +++ dir +++ " " +++ gp_name p).
    assert (H : forall wkt,
      exists imports wkts extras,
        join "," ((if is_empty (gp_flags p) then [] else [gp_flags p]) ++
           map modifier (ord (loop "modifiers") _ (build (map (file_modifier set p) (concat (map snd (filter (fun d => negb (String.eqb (fst d) dir)) (ord (loop "directories") _ (ps_files set)))))))) ++
           map modifier (ord (loop "wkt") _ wkt) ++ map modifier (ord (loop "extra") _ (gc_extra_modifiers (cfg_gen (ps_config set)))))
          = join "," ((if is_empty (gp_flags p) then [] else [gp_flags p]) ++ imports ++ wkts ++ extras) /\
        (forall cs import out, laid_out set cs -> ok_comps import -> import <> [] -> ok_comps out ->
           gc_import_path (cfg_gen (ps_config set)) = join "/" import -> gp_output_rel p = rel_path out ->
           exists fs, Permutation fs (files_elsewhere set dir) /\ Forall2 (import_parameter cs import out) fs imports) /\
        Permutation wkts (map assignment wkt) /\
        Permutation extras (map assignment (gc_extra_modifiers (cfg_gen (ps_config set))))).
    { intros wkt. eexists _, _, _. split; [reflexivity|]. split; [|split; (apply (Permutation_map modifier); symmetry; apply Hord)].
      intros cs import out (Hd & Hc & Hf & Hnd) Hi Hn Ho Hg Hp.
      set (fs := concat (map snd (filter (fun d => negb (String.eqb (fst d) dir)) (ord (loop "directories") _ (ps_files set))))).
      assert (Hfs : Permutation fs (files_elsewhere set dir)).
      { unfold fs, files_elsewhere, files_of. apply concat_perm, keep_perm. symmetry. apply Hord. }
      assert (Hin : forall f, In f fs -> In f (files_of (ps_files set))).
      { intros f Hi'. apply (Permutation_in _ Hfs) in Hi'. unfold files_elsewhere, files_of in *. rewrite <- !flat_map_concat_map in *.
        apply in_flat_map in Hi' as (d & Hd' & Hi'). apply filter_In in Hd' as [Hd' _]. apply in_flat_map. eauto. }
      assert (Hnd' : NoDup (map pf_path fs)).
      { refine (Permutation_NoDup _ (_ : NoDup (map pf_path (files_elsewhere set dir)))); [apply Permutation_map; now symmetry|].
        unfold files_elsewhere, files_of in *. clear - Hnd. induction (ps_files set) as [|[d l] r IH]; [exact Hnd|]. cbn [filter map concat snd] in *. rewrite map_app in Hnd.
        assert (NoDup (map pf_path l) /\ NoDup (map pf_path (concat (map snd r))) /\ forall x, In x (map pf_path l) -> ~ In x (map pf_path (concat (map snd r)))) as (N1 & N2 & N3).
        { clear IH. revert Hnd. generalize (map pf_path (concat (map snd r))). induction (map pf_path l) as [|a m IH]; cbn; intros q H; [repeat split; auto; constructor|].
          inversion H as [|? ? Ha Hm]; subst. apply IH in Hm as (M1 & M2 & M3). split; [constructor; [intros Q; apply Ha, in_or_app; now left|auto]|]. split; [auto|].
          intros x [<-|Hx]; [intros Q; apply Ha, in_or_app; now right|auto]. }
        destruct (negb _); [|auto]. cbn [map snd concat]. rewrite map_app. apply IH in N2.
        assert (N4 : forall x, In x (map pf_path l) -> ~ In x (map pf_path (concat (map snd (filter (fun d : string * list proto_file => negb (fst d =? dir)%string) r))))).
        { intros x Hx Q. apply (N3 x Hx). apply in_map_iff in Q as (f & <- & Q). apply in_map. rewrite <- flat_map_concat_map in *. apply in_flat_map in Q as (e & He & Q). apply filter_In in He as [He _]. apply in_flat_map. eauto. }
        clear - N1 N2 N4. induction (map pf_path l) as [|a m IH]; [exact N2|]. cbn. inversion N1; subst. constructor.
        - intros Q. apply in_app_or in Q as [Q|Q]; [auto|]. apply (N4 a); [now left|auto].
        - apply IH; auto. intros x Hx. apply N4. now right. }
      (* the modifiers as a list *)
      assert (Hmods : forall f, In f fs -> exists rs x, pf_path f = abs_path (cs ++ rs ++ [x]) /\ ok_comps (rs ++ [x]) /\
        file_modifier set p f = (join "/" (rs ++ [x]), join "/" (import ++ out ++ rs))).
      { intros f Hf'. apply Hin, Hf in Hf' as (rs & x & H1 & H2). exists rs, x. split; [auto|]. split; [auto|]. eapply file_modifier_is; eauto. }
      assert (Hkeys : NoDup (map fst (map (file_modifier set p) fs))).
      { clear Hfs Hin. clearbody fs. clear - Hnd' Hmods Hc. induction fs as [|f fs IH]; cbn [map] in *; [constructor|].
        inversion Hnd' as [|? ? Hn1 Hn2]; subst. constructor; [|apply IH; auto; intros; apply Hmods; now right].
        intros Q. apply Hn1. rewrite map_map in Q. apply in_map_iff in Q as (g & Eg & Hg).
        destruct (Hmods f (or_introl eq_refl)) as (rs & x & Hp1 & Hok1 & E1). destruct (Hmods g (or_intror Hg)) as (rs' & x' & Hp2 & Hok2 & E2).
        rewrite E1, E2 in Eg. cbn [fst] in Eg. apply in_map_iff. exists g. split; [|auto]. rewrite Hp1, Hp2.
        apply (f_equal (split_char slash)) in Eg. rewrite !(split_join slash) in Eg by (try (now destruct rs'); try (now destruct rs); now apply ok_comps_no_slash). now rewrite Eg. }
      rewrite (build_distinct _ Hkeys).
      destruct (Permutation_map_inv (file_modifier set p) fs (l1 := ord (loop "modifiers") _ (map (file_modifier set p) fs))) as (fs' & E & Hp'); [symmetry; apply Hord|].
      exists fs'. split; [now rewrite <- Hfs, Hp'|]. rewrite E, map_map. apply Forall2_map_eq. intros f Hf'.
      destruct (Hmods f (Permutation_in _ (Permutation_sym Hp') Hf')) as (rs & x & H1 & H2 & E'). exists rs, x. split; [auto|]. split; [auto|].
      unfold modifier. now rewrite E'. }
    destruct (gp_type p); [reflexivity|apply H|apply H].
  Qed.
  Lemma written_ok dir p out :
    (if is_empty (gp_file_suffix p) then out = gp_output_abs p
     else exists rel, get_rel_output_file_path set dir (gp_file_suffix p) = Ok rel /\ out = path_join [gp_output_abs p; rel]) ->
    written set dir p out.
  Proof.
    unfold written. destruct (is_empty (gp_file_suffix p)); [auto|]. intros (rel & Hr & ->) cs os rs x Hd Ho -> Hc Hos Hrs Hx [(up & Hup)|(Hup & ->)].
    2:{ apply app_eq_nil in Hup as [-> ->]. rewrite Ho. cbn [app] in *. rewrite (rel_output_top set _ Hd Hx) in Hr. injection Hr as <-.
      apply (path_join_abs_ok os ["default" +++ "." +++ gp_file_suffix p]); [auto|now constructor|discriminate]. }
    rewrite Ho. assert (Hupx : ok_comps (up ++ [x])) by (rewrite <- Hup; now apply ok_comps_app).
    destruct rs as [|r rs _] using rev_ind.
    - rewrite app_nil_r in *. subst cs. rewrite (rel_output_root set up) in Hr; [|exact Hd|exact Hupx|exact Hx]. injection Hr as <-.
      apply (path_join_abs_ok os [x +++ "." +++ gp_file_suffix p]); [auto|now constructor|discriminate].
    - rewrite app_assoc in Hup. apply app_inj_tail in Hup as [Hup ->]. rewrite (rel_output_below set cs rs) in Hr; [|exact Hd|exact Hc|exact Hrs|exact Hx]. injection Hr as <-.
      rewrite path_join_abs_ok; [reflexivity|auto|apply ok_comps_app; split; [auto|now constructor]|now destruct rs].
  Qed.
End Params.

Section Commands.
  Variable ord : order.
  Variable grow : nat -> nat -> nat.
  Variable new_downloader download : result unit.
  Variable wkt_path protoc_path : result string.
  Variable temp_file : nat -> result string.
  Variable do_gen do_set full_control include_imports include_source_info : bool.
  Variable set : proto_set.
  Notation dir_cmds := (dir_cmds ord grow wkt_path protoc_path temp_file do_gen do_set full_control include_imports include_source_info set).
  Notation dirs_cmds := (dirs_cmds ord grow wkt_path protoc_path temp_file do_gen do_set full_control include_imports include_source_info set).
  Notation get_cmd_metas := (get_cmd_metas ord grow new_downloader download wkt_path protoc_path temp_file do_gen do_set full_control include_imports include_source_info set).
  Notation commands_of := (commands_of wkt_path protoc_path do_gen do_set full_control include_imports include_source_info set).
  Hypothesis Hord : reorders ord.
  Hypothesis temp_named : forall n f, temp_file n = Ok f -> f <> "".

  Lemma includes_ok dir is : get_includes wkt_path (ps_config set) dir (base_dir set) = Ok is -> includes_of wkt_path set dir is.
  Proof.
    unfold get_includes, includes_of. intros H.
    destruct (if cc_include_wkt (cfg_compile (ps_config set)) then _ else _) as [wkt|] eqn:Ew; [|discriminate]. cbn [bind] in H.
    set (paths := cc_include_paths (cfg_compile (ps_config set))) in *.
    exists wkt. eexists. split; [injection H as <-; reflexivity|]. split.
    - destruct (cc_include_wkt _); [|congruence]. destruct wkt_path as [w|]; [|discriminate]. cbn [bind] in Ew. injection Ew as <-. eauto.
    - injection H as <-. destruct (existsb (fun p => has_prefix dir p) paths || existsb (fun p => has_prefix dir p) wkt) eqn:E1.
      + left. cbn [negb andb]. split; [reflexivity|]. apply orb_true_iff in E1. rewrite app_nil_r. destruct E1 as [E1|E1]; apply existsb_exists in E1 as (i & Hi & E1); exists i; split; auto; apply in_or_app; auto.
      + destruct (existsb (fun p => String.eqb p (base_dir set)) paths) eqn:E2; cbn [negb andb]; [left|now right]. split; [reflexivity|].
        apply existsb_exists in E2 as (i & Hi & E2). apply String.eqb_eq in E2. exists i. split; [apply in_or_app; now left|now right].
  Qed.
  Lemma dir_commands s acc d s' acc' : dir_cmds s acc (fst d) (snd d) = (s', acc', None) ->
    exists made ms, commands_of d made ms /\ acc' = acc ++ ms /\ st_events s' = st_events s ++ map MadeTemp made.
  Proof.
    intros H. apply dir_cmds_ok in H as (is & protoc & made & sets & flags & Hi & Hp & Hs & Hf & -> & Hev); [|exact temp_named].
    exists made. eexists. split; [|split; [reflexivity|auto]]. exists protoc, is, sets, (map (fun fl => command_for protoc is fl d "") flags).
    split; [auto|]. split; [now apply includes_ok|]. split; [reflexivity|]. split.
    - unfold set_command in Hs. unfold descriptor_command. destruct do_set; [exact Hs|]. destruct Hs as [-> ->]. split; [reflexivity|].
      fold (plugins_of set). now destruct (do_gen && _).
    - destruct do_gen; [|now rewrite Hf]. apply mapM_ok_F2 in Hf. unfold plugins_of. clear - Hf Hord. induction Hf as [|p fl ps fls E Hf IH]; cbn [map]; constructor; [|exact IH].
      apply flag_set_ok in E as (out & path & Hpath & -> & Hout). exists (get_proto_flags ord set (fst d) p), out, path. split; [reflexivity|].
      split; [now apply parameters_ok|]. split; [now apply written_ok|auto].
  Qed.
  Lemma dirs_commands dirs : forall s acc s' acc', dirs_cmds s acc dirs = (s', acc', None) ->
    exists mades blocks, Forall2 (fun d b => commands_of d (fst b) (snd b)) (filter (requested set) dirs) (combine mades blocks) /\
      length mades = length blocks /\
      acc' = acc ++ concat blocks /\ st_events s' = st_events s ++ map MadeTemp (concat mades).
  Proof.
    induction dirs as [|d dirs IH]; intros s acc s' acc' H; cbn [Protoc_Model.dirs_cmds] in H.
    - injection H as <- <-. exists [], []. cbn. rewrite !app_nil_r. repeat split; constructor.
    - destruct d as [dir files]. cbn [filter]. unfold requested at 1. cbn [fst]. destruct (has_prefix dir (ps_dir set)); cbn [negb] in H; [|now apply IH].
      destruct (dir_cmds s acc dir files) as [[s1 acc1] [m|]] eqn:E; [discriminate|]. apply (dir_commands s acc (dir, files)) in E as (made & ms & Hc & -> & Hev).
      apply IH in H as (mades & blocks & Hf & Hl & -> & Hev'). exists (made :: mades), (ms :: blocks). cbn [combine length concat]. split; [constructor; auto|].
      split; [congruence|]. split; [now rewrite app_assoc|]. rewrite Hev', Hev, map_app, app_assoc. reflexivity.
  Qed.
  Lemma cmd_metas_ok s s' ms : get_cmd_metas s = (s', Ok ms) ->
    exists dirs mades blocks, Permutation dirs (filter (requested set) (ps_files set)) /\
      Forall2 (fun d b => commands_of d (fst b) (snd b)) dirs (combine mades blocks) /\ length mades = length blocks /\
      ms = concat blocks /\ st_events s' = st_events s ++ map MadeTemp (concat mades).
  Proof.
    unfold Protoc_Model.get_cmd_metas. destruct new_downloader; [|discriminate]. destruct download; [|discriminate].
    destruct (dirs_cmds s [] (ord "getCmdMetas" _ (ps_files set))) as [[s1 ms1] [m|]] eqn:E; [discriminate|]. intros [= <- <-].
    apply dirs_commands in E as (mades & blocks & Hf & Hl & -> & Hev). exists (filter (requested set) (ord "getCmdMetas" _ (ps_files set))), mades, blocks.
    split; [apply keep_perm; symmetry; apply Hord|auto].
  Qed.
End Commands.
