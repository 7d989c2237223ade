(** Proofs about what is said when a command cannot work on a directory: the provider. *)
From Coq Require Import Permutation Lia.
From Verif Require Import GoStrFacts GoPathFacts GoMapFacts GoFmt Strs_Spec Strs_Proofs Settings_Model Settings_Spec Settings_Proofs Settings_Proofs2.
From Verif Require Import Lint_Spec LintRun_Proofs File_Model File_Spec File_Proofs File_Proofs2 File_Proofs3 Settings_Text_Spec Settings_Text Settings_Text2.

Lemma outside_err base p t : clean_abs base -> clean_abs p -> validate_is_rel base p = Err t ->
  exists rel, File_Spec.shown base p rel /\ (exists r, rel = ".." +++ r) /\
    t = "could not make " +++ base +++ " within " +++ p +++ ", got " +++ rel +++ ", this is a system error".
Proof.
  intros Hb Hp. unfold validate_is_rel. destruct (rel_ok base p Hb Hp) as (r & Er). rewrite Er.
  pose proof (shown_rel base p r Hb Hp Er) as S. destruct Hb as (bs & Hb & ->), Hp as (ps & Hp & ->).
  rewrite (rel_clean bs ps r Hb Hp Er) in S. destruct (is_empty r) eqn:E.
  - apply is_empty_true in E. subst r. exfalso. destruct S as (_ & S & _). discriminate S.
  - destruct (has_prefix r "..") eqn:E2; [|discriminate]. intros X; pose proof (err_inj _ _ X) as <-. exists r. split; [exact S|].
    split; [|reflexivity]. apply has_prefix_spec in E2 as (u & ->). now exists u.
Qed.

Section Provider.
  Variable ord : order.
  Hypothesis Hord : reorders ord.
  Variable cwd : string.
  Variable node_at : string -> node.
  Variable ex : string -> bool.
  Variable read : string -> result string.
  Variable dj dy : string -> result external_config.
  Variable look : string -> result string.
  Variable sort : list gen_plugin -> list gen_plugin.
  Hypothesis Hsort : sorts sort.
  Variable devel : bool.
  Variable data : string.
  Variable k d : list string.
  Variable dir : string.
  Hypothesis Hk : ok_comps k.
  Hypothesis Hd : ok_comps d.
  Hypothesis Hnamed : forall p, named (node_at p).
  Notation conf := (conf ex read dj dy look sort devel data).
  Notation cf_of := (cf_of ex data).
  Notation adds := (add_dirs ex read dj dy look sort devel data).
  Notation provide := (provider_get_for_dir ord cwd node_at ex read dj dy look sort devel data).
  Notation W := (abs_path k).
  Notation hin := (hindered ex read dj dy devel data node_at k d dir).
  Notation a_file := (a_file_of ex data node_at k d).

  Lemma adds_err ds : forall m t, adds W ds m = Err t ->
    exists x, In x ds /\ (cf_of (fst x) = Err t \/ exists cf, cf_of (fst x) = Ok cf /\ conf W cf = Err t).
  Proof.
    induction ds as [|[x fs] ds IH]; intros m t; cbn [add_dirs]; [discriminate|]. rewrite add_eq.
    destruct (cf_of x) as [cf|e] eqn:E1.
    2: { cbn [bind]. intros X; injection X as ->. exists (x, fs). split; [now left|]. now left. }
    cbn [bind]. destruct (conf W cf) as [c|e] eqn:E2.
    - cbn [bind]. intros X. destruct (IH _ _ X) as (y & Hy & C). exists y. split; [now right|exact C].
    - cbn [bind]. intros X; injection X as ->. exists (x, fs). split; [now left|]. right. eauto.
  Qed.
  Lemma adds_keys ds : forall m m', adds W ds m = Ok m' -> forall cf, In cf (map fst m') ->
    In cf (map fst m) \/ exists x, In x ds /\ cf_of (fst x) = Ok cf.
  Proof.
    induction ds as [|[x fs] ds IH]; intros m m'; cbn [add_dirs]; [intros X; injection X as <-; auto|]. rewrite add_eq.
    destruct (cf_of x) as [cf|e] eqn:E1; [|discriminate]. cbn [bind]. destruct (conf W cf) as [c|e] eqn:E2; [|discriminate].
    cbn [bind]. intros X cf' Hcf. destruct (IH _ _ X cf' Hcf) as [H|(y & Hy & C)]; [|right; exists y; split; [now right|exact C]].
    apply gput_keys in H as [<-|H]; [|now left]. right. exists (x, fs). split; [now left|exact E1].
  Qed.
  Lemma bad_hindered a t : data = "" -> near ex data k d a -> bad_config ex read dj dy devel a t -> hin t.
  Proof.
    intros D N [U|(file & e & T & De & Td)].
    - exact (File_unread ex read dj dy devel data node_at k d dir a t D N U).
    - exact (File_faulty ex read dj dy devel data node_at k d dir a file e t D N T De Td).
  Qed.
  Lemma worked_above r : data = "" -> worked_on ex data k d r -> exists x, d = r ++ x.
  Proof.
    intros D [(_ & [(_ & <-)|(p & (c & E & _) & _)])|(F & _)]; [exists []; now rewrite app_nil_r|exists c; exact E|contradiction].
  Qed.
  Lemma near_up a b : data = "" -> near ex data k d (a ++ b) -> near ex data k d a.
  Proof.
    intros D [(c & N)|[(c & N)|(r & c & Wo & N)]].
    - left. exists (b ++ c). now rewrite app_assoc.
    - right; left. exists (b ++ c). now rewrite app_assoc.
    - destruct (app_eq_app _ _ _ _ N) as (l & [(E & _)|(E & _)]).
      + right; right. exists r, l. auto.
      + left. destruct (worked_above r D Wo) as (x & Ed). exists (l ++ x). now rewrite Ed, E, <- app_assoc.
  Qed.
  (** The configuration for the files of a directory. *)
  Lemma conf_err a cf t : ok_comps a -> near ex data k d a \/ data <> "" -> cf_of (abs_path a) = Ok cf -> conf W cf = Err t -> hin t.
  Proof.
    intros Ha N E1. unfold File_Proofs3.cf_of in E1. unfold File_Proofs3.conf. destruct (is_empty data) eqn:E0; cbn [negb].
    - apply is_empty_true in E0. destruct N as [N|N]; [|contradiction]. apply governs_iff in E1; [|assumption]. destruct (is_empty cf) eqn:E2; cbn [negb].
      + intros X. apply dir_err in X as (a' & b & Eq & B & _); [|assumption..]. apply (bad_hindered a' t E0); [|exact B]. right; left. eauto.
      + apply is_empty_false in E2. destruct E1 as [(F & _)|(a' & (b & Eq & _) & T)]; [contradiction|]. intros X. subst a.
        apply (file_err ex read dj dy look sort Hsort devel a') in X; [|now apply ok_comps_app in Ha|assumption].
        apply (bad_hindered a' t E0); [|exact X]. exact (near_up a' b E0 N).
    - apply is_empty_false in E0. intros X. apply data_err in X as [X|(e & X & Td)]; [..|assumption|now exists k].
      + exact (Data_undecodable ex read dj dy devel data node_at k d dir t E0 X).
      + exact (Data_faulty ex read dj dy devel data node_at k d dir e t E0 X Td).
  Qed.
  Lemma conf_dir a cf c : ok_comps a -> cf_of (abs_path a) = Ok cf -> conf W cf = Ok c ->
    exists b, ok_comps b /\ cfg_dir c = abs_path b /\ configured_in ex data k a b.
  Proof.
    intros Ha E1. unfold File_Proofs3.cf_of in E1. unfold File_Proofs3.conf, configured_in.
    assert (X : forall e b c', ok_comps b -> external_config_to_config read look sort devel e (abs_path b) = Ok c' -> cfg_dir c' = abs_path b).
    { intros e b c' Hb E. apply accepted in E as (_ & Be); [|assumption|now exists b]. apply Be. }
    destruct (is_empty data) eqn:E0; cbn [negb].
    - apply is_empty_true in E0. apply governs_iff in E1; [|assumption]. destruct (is_empty cf) eqn:E2; cbn [negb].
      + apply is_empty_true in E2. subst cf. intros E. apply get_for_dir_iff in E as [(G & E)|(b & file & e & N & T & De & E)]; [| |assumption].
        * exists k. split; [assumption|]. split; [exact (X _ _ _ Hk E)|]. right. auto 6.
        * assert (Hb : ok_comps b) by (destruct N as (? & Eq & _); rewrite Eq in Hk; now apply ok_comps_app in Hk).
          exists b. split; [assumption|]. split; [exact (X _ _ _ Hb E)|]. right. auto 6.
      + apply is_empty_false in E2. destruct E1 as [(F & _)|(b & N & T)]; [contradiction|].
        assert (Hb : ok_comps b) by (destruct N as (? & Eq & _); rewrite Eq in Ha; now apply ok_comps_app in Ha).
        unfold get_config. rewrite (get_file_eq read dj dy look sort devel b) by (assumption || apply T).
        destruct (get_external_config read dj dy cf) as [e|]; [|discriminate]. cbn [bind]. intros E.
        exists b. split; [assumption|]. split; [exact (X _ _ _ Hb E)|]. right. auto.
    - apply is_empty_false in E0. unfold get_config_for_data, get_for_data. rewrite is_abs_abs_path. cbn [negb].
      destruct (dj data) as [e|]; [|discriminate]. cbn [bind]. rewrite clean_abs_path by assumption. intros E.
      exists k. split; [assumption|]. split; [exact (X _ _ _ Hk E)|]. left. auto.
  Qed.

  Theorem provider_err work t : abs_clean cwd work = W -> abs_clean cwd dir = abs_path d -> provide work dir = Err t -> hin t.
  Proof.
    intros Ew Ed. unfold provider_get_for_dir, get_multiple_for_dir. cbv zeta. rewrite Ew, Ed.
    change (if is_empty data then do cf <- get_file_path_for_dir ex (abs_path d); Ok (if negb (is_empty cf) then path_dir cf else abs_path d) else Ok W)
      with (root_of ex data W (abs_path d)).
    assert (R : match root_of ex data W (abs_path d) with
      | Err t => hin t
      | Ok root => exists r, ok_comps r /\ root = abs_path r /\ worked_on ex data k d r end).
    { unfold root_of. destruct (is_empty data) eqn:E0.
      - apply is_empty_true in E0. destruct (get_file_path_for_dir ex (abs_path d)) as [cf|m] eqn:E; cbn [bind].
        + apply governs_iff in E; [|assumption]. destruct (is_empty cf) eqn:E2; cbn [negb].
          * apply is_empty_true in E2. subst cf. exists d. split; [assumption|]. split; [reflexivity|]. left. split; [assumption|]. left. auto.
          * apply is_empty_false in E2. destruct E as [(F & _)|(a & N & T)]; [contradiction|].
            assert (Ha : ok_comps a) by (destruct N as (? & Eq & _); rewrite Eq in Hd; now apply ok_comps_app in Hd).
            destruct (config_path_facts a cf Ha (proj1 T)) as (_ & _ & -> & _). exists a. split; [assumption|]. split; [reflexivity|].
            left. split; [assumption|]. right. eauto.
        + apply discovery_err with (read := read) (dj := dj) (dy := dy) in E as (a & b & Eq & Ha & U & _); [|assumption].
          apply (bad_hindered a m E0); [left; eauto|now left].
      - apply is_empty_false in E0. exists k. split; [assumption|]. split; [reflexivity|]. right. auto. }
    destruct (root_of ex data W (abs_path d)) as [root|m]; [|cbn [bind]; intros X; injection X as ->; exact R].
    destruct R as (r & Hr & -> & Wo). cbn [bind].
    destruct (walk_and_get_all_proto_files node_at ex read dj dy data W (abs_path r)) as [fs|m] eqn:Ef.
    2: { cbn [bind]. intros X; injection X as ->. unfold walk_and_get_all_proto_files in Ef.
         destruct (initial_excludes dj data W) as [E|m] eqn:Ei; cbn [bind] in Ef.
         - destruct (walk _ _ _ _ _ _ _ _ _ _) as [st|m] eqn:Wk; cbn [bind] in Ef; [discriminate|]. injection Ef as ->.
           apply (walk_err ex read dj dy devel) in Wk as [(D & cs & B)|(cs & what & U & ->)]; [| |assumption|apply Hnamed].
           + apply (bad_hindered (r ++ cs) t D); [|exact B]. right; right. eauto.
           + exact (Tree_unseen ex read dj dy devel data node_at k d dir r cs what Wo U).
         - injection Ef as ->. unfold initial_excludes in Ei. destruct (is_empty data) eqn:E0; [discriminate|]. apply is_empty_false in E0.
           unfold get_exclude_prefixes_for_data in Ei. rewrite is_abs_abs_path in Ei. cbn [negb] in Ei.
           destruct (dj data) as [e|m] eqn:Ej; cbn [bind] in Ei.
           + rewrite clean_abs_path in Ei by assumption. apply (Data_faulty ex read dj dy devel data node_at k d dir e t E0 Ej).
             exists 1. split; [constructor; apply excludes_err; [now exists k|assumption]|]. intros n u Hn S. inversion S; subst; lia.
           + injection Ei as ->. exact (Data_undecodable ex read dj dy devel data node_at k d dir t E0 Ej). }
    cbn [bind]. pose proof (group_ok fs) as G.
    assert (Pth : forall f, In f fs -> exists cs a, ok_comps a /\ ok_comps (r ++ cs) /\ file_in (node_at (abs_path r)) cs /\ pf_path f = abs_path (r ++ cs) /\
              path_dir (pf_path f) = abs_path a /\ (near ex data k d a \/ data <> "")).
    { intros f Hf. destruct (files_paths node_at ex read dj dy data W r fs f Hr (Hnamed _) Ef Hf) as (cs & Hc & F & P & _).
      assert (Hrc : ok_comps (r ++ cs)) by (apply ok_comps_app; auto). destruct (r ++ cs) as [|z l IHl] eqn:Erc using rev_ind; [|clear IHl].
      - exists cs, []. rewrite P. assert (r = [] /\ cs = []) as (-> & ->) by (now apply app_eq_nil). split; [constructor|]. split; [constructor|].
        split; [assumption|]. split; [reflexivity|]. split; [reflexivity|]. left. left. now exists d.
      - apply ok_comps_app in Hrc as Hrc'. destruct Hrc' as (Hl & Hz). inversion Hz as [|? ? Hz' _]; subst.
        exists cs, l. rewrite P, Erc. split; [assumption|]. split; [assumption|]. split; [assumption|]. split; [reflexivity|].
        split; [now apply path_dir_abs|]. destruct (is_empty data) eqn:E0; [left|right; now apply is_empty_false].
        apply is_empty_true in E0. apply (near_up l [z] E0). rewrite <- Erc. right; right. exists r, cs. auto. }
    assert (Val : forall (files : list (string * list proto_file)) c u,
      (forall x l f, In (x, l) files -> In f l -> In f fs /\ path_dir (pf_path f) = x /\ exists cf, cf_of x = Ok cf /\ conf W cf = Ok c) ->
      validate_proto_set ord (mk_proto_set W (abs_path d) files c) = Err u -> hin u).
    { intros files c u Hfiles. unfold validate_proto_set. cbn [ps_config ps_files].
      destruct (mapM _ _) as [us|m] eqn:Em; [discriminate|]. cbn [bind]. intros X; injection X as ->.
      apply mapM_err in Em as (a & [x l] & b & El & Em & _). cbn [fst snd] in Em. apply mapM_err in Em as (a' & f & b' & El' & Em & _).
      assert (In (x, l) files) as Hx.
      { eapply Permutation_in; [symmetry; apply (Hord "DirPathToFiles")|]. rewrite El. apply in_or_app. right. now left. }
      destruct (Hfiles x l f Hx) as (Hf & Pd & cf & C1 & C2); [rewrite El'; apply in_or_app; right; now left|].
      unfold validate_file in Em. rewrite Pd, seqb_refl in Em. cbn [negb] in Em.
      destruct (Pth f Hf) as (cs & a0 & Ha0 & Hrc & F & P & Pd' & N). rewrite Pd in Pd'. rewrite Pd' in C1.
      destruct (conf_dir a0 cf c Ha0 C1 C2) as (b0 & Hb0 & Ec & Ci). rewrite Ec in Em.
      destruct (validate_is_rel (abs_path b0) (pf_path f)) as [|v] eqn:Ev; [discriminate|].
      apply outside_err in Ev as (rel & S & Up & ->); [|now exists b0|rewrite P; now exists (r ++ cs)].
      pose proof (err_inj _ _ Em) as <-.
      apply (Outside ex read dj dy devel data node_at k d dir (pf_path f) b0 rel); [|assumption..].
      exists r, cs, a0. split; [assumption|]. split; [assumption|]. split; [assumption|]. split; [now rewrite Pd|assumption]. }
    unfold base_proto_sets. destruct (dir_path_to_proto_files fs) as [|d0 ds0] eqn:Edp.
    - rewrite default_conf. destruct (conf W "") as [c|m] eqn:Ec.
      + cbn [bind map fst snd mapM]. destruct (validate_proto_set ord _) as [u|u] eqn:Ev; cbn [bind]; [discriminate|].
        intros X; injection X as ->. eapply Val; [|exact Ev]. intros x l f [].
      + cbn [bind]. intros X; injection X as ->. destruct (is_empty data) eqn:E0.
        * apply is_empty_true in E0. unfold File_Proofs3.conf in Ec. rewrite (proj2 (is_empty_true _) E0) in Ec. cbn [negb is_empty] in Ec.
          apply dir_err in Ec as (a' & b & Eq & B & _); [|assumption..]. apply (bad_hindered a' t E0); [|exact B]. right; left. eauto.
        * apply is_empty_false in E0. apply (conf_err k "" t Hk); [now right| |exact Ec]. unfold File_Proofs3.cf_of. now apply is_empty_false in E0 as ->.
    - assert (Hne : dir_path_to_proto_files fs <> []) by (rewrite Edp; discriminate). rewrite <- Edp in *. clear d0 ds0 Edp. set (dm := dir_path_to_proto_files fs) in *. set (ds := ord "DirPathToProtoFiles" _ dm).
      assert (P : Permutation dm ds) by apply Hord. pose proof (grouped_perm _ _ _ P G) as G2.
      assert (Dir : forall x, In x ds -> exists f cs a, In f fs /\ ok_comps a /\ file_in (node_at (abs_path r)) cs /\ pf_path f = abs_path (r ++ cs) /\
                path_dir (pf_path f) = abs_path a /\ fst x = abs_path a /\ (near ex data k d a \/ data <> "")).
      { intros [x l] Hx. destruct (grouped_dir _ _ _ _ G2 Hx) as (f & Hf & _ & Ex). destruct (Pth f Hf) as (cs & a & Ha & _ & F & Pf & Pd & N).
        exists f, cs, a. rewrite Ex in Pd. rewrite Ex. cbn [fst]. auto 8. }
      destruct (adds W ds []) as [m|u] eqn:Em.
      2: { cbn [bind]. intros X; injection X as ->. apply adds_err in Em as (x & Hx & Em).
           destruct (Dir x Hx) as (f & cs & a & Hf & Ha & F & Pf & Pd & Ex & N). rewrite Ex in Em. destruct Em as [Em|(cf & E1 & E2)].
           - unfold File_Proofs3.cf_of in Em. destruct (is_empty data) eqn:E0; [|discriminate]. apply is_empty_true in E0.
             apply discovery_err with (read := read) (dj := dj) (dy := dy) in Em as (a' & b & Eq & Ha' & U & _); [|assumption].
             destruct N as [N|N]; [|contradiction]. apply (bad_hindered a' t E0); [|now left]. apply (near_up a' b E0). now rewrite <- Eq.
           - exact (conf_err a cf t Ha N E1 E2). }
      pose proof (adds_keys ds [] m Em) as K.
      apply (adds_built ex read dj dy look sort devel data W ds [] []) in Em as (A & B & C); [|exact (proj1 G2)|split; [constructor|split; [discriminate|intros ? []]]].
      cbn [app bind] in *.
      assert (Sets : forall cf files c, In (cf, (files, c)) m -> files = for_cf ex data cf ds /\ conf W cf = Ok c).
      { intros cf files c H. apply B. now apply In_gget. }
      destruct (mapM (validate_proto_set ord) _) as [us|u] eqn:Ev.
      2: { cbn [bind]. intros X; injection X as ->. apply mapM_err in Ev as (a & s & b & El & Ev & _).
           assert (Hs : In s (map (fun s => mk_proto_set W (abs_path d) (by_dir (fst s)) (snd s)) (map snd m))) by (rewrite El; apply in_or_app; right; now left).
           apply in_map_iff in Hs as ([files c] & <- & Hs). cbn [fst snd] in Ev. apply in_map_iff in Hs as ([cf y] & Ey & Hs). cbn [snd] in Ey. subst y.
           destruct (Sets cf files c Hs) as (-> & Hc). eapply Val; [|exact Ev]. intros x l f Hx Hf. apply (Permutation_in _ (Permutation_sym (by_dir_perm _))) in Hx. unfold for_cf in Hx. apply filter_In in Hx as (Hx & Hq).
           cbn [fst] in Hq. destruct (cf_of x) as [cf'|] eqn:E1; [|discriminate]. apply String.eqb_eq in Hq. subst cf'.
           apply (proj2 G2) in Hx as (_ & ->). unfold files_of_dir in Hf. apply filter_In in Hf as (Hf & Hp). apply String.eqb_eq in Hp. eauto 6. }
      cbn [bind]. rewrite map_map. destruct m as [|s1 [|s2 m]]; cbn [map]; [|discriminate|].
      + intros _. exfalso. destruct ds as [|x ds'] eqn:Eds.
        * apply Permutation_sym, Permutation_nil in P. contradiction.
        * destruct (C x) as (cf & _ & []). now left.
      + intros X. pose proof (err_inj _ _ X) as <-. clear X.
        set (ms := s1 :: s2 :: m) in *.
        match goal with |- context [sort_strings ?X] => assert (El0 : X = map (fun s => cfg_dir (snd (snd s))) ms) by (unfold ms; cbn [map]; now rewrite map_map); rewrite El0; clear El0 end.
        apply (Several ex read dj dy devel data node_at k d dir).
        * destruct (is_empty data) eqn:E0; [now apply is_empty_true|]. exfalso.
          assert (Ke : forall cf, In cf (map fst ms) -> cf = "").
          { intros cf Hcf. destruct (K cf Hcf) as [[]|(x & _ & E1)]. unfold File_Proofs3.cf_of in E1. rewrite E0 in E1. now injection E1 as <-. }
          assert (E1 : fst s1 = fst s2) by (rewrite (Ke (fst s1)), (Ke (fst s2)); cbn; auto).
          cbn in A. inversion A as [|? ? A1 _]; subst. apply A1. left. now symmetry.
        * rewrite <- (Permutation_length (sort_strings_perm _)), map_length. cbn. lia.
        * intros a x b y c El. pose proof (sort_strings_sorted (map (fun s => cfg_dir (snd (snd s))) ms)) as So. rewrite El in So.
          clear - So. induction a as [|z a IH]; cbn [app] in So; inversion So as [|? ? So' Al]; subst; [|auto].
          rewrite Forall_forall in Al. apply Al. apply in_or_app. right. now left.
        * intros x Hx. apply (proj1 (sort_strings_In _ _)) in Hx. apply in_map_iff in Hx as ([cf [files c]] & <- & Hs). cbn [snd].
          destruct (Sets cf files c Hs) as (_ & Hc). destruct (K cf (in_map fst _ _ Hs)) as [[]|(x & Hx & E1)].
          destruct (Dir x Hx) as (f & cs & a & Hf & Ha & F & Pf & Pd & Ex & N). rewrite Ex in E1.
          destruct (conf_dir a cf c Ha E1 Hc) as (b0 & Hb0 & Ec & Ci). exists (pf_path f), b0. split; [|exact Ec].
          exists r, cs, a. auto 6.
  Qed.
End Provider.
