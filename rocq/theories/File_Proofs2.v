(** Proofs about file sets: completeness of the walk, grouping, one configuration. *)
From Coq Require Import Permutation Lia.
From Verif Require Import GoStrFacts GoPathFacts GoMapFacts Strs_Spec Settings_Model Settings_Spec Settings_Proofs.
From Verif Require Import Lint_Spec LintRun_Proofs File_Model File_Spec File_Proofs.

(** ** The walk succeeds *)
Section Total.
  Variable ex : string -> bool.
  Variable read : string -> result string.
  Variable dj dy : string -> result external_config.
  Variable data : string.
  Variable work : string.
  Variable root : list string.
  Notation walkp := (walk ex read dj dy data work (abs_path root)).
  Lemma walk_total n : forall d st, ok_comps d -> named n -> readable n ->
    (data = "" -> forall a, dir_in n a -> usable ex read dj dy (d ++ a)) ->
    exists st', walkp (abs_path d) n st = Ok st'.
  Proof.
    induction n as [| | |es IH] using node_ind'; intros d st Hd Nn R U.
    - cbn [walk]. unfold visit_path. destruct (negb _); [cbn; eauto|]. destruct (is_excluded _ _ _); cbn; eauto.
    - inversion R.
    - inversion R.
    - inversion Nn as [| | |? No Nd Ns]; subst. inversion R as [|? Rs]; subst.
      assert (exists r, visit_path ex read dj dy data work (abs_path root) (abs_path d) true st = Ok r) as ([v st1] & V).
      { unfold visit_path. destruct (is_empty data) eqn:E.
        - apply is_empty_true in E. destruct (dir_excludes_total ex read dj dy d Hd) as (l & ->).
          { specialize (U E [] (di_here _)). now rewrite app_nil_r in U. }
          cbn [bind]. destruct (is_excluded _ _ _); eauto.
        - cbn [bind]. destruct (is_excluded _ _ _); eauto. }
      rewrite walk_dir, V. cbn [bind]. destruct v; [|eauto]. clear V.
      assert (forall l s, incl l es -> exists s', walk_entries ex read dj dy data work root (abs_path d) l s = Ok s') as L; [|apply L, incl_refl].
      induction l as [|[name c] l IHl]; intros s Hl; cbn [walk_entries]; [eauto|].
      assert (In (name, c) es) as Hin by (apply Hl; now left).
      assert (ok_comp name = true) as Hname.
      { unfold ok_comps in No. rewrite Forall_forall in No. apply No. apply (in_map fst) in Hin. exact Hin. }
      replace (path_join [abs_path d; name]) with (abs_path (d ++ [name])).
      2:{ symmetry. apply (path_join_abs_ok d [name]); [assumption|constructor; [assumption|constructor]|discriminate]. }
      rewrite Forall_forall in IH. destruct (IH _ Hin (d ++ [name]) s) as (s1 & E1).
      + apply ok_comps_app; split; [assumption|constructor; [assumption|constructor]].
      + eapply Ns; eassumption.
      + eapply Rs; eassumption.
      + intros E a Ha. rewrite <- app_assoc. apply (U E). econstructor; eassumption.
      + cbn [snd] in E1. rewrite E1. cbn [bind]. apply IHl. intros e He. apply Hl. now right.
  Qed.
End Total.

(** ** The whole walk *)
Section Files.
  Variable ex : string -> bool.
  Variable read : string -> result string.
  Variable dj dy : string -> result external_config.
  Variable node_at : string -> node.
  Notation get_files data := (walk_and_get_all_proto_files node_at ex read dj dy data).
  Theorem files_exact work root fs : clean_abs work -> ok_comps root -> named (node_at (abs_path root)) ->
    contained ex read dj dy root (node_at (abs_path root)) ->
    get_files "" work (abs_path root) = Ok fs ->
    (forall p, In p (map pf_path fs) <->
       exists cs, file_in (node_at (abs_path root)) cs /\ p = abs_path (root ++ cs) /\ path_ext p = ".proto" /\
         ~ hidden ex read dj dy root cs) /\
    NoDup (map pf_path fs) /\ Forall (fun f => shown work (pf_path f) (pf_display f)) fs.
  Proof.
    intros Hw Hr Nn C. unfold walk_and_get_all_proto_files. cbn [initial_excludes is_empty bind].
    destruct (walk ex read dj dy "" work (abs_path root) (abs_path root) (node_at (abs_path root)) {| w_excludes := []; w_files := [] |}) as [st|] eqn:W; [|discriminate].
    cbn [bind]. intros H; injection H as <-.
    assert (abs_path root = abs_path (root ++ [])) as Er by (now rewrite app_nil_r).
    rewrite Er in W at 2.
    apply walk_ok in W as (new & X & A1 & A2 & A3 & A4 & A5); [|assumption|assumption|constructor|assumption|intros p []|].
    2:{ intros d p Hd [_ He]. cbn [app] in *. now apply C. }
    cbn [w_files app] in A1. rewrite A1. split; [|split; [assumption|]].
    - intros p. rewrite in_map_iff. split.
      + intros (f & <- & Hf). apply A5 in Hf as (cs & F1 & F2 & F3 & F4 & F5 & F6). cbn [app] in *. exists cs.
        split; [assumption|]. split; [assumption|]. split; [assumption|].
        intros (a & b & q & E & Hb & He & Wq). apply F6. exists a, b, q. split; [assumption|]. split; [assumption|]. split; [|assumption].
        split; [reflexivity|assumption].
      + intros (cs & F1 & -> & F3 & F6).
        assert (clean_abs (abs_path (root ++ cs))) as Hc.
        { exists (root ++ cs). split; [|reflexivity]. apply ok_comps_app. split; [assumption|]. eapply file_in_ok; eassumption. }
        destruct (rel_ok work _ Hw Hc) as (r & Er2).
        exists (mk_proto_file (abs_path (root ++ cs)) (path_clean r)). split; [reflexivity|]. apply A5.
        exists cs. cbn [pf_path pf_display app]. split; [assumption|]. split; [reflexivity|]. split; [assumption|].
        split; [eauto|]. split; [intros (q & [] & _)|].
        intros (a & b & q & E & Hb & [_ He] & Wq). apply F6. exists a, b, q. auto.
    - apply Forall_forall. intros f Hf. apply A5 in Hf as (cs & F1 & F2 & _ & (r & F4 & ->) & _).
      apply shown_rel; [assumption| |assumption]. rewrite F2. cbn [app]. exists (root ++ cs). split; [|reflexivity].
      apply ok_comps_app. split; [assumption|]. eapply file_in_ok; eassumption.
  Qed.
  (** With configuration data given: the excludes of that configuration, for the working directory. *)
  Theorem files_exact_data work data e fs : ok_comps work -> named (node_at (abs_path work)) -> data <> "" ->
    dj data = Ok e ->
    get_files data (abs_path work) (abs_path work) = Ok fs ->
    (forall x, In x (x_excludes e) -> x <> "" -> exclude_ok (abs_path work) x) /\
    (forall p, In p (map pf_path fs) <->
       exists cs, file_in (node_at (abs_path work)) cs /\ p = abs_path (work ++ cs) /\ path_ext p = ".proto" /\
         ~ exists x, In x (x_excludes e) /\ x <> "" /\ within (against (abs_path work) x) p) /\
    NoDup (map pf_path fs) /\ Forall (fun f => shown (abs_path work) (pf_path f) (pf_display f)) fs.
  Proof.
    intros Hr Nn Dn De. unfold walk_and_get_all_proto_files, initial_excludes.
    apply is_empty_false in Dn as Dn'. rewrite Dn'. unfold get_exclude_prefixes_for_data. rewrite is_abs_abs_path. cbn [negb].
    rewrite De. cbn [bind]. rewrite clean_abs_path by assumption.
    destruct (get_exclude_prefixes (x_excludes e) (abs_path work)) as [E|] eqn:EE; [|discriminate]. cbn [bind].
    apply exclude_prefixes_ok in EE as [EA EB]; [|now exists work].
    destruct (walk ex read dj dy data (abs_path work) (abs_path work) (abs_path work) (node_at (abs_path work)) {| w_excludes := E; w_files := [] |}) as [st|] eqn:W; [|discriminate].
    cbn [bind]. intros H; injection H as <-. split; [exact EA|].
    assert (Hw : clean_abs (abs_path work)) by (now exists work).
    assert (abs_path work = abs_path (work ++ [])) as Er by (now rewrite app_nil_r).
    rewrite Er in W at 3.
    apply walk_ok in W as (new & X & A1 & A2 & A3 & A4 & A5); [|assumption|assumption|constructor|assumption| |].
    2:{ cbn [w_excludes]. intros p Hp. apply EB in Hp as (x & H1 & H2 & ->). apply exclude_not_above; auto. }
    2:{ intros d p Hd [F _]. contradiction. }
    cbn [w_files app w_excludes] in *. rewrite A1. split; [|split; [assumption|]].
    - intros p. rewrite in_map_iff. split.
      + intros (f & <- & Hf). apply A5 in Hf as (cs & F1 & F2 & F3 & F4 & F5 & F6). cbn [app] in *. exists cs.
        split; [assumption|]. split; [assumption|]. split; [assumption|].
        intros (x & H1 & H2 & Wx). apply F5. exists (against (abs_path work) x). split; [apply EB; eauto|assumption].
      + intros (cs & F1 & -> & F3 & F6).
        assert (clean_abs (abs_path (work ++ cs))) as Hc.
        { exists (work ++ cs). split; [|reflexivity]. apply ok_comps_app. split; [assumption|]. eapply file_in_ok; eassumption. }
        destruct (rel_ok (abs_path work) _ Hw Hc) as (r & Er2).
        exists (mk_proto_file (abs_path (work ++ cs)) (path_clean r)). split; [reflexivity|]. apply A5.
        exists cs. cbn [pf_path pf_display app]. split; [assumption|]. split; [reflexivity|]. split; [assumption|].
        split; [eauto|]. split.
        * intros (q & Hq & Wq). apply EB in Hq as (x & H1 & H2 & ->). apply F6. eauto.
        * intros (a & b & q & _ & _ & [F _] & _). contradiction.
    - apply Forall_forall. intros f Hf. apply A5 in Hf as (cs & F1 & F2 & _ & (r & F4 & ->) & _).
      apply shown_rel; [assumption| |assumption]. rewrite F2. cbn [app]. exists (work ++ cs). split; [|reflexivity].
      apply ok_comps_app. split; [assumption|]. eapply file_in_ok; eassumption.
  Qed.
  Theorem files_total work root : ok_comps root -> named (node_at (abs_path root)) -> readable (node_at (abs_path root)) ->
    (forall d, dir_in (node_at (abs_path root)) d -> usable ex read dj dy (root ++ d)) ->
    exists fs, get_files "" work (abs_path root) = Ok fs.
  Proof.
    intros Hr Nn R U. unfold walk_and_get_all_proto_files. cbn [initial_excludes is_empty bind].
    destruct (walk_total ex read dj dy "" work root (node_at (abs_path root)) root {| w_excludes := []; w_files := [] |} Hr Nn R (fun _ => U)) as (st & ->).
    cbn [bind]. eauto.
  Qed.
End Files.

(** ** Grouping *)
Definition fget (d : string) (m : list (string * list proto_file)) : list proto_file :=
  match gget d m with Some l => l | None => [] end.
Lemma group_fold fs : forall m, NoDup (map fst m) -> (forall d l, gget d m = Some l -> l <> []) ->
  let m' := fold_left (fun m f => let d := path_dir (pf_path f) in
    gput d (match gget d m with Some l => l | None => [] end ++ [f]) m) fs m in
  NoDup (map fst m') /\ (forall d l, gget d m' = Some l -> l <> []) /\
  forall d, fget d m' = fget d m ++ files_of_dir d fs.
Proof.
  induction fs as [|f fs IH]; intros m N E; cbn [fold_left]; cbv zeta.
  - split; [assumption|]. split; [assumption|]. intros d. now rewrite app_nil_r.
  - set (m1 := gput (path_dir (pf_path f)) _ m).
    assert (NoDup (map fst m1)) as N1 by (now apply gput_NoDup).
    assert (forall d, fget d m1 = fget d m ++ (if String.eqb (path_dir (pf_path f)) d then [f] else [])) as G.
    { intros d. unfold fget, m1. destruct (String.eqb (path_dir (pf_path f)) d) eqn:Ek.
      - apply String.eqb_eq in Ek. subst d. now rewrite gget_gput_eq.
      - apply seqb_neq in Ek. rewrite gget_gput_neq by (now apply not_eq_sym). now rewrite app_nil_r. }
    assert (forall d l, gget d m1 = Some l -> l <> []) as E1.
    { intros d l Hk. unfold m1 in Hk. destruct (String.eqb d (path_dir (pf_path f))) eqn:Ek.
      - apply String.eqb_eq in Ek. subst d. rewrite gget_gput_eq in Hk. injection Hk as <-.
        now destruct (match gget (path_dir (pf_path f)) m with Some l => l | None => [] end).
      - apply seqb_neq in Ek. rewrite gget_gput_neq in Hk by assumption. eapply E; eassumption. }
    destruct (IH m1 N1 E1) as (A & B & C). split; [assumption|]. split; [assumption|].
    intros d. etransitivity; [exact (C d)|]. rewrite G, <- app_assoc. f_equal. unfold files_of_dir. cbn [filter].
    destruct (String.eqb (path_dir (pf_path f)) d); reflexivity.
Qed.
Lemma group_ok fs : grouped fs (dir_path_to_proto_files fs).
Proof.
  destruct (group_fold fs [] (NoDup_nil _) ltac:(intros d l H; discriminate H)) as (A & B & C).
  change (NoDup (map fst (dir_path_to_proto_files fs))) in A.
  change (forall d l, gget d (dir_path_to_proto_files fs) = Some l -> l <> []) in B.
  change (forall d, fget d (dir_path_to_proto_files fs) = fget d [] ++ files_of_dir d fs) in C.
  split; [assumption|]. intros d l. specialize (C d). change (fget d []) with (@nil proto_file) in C. cbn [app] in C. split.
  - intros H. apply In_gget in H; [|assumption]. unfold fget in C. rewrite H in C. split; [eapply B; eassumption|assumption].
  - intros [Hn ->]. unfold fget in C. destruct (gget d (dir_path_to_proto_files fs)) as [l|] eqn:E.
    + apply gget_In in E. now rewrite <- C.
    + now symmetry in C.
Qed.
Lemma grouped_perm fs m m' : Permutation m m' -> grouped fs m -> grouped fs m'.
Proof.
  intros P [A B]. split.
  - eapply Permutation_NoDup; [apply Permutation_map; exact P|assumption].
  - intros d l. rewrite <- B. split; apply Permutation_in; [now symmetry|assumption].
Qed.
Lemma grouped_nil fs m : grouped fs m -> (m = [] <-> fs = []).
Proof.
  intros [A B]. split.
  - intros ->. destruct fs as [|f fs]; [reflexivity|]. exfalso.
    apply (B (path_dir (pf_path f)) (files_of_dir (path_dir (pf_path f)) (f :: fs))). split; [|reflexivity].
    unfold files_of_dir. cbn [filter]. rewrite seqb_refl. discriminate.
  - intros ->. destruct m as [|[d l] m]; [reflexivity|]. exfalso. destruct (proj1 (B d l) (or_introl eq_refl)) as [H1 H2]. contradiction.
Qed.
Lemma grouped_dir fs m d l : grouped fs m -> In (d, l) m -> exists f, In f fs /\ In f l /\ path_dir (pf_path f) = d.
Proof.
  intros [A B] H. apply B in H as [Hn ->]. destruct (files_of_dir d fs) as [|f l] eqn:E; [easy|].
  exists f. assert (In f (files_of_dir d fs)) as Hf by (rewrite E; now left). unfold files_of_dir in Hf.
  apply filter_In in Hf as [H1 H2]. apply String.eqb_eq in H2. split; [assumption|]. split; [now left|assumption].
Qed.
Lemma grouped_file fs m f : grouped fs m -> In f fs -> exists l, In (path_dir (pf_path f), l) m /\ In f l.
Proof.
  intros [A B] H. exists (files_of_dir (path_dir (pf_path f)) fs).
  assert (In f (files_of_dir (path_dir (pf_path f)) fs)) as Hf by (apply filter_In; split; [assumption|apply seqb_refl]).
  split; [|assumption]. apply B. split; [|reflexivity]. intros E. rewrite E in Hf. destruct Hf.
Qed.

(** ** The configuration of a directory *)
Lemma nearest_fun ex d a a' : nearest ex d a -> nearest ex d a' -> a = a'.
Proof.
  intros (b & E & N & F) (b' & E' & N' & F').
  rewrite E in E'. clear E. revert E'. revert a' b' N' F'.
  assert (forall a b a' b' : list string, a ++ b = a' ++ b' -> (exists t, a' = a ++ t /\ b = t ++ b') \/ (exists t, a = a' ++ t /\ b' = t ++ b)) as Cmp.
  { clear. induction a as [|x a IH]; intros b a' b' E.
    - left. exists a'. cbn in E. auto.
    - destruct a' as [|y a'].
      + right. exists (x :: a). cbn in E. auto.
      + cbn in E. injection E as <- E. apply IH in E as [(t & -> & ->)|(t & -> & ->)]; [left|right]; exists t; auto. }
  intros a' b' N' F' E. apply Cmp in E as [(t & -> & ->)|(t & -> & ->)].
  - destruct t as [|x t]; [now rewrite app_nil_r|]. exfalso. apply N'. apply (F (x :: t) b'); [reflexivity|discriminate].
  - destruct t as [|x t]; [now rewrite app_nil_r|]. exfalso. apply N. apply (F' (x :: t) b); [reflexivity|discriminate].
Qed.
Lemma config_two_excl ex d p : ok_comps d -> the_config ex d p -> two_configs ex d -> False.
Proof.
  intros H (_ & _ & F) T. apply (config_paths_differ d H).
  rewrite (F (abs_path (d ++ ["prototool.yaml"]))) by (try apply T; now left).
  rewrite (F (abs_path (d ++ ["prototool.json"]))) by (try apply T; right; now left). reflexivity.
Qed.
Lemma governs_iff ex d p : ok_comps d -> (get_file_path_for_dir ex (abs_path d) = Ok p <-> governs ex d p).
Proof.
  intros H. pose proof (discovery ex (abs_path d) d (is_abs_abs_path d) H (clean_abs_path d H)) as D.
  assert (forall a, nearest ex d a -> ~ (forall a b, d = a ++ b -> no_config ex a)) as NN.
  { intros a (b & E & N & _) F. apply N. eapply F; eassumption. }
  assert (forall a, nearest ex d a -> ok_comps a) as Oa.
  { intros a (b & E & _). subst d. now apply ok_comps_app in H. }
  destruct (get_file_path_for_dir ex (abs_path d)) as [q|m].
  - destruct q as [|c q].
    + split; [intros E; injection E as <-; now left|]. intros [[-> _]|(a & N & _)]; [reflexivity|]. exfalso. now apply (NN a).
    + destruct D as (a & N & T). split; [intros E; injection E as <-; right; eauto|].
      intros [[_ F]|(a' & N' & T')]; [exfalso; now apply (NN a)|].
      assert (a' = a) as -> by (eapply nearest_fun; eassumption). f_equal. eapply the_config_fun; eassumption.
  - destruct D as (a & N & T). split; [discriminate|]. intros [[_ F]|(a' & N' & T')]; exfalso; [now apply (NN a)|].
    assert (a' = a) as -> by (eapply nearest_fun; eassumption). exact (config_two_excl ex a p (Oa a N) T' T).
Qed.

(** ** Inside the configuration's directory *)
Lemma validate_is_rel_iff base p : clean_abs base -> clean_abs p -> (validate_is_rel base p = Ok tt <-> inside base p).
Proof.
  intros (bs & Hb & ->) (ps & Hp & ->). unfold validate_is_rel. rewrite path_rel_abs by assumption.
  destruct (list_eq_dec string_dec bs ps) as [->|Hne].
  - cbn [is_empty has_prefix]. replace (has_prefix "." "..") with false by reflexivity. split; [|reflexivity]. intros _.
    exists ps, []. rewrite app_nil_r. split; [assumption|]. split; [constructor|]. split; [reflexivity|]. split; [reflexivity|]. discriminate.
  - destruct (strip_common_spec bs ps) as (c & E1 & E2).
    destruct (fst (strip_common bs ps)) as [|x ra] eqn:Ea.
    + set (rb := snd (strip_common bs ps)) in *. rewrite app_nil_r in E1. subst c. cbn [dotdots map app].
      assert (ok_comps rb) as Hrb by (rewrite E2 in Hp; now apply ok_comps_app in Hp).
      destruct rb as [|y rb].
      { rewrite app_nil_r in E2. now symmetry in E2. }
      pose proof (Forall_inv Hrb) as Hy. cbv beta in Hy.
      assert (is_empty (join "/" (y :: rb)) = false) as ->.
      { apply ok_comp_inv in Hy as (Hy & _). destruct y; [easy|]. destruct rb; reflexivity. }
      assert (has_prefix (join "/" (y :: rb)) ".." = has_prefix y "..") as ->.
      { apply ok_comp_inv in Hy as (Hn & Hd & _). destruct rb as [|z rb]; [reflexivity|]. rewrite join_cons2.
        destruct y as [|c1 y]; [easy|]. destruct y as [|c2 y].
        - cbn. destruct (Ascii.eqb "." c1) eqn:Ec.
          + apply Ascii.eqb_eq in Ec. now subst c1.
          + cbn in Ec |- *. rewrite ?Ec. reflexivity.
        - cbn. reflexivity. }
      destruct (has_prefix y "..") eqn:Ep.
      * split; [discriminate|]. intros (ds & rs & H1 & H2 & H3 & H4 & H5).
        apply abs_path_inj in H3; [|assumption|assumption]. subst ds.
        apply abs_path_inj in H4; [|assumption|now apply ok_comps_app]. rewrite E2 in H4. apply app_inv_head in H4. subst rs.
        apply has_prefix_spec in Ep as (r & ->). exfalso. eapply H5; reflexivity.
      * split; [|reflexivity]. intros _. exists bs, (y :: rb). split; [assumption|]. split; [assumption|]. split; [reflexivity|].
        split; [now rewrite E2|]. intros x t r E. injection E as <- <-. rewrite has_prefix_false in Ep. apply Ep.
    + cbn [dotdots map app].
      match goal with |- context [join "/" (?h :: ?l)] => assert (exists r, join "/" (h :: l) = ".." +++ r) as (r & ->) end.
      { match goal with |- exists r, join _ (_ :: ?l) = _ => destruct l end; [exists ""; reflexivity|].
        rewrite join_cons2. eexists; reflexivity. }
      replace (is_empty (".." +++ r)) with false by reflexivity. rewrite has_prefix_app. split; [discriminate|].
      intros (ds & rs & H1 & H2 & H3 & H4 & _). exfalso.
      apply abs_path_inj in H3; [|assumption|assumption]. subst ds.
      apply abs_path_inj in H4; [|assumption|now apply ok_comps_app]. subst ps.
      rewrite strip_common_prefix in Ea. discriminate.
Qed.
