(** Proofs about the lint framework: selection, ignores, order, no crash. *)
From Verif Require Import LintRun_Spec GoStrFacts GoPathFacts GoMapFacts Text_Proofs Lint_Walk Lint_RuleFacts Lint_RuleProofs Lint_RuleProofs2 Lint_FileProofs Lint_MapProofs Lint_Table.
From Coq Require Import Lia.

(** ** The IDs *)
Definition all_ids : list string := Eval vm_compute in map ln_id (all_linters (fun _ _ l => l) (fun s => s)).
Lemma all_ids_eq ord sing : map ln_id (all_linters ord sing) = all_ids.
Proof. reflexivity. Qed.
Lemma doc_ids_ok : forallb (fun id => mem id (map fst documented_rules)) all_ids
                && forallb (fun kv => mem (fst kv) all_ids) documented_rules = true.
Proof. vm_compute. reflexivity. Qed.
Fixpoint nodupb (l : list string) : bool :=
  match l with [] => true | x :: l' => negb (mem x l') && nodupb l' end.
Lemma nodupb_ok l : nodupb l = true -> NoDup l.
Proof.
  induction l as [|x l IH]; simpl; intros H; [constructor|]. apply andb_true_iff in H as [H1 H2].
  constructor; [apply mem_false, negb_true_iff, H1|auto].
Qed.
Lemma all_ids_nodup : NoDup all_ids.
Proof. apply nodupb_ok. vm_compute. reflexivity. Qed.
Lemma doc_nodup : NoDup (map fst documented_rules).
Proof. apply nodupb_ok. vm_compute. reflexivity. Qed.
Lemma documented_iff ord sing id : documented id <-> In id (map ln_id (all_linters ord sing)).
Proof.
  rewrite all_ids_eq. pose proof doc_ids_ok as H. apply andb_true_iff in H as [H1 H2].
  rewrite forallb_forall in H1, H2. split.
  - intros [gs Hin]. specialize (H2 _ Hin). apply mem_In in H2. exact H2.
  - intros Hin. specialize (H1 _ Hin). apply mem_In, in_map_iff in H1 as ([k gs] & E & Hk). simpl in E. subst. now exists gs.
Qed.

(** Membership in a group, computed. *)
Definition group_ids (g : string) : list string :=
  map fst (filter (fun kv => mem g (snd kv)) documented_rules).
Lemma in_group_iff g id : in_group g id <-> In id (group_ids g).
Proof.
  unfold in_group, group_ids. rewrite in_map_iff. split.
  - intros (gs & H1 & H2). exists (id, gs). split; [reflexivity|]. apply filter_In. split; [assumption|]. simpl. now apply mem_In.
  - intros ([k gs] & E & H). simpl in E. subst k. apply filter_In in H as [H1 H2]. simpl in H2. apply mem_In in H2. eauto.
Qed.
Definition same_set (a b : list string) : bool := forallb (fun x => mem x b) a && forallb (fun x => mem x a) b.
Lemma same_set_ok a b : same_set a b = true -> forall x, In x a <-> In x b.
Proof.
  unfold same_set. intros H x. apply andb_true_iff in H as [H1 H2]. rewrite forallb_forall in H1, H2.
  split; intros Hx; [apply H1 in Hx|apply H2 in Hx]; now apply mem_In.
Qed.
Lemma empty_group id : ~ in_group "empty" id.
Proof. rewrite in_group_iff. vm_compute. tauto. Qed.

(** The lists of linters of the groups. *)
Definition good_list ord sing (ls : list linter) (P : string -> Prop) : Prop :=
  NoDup (map ln_id ls) /\ incl ls (all_linters ord sing) /\ forall id, In id (map ln_id ls) <-> P id.
Definition index_of (id : string) : list string -> nat :=
  fix go l := match l with [] => 0 | x :: l' => if String.eqb x id then 0 else S (go l') end.
Lemma incl_by_index {A} (a b : list A) (is : list nat) :
  map Some a = map (nth_error b) is -> incl a b.
Proof.
  revert is. induction a as [|x a IH]; intros [|i is] E; try discriminate; intros y []; simpl in E; injection E as E1 E2.
  - subst. symmetry in E1. now apply nth_error_In in E1.
  - now apply (IH is).
Qed.
Definition indices (ls : list linter) : list nat := map (fun l => index_of (ln_id l) all_ids) ls.
Definition google_indices := Eval vm_compute in indices google_linters.
Definition uber1_indices := Eval vm_compute in indices (uber1_linters (fun _ _ l => l)).
Definition uber2_indices := Eval vm_compute in indices (uber2_linters (fun _ _ l => l)).
Lemma google_good ord sing : good_list ord sing google_linters (in_group "google").
Proof.
  split; [apply nodupb_ok; vm_compute; reflexivity|].
  split; [apply (incl_by_index _ _ google_indices); reflexivity|].
  intros id. rewrite in_group_iff. apply same_set_ok. vm_compute. reflexivity.
Qed.
Lemma uber1_good ord sing : good_list ord sing (uber1_linters ord) (in_group "uber1").
Proof.
  split; [apply nodupb_ok; vm_compute; reflexivity|].
  split; [apply (incl_by_index _ _ uber1_indices); reflexivity|].
  intros id. rewrite in_group_iff. apply same_set_ok. vm_compute. reflexivity.
Qed.
Lemma uber2_good ord sing : good_list ord sing (uber2_linters ord) (in_group "uber2").
Proof.
  split; [apply nodupb_ok; vm_compute; reflexivity|].
  split; [apply (incl_by_index _ _ uber2_indices); reflexivity|].
  intros id. rewrite in_group_iff. apply same_set_ok. vm_compute. reflexivity.
Qed.
Lemma empty_good ord sing : good_list ord sing [] (in_group "empty").
Proof. split; [constructor|]. split; [easy|]. intros id. split; [easy|]. intros H. now apply empty_group in H. Qed.
Lemma groups_good ord sing g :
  match gget g (group_to_linters ord) with
  | Some ls => In g documented_groups /\ good_list ord sing ls (in_group g)
  | None => ~ In g documented_groups
  end.
Proof.
  unfold group_to_linters, documented_groups. cbn [gget keqb key_string].
  destruct (String.eqb_spec g "google") as [->|N1]; [split; [simpl; tauto|apply google_good]|].
  destruct (String.eqb_spec g "uber1") as [->|N2]; [split; [simpl; tauto|apply uber1_good]|].
  destruct (String.eqb_spec g "uber2") as [->|N3]; [split; [simpl; tauto|apply uber2_good]|].
  destruct (String.eqb_spec g "empty") as [->|N4]; [split; [simpl; tauto|apply empty_good]|].
  simpl. intuition.
Qed.

(** ** Selection *)
Section Select.
  Variables (ord : order) (sing : string -> string).
  Hypothesis Hord : reorders ord.
  Let all := all_linters ord sing.

  Lemma all_nodup : NoDup (map ln_id all).
  Proof. unfold all. rewrite all_ids_eq. exact all_ids_nodup. Qed.
  Lemma check_id_ok id : (exists u, check_lint_id all id = Ok u) <-> documented id.
  Proof.
    rewrite (documented_iff ord sing). unfold check_lint_id. fold all.
    destruct (existsb _ all) eqn:E.
    - split; [intros _|now exists tt]. apply existsb_exists in E as (l & Hl & E). apply String.eqb_eq in E as <-. now apply in_map.
    - split; [intros [? ?]; discriminate|]. intros H. exfalso. apply in_map_iff in H as (l & El & Hl).
      enough (existsb (fun l => String.eqb (ln_id l) id) all = true) by congruence.
      apply existsb_exists. exists l. rewrite El, seqb_refl. auto.
  Qed.
  Lemma check_ids_ok ids :
    (exists us, mapM (check_lint_id all) ids = Ok us) <-> forall id, In id ids -> documented id.
  Proof.
    induction ids as [|i ids IH]; simpl; [split; [easy|intros _; now exists []]|].
    destruct (check_lint_id all i) as [u|e] eqn:E; cbn [bind].
    - destruct (mapM (check_lint_id all) ids) as [us|] eqn:E2; cbn [bind].
      + split; [|eauto]. intros _ id [<-|H]; [apply check_id_ok; eauto|]. apply IH; eauto.
      + split; [intros [? ?]; discriminate|]. intros H. destruct IH as [_ IH]. destruct IH as [us Hu]; [auto|discriminate].
    - split; [intros [? ?]; discriminate|]. intros H. destruct (check_id_ok i) as [_ Hc]. destruct Hc as [u Hu]; [auto|congruence].
  Qed.

  (** A map from IDs to linters whose keys are [P]. *)
  Definition table (m : list (string * linter)) (P : string -> Prop) : Prop :=
    NoDup (map fst m) /\ (forall k l, In (k, l) m -> ln_id l = k /\ In l all) /\ forall k, In k (map fst m) <-> P k.
  Lemma gput_In {V} (k : string) (v : V) m x y : NoDup (map fst m) -> In (x, y) (gput k v m) -> (x = k /\ y = v) \/ In (x, y) m.
  Proof.
    intros N. induction m as [|[k' v'] m IH]; simpl; [intros [H|[]]; left; split; congruence|].
    inversion N; subst. destruct (String.eqb k k') eqn:E; simpl; intros [H|H]; auto; try (left; split; congruence).
    apply IH in H; tauto.
  Qed.
  Lemma table_put m P l : table m P -> In l all -> table (gput (ln_id l) l m) (fun k => k = ln_id l \/ P k).
  Proof.
    intros (H1 & H2 & H3) Hl. split; [now apply gput_NoDup|]. split.
    - intros k v H. apply gput_In in H as [[-> ->]|H]; auto.
    - intros k. rewrite gput_keys, H3. reflexivity.
  Qed.
  Lemma table_ext m P Q : (forall k, P k <-> Q k) -> table m P -> table m Q.
  Proof. intros E (H1 & H2 & H3). split; [assumption|]. split; [assumption|]. intros k. now rewrite H3. Qed.
  Lemma table_delete m P k : table m P -> table (gdelete k m) (fun x => P x /\ x <> k).
  Proof.
    intros (H1 & H2 & H3). unfold gdelete. split; [|split].
    - clear -H1. induction m as [|[a b] m IH]; simpl; [constructor|]. inversion H1 as [|? ? Hn Hr]; subst.
      destruct (String.eqb a k); simpl; [auto|]. constructor; [|auto].
      intros H. apply Hn. apply in_map_iff in H as (x & <- & Hx). apply filter_In in Hx. apply in_map. tauto.
    - intros x l H. apply filter_In in H. apply H2. tauto.
    - intros x. rewrite <- H3. rewrite !in_map_iff. split.
      + intros ([a l] & <- & H). apply filter_In in H as [H Hk]. simpl in *.
        split; [exists (a, l); auto|]. intros ->. now rewrite seqb_refl in Hk.
      + intros [([a l] & <- & H) N]. exists (a, l). split; [reflexivity|]. apply filter_In. split; [assumption|].
        simpl in *. apply negb_true_iff, seqb_neq. congruence.
  Qed.
  Lemma table_deletes ids : forall m P, table m P ->
    table (fold_left (fun m id => gdelete id m) ids m) (fun x => P x /\ ~ In x ids).
  Proof.
    induction ids as [|i ids IH]; intros m P H; simpl.
    - eapply table_ext; [|exact H]. simpl. tauto.
    - eapply table_ext; [|apply IH, table_delete, H]. simpl. intros k. intuition congruence.
  Qed.
  Lemma table_build ls P : good_list ord sing ls P -> table (build (map (fun l => (ln_id l, l)) ls)) P.
  Proof.
    intros (H1 & H2 & H3). split; [apply build_NoDup|]. split.
    - intros k l H. apply build_In, gget_In, in_rev in H. rewrite ?rev_involutive in H.
      apply in_map_iff in H as (l' & E & Hl). injection E as <- <-. auto.
    - intros k. rewrite <- H3. rewrite <- gget_Some_key. setoid_rewrite gget_build. rewrite gget_Some_key.
      rewrite map_rev, <- in_rev, map_map. reflexivity.
  Qed.
  Lemma table_include_one ids l : forall m P, In l all -> table m P ->
    table (fold_left (fun m id => if String.eqb (ln_id l) id then gput id l m else m) ids m)
          (fun k => P k \/ k = ln_id l /\ In k ids).
  Proof.
    induction ids as [|i ids IH]; intros m P Hl H; cbn [fold_left].
    - eapply table_ext; [|exact H]. simpl. tauto.
    - destruct (String.eqb_spec (ln_id l) i) as [<-|N].
      + eapply table_ext; [|apply IH; [assumption|]; apply table_put; [exact H|assumption]].
        simpl. intros k. intuition congruence.
      + eapply table_ext; [|apply IH; eassumption]. simpl. intros k. intuition congruence.
  Qed.
  Lemma table_include ids ls : forall m P, incl ls all -> table m P ->
    table (fold_left (fun m l => fold_left (fun m id => if String.eqb (ln_id l) id then gput id l m else m) ids m) ls m)
          (fun k => P k \/ In k (map ln_id ls) /\ In k ids).
  Proof.
    induction ls as [|l ls IH]; intros m P Hi H; cbn [fold_left].
    - eapply table_ext; [|exact H]. simpl. tauto.
    - eapply table_ext; [|apply IH; [intros x Hx; apply Hi; now right|apply table_include_one; [apply Hi; now left|exact H]]].
      simpl. intros k. intuition congruence.
  Qed.
  Lemma table_list m P : table m P -> good_list ord sing (map snd (ord "linterMap" _ m)) P.
  Proof.
    intros (H1 & H2 & H3). pose proof (Hord "linterMap" _ m) as Pm.
    assert (E : map ln_id (map snd (ord "linterMap" _ m)) = map fst (ord "linterMap" _ m)).
    { rewrite map_map. apply map_ext_in. intros [k l] H. apply (Permutation_in _ (Permutation_sym Pm)) in H.
      simpl. now apply H2 in H. }
    split; [|split].
    - rewrite E. eapply Permutation_NoDup; [apply Permutation_map, Pm|exact H1].
    - intros l H. apply in_map_iff in H as ([k x] & <- & H). apply (Permutation_in _ (Permutation_sym Pm)) in H.
      simpl. now apply H2 in H.
    - intros k. rewrite E, <- H3. split; apply Permutation_in; [apply Permutation_sym|]; now apply Permutation_map.
  Qed.

  Definition base_known (c : lint_config) : Prop := lc_group c = EmptyString \/ In (lc_group c) documented_groups.
  Lemma base_linters_ok c :
    match base_linters (default_linters ord) (group_to_linters ord) c with
    | Ok ls => base_known c /\ good_list ord sing ls (base_rule c)
    | Err _ => ~ base_known c
    end.
  Proof.
    unfold base_linters, base_known, base_rule. destruct (is_empty (lc_group c)) eqn:E; cbn [negb].
    - assert (lc_group c = EmptyString) as G by (destruct (lc_group c); [reflexivity|discriminate]). rewrite G.
      destruct (lc_no_default c) eqn:N; (split; [now left|]).
      + split; [constructor|]. split; [easy|]. intros id. split; [easy|]. intros [[H _]|(_ & H & _)]; congruence.
      + destruct (uber1_good ord sing) as (H1 & H2 & H3). split; [exact H1|]. split; [exact H2|].
        intros id. unfold default_linters. rewrite H3. intuition congruence.
    - apply is_empty_false in E. pose proof (groups_good ord sing (lc_group c)) as G.
      destruct (gget (lc_group c) (group_to_linters ord)) as [ls|].
      + destruct G as (G0 & H1 & H2 & H3). split; [now right|]. split; [exact H1|]. split; [exact H2|].
        intros id. rewrite H3. intuition congruence.
      + intros [H|H]; [easy|]. now apply G.
  Qed.

  Theorem selection c :
    match get_linters ord all (default_linters ord) (group_to_linters ord) c with
    | Ok ls => known_names c /\ good_list ord sing ls (selected c)
    | Err _ => ~ known_names c
    end.
  Proof.
    unfold get_linters, known_names. pose proof (base_linters_ok c) as B. unfold base_known in B.
    destruct (base_linters _ _ c) as [ls|e]; cbn [bind]; [|tauto]. destruct B as [B G].
    pose proof (check_ids_ok (lc_include_ids c)) as C1.
    destruct (mapM (check_lint_id all) (lc_include_ids c)) as [u1|] eqn:E1; cbn [bind].
    2:{ intros [_ H]. destruct C1 as [_ C1]. destruct C1 as [? ?]; [intros; apply H; tauto|discriminate]. }
    pose proof (check_ids_ok (lc_exclude_ids c)) as C2.
    destruct (mapM (check_lint_id all) (lc_exclude_ids c)) as [u2|] eqn:E2; cbn [bind].
    2:{ intros [_ H]. destruct C2 as [_ C2]. destruct C2 as [? ?]; [intros; apply H; tauto|discriminate]. }
    pose proof (check_ids_ok (ord "IgnoreIDToFilePaths" _ (map fst (lc_ignores c)))) as C3.
    pose proof (Hord "IgnoreIDToFilePaths" _ (map fst (lc_ignores c))) as Pm.
    destruct (mapM (check_lint_id all) (ord "IgnoreIDToFilePaths" _ (map fst (lc_ignores c)))) as [u3|] eqn:E3; cbn [bind].
    2:{ intros [_ H]. destruct C3 as [_ C3]. destruct C3 as [? ?]; [|discriminate].
        intros. apply H. right; right. now apply (Permutation_in _ (Permutation_sym Pm)). }
    destruct C1 as [C1 _], C2 as [C2 _], C3 as [C3 _].
    assert (K : forall id, In id (lc_include_ids c) \/ In id (lc_exclude_ids c) \/ In id (map fst (lc_ignores c)) -> documented id).
    { intros id [H|[H|H]]; [apply C1|apply C2|apply C3]; eauto. now apply (Permutation_in _ Pm). }
    assert (G2 : forall a b, lc_include_ids c = a -> lc_exclude_ids c = b ->
      good_list ord sing (map snd (ord "linterMap" _ (fold_left (fun m id => gdelete id m) b
        (fold_left (fun m l => fold_left (fun m id => if String.eqb (ln_id l) id then gput id l m else m) a m) all
           (build (map (fun l => (ln_id l, l)) ls)))))) (selected c)).
    { intros a b Ea Eb. apply table_list. eapply table_ext; [|apply table_deletes, table_include; [apply incl_refl|apply table_build, G]].
      intros k. unfold selected. rewrite Ea, Eb. cbv beta. split; [tauto|].
      intros [[H|H] N]; (split; [|assumption]); [now left|right]. split; [|assumption].
      apply (documented_iff ord sing). apply K. left. now rewrite Ea. }
    assert (G3 : lc_include_ids c = [] -> lc_exclude_ids c = [] -> good_list ord sing ls (selected c)).
    { intros Ei Ex. destruct G as (H1 & H2 & H3). split; [exact H1|]. split; [exact H2|].
      intros id. rewrite H3. unfold selected. rewrite Ei, Ex. cbn [In]. tauto. }
    destruct (lc_include_ids c) as [|i is] eqn:Ei; [destruct (lc_exclude_ids c) as [|x xs] eqn:Ex|];
      (split; [auto|]); [now apply G3|now apply G2|now apply G2].
  Qed.
End Select.

(** ** IsExcluded *)
Lemma abs_path_length cs : length cs <= String.length (abs_path cs).
Proof.
  change (length cs <= S (String.length (join "/" cs))).
  induction cs as [|c [|d cs] IH]; [simpl; lia|simpl; lia|].
  rewrite join_cons2, !slength_app. cbn [length] in *.
  change (String.length "/") with 1. lia.
Qed.
Lemma within_iff p cs : ok_comps cs -> (within p (abs_path cs) <-> exists a b, cs = a ++ b /\ p = abs_path a).
Proof.
  intros H. split.
  - intros (a & b & Ha & Hb & -> & E). apply abs_path_inj in E; [|assumption|now apply ok_comps_app]. eauto.
  - intros (a & b & -> & ->). apply ok_comps_app in H as [Ha Hb]. exists a, b. auto.
Qed.
Lemma abs_path_root cs : abs_path cs = "/" -> cs = [] \/ cs = [EmptyString].
Proof.
  unfold abs_path. destruct cs as [|c [|d cs]]; [now left|simpl; intros E; injection E as ->; now right|].
  rewrite join_cons2. simpl. intros E. injection E as E. apply sapp_eq_nil in E as [_ E]. discriminate.
Qed.
(** The walk from a file under the configuration directory. *)
Lemma walk_under root rs exclude : forall fuel, ok_comps root -> ok_comps rs -> length rs < fuel ->
  (excluded_walk fuel (abs_path (root ++ rs)) (abs_path root) exclude = true
   <-> exists a b, rs = a ++ b /\ a <> [] /\ exclude = abs_path (root ++ a)).
Proof.
  induction rs as [|c rs IH] using rev_ind; intros fuel Hr Hs Hf.
  - rewrite app_nil_r. destruct fuel; [simpl in Hf; lia|]. cbn [excluded_walk]. rewrite seqb_refl. cbn [orb].
    split; [discriminate|]. intros (a & b & E & N & _). symmetry in E. apply app_eq_nil in E as [-> _]. easy.
  - rewrite app_length in Hf. simpl in Hf. destruct fuel as [|fuel]; [lia|]. cbn [excluded_walk].
    apply ok_comps_app in Hs as [Hs Hc]. assert (Hc' : ok_comp c = true) by now inversion Hc.
    assert (Hall : ok_comps (root ++ rs ++ [c])) by (apply ok_comps_app; split; [|apply ok_comps_app]; auto).
    replace (String.eqb (abs_path (root ++ rs ++ [c])) (abs_path root)) with false.
    2:{ symmetry. apply seqb_neq. intros E. apply abs_path_inj in E; auto.
        rewrite <- (app_nil_r root) in E at 2. apply app_inv_head in E. now destruct rs. }
    replace (String.eqb (abs_path (root ++ rs ++ [c])) "/") with false.
    2:{ symmetry. apply seqb_neq. intros E. apply (abs_path_inj _ []) in E; [|assumption|constructor].
        apply app_eq_nil in E as [_ E]. now destruct rs. }
    cbn [orb]. destruct (String.eqb_spec (abs_path (root ++ rs ++ [c])) exclude) as [E|N].
    + split; [intros _|reflexivity]. exists (rs ++ [c]), []. rewrite app_nil_r. repeat split; auto. now destruct rs.
    + rewrite app_assoc, path_dir_abs; [|apply ok_comps_app; auto|assumption].
      rewrite IH by (auto; lia). split.
      * intros (a & b & -> & Na & ->). exists a, (b ++ [c]). rewrite app_assoc. auto.
      * intros (a & b & E & Na & ->). destruct b as [|y b _] using rev_ind.
        -- rewrite app_nil_r in E. subst a. exfalso. now apply N.
        -- rewrite app_assoc in E. apply app_inj_tail in E as [-> <-]. exists a, b. auto.
Qed.
Lemma excluded_iff file cfg excludes : within cfg file ->
  (is_excluded file cfg excludes = true <-> exists p, In p excludes /\ within p file /\ ~ within p cfg).
Proof.
  intros (root & rs & Hr & Hs & -> & ->). unfold is_excluded. rewrite existsb_exists.
  assert (Hf : length rs < S (String.length (abs_path (root ++ rs)))).
  { pose proof (abs_path_length (root ++ rs)) as L. rewrite app_length in L. lia. }
  split.
  - intros (p & Hp & H). apply walk_under in H as (a & b & -> & Na & ->); auto. exists (abs_path (root ++ a)).
    split; [assumption|]. apply ok_comps_app in Hs as [Ha Hb]. split.
    + exists (root ++ a), b. rewrite app_assoc. repeat split; auto. apply ok_comps_app; auto.
    + intros W. apply within_iff in W as (x & y & E & Ex); [|assumption].
      assert (Hx : ok_comps x) by (rewrite E in Hr; apply ok_comps_app in Hr; tauto).
      apply abs_path_inj in Ex; [|apply ok_comps_app; auto|assumption]. subst x. rewrite <- app_assoc in E.
      rewrite <- (app_nil_r root) in E at 1. apply app_inv_head in E. symmetry in E. apply app_eq_nil in E as [-> _]. easy.
  - intros (p & Hp & W & N). exists p. split; [assumption|]. apply walk_under; auto.
    apply within_iff in W as (x & y & E & ->); [|apply ok_comps_app; auto].
    apply app_eq_app in E as (l & [[E1 E2]|[E1 E2]]); subst.
    + exfalso. apply N. apply within_iff; [assumption|]. exists x, l. auto.
    + exists l, y. repeat split; auto. intros ->. apply N. rewrite app_nil_r. now apply within_refl; exists root.
Qed.

(** ** Map order *)
Lemma same_trans {A} (a b c : result (list A)) :
  same_result (@Permutation A) a b -> same_result (@Permutation A) b c -> same_result (@Permutation A) a c.
Proof.
  intros H1 H2. destruct H1; inversion H2; subst; constructor. etransitivity; eauto.
Qed.
Lemma same_refl {A} (a : result (list A)) : same_result (@Permutation A) a a.
Proof. destruct a; constructor. reflexivity. Qed.
Lemma concatM_rel {A A' B} (R : A -> A' -> Prop) (f : A -> result (list B)) (g : A' -> result (list B)) l l' :
  Forall2 R l l' -> (forall x y, R x y -> same_result (@Permutation B) (f x) (g y)) ->
  same_result (@Permutation B) (concatM f l) (concatM g l').
Proof.
  intros H HR. induction H as [|x y l l' Hxy H IH]; [apply same_refl|]. rewrite !concatM_cons.
  destruct (HR _ _ Hxy) as [a b Hab|]; cbn [bind]; [|constructor].
  destruct IH as [c d Hcd|]; cbn [bind]; constructor. now apply Permutation_app.
Qed.
Lemma concatM_perm {A B} (f : A -> result (list B)) l l' :
  Permutation l l' -> same_result (@Permutation B) (concatM f l) (concatM f l').
Proof.
  intros H. induction H as [|x l l' H IH|x y l|l l' l'' H1 IH1 H2 IH2].
  - apply same_refl.
  - rewrite !concatM_cons. destruct (f x) as [a|]; cbn [bind]; [|constructor].
    destruct IH as [c d Hcd|]; cbn [bind]; constructor. now apply Permutation_app_head.
  - rewrite !concatM_cons. destruct (f x) as [a|], (f y) as [b|]; cbn [bind]; try constructor.
    destruct (concatM f l); cbn [bind]; constructor. rewrite !app_assoc. apply Permutation_app_tail, Permutation_app_comm.
  - eapply same_trans; eauto.
Qed.
Lemma mapM_concatM {A B} (f : A -> result B) l : mapM f l = concatM (fun x => do y <- f x; Ok [y]) l.
Proof.
  induction l as [|x l IH]; [reflexivity|]. rewrite concatM_cons, <- IH. cbn [mapM].
  destruct (f x); cbn [bind]; [|reflexivity]. destruct (mapM f l); reflexivity.
Qed.
Lemma mapM_perm {A B} (f : A -> result B) l l' :
  Permutation l l' -> same_result (@Permutation B) (mapM f l) (mapM f l').
Proof. intros H. rewrite !mapM_concatM. now apply concatM_perm. Qed.
Lemma filter_perm {A} (f : A -> bool) l l' : Permutation l l' -> Permutation (filter f l) (filter f l').
Proof.
  induction 1 as [|x l l' H IH|x y l|l l' l'' H1 IH1 H2 IH2]; simpl; [reflexivity| | |etransitivity; eauto].
  - destruct (f x); [now constructor|assumption].
  - destruct (f x), (f y); try reflexivity. constructor.
Qed.
Lemma fold_put_fresh {V} (l : list (string * V)) : forall m, NoDup (map fst (m ++ l)) ->
  fold_left (fun m kv => gput (fst kv) (snd kv) m) l m = m ++ l.
Proof.
  induction l as [|[k v] l IH]; intros m H; cbn [fold_left]; [now rewrite app_nil_r|]. cbn [fst snd].
  assert (E : gput k v m = m ++ [(k, v)]).
  { assert (Hk : ~ In k (map fst m)).
    { rewrite map_app in H. apply NoDup_remove_2 in H. intros Hi. apply H. apply in_app_iff. now left. }
    clear -Hk. induction m as [|[k' v'] m IH]; [reflexivity|]. simpl in *.
    destruct (String.eqb_spec k k') as [->|N]; [exfalso; auto|]. rewrite IH; auto. }
  rewrite E, IH, <- app_assoc; [reflexivity|]. now rewrite <- app_assoc.
Qed.
Lemma build_id {V} (l : list (string * V)) : NoDup (map fst l) -> build l = l.
Proof. intros H. unfold build. now rewrite fold_put_fresh. Qed.
Lemma mapM_Forall2 {A B} (f : A -> result B) l r : mapM f l = Ok r -> Forall2 (fun x y => f x = Ok y) l r.
Proof.
  revert r. induction l as [|x l IH]; intros r E; cbn [mapM] in E; [injection E as <-; constructor|].
  destruct (f x) as [y|] eqn:Ex; cbn [bind] in E; [|discriminate].
  destruct (mapM f l) as [ys|]; cbn [bind] in E; [|discriminate]. injection E as <-. constructor; auto.
Qed.

Lemma Forall2_refl_eq {A} (l : list A) : Forall2 eq l l.
Proof. induction l; constructor; auto. Qed.
Section Run.
  Variables (cwd : string) (read : string -> result (list element * string)).
  Definition read_dir (ps : proto_set) (absolute : bool) (dir : string * list proto_file) : result (string * list descriptor) :=
    do ds <- mapM (read_descriptor read ps absolute) (snd dir); Ok (fst dir, ds).
  Definition wanted (ps : proto_set) (dir : string * list proto_file) : bool := has_prefix (fst dir) (ps_dir ps).
  Lemma read_dir_keys ps absolute l r : mapM (read_dir ps absolute) l = Ok r -> map fst r = map fst l.
  Proof.
    intros E. apply mapM_Forall2 in E. induction E as [|x y l r Hxy H IH]; [reflexivity|]. simpl. rewrite IH. f_equal.
    unfold read_dir in Hxy. destruct (mapM _ (snd x)); [|discriminate]. injection Hxy as <-. reflexivity.
  Qed.
  Lemma filter_keys {V} (f : string * V -> bool) l : NoDup (map fst l) -> NoDup (map fst (filter f l)).
  Proof.
    induction l as [|x l IH]; simpl; intros H; [constructor|]. inversion H as [|? ? Hn Hr]; subst.
    destruct (f x); simpl; [constructor; [|auto]|auto].
    intros Hi. apply Hn. apply in_map_iff in Hi as (y & <- & Hy). apply filter_In in Hy. now apply in_map.
  Qed.
  Lemma dirs_eq ord ps absolute : reorders ord -> NoDup (map fst (ps_files ps)) ->
    dir_path_to_descriptors ord read ps absolute
    = mapM (read_dir ps absolute) (filter (wanted ps) (ord "GetDirPathToDescriptors" _ (ps_files ps))).
  Proof.
    intros Ho N. unfold dir_path_to_descriptors. fold (read_dir ps absolute). fold (wanted ps).
    destruct (mapM _ _) as [dirs|] eqn:E; cbn [bind]; [|reflexivity]. rewrite build_id; [reflexivity|].
    rewrite (read_dir_keys _ _ _ _ E). apply filter_keys.
    eapply Permutation_NoDup; [apply Permutation_map, Ho|exact N].
  Qed.

  Variable sing : string -> string.
  Lemma good_like o1 o2 ls1 ls2 P : reorders o1 -> reorders o2 ->
    good_list o1 sing ls1 P -> good_list o2 sing ls2 P -> exists m, Permutation ls1 m /\ Forall2 like m ls2.
  Proof.
    intros Ho1 Ho2 (N1 & I1 & S1) (N2 & I2 & S2).
    pose proof (like_all o1 o2 sing Ho1 Ho2) as L.
    assert (Partner : forall l2, In l2 (all_linters o2 sing) -> exists l1, In l1 (all_linters o1 sing) /\ like l1 l2).
    { clear -L. induction L as [|a b la lb Hab L IH]; [easy|]. intros l2 [<-|H]; [exists a; simpl; auto|].
      destruct (IH l2 H) as (l1 & ? & ?). exists l1. simpl. auto. }
    assert (M : exists m, incl m (all_linters o1 sing) /\ Forall2 like m ls2).
    { clear -Partner I2. induction ls2 as [|l2 ls2 IH]; [exists []; split; [easy|constructor]|].
      destruct IH as (m & Hm & Hl); [intros x Hx; apply I2; now right|].
      destruct (Partner l2) as (l1 & H1 & H2); [apply I2; now left|].
      exists (l1 :: m). split; [|now constructor]. intros x [<-|Hx]; auto. }
    destruct M as (m & Hm & Hl). exists m. split; [|assumption].
    assert (E : map ln_id m = map ln_id ls2).
    { clear -Hl. induction Hl as [|a b la lb Hab L IH]; [reflexivity|]. simpl. rewrite IH. f_equal. apply Hab. }
    apply NoDup_Permutation.
    - apply (NoDup_map_inv ln_id), N1.
    - apply (NoDup_map_inv ln_id). now rewrite E.
    - intros l. split; intros H.
      + assert (In (ln_id l) (map ln_id m)) as Hi by (rewrite E; apply S2, S1, in_map, H).
        apply in_map_iff in Hi as (l' & El & Hl'). rewrite (unique_linter o1 sing l l'); auto.
      + assert (In (ln_id l) (map ln_id ls1)) as Hi by (apply S1, S2; rewrite <- E; apply in_map, H).
        apply in_map_iff in Hi as (l' & El & Hl'). rewrite (unique_linter o1 sing l l'); auto.
  Qed.
  Lemma check_one_like l1 l2 ds ignores : like l1 l2 ->
    same_result (@Permutation failure) (check_one cwd l1 ds ignores) (check_one cwd l2 ds ignores).
  Proof.
    intros (E1 & E2 & H). unfold check_one, linter_check.
    assert (filter_ignores cwd l1 ds ignores = filter_ignores cwd l2 ds ignores) as ->.
    { unfold filter_ignores, should_ignore. now rewrite E1. }
    destruct (H (filter_ignores cwd l2 ds ignores)) as [a b Hab|]; cbn [bind]; constructor.
    replace (finish l1) with (finish l2).
    - now apply Permutation_flat_map.
    - unfold finish, is_suppressed, allow_suppression. rewrite E1, E2. reflexivity.
  Qed.
  Theorem run_deterministic o1 o2 ps absolute : reorders o1 -> reorders o2 -> NoDup (map fst (ps_files ps)) ->
    match lint_run o1 cwd read (all_linters o1 sing) (default_linters o1) (group_to_linters o1) ps absolute,
          lint_run o2 cwd read (all_linters o2 sing) (default_linters o2) (group_to_linters o2) ps absolute with
    | Ok a, Ok b => a = b
    | Err _, Err _ => True
    | _, _ => False
    end.
  Proof.
    intros H1 H2 N. unfold lint_run.
    pose proof (selection o1 sing H1 (cfg_lint (ps_config ps))) as S1.
    pose proof (selection o2 sing H2 (cfg_lint (ps_config ps))) as S2.
    destruct (get_linters o1 _ _ _ _) as [ls1|], (get_linters o2 _ _ _ _) as [ls2|]; cbn [bind]; try tauto.
    destruct S1 as [_ G1], S2 as [_ G2]. destruct (good_like o1 o2 ls1 ls2 _ H1 H2 G1 G2) as (m & Pm & Hm).
    rewrite !dirs_eq by assumption.
    pose proof (mapM_perm (read_dir ps absolute) _ _
      (filter_perm (wanted ps) _ _ (orders o1 o2 H1 H2 "GetDirPathToDescriptors" _ (ps_files ps)))) as D.
    destruct D as [d1 d2 Hd|]; cbn [bind]; [|exact I]. unfold check_multiple.
    set (ig := lc_ignores _).
    assert (C : same_result (@Permutation failure)
      (concatM (fun dir => concatM (fun l => check_one cwd l (snd dir) ig) ls1) (o1 "CheckMultiple" _ d1))
      (concatM (fun dir => concatM (fun l => check_one cwd l (snd dir) ig) ls2) (o2 "CheckMultiple" _ d2))).
    { eapply same_trans; [apply concatM_perm; etransitivity; [apply Permutation_sym, H1|etransitivity; [exact Hd|apply (H2 "CheckMultiple")]]|].
      apply (concatM_rel eq); [apply Forall2_refl_eq|].
      intros x y <-. eapply same_trans; [apply concatM_perm, Pm|].
      apply (concatM_rel like); [assumption|]. intros a b. apply check_one_like. }
    destruct C as [a b Hab|]; cbn [bind]; [|exact I]. apply sort_failures_unique. now apply Permutation_map.
  Qed.
End Run.
