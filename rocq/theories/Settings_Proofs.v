(** Proofs about configuration discovery and validation. *)
From Coq Require Import Permutation Lia.
From Verif Require Import GoStrFacts GoPathFacts GoMapFacts Strs_Spec Strs_Proofs Settings_Model Settings_Spec.

(** ** mapM *)
Lemma mapM_ok {A B} (f : A -> result B) l r : mapM f l = Ok r -> Forall2 (fun x y => f x = Ok y) l r.
Proof.
  revert r. induction l as [|x l IH]; intros r H; cbn [mapM] in H.
  - injection H as <-. constructor.
  - destruct (f x) as [y|] eqn:E; [|discriminate]. cbn [bind] in H.
    destruct (mapM f l) as [ys|] eqn:E2; [|discriminate]. injection H as <-. constructor; auto.
Qed.
Lemma mapM_total {A B} (f : A -> result B) l : (forall x, In x l -> exists y, f x = Ok y) -> exists r, mapM f l = Ok r.
Proof.
  induction l as [|x l IH]; intros H; cbn [mapM]; [eauto|].
  destruct (H x (or_introl eq_refl)) as (y & ->). cbn [bind].
  destruct IH as (r & ->); [intros z Hz; apply H; now right|]. cbn [bind]. eauto.
Qed.
Lemma Forall2_In_l {A B} (R : A -> B -> Prop) l r x : Forall2 R l r -> In x l -> exists y, In y r /\ R x y.
Proof. induction 1; intros Hx; [easy|]. destruct Hx as [->|Hx]; [eauto with datatypes|]. destruct IHForall2 as (z & ? & ?); eauto with datatypes. Qed.
Lemma Forall2_In_r {A B} (R : A -> B -> Prop) l r y : Forall2 R l r -> In y r -> exists x, In x l /\ R x y.
Proof. induction 1; intros Hx; [easy|]. destruct Hx as [->|Hx]; [eauto with datatypes|]. destruct IHForall2 as (z & ? & ?); eauto with datatypes. Qed.
Lemma Forall2_impl_In {A B} (R S : A -> B -> Prop) l r :
  Forall2 R l r -> (forall x y, In x l -> In y r -> R x y -> S x y) -> Forall2 S l r.
Proof. induction 1; intros H2; constructor; [apply H2; auto with datatypes|]. apply IHForall2. intros; apply H2; auto with datatypes. Qed.

(** ** Discovery *)
Lemma filename_ok f : In f config_filenames -> ok_comp f = true.
Proof. cbn. intros [<-|[<-|[]]]; reflexivity. Qed.
Lemma join_filename cs f : ok_comps cs -> In f config_filenames -> path_join [abs_path cs; f] = abs_path (cs ++ [f]).
Proof. intros H Hf. apply (path_join_abs_ok cs [f]); [assumption|constructor; [now apply filename_ok|constructor]|discriminate]. Qed.
Lemma candidates_eq cs : ok_comps cs -> map (fun f => path_join [abs_path cs; f]) config_filenames = config_paths cs.
Proof.
  intros H. unfold config_filenames, config_paths. cbn [map].
  rewrite !join_filename by (assumption || (cbn; auto)). reflexivity.
Qed.
Lemma config_paths_differ cs : ok_comps cs -> abs_path (cs ++ ["prototool.yaml"]) <> abs_path (cs ++ ["prototool.json"]).
Proof.
  intros H E. apply abs_path_inj in E.
  - apply app_inv_head in E. discriminate.
  - apply ok_comps_app; split; [assumption|constructor; [reflexivity|constructor]].
  - apply ok_comps_app; split; [assumption|constructor; [reflexivity|constructor]].
Qed.
Lemma config_path_nonempty cs p : In p (config_paths cs) -> p <> "".
Proof. cbn. intros [<-|[<-|[]]]; discriminate. Qed.

Section Discovery.
  Variable ex : string -> bool.
  Lemma single_spec cs : ok_comps cs ->
    match get_single_file_path_for_dir ex (abs_path cs) with
    | Ok "" => no_config ex cs
    | Ok p => the_config ex cs p
    | Err _ => two_configs ex cs
    end.
  Proof.
    intros H. unfold get_single_file_path_for_dir. rewrite candidates_eq by assumption.
    unfold no_config, the_config, two_configs, config_paths.
    pose proof (config_paths_differ cs H) as D.
    cbn [filter In].
    destruct (ex (abs_path (cs ++ ["prototool.yaml"]))) eqn:E1;
    destruct (ex (abs_path (cs ++ ["prototool.json"]))) eqn:E2.
    - intros p [<-|[<-|[]]]; assumption.
    - change (abs_path (cs ++ ["prototool.yaml"])) with (String "/" (join "/" (cs ++ ["prototool.yaml"]))) at 1.
      cbv iota. split; [now left|]. split; [exact E1|]. intros q [<-|[<-|[]]] Hq; [reflexivity|congruence].
    - change (abs_path (cs ++ ["prototool.json"])) with (String "/" (join "/" (cs ++ ["prototool.json"]))) at 1.
      cbv iota. split; [right; now left|]. split; [exact E2|]. intros q [<-|[<-|[]]] Hq; [congruence|reflexivity].
    - intros p [<-|[<-|[]]]; assumption.
  Qed.
  (** The outcome of the search, over the components of the directory, deepest first. *)
  Lemma loop_spec n : forall cs, ok_comps cs -> length cs < n ->
    match file_path_loop ex n (abs_path cs) with
    | Ok "" => forall a b, cs = a ++ b -> no_config ex a
    | Ok p => exists a, nearest ex cs a /\ the_config ex a p
    | Err _ => exists a, nearest ex cs a /\ two_configs ex a
    end.
  Proof.
    induction n as [|n IH]; intros cs H L; [lia|]. cbn [file_path_loop].
    pose proof (single_spec cs H) as S1.
    destruct (get_single_file_path_for_dir ex (abs_path cs)) as [p|m] eqn:E; cbn [bind].
    2:{ exists cs. split; [|assumption]. exists []. rewrite app_nil_r. split; [reflexivity|]. split.
        - intros N. specialize (S1 _ (or_introl eq_refl)). rewrite N in S1 by (now left). discriminate.
        - intros b1 b2 Eb Hb. symmetry in Eb. apply app_eq_nil in Eb as [-> _]. contradiction. }
    destruct p as [|c p].
    - cbn [is_empty negb].
      destruct (String.eqb (abs_path cs) "/") eqn:E2.
      + apply String.eqb_eq in E2. destruct cs as [|x cs].
        * intros a b Hab. symmetry in Hab. apply app_eq_nil in Hab as [-> _]. assumption.
        * exfalso. apply (abs_path_inj (x :: cs) [] H) in E2; [discriminate|constructor].
      + apply seqb_neq in E2. destruct cs as [|x cs] using rev_ind; [now contradiction E2|]. clear IHcs.
        apply ok_comps_app in H as [H1 H2]. inversion H2 as [|? ? Hx _]; subst.
        rewrite path_dir_abs by assumption. rewrite app_length in L. cbn in L.
        specialize (IH cs H1 ltac:(lia)).
        assert (forall a, nearest ex cs a -> nearest ex (cs ++ [x]) a) as Up.
        { intros a (b & -> & N & F). exists (b ++ [x]). rewrite app_assoc. split; [reflexivity|]. split; [assumption|].
          intros b1 b2 Eb Hb. destruct b2 as [|y b2] using rev_ind.
          - rewrite app_nil_r in Eb. subst b1. rewrite app_assoc. exact S1.
          - clear IHb2. rewrite app_assoc in Eb. apply app_inj_tail in Eb as [Eb _]. eapply F; eassumption. }
        destruct (file_path_loop ex n (abs_path cs)) as [p|m].
        * destruct p as [|c p].
          -- intros a b Hab. destruct b as [|y b] using rev_ind.
             ++ rewrite app_nil_r in Hab. subst a. assumption.
             ++ clear IHb. rewrite app_assoc in Hab. apply app_inj_tail in Hab as [Hab _]. eapply IH; eassumption.
          -- destruct IH as (a & N & T). eauto.
        * destruct IH as (a & N & T). eauto.
    - cbn [is_empty negb]. exists cs. split; [|assumption]. exists []. rewrite app_nil_r. split; [reflexivity|]. split.
      + intros N. destruct S1 as (S1 & S2 & _). rewrite N in S2 by assumption. discriminate.
      + intros b1 b2 Eb Hb. symmetry in Eb. apply app_eq_nil in Eb as [-> _]. contradiction.
  Qed.
  Lemma abs_length cs : ok_comps cs -> length cs < S (String.length (abs_path cs)).
  Proof.
    intros H. unfold abs_path. rewrite slength_app. cbn [String.length].
    enough (length cs <= S (String.length (join "/" cs))) by lia.
    induction H as [|x l Hx Hl IH]; [cbn; lia|]. destruct l as [|y l]; [cbn; lia|].
    rewrite join_cons2, !slength_app. cbn [length String.length] in *.
    apply ok_comp_inv in Hx as (Hx & _). destruct x; [easy|]. cbn [String.length]. lia.
  Qed.
  Theorem discovery dir cs : is_abs dir = true -> ok_comps cs -> path_clean dir = abs_path cs ->
    match get_file_path_for_dir ex dir with
    | Ok "" => forall a b, cs = a ++ b -> no_config ex a
    | Ok p => exists a, nearest ex cs a /\ the_config ex a p
    | Err _ => exists a, nearest ex cs a /\ two_configs ex a
    end.
  Proof.
    intros Ha H E. unfold get_file_path_for_dir. rewrite Ha. cbn [negb]. rewrite E.
    apply loop_spec; [assumption|now apply abs_length].
  Qed.
End Discovery.

(** Only the configuration files at or above the directory matter. *)
Lemma single_ext ex ex' cs : ok_comps cs -> (forall p, In p (config_paths cs) -> ex p = ex' p) ->
  get_single_file_path_for_dir ex (abs_path cs) = get_single_file_path_for_dir ex' (abs_path cs).
Proof.
  intros H E. unfold get_single_file_path_for_dir. rewrite candidates_eq by assumption.
  unfold config_paths in *. cbn [filter]. rewrite !E by (cbn; auto). reflexivity.
Qed.
Lemma loop_ext ex ex' n : forall cs, ok_comps cs ->
  (forall a b p, cs = a ++ b -> In p (config_paths a) -> ex p = ex' p) ->
  file_path_loop ex n (abs_path cs) = file_path_loop ex' n (abs_path cs).
Proof.
  induction n as [|n IH]; intros cs H E; [reflexivity|]. cbn [file_path_loop].
  rewrite (single_ext ex ex' cs H) by (intros p Hp; apply (E cs [] p); [now rewrite app_nil_r|assumption]).
  destruct (get_single_file_path_for_dir ex' (abs_path cs)) as [p|]; [|reflexivity]. cbn [bind].
  destruct (negb (is_empty p)); [reflexivity|].
  destruct (String.eqb (abs_path cs) "/") eqn:E2; [reflexivity|].
  destruct cs as [|x cs] using rev_ind; [discriminate E2|]. clear IHcs.
  apply ok_comps_app in H as [H1 H2]. inversion H2; subst. rewrite path_dir_abs by assumption.
  apply IH; [assumption|]. intros a b q -> Hq. apply (E a (b ++ [x])); [now rewrite app_assoc|assumption].
Qed.
Theorem discovery_local ex ex' dir cs : is_abs dir = true -> ok_comps cs -> path_clean dir = abs_path cs ->
  (forall a b p, cs = a ++ b -> In p (config_paths a) -> ex p = ex' p) ->
  get_file_path_for_dir ex dir = get_file_path_for_dir ex' dir.
Proof.
  intros Ha H E L. unfold get_file_path_for_dir. rewrite Ha. cbn [negb]. rewrite E. now apply loop_ext.
Qed.

(** ** Paths *)
Lemma abs_neq_nil dir : clean_abs dir -> is_empty dir = false.
Proof. intros (cs & _ & ->). reflexivity. Qed.
Lemma is_abs_slash dir p : clean_abs dir -> is_abs (dir +++ p) = true.
Proof. intros (cs & _ & ->). reflexivity. Qed.
Lemma join_against dir p : clean_abs dir -> path_join [dir; p] = path_clean (dir +++ "/" +++ p).
Proof. intros H. unfold path_join. rewrite abs_neq_nil by assumption. reflexivity. Qed.
Lemma resolve_against dir p : clean_abs dir -> resolve dir p = against dir p.
Proof.
  intros H. unfold resolve, against. destruct (is_abs p); [reflexivity|].
  rewrite join_against by assumption. apply path_clean_idem_abs. now apply is_abs_slash.
Qed.
Lemma against_clean dir p : clean_abs dir -> clean_abs (against dir p).
Proof.
  intros H. unfold against. apply path_clean_clean_abs. destruct (is_abs p) eqn:E; [assumption|now apply is_abs_slash].
Qed.
Lemma path_rel_not_abs a b r : ok_comps a -> ok_comps b -> path_rel (abs_path a) (abs_path b) = Ok r -> is_abs r = false.
Proof.
  intros Ha Hb. rewrite path_rel_abs by assumption.
  destruct (list_eq_dec string_dec a b) as [->|Hne]; intros H; injection H as <-; [reflexivity|].
  destruct (strip_common_spec a b) as (c & E1 & E2).
  set (ra := fst (strip_common a b)) in *. set (rb := snd (strip_common a b)) in *.
  assert (ok_comps rb) as Hrb by (rewrite E2 in Hb; now apply ok_comps_app in Hb).
  destruct ra as [|x ra]; cbn [dotdots map app].
  - destruct rb as [|y rb]; [reflexivity|]. inversion Hrb as [|? ? Hy _]; subst.
    assert (is_abs (join "/" (y :: rb)) = is_abs y) as ->.
    { destruct rb as [|z rb]; [reflexivity|]. rewrite join_cons2.
      apply ok_comp_inv in Hy as (Hy & _). destruct y; [easy|]. reflexivity. }
    unfold is_abs. apply has_prefix_false. intros r ->.
    apply ok_comp_inv in Hy as (_ & _ & _ & Hs). discriminate Hs.
  - match goal with |- is_abs (join _ (_ :: ?l)) = _ => destruct l end; reflexivity.
Qed.

(** ** Lists of entries *)
Lemma sort_uniq_In x l : In x (sort_uniq l) <-> x <> "" /\ In x l.
Proof.
  unfold sort_uniq. rewrite (proj2 (sort_uniq_modify_spec _ _)). split.
  - intros [H (y & Hy & ->)]. auto.
  - intros [H Hy]. eauto.
Qed.
Lemma exclude_prefixes_ok es dir l : clean_abs dir -> get_exclude_prefixes es dir = Ok l ->
  (forall x, In x es -> x <> "" -> exclude_ok dir x) /\ paths_of dir es l.
Proof.
  intros Hd H. apply mapM_ok in H.
  assert (forall x p, (if String.eqb (resolve dir x) dir then Err ("cannot exclude directory of config file: " +++ dir)
     else if negb (has_prefix (resolve dir x) dir) then
      Err ("cannot exclude directory outside of config file directory " +++ dir +++ ": " +++ resolve dir x)
     else Ok (resolve dir x)) = Ok p -> exclude_ok dir x /\ p = against dir x) as K.
  { intros x p. rewrite resolve_against by assumption.
    destruct (String.eqb (against dir x) dir) eqn:E1; [discriminate|].
    destruct (has_prefix (against dir x) dir) eqn:E2; [|discriminate].
    cbn [negb]. intros H1; injection H1 as <-. split; [|reflexivity].
    apply has_prefix_spec in E2 as (r & E2). exists r. split; [|assumption]. intros ->.
    rewrite sapp_nil_r in E2. apply seqb_neq in E1. contradiction. }
  split.
  - intros x Hx Hn. assert (In x (sort_uniq es)) as Hs by (apply sort_uniq_In; auto).
    destruct (Forall2_In_l _ _ _ _ H Hs) as (p & _ & E). apply K in E. tauto.
  - intros p. split.
    + intros Hp. destruct (Forall2_In_r _ _ _ _ H Hp) as (x & Hx & E). apply K in E as [_ ->].
      apply sort_uniq_In in Hx. exists x. tauto.
    + intros (x & Hx & Hn & ->). assert (In x (sort_uniq es)) as Hs by (apply sort_uniq_In; auto).
      destruct (Forall2_In_l _ _ _ _ H Hs) as (p & Hp & E). apply K in E as [_ ->]. assumption.
Qed.
Lemma exclude_prefixes_total es dir : clean_abs dir ->
  (forall x, In x es -> x <> "" -> exclude_ok dir x) -> exists l, get_exclude_prefixes es dir = Ok l.
Proof.
  intros Hd H. apply mapM_total. intros x Hx. apply sort_uniq_In in Hx as [Hn Hx].
  destruct (H x Hx Hn) as (r & Hr & E). cbv zeta. rewrite resolve_against by assumption.
  destruct (String.eqb (against dir x) dir) eqn:E1.
  - apply String.eqb_eq in E1. exfalso. apply Hr. rewrite E1 in E.
    rewrite <- (sapp_nil_r dir) in E at 1. apply sapp_inj_l in E. now symmetry.
  - assert (has_prefix (against dir x) dir = true) as -> by (rewrite E; apply has_prefix_app). cbn [negb]. eauto.
Qed.
Lemma includes_ok es dir : clean_abs dir -> paths_of dir es (map (resolve dir) (sort_uniq es)).
Proof.
  intros Hd p. rewrite in_map_iff. split.
  - intros (x & <- & Hx). apply sort_uniq_In in Hx. exists x. rewrite resolve_against by assumption. tauto.
  - intros (x & Hx & Hn & ->). exists x. rewrite resolve_against by assumption. split; [reflexivity|].
    now apply sort_uniq_In.
Qed.
Lemma ids_ok es : ids_of es (sort_uniq_modify to_upper es).
Proof. apply sort_uniq_modify_spec. Qed.

(** ** Ignores *)
Lemma files_for_app dir id a b : files_for dir id (a ++ b) = files_for dir id a ++ files_for dir id b.
Proof. unfold files_for. now rewrite filter_app, map_app, concat_app. Qed.
Definition mget (id : string) (m : list (string * list string)) : list string :=
  match gget id m with Some l => l | None => [] end.
(** No key without files. *)
Definition no_empty (m : list (string * list string)) : Prop := forall id l, gget id m = Some l -> l <> [].
Lemma inner_ignores dir id fs : clean_abs dir -> forall m, NoDup (map fst m) -> no_empty m ->
  let m' := fold_left (fun m f => gput id (match gget id m with Some l => l | None => [] end ++ [resolve dir f]) m) fs m in
  NoDup (map fst m') /\ no_empty m' /\
  forall k, mget k m' = mget k m ++ (if String.eqb k id then map (against dir) fs else []).
Proof.
  intros Hd. induction fs as [|f fs IH]; intros m N E; cbn [fold_left]; cbv zeta.
  - split; [assumption|]. split; [assumption|]. intros k. destruct (String.eqb k id); now rewrite app_nil_r.
  - set (m1 := gput id _ m).
    assert (NoDup (map fst m1)) as N1 by (now apply gput_NoDup).
    assert (forall k, mget k m1 = mget k m ++ (if String.eqb k id then [against dir f] else [])) as G.
    { intros k. unfold mget, m1. destruct (String.eqb k id) eqn:Ek.
      - apply String.eqb_eq in Ek. subst k. rewrite gget_gput_eq. now rewrite resolve_against.
      - apply seqb_neq in Ek. rewrite gget_gput_neq by assumption. now rewrite app_nil_r. }
    assert (no_empty m1) as E1.
    { intros k l Hk. unfold m1 in Hk. destruct (String.eqb k id) eqn:Ek.
      - apply String.eqb_eq in Ek. subst k. rewrite gget_gput_eq in Hk. injection Hk as <-. now destruct (match gget id m with Some l => l | None => [] end).
      - apply seqb_neq in Ek. rewrite gget_gput_neq in Hk by assumption. eapply E; eassumption. }
    destruct (IH m1 N1 E1) as (A & B & C). split; [assumption|]. split; [assumption|].
    intros k. rewrite C, G, <- app_assoc. f_equal. destruct (String.eqb k id); reflexivity.
Qed.
Lemma outer_ignores dir is : clean_abs dir -> forall m, NoDup (map fst m) -> no_empty m ->
  let m' := fold_left (fun m i =>
      fold_left (fun m f =>
        let id := to_upper (ei_id i) in
        gput id (match gget id m with Some l => l | None => [] end ++ [resolve dir f]) m) (ei_files i) m) is m in
  NoDup (map fst m') /\ no_empty m' /\ forall k, mget k m' = mget k m ++ files_for dir k is.
Proof.
  intros Hd. induction is as [|i is IH]; intros m N E; cbn [fold_left]; cbv zeta.
  - split; [assumption|]. split; [assumption|]. intros k. now rewrite app_nil_r.
  - destruct (inner_ignores dir (to_upper (ei_id i)) (ei_files i) Hd m N E) as (A & B & C).
    destruct (IH _ A B) as (A' & B' & C'). split; [exact A'|]. split; [exact B'|].
    intros k. etransitivity; [exact (C' k)|]. rewrite C, <- app_assoc. f_equal.
    unfold files_for at 2. cbn [filter]. rewrite String.eqb_sym.
    destruct (String.eqb (to_upper (ei_id i)) k); reflexivity.
Qed.
Lemma ignores_ok dir is : clean_abs dir -> ignores_of dir is (convert_ignores dir is).
Proof.
  intros Hd. destruct (outer_ignores dir is Hd [] (NoDup_nil _) ltac:(intros k l Hk; discriminate Hk)) as (A & B & C).
  change (NoDup (map fst (convert_ignores dir is))) in A. change (no_empty (convert_ignores dir is)) in B.
  change (forall k, mget k (convert_ignores dir is) = mget k [] ++ files_for dir k is) in C. split; [exact A|]. intros id files.
  specialize (C id). change (mget id []) with (@nil string) in C. cbn [app] in C.
  split.
  - intros H. apply In_gget in H; [|assumption]. unfold mget in C. rewrite H in C. split; [|assumption].
    eapply B; eassumption.
  - intros [Hn ->]. unfold mget in C. destruct (gget id (convert_ignores dir is)) as [l|] eqn:E.
    + apply gget_In in E. now rewrite <- C.
    + now symmetry in C.
Qed.

(** ** Packages *)
Lemma convert_package_ok dir p d n : clean_abs dir -> convert_package dir p = Ok (d, n) ->
  package_ok p /\ d = against dir (ep_directory p) /\ n = ep_name p.
Proof.
  intros Hd. unfold convert_package.
  destruct (is_empty (ep_directory p)) eqn:E1; [discriminate|]. apply is_empty_false in E1.
  destruct (is_empty (ep_name p)) eqn:E2; [discriminate|]. apply is_empty_false in E2.
  destruct (is_abs (ep_directory p)) eqn:E3; [discriminate|]. intros H; injection H as <- <-.
  split; [split; [|split]; assumption|]. split; [|reflexivity].
  rewrite <- (resolve_against dir) by assumption. unfold resolve. now rewrite E3.
Qed.
Lemma convert_package_total dir p : package_ok p -> exists r, convert_package dir p = Ok r.
Proof.
  intros (A & B & C). unfold convert_package.
  destruct (is_empty (ep_directory p)) eqn:E1; [now apply is_empty_true in E1|].
  destruct (is_empty (ep_name p)) eqn:E2; [now apply is_empty_true in E2|]. rewrite C. eauto.
Qed.
Lemma gget_rev_last (l : list (string * string)) d n : gget d (rev l) = Some n <->
  exists a b, l = a ++ (d, n) :: b /\ ~ In d (map fst b).
Proof.
  induction l as [|[d' n'] l IH] using rev_ind.
  - cbn. split; [discriminate|]. intros (a & b & E & _). destruct a; discriminate.
  - rewrite rev_app_distr. cbn [rev app gget]. destruct (keqb d d') eqn:E.
    + apply String.eqb_eq in E. subst d'. split.
      * intros H; injection H as ->. exists l, []. cbn. tauto.
      * intros (a & b & E & N). destruct b as [|y b] using rev_ind.
        -- apply app_inj_tail in E as [_ E]. now injection E as ->.
        -- clear IHb. exfalso. apply N. rewrite app_comm_cons, app_assoc in E. apply app_inj_tail in E as [_ <-].
           rewrite map_app. apply in_or_app. right. now left.
    + apply seqb_neq in E. rewrite IH. split.
      * intros (a & b & -> & N). exists a, (b ++ [(d', n')]). split; [now rewrite <- app_assoc|].
        rewrite map_app. intros F. apply in_app_or in F as [F|[F|[]]]; [contradiction|]. cbn in F. now symmetry in F.
      * intros (a & b & E2 & N). destruct b as [|y b] using rev_ind.
        -- apply app_inj_tail in E2 as [_ E2]. injection E2 as <- <-. contradiction.
        -- clear IHb. rewrite app_comm_cons, app_assoc in E2. apply app_inj_tail in E2 as [-> _].
           exists a, b. split; [reflexivity|]. intros F. apply N. rewrite map_app. apply in_or_app. now left.
Qed.
Lemma Forall2_split {A B} (R : A -> B -> Prop) l r1 y r2 : Forall2 R l (r1 ++ y :: r2) ->
  exists l1 x l2, l = l1 ++ x :: l2 /\ Forall2 R l1 r1 /\ R x y /\ Forall2 R l2 r2.
Proof.
  intros H. apply Forall2_app_inv_r in H as (l1 & l2 & H1 & H2 & ->). inversion H2; subst. eauto 8.
Qed.
Lemma Forall2_split_l {A B} (R : A -> B -> Prop) l1 x l2 r : Forall2 R (l1 ++ x :: l2) r ->
  exists r1 y r2, r = r1 ++ y :: r2 /\ Forall2 R l1 r1 /\ R x y /\ Forall2 R l2 r2.
Proof.
  intros H. apply Forall2_app_inv_l in H as (r1 & r2 & H1 & H2 & ->). inversion H2; subst. eauto 8.
Qed.
Lemma packages_ok dir ps l : clean_abs dir -> mapM (convert_package dir) ps = Ok l ->
  (forall p, In p ps -> package_ok p) /\ packages_of dir ps (build l).
Proof.
  intros Hd H. apply mapM_ok in H.
  assert (forall p d n, convert_package dir p = Ok (d, n) -> package_ok p /\ d = against dir (ep_directory p) /\ n = ep_name p) as K
    by (intros; now apply convert_package_ok).
  split.
  - intros p Hp. destruct (Forall2_In_l _ _ _ _ H Hp) as ([d n] & _ & E). now apply K in E.
  - split; [apply build_NoDup|]. intros d n. rewrite build_In, gget_rev_last. split.
    + intros (a & b & -> & N). apply Forall2_split in H as (l1 & p & l2 & -> & _ & Hp & H2).
      apply K in Hp as (_ & -> & ->). exists l1, p, l2. split; [reflexivity|]. split; [reflexivity|]. split; [reflexivity|].
      intros q Hq E. apply N. destruct (Forall2_In_l _ _ _ _ H2 Hq) as ([d n] & Hin & Eq). apply K in Eq as (_ & -> & ->).
      rewrite <- E. apply (in_map fst) in Hin. exact Hin.
    + intros (a & p & b & -> & -> & -> & N). apply Forall2_split_l in H as (r1 & [d n] & r2 & -> & _ & Hp & H2).
      apply K in Hp as (_ & -> & ->). exists r1, r2. split; [reflexivity|].
      intros F. apply in_map_iff in F as ([d n] & Ed & Hin). cbn in Ed. subst d.
      destruct (Forall2_In_r _ _ _ _ H2 Hin) as (q & Hq & Eq). apply K in Eq as (_ & Eq & _).
      now apply (N q Hq).
Qed.

(** ** The file header *)
Lemma blank_iff s : blank s <-> trim_space s = "".
Proof.
  unfold blank. split.
  - intros H. apply trim_space_nil. induction s as [|c s IH]; [reflexivity|]. cbn [sforall].
    rewrite (H c) by (exists EmptyString, s; reflexivity). cbn [andb]. apply IH. intros c' (a & b & ->).
    apply H. exists (String c a), b. reflexivity.
  - intros H c (a & b & ->). unfold trim_space in H.
    assert (forall t, trim_left is_space t = "" -> sforall is_space t = true) as L.
    { induction t as [|x t IH]; [reflexivity|]. cbn. destruct (is_space x); [auto|discriminate]. }
    assert (forall t, trim_right is_space t = "" -> sforall is_space t = true) as R.
    { intros t E. destruct (trim_right_spec is_space t) as (p & E1 & E2). rewrite E in E1. cbn in E1. now subst. }
    assert (sforall is_space (a +++ String c b) = true) as G.
    { first [apply L in H | apply R in H].
      match goal with H : sforall is_space (trim_left _ ?t) = true |- _ => destruct (trim_left_spec is_space t) as (p & E1 & E2); rewrite E1, sforall_app, E2, H; reflexivity
      | H : sforall is_space (trim_right _ ?t) = true |- _ => destruct (trim_right_spec is_space t) as (p & E1 & E2); rewrite E1, sforall_app, E2, H; reflexivity end. }
    rewrite sforall_app in G. apply andb_true_iff in G as [_ G]. cbn in G. now apply andb_true_iff in G.
Qed.
Definition header_line (commented : bool) (l : string) : string :=
  if commented then trim_space l else match trim_space l with EmptyString => "//" | t => "// " +++ t end.
Lemma header_lines_eq text (commented : bool) :
  (let lines := file_header_lines text in if commented then lines else map comment_line lines)
  = map (header_line commented) (split_char newline (trim_space text)).
Proof.
  unfold file_header_lines, header_line. cbv zeta. destruct commented; [reflexivity|].
  rewrite map_map. apply map_ext. intros l. unfold comment_line. destruct (trim_space l); reflexivity.
Qed.
Lemma header_of_lines text commented :
  header_of text commented (join (String newline EmptyString) (map (header_line commented) (split_char newline (trim_space text)))).
Proof.
  exists (split_char newline (trim_space text)). split; [symmetry; apply join_split|].
  split; [apply split_char_parts|]. split; [apply split_char_nonnil|reflexivity].
Qed.
Lemma join_nl_nil ls : ls <> [] -> join (String newline EmptyString) ls = "" -> ls = [""].
Proof.
  destruct ls as [|x [|y ls]]; intros H E; [easy|cbn in E; now subst|].
  rewrite join_cons2 in E. destruct x; discriminate E.
Qed.
Lemma header_empty text commented :
  join (String newline EmptyString) (map (header_line commented) (split_char newline (trim_space text))) = "" <->
  commented = true /\ blank text.
Proof.
  rewrite blank_iff. split.
  - intros E. apply join_nl_nil in E; [|intros N; apply map_eq_nil in N; now apply split_char_nonnil in N].
    pose proof (join_split newline (trim_space text)) as J.
    destruct (split_char newline (trim_space text)) as [|x [|y l]]; try discriminate E.
    cbn [map] in E. injection E as E. cbn [join] in J. subst x. unfold header_line in E.
    destruct commented.
    + split; [reflexivity|]. now rewrite trim_space_idem in E.
    + destruct (trim_space (trim_space text)); discriminate E.
  - intros [-> E]. rewrite E. reflexivity.
Qed.
Lemma header_ok_lemma read dir h s : clean_abs dir -> convert_header read dir h = Ok s ->
  header_ok read dir h /\
  ((eh_path h = "" /\ eh_content h = "" /\ s = "")
   \/ exists text, header_text read dir h text /\ header_of text (eh_is_commented h) s /\ s <> "").
Proof.
  intros Hd. unfold convert_header.
  destruct (is_empty (eh_path h)) eqn:E1; destruct (is_empty (eh_content h)) eqn:E2; cbn [andb negb].
  - apply is_empty_true in E1, E2. intros H; injection H as <-. split; [left; auto|left; auto].
  - apply is_empty_true in E1. apply is_empty_false in E2. cbn [bind]. rewrite header_lines_eq.
    destruct (is_empty (join _ _)) eqn:E3; [discriminate|]. apply is_empty_false in E3.
    intros H; injection H as <-.
    assert (header_text read dir h (eh_content h)) as T by (left; auto).
    split; right; exists (eh_content h); split; auto.
    + intros C B. apply E3. apply header_empty. auto.
    + split; [apply header_of_lines|assumption].
  - apply is_empty_false in E1. apply is_empty_true in E2.
    destruct (is_abs (eh_path h)) eqn:E4; [discriminate|].
    rewrite join_against by assumption.
    destruct (read (path_clean (dir +++ "/" +++ eh_path h))) as [text|] eqn:E5; [|discriminate]. cbn [bind].
    rewrite header_lines_eq.
    destruct (is_empty (join _ _)) eqn:E3; [discriminate|]. apply is_empty_false in E3.
    intros H; injection H as <-.
    assert (header_text read dir h text) as T by (right; auto).
    split; right; exists text; split; auto.
    + intros C B. apply E3. apply header_empty. auto.
    + split; [apply header_of_lines|assumption].
  - discriminate.
Qed.
Lemma header_total read dir h : clean_abs dir -> header_ok read dir h -> exists s, convert_header read dir h = Ok s.
Proof.
  intros Hd [[E1 E2]|(text & T & B)]; unfold convert_header.
  - rewrite E1, E2. cbn. eauto.
  - destruct T as [(E1 & E2 & ->)|(E1 & E2 & E3 & E4)].
    + rewrite E1. apply is_empty_false in E2. rewrite E2. cbn [is_empty andb negb bind]. rewrite header_lines_eq.
      destruct (is_empty (join _ _)) eqn:E3; [|eauto].
      apply is_empty_true, header_empty in E3 as [C Bl]. now specialize (B C).
    + apply is_empty_false in E1. rewrite E1, E2, E3. cbn [is_empty andb negb].
      rewrite join_against by assumption. rewrite E4. cbn [bind]. rewrite header_lines_eq.
      destruct (is_empty (join _ _)) eqn:E5; [|eauto].
      apply is_empty_true, header_empty in E5 as [C Bl]. now specialize (B C).
Qed.

(** ** Plugins *)
Lemma parse_type s : match parse_plugin_type s with
  | Ok t => In (to_lower s) [""; "go"; "gogo"] /\ (t = PluginNone <-> to_lower s = "") /\ (t = PluginGo <-> to_lower s = "go")
            /\ (t = PluginGogo <-> to_lower s = "gogo") /\ (is_go_type t = true <-> to_lower s <> "")
  | Err _ => ~ In (to_lower s) [""; "go"; "gogo"]
  end.
Proof.
  unfold parse_plugin_type. destruct (String.eqb (to_lower s) "") eqn:E1.
  - apply String.eqb_eq in E1. rewrite E1. cbn. intuition congruence.
  - destruct (String.eqb (to_lower s) "go") eqn:E2.
    + apply String.eqb_eq in E2. rewrite E2. cbn. intuition congruence.
    + destruct (String.eqb (to_lower s) "gogo") eqn:E3.
      * apply String.eqb_eq in E3. rewrite E3. cbn. intuition congruence.
      * apply seqb_neq in E1, E2, E3. cbn. intuition congruence.
Qed.
Definition plugin_first (p : ext_plugin) : Prop :=
  In (to_lower (xp_type p)) [""; "go"; "gogo"] /\ xp_output p <> "" /\
  (forall r, xp_file_suffix p <> "." +++ r) /\
  (xp_include_imports p = true -> xp_name p = "descriptor_set") /\
  (xp_include_source_info p = true -> xp_name p = "descriptor_set").
Lemma convert_plugin_ok look dir p g : clean_abs dir -> convert_plugin look dir p = Ok g ->
  plugin_first p /\ plugin_becomes look dir p g.
Proof.
  intros Hd. unfold convert_plugin. pose proof (parse_type (xp_type p)) as T.
  destruct (parse_plugin_type (xp_type p)) as [t|]; [|discriminate]. cbn [bind].
  destruct (is_empty (xp_output p)) eqn:E1; [discriminate|]. apply is_empty_false in E1.
  assert (exists rel, is_abs rel = false /\ against dir rel = against dir (xp_output p) /\
    (if is_abs (xp_output p) then do r <- path_rel dir (path_clean (xp_output p)); Ok (r, path_clean (xp_output p))
     else Ok (xp_output p, path_clean (path_join [dir; xp_output p]))) = Ok (rel, against dir (xp_output p))) as (rel & R1 & R2 & ->).
  { destruct (is_abs (xp_output p)) eqn:E2.
    - cbv zeta. destruct Hd as (cs & Hcs & ->).
      destruct (path_clean_clean_abs _ E2) as (os & Hos & Eo).
      destruct (path_rel (abs_path cs) (path_clean (xp_output p))) as [r|m] eqn:Er.
      + exists r. assert (is_abs r = false) as Hr by (rewrite Eo in Er; now apply path_rel_not_abs in Er).
        split; [assumption|]. cbn [bind]. unfold against. rewrite E2, Hr. split; [|reflexivity].
        rewrite <- join_against by (now exists cs). rewrite Eo in *. now apply path_join_rel.
      + exfalso. rewrite Eo, path_rel_abs in Er by assumption. destruct (list_eq_dec string_dec cs os); discriminate.
    - exists (xp_output p). split; [assumption|]. split; [reflexivity|].
      rewrite <- resolve_against by assumption. unfold resolve. now rewrite E2. }
  cbn [bind fst snd].
  destruct (has_prefix (xp_file_suffix p) ".") eqn:E3; [discriminate|].
  pose proof (proj1 (has_prefix_false _ _) E3) as E3'.
  destruct (String.eqb (xp_name p) "descriptor_set") eqn:E4; cbn [negb andb].
  - apply String.eqb_eq in E4. intros H; injection H as <-. split.
    + split; [tauto|]. auto.
    + unfold plugin_becomes. cbn. unfold plugin_path. replace (is_empty (xp_path p)) with (String.eqb (xp_path p) "")
        by (now destruct (xp_path p)). tauto.
  - destruct (xp_include_imports p) eqn:E5; [discriminate|]. destruct (xp_include_source_info p) eqn:E6; [discriminate|].
    intros H; injection H as <-. split.
    + unfold plugin_first. rewrite E5, E6. split; [tauto|]. repeat split; auto; discriminate.
    + unfold plugin_becomes. cbn. unfold plugin_path. replace (is_empty (xp_path p)) with (String.eqb (xp_path p) "")
        by (now destruct (xp_path p)). rewrite E5, E6. tauto.
Qed.
Lemma convert_plugin_total look dir p : clean_abs dir -> plugin_first p -> exists g, convert_plugin look dir p = Ok g.
Proof.
  intros Hd (T & O & S & I1 & I2). unfold convert_plugin. pose proof (parse_type (xp_type p)) as P.
  destruct (parse_plugin_type (xp_type p)) as [t|]; [|contradiction]. cbn [bind].
  apply is_empty_false in O. rewrite O.
  apply has_prefix_false in S.
  assert (exists paths, (if is_abs (xp_output p) then do r <- path_rel dir (path_clean (xp_output p)); Ok (r, path_clean (xp_output p))
     else Ok (xp_output p, path_clean (path_join [dir; xp_output p]))) = Ok paths) as (paths & ->).
  { destruct (is_abs (xp_output p)) eqn:E2; [|eauto]. cbv zeta. destruct Hd as (cs & Hcs & ->).
    destruct (path_clean_clean_abs _ E2) as (os & Hos & ->). rewrite path_rel_abs by assumption.
    destruct (list_eq_dec string_dec cs os); cbn [bind]; eauto. }
  cbn [bind]. rewrite S.
  destruct (String.eqb (xp_name p) "descriptor_set") eqn:E4; cbn [negb andb]; [eauto|].
  apply seqb_neq in E4.
  destruct (xp_include_imports p); [now specialize (I1 eq_refl)|].
  destruct (xp_include_source_info p); [now specialize (I2 eq_refl)|]. eauto.
Qed.
Lemma validate_plugin_ok imp g : validate_plugin imp g = Ok tt <->
  (forall r, gp_name g <> "protoc-gen-" +++ r) /\ (is_go_type (gp_type g) = true -> imp <> "").
Proof.
  unfold validate_plugin. rewrite <- has_prefix_false.
  destruct (has_prefix (gp_name g) "protoc-gen-"); [split; [discriminate|intros [H _]; discriminate]|].
  destruct (is_go_type (gp_type g)); cbn [andb].
  - destruct (is_empty imp) eqn:E.
    + apply is_empty_true in E. split; [discriminate|]. intros [_ H]. now specialize (H eq_refl).
    + apply is_empty_false in E. tauto.
  - split; [|reflexivity]. intros _. split; [reflexivity|discriminate].
Qed.
Lemma becomes_go look dir p g : plugin_becomes look dir p g -> (is_go_type (gp_type g) = true <-> to_lower (xp_type p) <> "").
Proof.
  intros (_ & _ & _ & _ & _ & T & _). destruct (gp_type g); cbn; [split; [discriminate|]|split; [|reflexivity]|split; [|reflexivity]].
  - intros H. exfalso. apply H. now apply T.
  - intros _ H. apply T in H. discriminate.
  - intros _ H. apply T in H. discriminate.
Qed.

(** ** The whole conversion *)
Section Convert.
  Variable read look : string -> result string.
  Variable sort : list gen_plugin -> list gen_plugin.
  Variable devel : bool.
  Hypothesis Sort : sorts sort.
  Theorem accepted e dir c : clean_abs dir -> external_config_to_config read look sort devel e dir = Ok c ->
    acceptable read devel e dir /\ becomes read look e dir c.
  Proof.
    intros Hd. unfold external_config_to_config.
    destruct (get_exclude_prefixes (x_excludes e) dir) as [exs|] eqn:E1; [|discriminate]. cbn [bind].
    apply exclude_prefixes_ok in E1 as [E1 E1']; [|assumption].
    destruct (mapM (convert_plugin look dir) (x_plugins e)) as [pl|] eqn:E2; [|discriminate]. cbn [bind].
    apply mapM_ok in E2.
    destruct (mapM (convert_package dir) (x_packages e)) as [pk|] eqn:E3; [|discriminate]. cbn [bind].
    apply packages_ok in E3 as [E3 E3']; [|assumption].
    destruct (convert_header read dir (x_header e)) as [h|] eqn:E4; [|discriminate]. cbn [bind].
    apply header_ok_lemma in E4 as [E4 E4']; [|assumption].
    destruct (negb devel && x_allow_suppression e) eqn:E5; [discriminate|].
    destruct (mapM (validate_plugin (x_import_path e)) (sort pl)) as [us|] eqn:E6; [|discriminate]. cbn [bind].
    apply mapM_ok in E6.
    destruct (intersection (sort_uniq_modify to_upper (x_add e)) (sort_uniq_modify to_upper (x_remove e))) as [|z zs] eqn:E7; [|discriminate].
    intros H; injection H as <-.
    destruct (Sort pl) as [Sp Ss].
    split; constructor.
    - exact E1.
    - intros p Hp. destruct (Forall2_In_l _ _ _ _ E2 Hp) as (g & Hg & Eg). apply convert_plugin_ok in Eg as [F B]; [|assumption].
      assert (In g (sort pl)) as Hs by (eapply Permutation_in; eassumption).
      destruct (Forall2_In_l _ _ _ _ E6 Hs) as ([] & _ & V). apply validate_plugin_ok in V as [V1 V2].
      destruct F as (F1 & F2 & F3 & F4 & F5).
      pose proof (proj2 (becomes_go _ _ _ _ B)) as G. destruct B as (Bn & _). rewrite Bn in V1.
      repeat (split; [solve [auto]|]). auto.
    - exact E3.
    - exact E4.
    - intros A. rewrite A, andb_true_r in E5. now apply negb_false_iff in E5.
    - intros i j Hi Hj Hn E.
      assert (to_upper i <> "") as Hu by (now destruct i).
      assert (In (to_upper i) (intersection (sort_uniq_modify to_upper (x_add e)) (sort_uniq_modify to_upper (x_remove e)))) as F.
      { apply intersection_spec. split; [assumption|]. split; apply sort_uniq_modify_spec; split; eauto. }
      rewrite E7 in F. destruct F.
    - reflexivity.
    - exact E1'.
    - cbn. repeat (split; [reflexivity|]). now apply includes_ok.
    - exact E3'.
    - cbn. split; [reflexivity|]. split; [reflexivity|]. split; [apply ids_ok|]. split; [apply ids_ok|].
      split; [now apply ignores_ok|]. split; reflexivity.
    - cbn. destruct E4' as [(A & B & ->)|(t & A & B & C)]; [left; auto|right; eauto].
    - split; reflexivity.
    - cbn. split; [reflexivity|]. split; [reflexivity|]. split; [exact Ss|]. exists pl. split; [exact Sp|].
      eapply Forall2_impl_In; [exact E2|]. intros x y _ _ Hxy. apply convert_plugin_ok in Hxy; tauto.
  Qed.
  Theorem acceptable_accepted e dir : clean_abs dir -> acceptable read devel e dir ->
    exists c, external_config_to_config read look sort devel e dir = Ok c.
  Proof.
    intros Hd A. unfold external_config_to_config.
    destruct (exclude_prefixes_total (x_excludes e) dir Hd (ac_excludes _ _ _ _ A)) as (exs & ->). cbn [bind].
    destruct (mapM_total (convert_plugin look dir) (x_plugins e)) as (pl & E2).
    { intros p Hp. apply convert_plugin_total; [assumption|]. destruct (ac_plugins _ _ _ _ A p Hp) as (B1 & B2 & B3 & B4 & B5 & B6 & B7).
      repeat split; auto. }
    rewrite E2. cbn [bind]. apply mapM_ok in E2.
    destruct (mapM_total (convert_package dir) (x_packages e)) as (pk & ->).
    { intros p Hp. apply convert_package_total. now apply (ac_packages _ _ _ _ A). }
    cbn [bind].
    destruct (header_total read dir (x_header e) Hd (ac_header _ _ _ _ A)) as (h & ->). cbn [bind].
    destruct (negb devel && x_allow_suppression e) eqn:E5.
    { apply andb_true_iff in E5 as [E5 E5']. rewrite (ac_suppression _ _ _ _ A E5') in E5. discriminate. }
    destruct (mapM_total (validate_plugin (x_import_path e)) (sort pl)) as (us & ->).
    { intros g Hg. exists tt. apply validate_plugin_ok.
      assert (In g pl) as Hp by (eapply Permutation_in; [symmetry; apply Sort|exact Hg]).
      destruct (Forall2_In_r _ _ _ _ E2 Hp) as (p & Hpp & Eg). apply convert_plugin_ok in Eg as [_ B]; [|assumption].
      pose proof (becomes_go _ _ _ _ B) as G. destruct B as (Bn & _). rewrite Bn.
      destruct (ac_plugins _ _ _ _ A p Hpp) as (B1 & B2 & B3 & B4 & B5 & B6 & B7). split; [assumption|].
      intros H. apply B2, G, H. }
    cbn [bind].
    destruct (intersection _ _) as [|z zs] eqn:E7; [eauto|]. exfalso.
    assert (In z (intersection (sort_uniq_modify to_upper (x_add e)) (sort_uniq_modify to_upper (x_remove e)))) as F by (rewrite E7; now left).
    apply intersection_spec in F as (Fn & F1 & F2).
    apply sort_uniq_modify_spec in F1 as (_ & i & Hi & Ei). apply sort_uniq_modify_spec in F2 as (_ & j & Hj & Ej).
    apply (ac_disjoint _ _ _ _ A i j Hi Hj); [|congruence]. intros ->. now subst z.
  Qed.
End Convert.

(** ** Consequences *)
Lemma trim_space_no_char c s : no_char c s = true -> no_char c (trim_space s) = true.
Proof.
  intros H. unfold trim_space.
  assert (forall t, no_char c t = true -> no_char c (trim_left is_space t) = true) as L.
  { intros t Ht. destruct (trim_left_spec is_space t) as (p & E & _). rewrite E, no_char_app in Ht. now apply andb_true_iff in Ht. }
  assert (forall t, no_char c t = true -> no_char c (trim_right is_space t) = true) as R.
  { intros t Ht. destruct (trim_right_spec is_space t) as (p & E & _). rewrite E, no_char_app in Ht. now apply andb_true_iff in Ht. }
  auto.
Qed.
Lemma header_split text commented header : header_of text commented header ->
  split_char newline header = map (header_line commented) (split_char newline (trim_space text)).
Proof.
  intros (raw & E & F & N & ->). rewrite E. rewrite (split_join newline raw N F).
  change (map (fun l => if commented then trim_space l else match trim_space l with EmptyString => "//" | t => "// " +++ t end) raw)
    with (map (header_line commented) raw).
  apply split_join.
  - intros M. apply map_eq_nil in M. contradiction.
  - apply Forall_map. eapply Forall_impl; [|exact F]. intros l Hl. cbv beta in *. unfold header_line.
    pose proof (trim_space_no_char newline l Hl) as T. destruct commented; [assumption|].
    destruct (trim_space l) as [|c t]; [reflexivity|]. rewrite no_char_app, T. reflexivity.
Qed.
Lemma becomes_clean read look e dir c : clean_abs dir -> becomes read look e dir c ->
  Forall clean_abs (cfg_exclude_prefixes c) /\ Forall clean_abs (cc_include_paths (cfg_compile c)) /\
  Forall (fun d => clean_abs (fst d)) (cr_dir_to_base (cfg_create c)) /\
  Forall (fun i => Forall clean_abs (snd i)) (lc_ignores (cfg_lint c)) /\
  Forall (fun g => clean_abs (gp_output_abs g)) (gc_plugins (cfg_gen c)).
Proof.
  intros Hd B. repeat split; apply Forall_forall.
  - intros p Hp. apply (be_excludes _ _ _ _ _ B) in Hp as (x & _ & _ & ->). now apply against_clean.
  - intros p Hp. apply (be_compile _ _ _ _ _ B) in Hp as (x & _ & _ & ->). now apply against_clean.
  - intros [d n] Hp. apply (be_create _ _ _ _ _ B) in Hp as (a & p & b & _ & -> & _). now apply against_clean.
  - intros [id fs] Hp. destruct (be_lint _ _ _ _ _ B) as (_ & _ & _ & _ & (_ & I) & _). apply I in Hp as [_ ->].
    apply Forall_forall. intros f Hf. unfold files_for in Hf. apply in_concat in Hf as (l & Hl & Hf).
    apply in_map_iff in Hl as (i & <- & _). apply in_map_iff in Hf as (x & <- & _). now apply against_clean.
  - intros g Hg. destruct (be_gen _ _ _ _ _ B) as (_ & _ & _ & gs & P & F).
    apply (Permutation_in _ (Permutation_sym P)) in Hg. destruct (Forall2_In_r _ _ _ _ F Hg) as (p & _ & Hp).
    destruct Hp as (_ & _ & _ & _ & _ & _ & _ & _ & _ & -> & _). now apply against_clean.
Qed.
(** ** The interface *)
Lemma get_for_data_eq read dj look sort devel dir data e : is_abs dir = true -> dj data = Ok e ->
  get_for_data read dj look sort devel dir data = external_config_to_config read look sort devel e (path_clean dir).
Proof. intros H E. unfold get_for_data. now rewrite H, E. Qed.
