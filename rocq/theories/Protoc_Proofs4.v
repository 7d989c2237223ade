(** Compiling: what it does and when. *)
From Verif Require Import Lint_Model Lint_Spec GoMapFacts Protoc_Model Protoc_Spec Protoc_Proofs Protoc_Proofs2 Protoc_Proofs3 GoPathFacts GoStrFacts.
From Coq Require Import Lia.

Lemma under_include wkt_path set dir is : includes_of wkt_path set dir is -> within (base_dir set) dir ->
  (forall i, In i is -> has_prefix dir i = true -> within i dir) -> exists i, In i is /\ within i dir.
Proof.
  intros (wkt & tail & -> & _ & Ht) Hb Hs. destruct Ht as [(-> & i & Hi & [H| ->])| ->].
  - exists i. split; auto.
  - exists (base_dir set). split; auto.
  - exists (base_dir set). split; [|auto]. apply in_or_app. right. apply in_or_app. right. now left.
Qed.

Section Run.
  Variable ord : order.
  Variable grow : nat -> nat -> nat.
  Variable new_downloader download : result unit.
  Variable wkt_path protoc_path : result string.
  Variable temp_file : nat -> result string.
  Variable do_gen do_set full_control include_imports include_source_info : bool.
  Variable set : proto_set.
  Variable mkdir_all : string -> option string.
  Variable fds : Type.
  Variable read_set : string -> result fds.
  Variable outcomes : nat -> outcome.
  Notation get_cmd_metas := (get_cmd_metas ord grow new_downloader download wkt_path protoc_path temp_file do_gen do_set full_control include_imports include_source_info set).
  Notation protoc_commands := (protoc_commands ord grow new_downloader download wkt_path protoc_path temp_file do_gen do_set full_control include_imports include_source_info set).
  Notation compile := (compile ord grow new_downloader download wkt_path protoc_path temp_file do_gen do_set full_control include_imports include_source_info set mkdir_all fds read_set outcomes).
  Hypothesis temp_named : forall n f, temp_file n = Ok f -> f <> "".

  Lemma clean_events ms s : st_events (clean_cmd_metas ms s) = st_events s ++ map RemovedTemp (temps_of ms).
  Proof.
    unfold clean_cmd_metas. cbn [emit st_events]. f_equal. unfold temps_of. induction ms as [|m ms IH]; [reflexivity|].
    cbn [map concat]. rewrite map_app, IH. now destruct (is_empty (cm_temp m)).
  Qed.
  Lemma make_dirs_events ds : forall s s' e, make_dirs mkdir_all s ds = (s', e) ->
    exists ds', st_events s' = st_events s ++ map MadeDir ds' /\ (e = None -> ds' = ds).
  Proof.
    induction ds as [|d ds IH]; cbn [make_dirs]; intros s s' e H.
    - injection H as <- <-. exists []. now rewrite app_nil_r.
    - destruct (mkdir_all d); [injection H as <- <-; exists []; rewrite app_nil_r; split; [auto|discriminate]|].
      apply IH in H as (ds' & Hev & He). exists (d :: ds'). cbn [emit st_events] in Hev. rewrite Hev, <- app_assoc. split; [reflexivity|]. intros E. now rewrite (He E).
  Qed.
  Lemma make_gen_dirs_events s s' e : make_gen_dirs ord set mkdir_all s = (s', e) ->
    exists ds, st_events s' = st_events s ++ map MadeDir ds /\
      (e = None -> exists dss, mapM (plugin_gen_dirs ord set) (plugins_of set) = Ok dss /\ ds = ord "genDirs" _ (dedup (concat dss))).
  Proof.
    unfold make_gen_dirs. fold (plugins_of set). destruct (mapM _ _) as [dss|]; [|intros [= <- <-]; exists []; rewrite app_nil_r; split; [auto|discriminate]].
    intros H. apply make_dirs_events in H as (ds & Hev & He). exists ds. split; [auto|]. eauto.
  Qed.
  Lemma get_sets_events ms : forall s s' r, get_sets fds read_set s ms = (s', r) -> exists fs, st_events s' = st_events s ++ map ReadTemp fs.
  Proof.
    induction ms as [|m ms IH]; cbn [get_sets]; intros s s' r H; [injection H as <- <-; exists []; now rewrite app_nil_r|].
    destruct (is_empty (cm_temp m)); [now apply IH in H|].
    destruct (read_set (cm_temp m)) as [d|]; [|injection H as <- <-; now exists [cm_temp m]].
    destruct (get_sets fds read_set (emit [ReadTemp (cm_temp m)] s) ms) as [s1 r1] eqn:E. apply IH in E as (fs & E).
    exists (cm_temp m :: fs). cbn [emit st_events] in E. rewrite <- app_assoc in E. destruct r1; now injection H as <- <-.
  Qed.
  Lemma finish_events s ms fs es s' r : finish fds read_set s ms fs es = (s', r) ->
    r <> Crash fds /\ exists qs, st_events s' = st_events s ++ map ReadTemp qs ++ map RemovedTemp (temps_of ms).
  Proof.
    unfold finish. destruct es; [|intros [= <- <-]; rewrite clean_events; split; [discriminate|now exists []]].
    destruct fs; [|intros [= <- <-]; rewrite clean_events; split; [discriminate|now exists []]].
    destruct (get_sets fds read_set s ms) as [s1 [ds|m]] eqn:E; apply get_sets_events in E as (qs & E); intros [= <- <-]; (split; [discriminate|]); rewrite clean_events, E, <- app_assoc; now exists qs.
  Qed.
  Lemma compile_events ended s s' r : compile ended s = (s', r) ->
    exists ts ds rs qs, done_since s s' (map MadeTemp ts ++ map MadeDir ds ++ map Ran rs ++ map ReadTemp qs ++ (match r with Crash _ => [] | _ => map RemovedTemp ts end)) /\
      (rs <> [] -> do_gen = true -> exists dss, mapM (plugin_gen_dirs ord set) (plugins_of set) = Ok dss /\ ds = ord "genDirs" _ (dedup (concat dss))).
  Proof.
    unfold Protoc_Model.compile, done_since. destruct (get_cmd_metas s) as [s1 [ms|m]] eqn:E; apply get_cmd_metas_events in E as (ts & E); try exact temp_named.
    - destruct E as (Ets & Ev). destruct (if do_gen then make_gen_dirs ord set mkdir_all s1 else (s1, None)) as [s2 e2] eqn:Eg.
      assert (Hg : exists ds, st_events s2 = st_events s1 ++ map MadeDir ds /\ (e2 = None -> do_gen = true -> exists dss, mapM (plugin_gen_dirs ord set) (plugins_of set) = Ok dss /\ ds = ord "genDirs" _ (dedup (concat dss)))).
      { destruct do_gen; [apply make_gen_dirs_events in Eg as (ds & ? & ?); exists ds; auto|]. injection Eg as <- <-. exists []. rewrite app_nil_r. split; [auto|discriminate]. }
      destruct Hg as (ds & Ed & Hd). destruct e2 as [m|].
      + intros [= <- <-]. exists ts, ds, [], []. rewrite clean_events, Ed, Ev, Ets, <- !app_assoc. split; [reflexivity|]. now intros [].
      + set (s3 := emit (map (fun m => Ran (cm_args m)) ms) s2). assert (E3 : st_events s3 = st_events s ++ map MadeTemp ts ++ map MadeDir ds ++ map Ran (map cm_args ms)).
        { unfold s3. cbn [emit st_events]. now rewrite Ed, Ev, map_map, <- !app_assoc. }
        clearbody s3. destruct (existsb panics _).
        * intros [= <- <-]. exists ts, ds, (map cm_args ms), []. cbn [map]. rewrite !app_nil_r. split; auto.
        * intros H. apply finish_events in H as (Hr & qs & H). exists ts, ds, (map cm_args ms), qs. split; [|auto].
          rewrite H, E3, Ets, <- !app_assoc. destruct r; try reflexivity. now destruct Hr.
    - intros [= <- <-]. exists ts, [], [], []. split; [exact E|]. now intros [].
  Qed.
  Lemma made_temps_app a b : made_temps (a ++ b) = made_temps a ++ made_temps b.
  Proof. unfold made_temps. now rewrite map_app, concat_app. Qed.
  Lemma made_temps_made ts : made_temps (map MadeTemp ts) = ts.
  Proof. induction ts as [|t ts IH]; [reflexivity|]. unfold made_temps in *. cbn [map concat app]. now rewrite IH. Qed.
  Lemma made_temps_other {A} (f : A -> event) l : (forall x y, f x <> MadeTemp y) -> made_temps (map f l) = [].
  Proof. intros H. induction l as [|t l IH]; [reflexivity|]. unfold made_temps in *. cbn [map concat]. rewrite IH. destruct (f t) eqn:E; try reflexivity. now destruct (H t f0). Qed.
  Lemma compile_cleans ended s s' r : compile ended s = (s', r) -> r <> Crash fds -> exists es, done_since s s' es /\ cleans_up es.
  Proof.
    intros H Hr. apply compile_events in H as (ts & ds & rs & qs & H & _). eexists. split; [exact H|].
    exists (map MadeTemp ts ++ map MadeDir ds ++ map Ran rs ++ map ReadTemp qs). split.
    - rewrite !made_temps_app, made_temps_made, !made_temps_other by discriminate. rewrite !app_nil_r, <- !app_assoc. destruct r; try reflexivity. contradiction.
    - intros f Hi. rewrite !in_app_iff, !in_map_iff in Hi. destruct Hi as [(? & ? & _)|[(? & ? & _)|[(? & ? & _)|(? & ? & _)]]]; discriminate.
  Qed.
  Lemma commands_clean s s' r : protoc_commands s = (s', r) -> exists es, done_since s s' es /\ cleans_up es.
  Proof.
    unfold Protoc_Model.protoc_commands, done_since. destruct (get_cmd_metas s) as [s1 [ms|m]] eqn:E; apply get_cmd_metas_events in E as (ts & E); try exact temp_named; intros [= <- <-].
    - destruct E as (<- & Ev). rewrite clean_events, Ev, <- app_assoc. eexists. split; [reflexivity|]. exists (map MadeTemp (temps_of ms)). rewrite made_temps_made.
      split; [reflexivity|]. intros f Hi. rewrite in_map_iff in Hi. destruct Hi as (? & ? & _). discriminate.
    - exists (map MadeTemp ts ++ map RemovedTemp ts). split; [exact E|]. exists (map MadeTemp ts). rewrite made_temps_made.
      split; [reflexivity|]. intros f Hi. rewrite in_map_iff in Hi. destruct Hi as (? & ? & _). discriminate.
  Qed.
  Hypothesis Hord : reorders ord.
  Lemma before_ran a b pre args post : (forall x, ~ In (Ran x) a) -> a ++ b = pre ++ Ran args :: post -> exists k, pre = a ++ k.
  Proof.
    revert pre; induction a as [|e a IH]; intros pre Ha H; [now exists pre|]. destruct pre as [|e' pre].
    - cbn in H. injection H as -> _. destruct (Ha args). now left.
    - cbn in H. injection H as -> H. destruct (IH pre) as (k & ->); [intros x Hx; apply (Ha x); now right|auto|]. now exists k.
  Qed.
  Lemma dirs_made ended s s' r es pre args post : compile ended s = (s', r) -> done_since s s' es -> do_gen = true ->
    es = pre ++ Ran args :: post -> forall p d o, In p (plugins_of set) -> In d (filter (requested set) (ps_files set)) ->
    output_dir set (fst d) p o -> In (MadeDir o) pre.
  Proof.
    intros H Hs Hg He p d o Hp Hd Ho. apply compile_events in H as (ts & ds & rs & qs & H & Hr). unfold done_since in *. rewrite H in Hs. apply app_inv_head in Hs. rewrite <- Hs in He. clear Hs es. rename He into Hs.
    assert (Hrs : rs <> []).
    { intros ->. clear Hr H. assert (Hi : In (Ran args) (pre ++ Ran args :: post)) by (apply in_or_app; right; now left). rewrite <- Hs in Hi.
      rewrite !in_app_iff, !in_map_iff in Hi. destruct Hi as [(? & ? & _)|[(? & ? & _)|[(? & ? & [])|[(? & ? & _)|Hi]]]]; try discriminate.
      destruct r; try (now destruct Hi); apply in_map_iff in Hi as (? & ? & _); discriminate. }
    destruct (Hr Hrs Hg) as (dss & Hm & Hds). rewrite app_assoc in Hs. apply before_ran in Hs as (k & ->).
    2: { intros a Hi. rewrite in_app_iff, !in_map_iff in Hi. destruct Hi as [(? & ? & _)|(? & ? & _)]; discriminate. }
    apply in_or_app. left. apply in_or_app. right. apply in_map. rewrite Hds. apply (Permutation_in _ (Hord "genDirs" _ _)). apply dedup_In.
    apply mapM_ok_F2 in Hm. clear - Hm Hp Hd Ho Hord. induction Hm as [|q dl ps dls Eq Hm IH]; [destruct Hp|]. cbn [concat]. apply in_or_app.
    destruct Hp as [->|Hp]; [left|right; auto]. unfold output_dir in Ho. unfold plugin_gen_dirs in Eq. destruct (is_empty (gp_file_suffix p)); [injection Eq as <-; left; congruence|].
    apply mapM_ok_F2 in Eq. destruct Ho as (cs & os & rs & up & x & Hc & Hos & Hdir & O1 & O2 & O3 & Hup & Hx & ->).
    assert (Hd' : In d (filter (fun d => has_prefix (fst d) (ps_dir set)) (ord ("makeGenDirs " +++ gp_name p) (string * list proto_file)%type (ps_files set)))).
    { apply filter_In in Hd as [Hd1 Hd2]. apply filter_In. split; [|exact Hd2]. now apply (Permutation_in _ (Hord _ _ _)). }
    clear Hd. induction Eq as [|d0 o0 l l' E Eq IHe]; [destruct Hd'|]. destruct Hd' as [->|Hd']; [left|right; auto].
    destruct (get_rel_output_file_path set (fst d) (gp_file_suffix p)) as [rel|] eqn:Er; [|discriminate]. cbn [bind] in E. injection E as <-.
    rewrite Hdir in Er. rewrite Hos.
    assert (Ej : path_join [abs_path os; rel] = abs_path ((os ++ rs) ++ [x +++ "." +++ gp_file_suffix p])).
    { destruct Hup as [Hup|(Hup & ->)].
      2:{ apply app_eq_nil in Hup as [-> ->]. cbn [app] in *. rewrite app_nil_r. rewrite (rel_output_top set _ Hc Hx) in Er. injection Er as <-.
        apply (path_join_abs_ok os ["default" +++ "." +++ gp_file_suffix p]); [auto|now constructor|discriminate]. }
      assert (Hupx : ok_comps (up ++ [x])) by (rewrite <- Hup; now apply ok_comps_app). destruct rs as [|r rs _] using rev_ind.
      - rewrite app_nil_r in *. subst cs. rewrite (rel_output_root set up) in Er; [|exact Hc|exact Hupx|exact Hx]. injection Er as <-.
        apply (path_join_abs_ok os [x +++ "." +++ gp_file_suffix p]); [auto|now constructor|discriminate].
      - rewrite app_assoc in Hup. apply app_inj_tail in Hup as [Hup ->]. rewrite (rel_output_below set cs rs) in Er; [|exact Hc|exact O1|exact O3|exact Hx]. injection Er as <-.
        rewrite path_join_abs_ok; [now rewrite <- (app_assoc os)|auto|apply ok_comps_app; split; [auto|now constructor]|now destruct rs]. }
    match goal with |- path_dir ?X = _ => change X with (path_join [abs_path os; rel]) end. rewrite Ej. apply path_dir_abs; [now apply ok_comps_app|exact Hx].
  Qed.
End Run.
