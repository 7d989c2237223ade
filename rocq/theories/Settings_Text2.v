(** Proofs about what is said when a command cannot work on a directory. *)
From Coq Require Import Permutation Lia.
From Verif Require Import GoStrFacts GoPathFacts GoMapFacts GoFmt Strs_Spec Strs_Proofs Settings_Model Settings_Spec Settings_Proofs Settings_Proofs2.
From Verif Require Import Lint_Spec File_Model File_Spec File_Proofs File_Proofs2 File_Proofs3 Settings_Text_Spec Settings_Text.

Lemma acceptable_empty read devel dir : acceptable read devel empty_external dir.
Proof.
  constructor; cbn; try (intros; contradiction); try discriminate. now left.
Qed.
Lemma err_inj {A} a b : @Err A a = Err b -> a = b.
Proof. congruence. Qed.
Lemma two_joined a b : join " " [a; b] +++ "]" = a +++ " " +++ b +++ "]".
Proof. cbn [join]. now rewrite !sapp_assoc. Qed.
Section Errors.
  Variable ex : string -> bool.
  Variable read : string -> result string.
  Variable dj dy : string -> result external_config.
  Variable look : string -> result string.
  Variable sort : list gen_plugin -> list gen_plugin.
  Hypothesis Hsort : sorts sort.
  Variable devel : bool.
  Notation un := (unread ex read dj dy).
  Lemma single_err cs t : ok_comps cs -> get_single_file_path_for_dir ex (abs_path cs) = Err t -> un cs t.
  Proof.
    intros H E. pose proof (single_spec ex cs H) as S. rewrite E in S. revert E.
    unfold get_single_file_path_for_dir. rewrite candidates_eq by assumption. unfold config_paths.
    cbn [filter].
    rewrite (S (abs_path (cs ++ ["prototool.yaml"]))) by (now left). rewrite (S (abs_path (cs ++ ["prototool.json"]))) by (right; now left).
    intros E; pose proof (err_inj _ _ E) as <-. pose proof (Two_files ex read dj dy cs S) as T.
    rewrite (two_joined (abs_path (cs ++ ["prototool.yaml"])) (abs_path (cs ++ ["prototool.json"]))). exact T.
  Qed.
  Lemma loop_err n : forall cs t, ok_comps cs -> length cs < n -> file_path_loop ex n (abs_path cs) = Err t ->
    exists a b, cs = a ++ b /\ ok_comps a /\ un a t /\ nearest ex cs a.
  Proof.
    induction n as [|n IH]; intros cs t H L; [lia|]. cbn [file_path_loop].
    destruct (get_single_file_path_for_dir ex (abs_path cs)) as [p|m] eqn:E; cbn [bind].
    2:{ intros X; injection X as ->. exists cs, []. rewrite app_nil_r. split; [reflexivity|]. split; [assumption|]. split; [now apply single_err|].
        exists []. split; [now rewrite app_nil_r|]. pose proof (single_spec ex cs H) as S. rewrite E in S. split.
        - intros N. specialize (N (abs_path (cs ++ ["prototool.yaml"])) ltac:(now left)). rewrite (S (abs_path (cs ++ ["prototool.yaml"]))) in N by (now left). discriminate.
        - intros b1 b2 Eb Nb. destruct b1; [contradiction|discriminate]. }
    pose proof (single_spec ex cs H) as Sp. rewrite E in Sp.
    destruct p as [|c p]; cbn [is_empty negb]; [|discriminate].
    destruct (String.eqb (abs_path cs) "/") eqn:E2; [discriminate|]. apply seqb_neq in E2.
    destruct cs as [|x cs] using rev_ind; [now contradiction E2|]. clear IHcs.
    apply ok_comps_app in H as [H1 H2]. inversion H2 as [|? ? Hx _]; subst. rewrite path_dir_abs by assumption.
    rewrite app_length in L. cbn in L. intros X. destruct (IH cs t H1 ltac:(lia) X) as (a & b & Eq & Ha & U & Nr).
    exists a, (b ++ [x]). split; [now rewrite Eq, app_assoc|]. split; [assumption|]. split; [assumption|].
    destruct Nr as (b' & Eq' & N1 & N2). exists (b' ++ [x]). split; [now rewrite Eq', app_assoc|]. split; [assumption|].
    intros b1 b2 Eb Nb. destruct b2 as [|y b2] using rev_ind; [|clear IHb2].
    - rewrite app_nil_r in Eb. subst b1. rewrite app_assoc, <- Eq'. exact Sp.
    - rewrite app_assoc in Eb. apply app_inj_tail in Eb as (-> & _). exact (N2 b1 b2 eq_refl Nb).
  Qed.
  Lemma discovery_err cs t : ok_comps cs -> get_file_path_for_dir ex (abs_path cs) = Err t -> exists a b, cs = a ++ b /\ ok_comps a /\ un a t /\ nearest ex cs a.
  Proof.
    intros H. unfold get_file_path_for_dir. rewrite is_abs_abs_path. cbn [negb]. rewrite clean_abs_path by assumption.
    intros E. eapply loop_err; [assumption| |exact E]. now apply abs_length.
  Qed.
  Lemma external_err d file t : ok_comps d -> the_config ex d file -> get_external_config read dj dy file = Err t -> un d t.
  Proof.
    intros H Hf. unfold get_external_config. destruct (read file) as [data|m] eqn:E1.
    2: { cbn [bind]. intros X; injection X as ->. exact (File_unreadable ex read dj dy d file t Hf E1). }
    cbn [bind]. destruct (is_empty data) eqn:E2; [discriminate|]. apply is_empty_false in E2.
    destruct (proj1 Hf) as [<-|[<-|[]]].
    - rewrite ext_yaml. cbn [String.eqb Ascii.eqb Bool.eqb]. intros E3. exact (Yaml_undecodable ex read dj dy d data t Hf E1 E2 E3).
    - rewrite ext_json. cbn [String.eqb Ascii.eqb Bool.eqb]. intros E3. exact (Json_undecodable ex read dj dy d data t Hf E1 E2 E3).
  Qed.
  (** The configuration file of the directory cannot be read, or is at fault. *)
  Definition bad_config (a : list string) (t : string) : Prop :=
    un a t \/ exists file e, the_config ex a file /\ decoded read dj dy a file e /\ told read devel e (abs_path a) t.
  Lemma dir_excludes_err d t : ok_comps d -> get_exclude_prefixes_for_dir ex read dj dy (abs_path d) = Err t -> bad_config d t.
  Proof.
    intros H. unfold get_exclude_prefixes_for_dir. rewrite is_abs_abs_path. cbn [negb]. cbv zeta. rewrite clean_abs_path by assumption.
    pose proof (single_spec ex d H) as S. destruct (get_single_file_path_for_dir ex (abs_path d)) as [p|m] eqn:E.
    2: { cbn [bind]. intros X; injection X as ->. left. now apply single_err. }
    cbn [bind]. destruct p as [|c p]; cbn [is_empty]; [discriminate|].
    destruct (get_external_config read dj dy (String c p)) as [e|m] eqn:E1.
    2: { cbn [bind]. intros X; injection X as ->. left. now apply (external_err d _ t H S). }
    cbn [bind]. apply (external_decoded read dj dy d) in E1; [|assumption|apply S]. intros X. right. exists (String c p), e.
    split; [assumption|]. split; [assumption|]. exists 1. split; [constructor; apply excludes_err; [now exists d|assumption]|].
    intros k u Hk Sd. inversion Sd; subst; lia.
  Qed.
  Lemma file_err d file t : ok_comps d -> the_config ex d file -> get_for_file read dj dy look sort devel file = Err t -> bad_config d t.
  Proof.
    intros H Hf. rewrite (get_file_eq read dj dy look sort devel d) by (assumption || apply Hf).
    destruct (get_external_config read dj dy file) as [e|m] eqn:E1.
    2: { cbn [bind]. intros X; injection X as ->. left. now apply (external_err d file t). }
    cbn [bind]. apply (external_decoded read dj dy d) in E1; [|assumption|apply Hf]. intros X. right. exists file, e.
    split; [assumption|]. split; [assumption|]. eapply rejected_told; [exact Hsort|now exists d|exact X].
  Qed.
  Lemma dir_err d t : ok_comps d -> get_for_dir ex read dj dy look sort devel (abs_path d) = Err t -> exists a b, d = a ++ b /\ bad_config a t /\ nearest ex d a.
  Proof.
    intros H. unfold get_for_dir. destruct (get_file_path_for_dir ex (abs_path d)) as [p|m] eqn:E.
    2: { cbn [bind]. intros X; injection X as ->. destruct (discovery_err d t H E) as (a & b & Eq & _ & U & Nr). exists a, b. split; [exact Eq|]. split; [now left|exact Nr]. }
    cbn [bind]. apply governs_iff in E; [|assumption]. destruct p as [|c p]; cbn [is_empty].
    - intros X. destruct (acceptable_accepted read look sort devel Hsort empty_external (abs_path d)) as (c & C); [now exists d|apply acceptable_empty|].
      rewrite C in X. discriminate.
    - destruct E as [(F & _)|(a & Nr & T)]; [discriminate|]. intros X. pose proof Nr as (b & -> & N). exists a, b. split; [reflexivity|]. split; [|exact Nr].
      apply (file_err a (String c p)); [now apply ok_comps_app in H|assumption|assumption].
  Qed.
  Lemma data_err dir data t : clean_abs dir -> get_for_data read dj look sort devel dir data = Err t ->
    dj data = Err t \/ exists e, dj data = Ok e /\ told read devel e dir t.
  Proof.
    intros (cs & Hc & ->). unfold get_for_data. rewrite is_abs_abs_path. cbn [negb]. destruct (dj data) as [e|m]; [|cbn [bind]; intros X; injection X as ->; auto].
    cbn [bind]. rewrite clean_abs_path by assumption. intros X. right. exists e. split; [reflexivity|]. eapply rejected_told; [exact Hsort|now exists cs|exact X].
  Qed.

  (** ** The walk *)
  Variable data : string.
  Variable work : string.
  Variable root : list string.
  Lemma walk_err n : forall d st t, ok_comps d -> named n ->
    walk ex read dj dy data work (abs_path root) (abs_path d) n st = Err t ->
    (data = "" /\ exists cs, bad_config (d ++ cs) t) \/ exists cs what, unseen n cs what /\ t = what +++ " " +++ abs_path (d ++ cs).
  Proof.
    induction n as [| | |es IH] using node_ind'; intros d st t Hd Nn W.
    - cbn [walk] in W. unfold visit_path in W. destruct (negb _); [discriminate W|]. destruct (is_excluded _ _ _); discriminate W.
    - cbn [walk] in W. injection W as <-. right. exists [], "open". rewrite app_nil_r. split; [constructor|reflexivity].
    - cbn [walk] in W. injection W as <-. right. exists [], "lstat". rewrite app_nil_r. split; [constructor|reflexivity].
    - rewrite walk_dir in W. inversion Nn as [| | |? No Nd Ns]; subst.
      destruct (visit_path ex read dj dy data work (abs_path root) (abs_path d) true st) as [[v st1]|m] eqn:V; cbn [bind] in W.
      2: { injection W as ->. unfold visit_path in V. destruct (is_empty data) eqn:E0; cbn [bind] in V.
           - apply is_empty_true in E0. destruct (get_exclude_prefixes_for_dir ex read dj dy (abs_path d)) as [X|m] eqn:E1; cbn [bind] in V.
             + destruct (is_excluded _ _ _); discriminate V.
             + injection V as ->. left. split; [assumption|]. exists []. rewrite app_nil_r. now apply dir_excludes_err.
           - destruct (is_excluded _ _ _); discriminate V. }
      destruct v; [|discriminate W].
      assert (forall l s, incl l es -> walk_entries ex read dj dy data work root (abs_path d) l s = Err t ->
        (data = "" /\ exists cs, bad_config (d ++ cs) t) \/ exists cs what, unseen (NDir es) cs what /\ t = what +++ " " +++ abs_path (d ++ cs)) as L; [|eapply L; [apply incl_refl|eassumption]].
      induction l as [|[name c] l IHl]; intros s Hl Wl; cbn [walk_entries] in Wl; [discriminate Wl|].
      assert (In (name, c) es) as Hin by (apply Hl; now left).
      assert (ok_comp name = true) as Hname.
      { unfold ok_comps in No. rewrite Forall_forall in No. apply No. apply (in_map fst) in Hin. exact Hin. }
      replace (path_join [abs_path d; name]) with (abs_path (d ++ [name])) in Wl.
      2:{ symmetry. apply (path_join_abs_ok d [name]); [assumption|constructor; [assumption|constructor]|discriminate]. }
      destruct (walk ex read dj dy data work (abs_path root) (abs_path (d ++ [name])) c s) as [s1|m] eqn:W1; cbn [bind] in Wl.
      { apply (IHl s1); [intros e He; apply Hl; now right|exact Wl]. }
      injection Wl as ->. rewrite Forall_forall in IH.
      assert (ok_comps (d ++ [name])) as Hdn by (apply ok_comps_app; split; [assumption|constructor; [assumption|constructor]]).
      destruct (IH _ Hin (d ++ [name]) s t Hdn (Ns _ _ Hin) W1) as [(Dt & cs & B)|(cs & what & U & ->)].
      + left. split; [assumption|]. exists (name :: cs). now rewrite <- app_assoc in B.
      + right. exists (name :: cs), what. split; [econstructor; eassumption|]. now rewrite <- app_assoc.
  Qed.
End Errors.
