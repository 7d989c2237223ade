(** The configuration that the commands use for a file is the one in force for it. *)
From Coq Require Import Permutation.
From Verif Require Import GoStrFacts GoPathFacts Settings_Spec Settings_Proofs Settings_Proofs2 File_Spec File_Model File_Proofs2 File_Proofs3 File_Proofs4 Exec_Spec Exec_Proofs LintRun_Spec
  Main_Model Main_Spec Main_Spec2 Main_Proofs Main_Proofs2 Main_Proofs6 Main_Proofs7.

Section Conf.
  Variable ord : map_order.
  Hypothesis O : reorders ord.
  Variable w : world.
  Hypothesis So : sorts (w_sort_plugins w).
  Variable disk : string -> result string.
  Variable cwd : string.
  Hypothesis Cl : clean_abs cwd.
  Hypothesis Nm : forall p, File_Spec.named (w_node_at w p).
  Notation provide data dir := (provider_get_for_dir ord cwd (w_node_at w) (exists_at w disk) disk (w_decode_json w) (w_decode_yaml w)
    (w_look_path w) (w_sort_plugins w) false data cwd dir).
  Lemma provide_clean data dir s : dir <> "" -> provide data dir = Ok s -> provide data (abs_clean cwd dir) = Ok s.
  Proof.
    intros Hd. destruct (abs_clean_ok cwd dir Cl Hd) as (ds & Hds & Ed). unfold provider_get_for_dir.
    assert (abs_clean cwd (abs_clean cwd dir) = abs_clean cwd dir) as E by (rewrite Ed; now apply File_Proofs4.abs_clean_abs).
    assert (forall W, get_multiple_for_dir ord cwd (w_node_at w) (exists_at w disk) disk (w_decode_json w) (w_decode_yaml w) (w_look_path w) (w_sort_plugins w) false data W (abs_clean cwd dir) =
      get_multiple_for_dir ord cwd (w_node_at w) (exists_at w disk) disk (w_decode_json w) (w_decode_yaml w) (w_look_path w) (w_sort_plugins w) false data W dir) as ->
      by (intros W; unfold get_multiple_for_dir; now rewrite E).
    destruct (get_multiple_for_dir _ _ _ _ _ _ _ _ _ _ _ _ _) as [[|x [|y l]]|]; cbn [bind]; auto; discriminate.
  Qed.
  Lemma to_config e dir c : clean_abs dir -> external_config_to_config disk (w_look_path w) (w_sort_plugins w) false e dir = Ok c -> taken w disk e dir c.
  Proof. intros H E. now apply (accepted disk (w_look_path w) (w_sort_plugins w) false So e dir c H) in E. Qed.
  Lemma dir_configured d c : ok_comps d ->
    get_for_dir (exists_at w disk) disk (w_decode_json w) (w_decode_yaml w) (w_look_path w) (w_sort_plugins w) false (abs_path d) = Ok c -> configured w disk d c.
  Proof.
    intros Hd E. apply get_for_dir_iff in E; [|assumption]. destruct E as [[G E]|(a & file & e & N & T & D & E)]; [left|right].
    - split; [exact G|]. apply to_config; [now exists d|exact E].
    - exists a, file, e. split; [exact N|]. split; [exact T|]. split; [exact D|]. apply to_config; [|exact E].
      exists a. split; [|reflexivity]. destruct N as (b & -> & _). now apply ok_comps_app in Hd.
  Qed.
  Lemma data_taken data c : get_for_data disk (w_decode_json w) (w_look_path w) (w_sort_plugins w) false cwd data = Ok c ->
    exists e, w_decode_json w data = Ok e /\ taken w disk e cwd c.
  Proof.
    destruct Cl as (k & Hk & Ek). unfold get_for_data. rewrite Ek. destruct (is_abs _); [|discriminate]. cbn [negb].
    destruct (w_decode_json w data) as [e|]; [|discriminate]. cbn [bind]. rewrite clean_abs_path by exact Hk. intros E. exists e. split; [reflexivity|].
    apply to_config; [now exists k|exact E].
  Qed.
  Lemma provide_config data dir s : dir <> "" -> provide data dir = Ok s ->
    forall d l f, In (d, l) (ps_files s) -> In f l ->
      in_force w disk cwd data (pf_path f) (ps_config s) /\ inside (cfg_dir (ps_config s)) (pf_path f) /\ path_dir (pf_path f) = d.
  Proof.
    intros Hd H. apply provide_clean in H; [|exact Hd]. destruct (abs_clean_ok cwd dir Cl Hd) as (ds & Hds & Ed). rewrite Ed in H.
    pose proof Cl as (k & Hk & Ek). intros d l f Hl Hf.
    assert (H0 := H). rewrite Ek in H0 at 2.
    destruct (provide_shown ord cwd _ _ _ _ _ _ _ _ data k ds s d l f O Nm Hk Hds H0 Hl Hf) as (Dd & _).
    assert (path_dir (pf_path f) = d) as Dd' by exact Dd. clear Dd.
    destruct (string_dec data "") as [->|Dt].
    - apply (one_configuration ord O cwd (w_node_at w) Nm) in H0; [|assumption..].
      destruct H0 as (_ & _ & root & fs & cf & _ & _ & _ & G & All & _ & C1 & C2).
      apply (proj2 G) in Hl as [_ ->]. apply filter_In in Hf as [Hf _]. destruct (All f Hf) as (Gv & In_). split; [|auto].
      right. split; [reflexivity|]. destruct Gv as (a & Ha & Ea & Gv). exists a. split; [exact Ha|]. split; [exact Ea|].
      destruct Gv as [[-> N]|(b & Nb & T)].
      + right. split; [left; auto|]. exists k. split; [exact Hk|]. split; [exact Ek|]. apply dir_configured; auto.
      + left. assert (ok_comps b) as Hb by (destruct Nb as (b' & -> & _); now apply ok_comps_app in Ha). split.
        * intros Q. apply governs_iff in Q; [|exact Ha]. assert (governs (exists_at w disk) a cf) as Q2 by (right; eauto).
          apply governs_iff in Q2; [|exact Ha]. rewrite Q in Q2. injection Q2 as <-. now apply (config_dir_path _ b "" Hb T).
        * right. assert (cf <> "") as Nc by (now apply (config_dir_path _ b cf Hb T)). apply C1 in Nc.
          apply (proj1 (get_for_file_iff _ _ _ _ _ _ So b cf (ps_config s) Hb (proj1 T))) in Nc as (e & D & Tk).
          exists b, cf, e. split; [exact Nb|]. split; [exact T|]. split; [exact D|exact Tk].
    - apply provide_ok in H; [|assumption]. rewrite (File_Proofs4.abs_clean_abs _ ds Hds) in H.
      assert (abs_clean cwd cwd = cwd) as Ec by (rewrite Ek at 2 3; now apply File_Proofs4.abs_clean_abs). rewrite Ec in H.
      destruct H as (_ & _ & root & fs & R & F & G & _ & C1 & V). unfold root_of in R. assert (is_empty data = false) as Ei by (now apply is_empty_false). rewrite Ei in R. injection R as <-.
      apply (proj2 G) in Hl as [_ ->]. apply filter_In in Hf as [Hf _].
      assert (fs <> []) as Nf by (intros ->; destruct Hf). destruct (C1 Nf) as (cf & Hc & _). unfold conf in Hc. rewrite Ei in Hc. cbn [negb] in Hc.
      unfold get_config_for_data in Hc. apply data_taken in Hc as (e & De & Tk). split; [left; split; [exact Dt|eauto]|]. split; [|exact Dd'].
      assert (cfg_dir (ps_config s) = cwd) as Ed' by apply Tk. rewrite Ed'. apply validate_is_rel_iff; [exact Cl| |rewrite <- Ed'; auto].
      rewrite Ek in F. destruct (files_paths _ _ _ _ _ _ _ _ _ _ Hk (Nm _) F Hf) as (cs & Hcs & _ & -> & _).
      exists (k ++ cs). split; [now apply ok_comps_app|reflexivity].
  Qed.
  Lemma provide_taken data dir s : dir <> "" -> provide data dir = Ok s -> exists e d, clean_abs d /\ taken w disk e d (ps_config s).
  Proof.
    intros Hd H. assert (H1 := H). apply provide_clean in H; [|exact Hd]. destruct (abs_clean_ok cwd dir Cl Hd) as (ds & Hds & Ed). rewrite Ed in H.
    pose proof Cl as (k & Hk & Ek). assert (H0 := H). rewrite Ek in H0 at 2.
    assert (forall d c, ok_comps d -> configured w disk d c -> exists e d, clean_abs d /\ taken w disk e d c) as K.
    { intros d c Od [(_ & T)|(a & file & e & N & _ & _ & T)]; [exists empty_external, (abs_path d); split; [now exists d|exact T]|exists e, (abs_path a); split; [|exact T]].
      exists a. split; [|reflexivity]. destruct N as (b & -> & _). now apply ok_comps_app in Od. }
    destruct (string_dec data "") as [->|Dt].
    - apply (one_configuration ord O cwd (w_node_at w) Nm) in H0; [|assumption..].
      destruct H0 as (_ & _ & root & fs & cf & _ & _ & _ & G & All & E & C1 & C2).
      destruct (string_dec cf "") as [->|N]; [exact (K k _ Hk (dir_configured k _ Hk (C2 eq_refl)))|].
      destruct fs as [|f fs]; [now destruct N, (E eq_refl)|]. destruct (All f (or_introl eq_refl)) as ((a & Ha & _ & [[F _]|(b & Nb & T)]) & _); [contradiction|].
      assert (ok_comps b) as Hb by (destruct Nb as (b' & -> & _); now apply ok_comps_app in Ha).
      apply C1 in N. apply (proj1 (get_for_file_iff _ _ _ _ _ _ So b cf (ps_config s) Hb (proj1 T))) in N as (e & _ & Tk). exists e, (abs_path b). split; [now exists b|exact Tk].
    - apply (data_configuration ord O) in H0; [|assumption..]. destruct H0 as (H0 & _). rewrite <- Ek in H0. apply data_taken in H0 as (e & _ & T). eauto.
  Qed.
End Conf.

Section Found.
  Variable w : world.
  Hypothesis V : visits_all (w_order w).
  Hypothesis So : sorts (w_sort_plugins w).
  Hypothesis Nm : forall p, File_Spec.named (w_node_at w p).
  Hypothesis St : forall k, w_stat w "" <> Ok k.
  Variable r : runner.
  Hypothesis Cl : clean_abs (here r).
  Lemma found_from disk args m : found (here r) (w_stat w) (provider w r disk) args m ->
    exists dir, dir <> "" /\ provider_get_for_dir (w_order w) (here r) (w_node_at w) (exists_at w disk) disk (w_decode_json w) (w_decode_yaml w)
    (w_look_path w) (w_sort_plugins w) false (r_config_data r) (here r) dir = Ok (m_set m).
  Proof.
    assert (K : forall dir ps, provider w r disk (here r) dir = Ok ps -> provider_get_for_dir (w_order w) (here r) (w_node_at w) (exists_at w disk) disk (w_decode_json w) (w_decode_yaml w)
       (w_look_path w) (w_sort_plugins w) false (r_config_data r) (here r) dir = Ok ps).
    { intros dir ps E. unfold provider in E. destruct (provider_get_for_dir _ _ _ _ _ _ _ _ _ _ _ _ _) as [s|] eqn:P; [|discriminate E]. cbn [bind] in E.
      destruct (_ =? 0)%Z; [exact E|]; destruct (w_too_slow _ _ _); [discriminate E|exact E]. }
    intros [ps S G|ps S G]; cbn [m_set]; eexists; (split; [|apply K; exact G]); [|apply path_clean_not_empty]. intros E. rewrite E in S. now apply St in S.
  Qed.
  (** The configuration of the set is the one in force for each of its files. *)
  Lemma found_config disk args m : found (here r) (w_stat w) (provider w r disk) args m ->
    (forall d l f, In (d, l) (ps_files (m_set m)) -> In f l ->
      in_force w disk (here r) (r_config_data r) (pf_path f) (ps_config (m_set m)) /\ inside (cfg_dir (ps_config (m_set m))) (pf_path f) /\ path_dir (pf_path f) = d /\
      File_Spec.shown (here r) (pf_path f) (pf_display f)) /\
    (exists e d, clean_abs d /\ taken w disk e d (ps_config (m_set m))) /\ NoDup (map fst (ps_files (m_set m))).
  Proof.
    intros F. destruct (found_from _ _ _ F) as (dir & Hd & P). split; [|split].
    - intros d l f H1 H2. destruct (provide_config _ V w So disk (here r) Cl Nm _ _ _ Hd P d l f H1 H2) as (A & B & C).
      destruct (provide_files _ _ _ _ _ _ _ _ _ _ _ _ _ V Nm Cl Hd P) as (_ & S). eauto 7.
    - exact (provide_taken _ V w So disk (here r) Cl Nm _ _ _ Hd P).
    - apply provide_ok in P; [|exact V]. destruct P as (_ & _ & root & fs & _ & _ & (G & _) & _). exact G.
  Qed.
End Found.
