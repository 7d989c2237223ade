(** Proofs about file discovery. *)
From Coq Require Import Permutation Lia.
From Verif Require Import GoStrFacts GoPathFacts GoMapFacts Strs_Spec Settings_Model Settings_Spec Settings_Proofs.
From Verif Require Import Lint_Spec LintRun_Proofs File_Model File_Spec.

(** ** Trees *)
Section NodeInd.
  Variable P : node -> Prop.
  Hypothesis Hf : P NFile.
  Hypothesis Hu : P NUnreadable.
  Hypothesis Hb : P NBroken.
  Hypothesis Hd : forall es, Forall (fun e => P (snd e)) es -> P (NDir es).
  Fixpoint node_ind' (n : node) : P n :=
    match n with
    | NFile => Hf
    | NUnreadable => Hu
    | NBroken => Hb
    | NDir es => Hd es ((fix go (l : list (string * node)) : Forall (fun e => P (snd e)) l :=
        match l with [] => Forall_nil _ | e :: l' => Forall_cons e (node_ind' (snd e)) (go l') end) es)
    end.
End NodeInd.
Lemma file_in_ok n cs : named n -> file_in n cs -> ok_comps cs.
Proof.
  intros N H. induction H as [|es name n cs Hin H IH]; [constructor|].
  inversion N as [| | |? No Nd Nn]; subst. constructor; [|apply IH; eapply Nn; eassumption].
  unfold ok_comps in No. rewrite Forall_forall in No. apply No. apply (in_map fst) in Hin. exact Hin.
Qed.
Lemma dir_in_ok n cs : named n -> dir_in n cs -> ok_comps cs.
Proof.
  intros N H. induction H as [|es name n cs Hin H IH]; [constructor|].
  inversion N as [| | |? No Nd Nn]; subst. constructor; [|apply IH; eapply Nn; eassumption].
  unfold ok_comps in No. rewrite Forall_forall in No. apply No. apply (in_map fst) in Hin. exact Hin.
Qed.
Lemma file_in_dirs n a b : file_in n (a ++ b) -> b <> [] -> dir_in n a.
Proof.
  revert n. induction a as [|x a IH]; intros n H Hb.
  - destruct b as [|y b]; [easy|]. cbn in H. inversion H; subst. constructor.
  - cbn in H. inversion H; subst. econstructor; [eassumption|]. now apply IH.
Qed.

(** ** Exclude entries of one directory *)
Lemma within_abs d rs : ok_comps d -> ok_comps rs -> within (abs_path d) (abs_path (d ++ rs)).
Proof. intros H1 H2. now exists d, rs. Qed.
Lemma exclude_not_above d x : ok_comps d -> exclude_ok (abs_path d) x -> ~ within (against (abs_path d) x) (abs_path d).
Proof.
  intros H (r & Hr & E) W. apply within_prefix in W. apply has_prefix_spec in W as (t & Et).
  rewrite E in Et. apply (f_equal String.length) in Et. rewrite !slength_app in Et.
  destruct r; [easy|]. cbn in Et. lia.
Qed.
Section Entries.
  Variable ex : string -> bool.
  Variable read : string -> result string.
  Variable dj dy : string -> result external_config.
  Notation Entry := (entry ex read dj dy).
  Notation Usable := (usable ex read dj dy).
  Lemma ext_yaml d : path_ext (abs_path (d ++ ["prototool.yaml"])) = ".yaml".
  Proof. rewrite path_ext_abs by reflexivity. reflexivity. Qed.
  Lemma ext_json d : path_ext (abs_path (d ++ ["prototool.json"])) = ".json".
  Proof. rewrite path_ext_abs by reflexivity. reflexivity. Qed.
  Lemma external_decoded d file e : ok_comps d -> In file (config_paths d) ->
    (get_external_config read dj dy file = Ok e <-> decoded read dj dy d file e).
  Proof.
    intros H Hf. unfold get_external_config, decoded.
    pose proof (config_paths_differ d H) as D.
    destruct (read file) as [data|m]; cbn [bind].
    2:{ split; [discriminate|]. intros [[E _]|(data & E & _)]; discriminate. }
    destruct (is_empty data) eqn:E1.
    - apply is_empty_true in E1. subst data. split.
      + intros E; injection E as <-. auto.
      + intros [[_ ->]|(data & E & Hn & _)]; [reflexivity|]. injection E as <-. contradiction.
    - apply is_empty_false in E1. destruct Hf as [<-|[<-|[]]].
      + rewrite ext_yaml. cbn [String.eqb Ascii.eqb Bool.eqb]. split.
        * intros E. right. exists data. auto.
        * intros [[E _]|(data' & E & _ & [[E2 _]|[_ E2]])]; [injection E as ->; contradiction|contradiction|congruence].
      + rewrite ext_json. cbn [String.eqb Ascii.eqb Bool.eqb]. split.
        * intros E. right. exists data. auto.
        * intros [[E _]|(data' & E & _ & [[_ E2]|[E2 _]])]; [injection E as ->; contradiction|congruence|now symmetry in E2].
  Qed.
  Lemma decoded_fun d file e e' : ok_comps d -> In file (config_paths d) -> decoded read dj dy d file e -> decoded read dj dy d file e' -> e = e'.
  Proof. intros H Hf A B. apply external_decoded in A, B; auto. congruence. Qed.
  Lemma the_config_fun d p q : the_config ex d p -> the_config ex d q -> p = q.
  Proof. intros (A & B & _) (_ & _ & F). auto. Qed.
  Lemma dir_excludes_ok d l : ok_comps d -> get_exclude_prefixes_for_dir ex read dj dy (abs_path d) = Ok l ->
    Usable d /\ (forall p, In p l <-> Entry d p) /\ (forall p, In p l -> ~ within p (abs_path d)).
  Proof.
    intros H. unfold get_exclude_prefixes_for_dir. rewrite is_abs_abs_path. cbn [negb].
    rewrite clean_abs_path by assumption. pose proof (single_spec ex d H) as S.
    destruct (get_single_file_path_for_dir ex (abs_path d)) as [p|]; [|discriminate]. cbn [bind].
    destruct p as [|c p]; cbn [is_empty].
    - intros E; injection E as <-. split; [now left|]. split; [|now intros p []].
      intros p. split; [intros []|]. intros (file & e & x & (T1 & T2 & _) & _). rewrite S in T2 by assumption. discriminate.
    - destruct (get_external_config read dj dy (String c p)) as [e|] eqn:E1; [|discriminate]. cbn [bind].
      apply (external_decoded d) in E1; [|assumption|apply S].
      intros E2. apply exclude_prefixes_ok in E2 as [A B]; [|now exists d].
      split; [right; eauto|]. split.
      + intros q. rewrite (B q). split.
        * intros (x & H1 & H2 & ->). exists (String c p), e, x. auto.
        * intros (file & e' & x & T & De & H1 & H2 & ->). assert (file = String c p) as -> by (eapply the_config_fun; eassumption).
          assert (e' = e) as -> by (eapply decoded_fun; try eassumption; apply T). eauto.
      + intros q Hq. apply B in Hq as (x & H1 & H2 & ->). apply exclude_not_above; auto.
  Qed.
  Lemma dir_excludes_total d : ok_comps d -> Usable d -> exists l, get_exclude_prefixes_for_dir ex read dj dy (abs_path d) = Ok l.
  Proof.
    intros H U. unfold get_exclude_prefixes_for_dir. rewrite is_abs_abs_path. cbn [negb].
    rewrite clean_abs_path by assumption. pose proof (single_spec ex d H) as S.
    destruct (get_single_file_path_for_dir ex (abs_path d)) as [p|]; cbn [bind].
    - destruct p as [|c p]; cbn [is_empty]; [eauto|].
      destruct U as [U|(file & e & T & De & F)].
      + destruct S as (S1 & S2 & _). rewrite U in S2 by assumption. discriminate.
      + assert (file = String c p) as -> by (eapply the_config_fun; eassumption).
        apply external_decoded in De; [|assumption|apply T]. rewrite De. cbn [bind].
        apply exclude_prefixes_total; [now exists d|assumption].
    - exfalso. destruct U as [U|(file & e & T & _)].
      + specialize (S _ (or_introl eq_refl)). rewrite U in S by (now left). discriminate.
      + apply (config_paths_differ d H). destruct T as (_ & _ & F).
        rewrite (F (abs_path (d ++ ["prototool.yaml"]))) by (try apply S; now left).
        rewrite (F (abs_path (d ++ ["prototool.json"]))) by (try apply S; right; now left). reflexivity.
  Qed.
End Entries.

(** ** Display paths *)
Lemma dotdots_fold l n : fold_left (clean_step false) (dotdots l) (repeat ".." n) = repeat ".." (length l + n).
Proof.
  revert n. induction l as [|x l IH]; intros n; [reflexivity|]. cbn [dotdots map fold_left].
  change (map (fun _ : string => "..") l) with (dotdots l).
  replace (clean_step false (repeat ".." n) "..") with (repeat ".." (S n)) by (destruct n; reflexivity).
  rewrite IH. f_equal. cbn. lia.
Qed.
Lemma dotdots_repeat l : rev (repeat ".." (length l + 0)) = dotdots l.
Proof.
  rewrite Nat.add_0_r. induction l as [|x l IH]; [reflexivity|]. cbn [length repeat rev dotdots map].
  rewrite IH. clear. induction l as [|y l IH]; [reflexivity|]. cbn [dotdots map app]. f_equal. exact IH.
Qed.
Lemma rel_clean a b r : ok_comps a -> ok_comps b -> path_rel (abs_path a) (abs_path b) = Ok r -> path_clean r = r.
Proof.
  intros Ha Hb E. pose proof (path_rel_not_abs _ _ _ Ha Hb E) as Na.
  rewrite path_rel_abs in E by assumption. destruct (list_eq_dec string_dec a b) as [->|Hne]; [injection E as <-; reflexivity|].
  injection E as <-. destruct (strip_common_spec a b) as (c & E1 & E2).
  set (ra := fst (strip_common a b)) in *. set (rb := snd (strip_common a b)) in *.
  assert (ok_comps rb) as Hrb by (rewrite E2 in Hb; now apply ok_comps_app in Hb).
  assert (dotdots ra ++ rb <> []) as Hn.
  { intros Hn. apply app_eq_nil in Hn as [H1 H2]. apply map_eq_nil in H1. apply Hne. rewrite E1, E2, H1, H2. reflexivity. }
  unfold path_clean. rewrite Na. unfold clean_comps.
  rewrite split_join; [|assumption|].
  - rewrite fold_left_app. change (@nil string) with (repeat ".." 0) at 2. change (@nil string) with (repeat ".." 0) at 1.
    rewrite dotdots_fold. rewrite clean_fold_ok by assumption. rewrite rev_app_distr, rev_involutive, dotdots_repeat.
    destruct (dotdots ra ++ rb); [contradiction|reflexivity].
  - apply Forall_app. split; [|now apply ok_comps_no_slash]. unfold dotdots. apply Forall_map, Forall_forall. reflexivity.
Qed.
Lemma shown_rel work path r : clean_abs work -> clean_abs path -> path_rel work path = Ok r -> shown work path (path_clean r).
Proof.
  intros (ws & Hw & ->) (ps & Hp & ->) E. rewrite (rel_clean ws ps r) by assumption.
  split; [now apply path_rel_not_abs in E|]. split; [now apply (rel_clean ws ps r)|].
  rewrite <- join_against by (now exists ws). now apply path_join_rel.
Qed.
Lemma rel_ok work path : clean_abs work -> clean_abs path -> exists r, path_rel work path = Ok r.
Proof.
  intros (ws & Hw & ->) (ps & Hp & ->). rewrite path_rel_abs by assumption.
  destruct (list_eq_dec string_dec ws ps); eauto.
Qed.

(** ** The walk *)
Lemma nodup_app {A} (l l' : list A) : NoDup l -> NoDup l' -> (forall x, In x l -> In x l' -> False) -> NoDup (l ++ l').
Proof.
  intros H H' D. induction H as [|x l Hx Hl IH]; [assumption|]. cbn. constructor.
  - rewrite in_app_iff. intros [F|F]; [contradiction|]. apply (D x); [now left|assumption].
  - apply IH. intros y Hy. apply D. now right.
Qed.
Lemma within_abs_iff d p : ok_comps d -> (within (abs_path d) p <-> exists rs, ok_comps rs /\ p = abs_path (d ++ rs)).
Proof.
  intros H. split.
  - intros (ds & rs & H1 & H2 & E & ->). apply abs_path_inj in E; [|assumption|assumption]. subst ds. eauto.
  - intros (rs & H2 & ->). now apply within_abs.
Qed.
Lemma within_clean d p : within d p -> clean_abs d /\ clean_abs p.
Proof. intros (ds & rs & H1 & H2 & -> & ->). split; [now exists ds|]. exists (ds ++ rs). split; [now apply ok_comps_app|reflexivity]. Qed.
(** Something below one entry does not contain anything below another. *)
Lemma siblings d x y rs p : ok_comps (d ++ [x]) -> ok_comps (d ++ y :: rs) -> x <> y ->
  within (abs_path (d ++ [x])) p -> ~ within p (abs_path (d ++ y :: rs)).
Proof.
  intros Hx Hy N W1 W2. pose proof (within_trans _ _ _ W1 W2) as W.
  apply within_abs_iff in W as (t & Ht & E); [|assumption].
  apply abs_path_inj in E; [|assumption|now apply ok_comps_app].
  rewrite <- app_assoc in E. apply app_inv_head in E. cbn in E. injection E as E _. now symmetry in E.
Qed.
Lemma deeper d x : ok_comps (d ++ [x]) -> ~ within (abs_path (d ++ [x])) (abs_path d).
Proof.
  intros H W. apply within_abs_iff in W as (t & Ht & E); [|assumption].
  apply ok_comps_app in H as [H1 H2].
  apply abs_path_inj in E; [|assumption|repeat (apply ok_comps_app; split; auto)].
  rewrite <- app_assoc in E. rewrite <- (app_nil_r d) in E at 1. apply app_inv_head in E. discriminate.
Qed.

Section Walk.
  Variable ex : string -> bool.
  Variable read : string -> result string.
  Variable dj dy : string -> result external_config.
  Variable data : string.
  Variable work : string.
  Variable root : list string.
  Hypothesis Hwork : clean_abs work.
  Hypothesis Hroot : ok_comps root.
  Notation visitp := (visit_path ex read dj dy data work (abs_path root)).
  Notation walkp := (walk ex read dj dy data work (abs_path root)).

  Fixpoint walk_entries (path : string) (l : list (string * node)) (st : walk_state) : result walk_state :=
    match l with
    | [] => Ok st
    | (name, c) :: l' => do st' <- walkp (path_join [path; name]) c st; walk_entries path l' st'
    end.
  Lemma walk_dir path es st : walkp path (NDir es) st =
    do r <- visitp path true st;
    match r with (VSkipDir, st) => Ok st | (VContinue, st) => walk_entries path es st end.
  Proof.
    cbn [walk]. destruct (visitp path true st) as [[[] st1]|]; [|reflexivity|reflexivity]. cbn [bind].
    revert st1. induction es as [|[name c] es IH]; intros st1; [reflexivity|]. cbn [walk_entries].
    destruct (walkp (path_join [path; name]) c st1) as [st2|]; [|reflexivity]. cbn [bind]. apply IH.
  Qed.

  (** Entries read from configuration files during the walk. *)
  Definition walk_entry (d : list string) (p : string) : Prop := data = "" /\ entry ex read dj dy d p.
  Lemma visit_dir d st v st' : ok_comps d -> visitp (abs_path d) true st = Ok (v, st') ->
    exists X, st' = mk_walk_state (w_excludes st ++ X) (w_files st) /\
      (forall p, In p X <-> walk_entry d p) /\ (forall p, In p X -> ~ within p (abs_path d)) /\
      v = (if is_excluded (abs_path d) (abs_path root) (w_excludes st ++ X) then VSkipDir else VContinue) /\
      (data = "" -> usable ex read dj dy d).
  Proof.
    intros H. unfold visit_path, walk_entry. destruct (is_empty data) eqn:E0.
    - apply is_empty_true in E0.
      destruct (get_exclude_prefixes_for_dir ex read dj dy (abs_path d)) as [X|] eqn:E1; [|discriminate]. cbn [bind].
      apply dir_excludes_ok in E1 as (U & A & B); [|assumption]. cbn [w_excludes].
      exists X. destruct (is_excluded (abs_path d) (abs_path root) (w_excludes st ++ X)); injection H0 as <- <-;
        (split; [reflexivity|]; split; [intros p; rewrite A; tauto|]; split; [exact B|]; split; [reflexivity|auto]).
    - apply is_empty_false in E0. cbn [bind]. intros E. exists []. rewrite !app_nil_r.
      destruct st as [e fs]. cbn [w_excludes w_files] in *.
      destruct (is_excluded (abs_path d) (abs_path root) e); injection E as <- <-;
        (split; [reflexivity|]; split; [intros p; cbn; tauto|]; split; [intros p []|]; split; [reflexivity|tauto]).
  Qed.

  Definition covered (E : list string) (path : string) : Prop := exists p, In p E /\ within p path.
  Definition covered_below (pre cs : list string) : Prop :=
    exists a b p, cs = a ++ b /\ b <> [] /\ walk_entry (root ++ pre ++ a) p /\ within p (abs_path (root ++ pre ++ cs)).
  Definition Found (E : list string) (pre : list string) (n : node) (f : proto_file) : Prop :=
    exists cs, file_in n cs /\ pf_path f = abs_path (root ++ pre ++ cs) /\ path_ext (pf_path f) = ".proto" /\
      (exists r, path_rel work (pf_path f) = Ok r /\ pf_display f = path_clean r) /\
      ~ covered E (pf_path f) /\ ~ covered_below pre cs.

  Lemma excluded_covered E d : ok_comps (root ++ d) -> (forall p, In p E -> ~ within p (abs_path root)) ->
    (is_excluded (abs_path (root ++ d)) (abs_path root) E = true <-> covered E (abs_path (root ++ d))).
  Proof.
    intros H N. apply ok_comps_app in H as [_ H].
    rewrite excluded_iff by (now apply within_abs). unfold covered. split.
    - intros (p & A & B & _). eauto.
    - intros (p & A & B). exists p. auto.
  Qed.

  Lemma walk_ok n : forall pre st st', ok_comps pre -> named n ->
    (forall p, In p (w_excludes st) -> ~ within p (abs_path root)) ->
    (forall d p, dir_in n d -> walk_entry (root ++ pre ++ d) p -> within (abs_path (root ++ pre ++ d)) p) ->
    walkp (abs_path (root ++ pre)) n st = Ok st' ->
    exists new X, w_files st' = w_files st ++ new /\ w_excludes st' = w_excludes st ++ X /\
      (forall p, In p X -> within (abs_path (root ++ pre)) p /\ ~ within p (abs_path (root ++ pre))) /\
      NoDup (map pf_path new) /\ forall f, In f new <-> Found (w_excludes st) pre n f.
  Proof.
    induction n as [| | |es IH] using node_ind'; intros pre st st' Hpre Nn HE HC W.
    - (* a file *)
      cbn [walk] in W. unfold visit_path in W.
      assert (ok_comps (root ++ pre)) as Hrp by (now apply ok_comps_app).
      assert (clean_abs (abs_path (root ++ pre))) as Hcl by (now exists (root ++ pre)).
      destruct (String.eqb (path_ext (abs_path (root ++ pre))) ".proto") eqn:E1; cbn [negb] in W.
      + apply String.eqb_eq in E1.
        destruct (is_excluded (abs_path (root ++ pre)) (abs_path root) (w_excludes st)) eqn:E2; cbn [bind snd] in W; injection W as <-.
        * apply excluded_covered in E2; [|assumption|assumption].
          exists [], []. rewrite !app_nil_r. split; [reflexivity|]. split; [reflexivity|]. split; [intros p []|]. split; [constructor|].
          intros f. split; [intros []|]. intros (cs & F1 & F2 & F3 & F4 & F5 & F6). inversion F1; subst cs.
          rewrite app_nil_r in F2. rewrite F2 in F5. contradiction.
        * assert (~ covered (w_excludes st) (abs_path (root ++ pre))) as E2'.
          { intros C. apply excluded_covered in C; [|assumption|assumption]. congruence. }
          destruct (rel_ok work (abs_path (root ++ pre)) Hwork Hcl) as (r & Er). rewrite Er.
          exists [mk_proto_file (abs_path (root ++ pre)) (path_clean r)], []. cbn [w_files w_excludes].
          rewrite app_nil_r. split; [reflexivity|]. split; [reflexivity|]. split; [intros p []|]. split; [constructor; [intros []|constructor]|].
          intros f. cbn [In]. split.
          -- intros [<-|[]]. exists []. rewrite app_nil_r. cbn [pf_path pf_display]. split; [constructor|]. split; [reflexivity|].
             split; [assumption|]. split; [eauto|]. split; [assumption|].
             intros (a & b & p & Eab & Hb & _). symmetry in Eab. apply app_eq_nil in Eab as [_ ->]. contradiction.
          -- intros (cs & F1 & F2 & F3 & (r' & F4 & F4') & _). inversion F1; subst cs. rewrite app_nil_r in F2. left.
             destruct f as [pth disp]. cbn [pf_path pf_display] in *. subst pth. rewrite Er in F4. injection F4 as <-. now subst disp.
      + cbn [bind snd] in W. injection W as <-. apply seqb_neq in E1. exists [], []. rewrite !app_nil_r.
        split; [reflexivity|]. split; [reflexivity|]. split; [intros p []|]. split; [constructor|].
        intros f. split; [intros []|]. intros (cs & F1 & F2 & F3 & _). inversion F1; subst cs.
        rewrite app_nil_r in F2. rewrite F2 in F3. contradiction.
    - discriminate W.
    - discriminate W.
    - (* a directory *)
      assert (ok_comps (root ++ pre)) as Hrp by (now apply ok_comps_app).
      rewrite walk_dir in W. destruct (visitp (abs_path (root ++ pre)) true st) as [[v st1]|] eqn:V; [|discriminate]. cbn [bind] in W.
      apply visit_dir in V as (X & -> & VX & VN & -> & _); [|assumption].
      inversion Nn as [| | |? No Nd Ns]; subst.
      assert (forall p, In p (w_excludes st ++ X) -> ~ within p (abs_path root)) as HE1.
      { intros p Hp. apply in_app_or in Hp as [Hp|Hp]; [auto|]. intros C. apply (VN p Hp).
        eapply within_trans; [exact C|]. now apply within_abs. }
      assert (forall p, In p X -> within (abs_path (root ++ pre)) p) as XW.
      { intros p Hp. specialize (HC [] p (di_here _)). rewrite app_nil_r in HC. apply HC. now apply VX. }
      destruct (is_excluded (abs_path (root ++ pre)) (abs_path root) (w_excludes st ++ X)) eqn:E1.
      + injection W as <-. exists [], X. cbn [w_files w_excludes]. rewrite app_nil_r.
        split; [reflexivity|]. split; [reflexivity|]. split; [intros p Hp; auto|]. split; [constructor|].
        apply excluded_covered in E1; [|assumption|assumption]. destruct E1 as (p & Hp & Wp).
        apply in_app_or in Hp as [Hp|Hp]; [|now apply VN in Hp].
        intros f. split; [intros []|]. intros (cs & F1 & F2 & _ & _ & F5 & _). apply F5. exists p. split; [assumption|].
        rewrite F2. eapply within_trans; [exact Wp|]. rewrite app_assoc. apply within_abs; [assumption|].
        eapply file_in_ok; eassumption.
      + assert (~ covered (w_excludes st ++ X) (abs_path (root ++ pre))) as E1'.
        { intros C. apply excluded_covered in C; [|assumption|assumption]. congruence. }
        (* the loop *)
        assert (forall l sa sb, incl l es -> NoDup (map fst l) ->
          (forall p, In p (w_excludes sa) -> ~ within p (abs_path root)) ->
          walk_entries (abs_path (root ++ pre)) l sa = Ok sb ->
          exists new Y, w_files sb = w_files sa ++ new /\ w_excludes sb = w_excludes sa ++ Y /\
            (forall p, In p Y -> exists name, In name (map fst l) /\ within (abs_path (root ++ pre ++ [name])) p) /\
            NoDup (map pf_path new) /\
            forall f, In f new <-> exists name c, In (name, c) l /\ Found (w_excludes sa) (pre ++ [name]) c f) as Loop.
        { induction l as [|[name c] l IHl]; intros sa sb Hl Hnd HEa Wl.
          - cbn [walk_entries] in Wl. injection Wl as <-. exists [], []. rewrite !app_nil_r. split; [reflexivity|]. split; [reflexivity|].
            split; [intros p []|]. split; [constructor|]. intros f. split; [intros []|]. intros (? & ? & [] & _).
          - cbn [walk_entries] in Wl.
            assert (In (name, c) es) as Hin by (apply Hl; now left).
            assert (ok_comp name = true) as Hname.
            { unfold ok_comps in No. rewrite Forall_forall in No. apply No. apply (in_map fst) in Hin. exact Hin. }
            assert (ok_comps (pre ++ [name])) as Hpn by (apply ok_comps_app; split; [assumption|constructor; [assumption|constructor]]).
            replace (path_join [abs_path (root ++ pre); name]) with (abs_path (root ++ (pre ++ [name]))) in Wl.
            2:{ symmetry. rewrite app_assoc. apply (path_join_abs_ok (root ++ pre) [name]); [assumption|constructor; [assumption|constructor]|discriminate]. }
            destruct (walkp (abs_path (root ++ (pre ++ [name]))) c sa) as [s1|] eqn:W1; [|discriminate]. cbn [bind] in Wl.
            rewrite Forall_forall in IH. pose proof (IH _ Hin) as IHc. cbn [snd] in IHc.
            apply IHc in W1 as (new1 & X1 & A1 & A2 & A3 & A4 & A5); [|assumption|eapply Ns; eassumption|assumption|].
            2:{ intros d p Hd He. rewrite <- app_assoc in *. cbn [app] in *. apply HC; [|assumption]. econstructor; eassumption. }
            cbn [map fst] in Hnd. inversion Hnd as [|? ? Hni Hnd']; subst.
            assert (forall p, In p X1 -> ~ within p (abs_path root)) as HX1.
            { intros p Hp C. apply A3 in Hp as [Hp1 Hp2]. apply Hp2. eapply within_trans; [exact C|]. now apply within_abs. }
            apply IHl in Wl as (new2 & X2 & B1 & B2 & B3 & B4 & B5).
            2:{ intros e He. apply Hl. now right. }
            2:{ assumption. }
            2:{ intros p Hp. rewrite A2 in Hp. apply in_app_or in Hp as [Hp|Hp]; auto. }
            exists (new1 ++ new2), (X1 ++ X2). rewrite B1, A1, B2, A2, !app_assoc.
            split; [reflexivity|]. split; [reflexivity|].
            assert (forall f, Found (w_excludes sa) (pre ++ [name]) c f -> exists t, ok_comps t /\ pf_path f = abs_path (root ++ pre ++ name :: t)) as Under.
            { intros f (cs & F1 & F2 & _). exists cs. split; [eapply file_in_ok; [|exact F1]; eapply Ns; eassumption|].
              rewrite F2. now rewrite <- app_assoc. }
            assert (forall name2 c2 f, In (name2, c2) l ->
              (Found (w_excludes s1) (pre ++ [name2]) c2 f <-> Found (w_excludes sa) (pre ++ [name2]) c2 f)) as Same.
            { intros name2 c2 f H2.
              assert (name2 <> name) as Hneq by (intros ->; apply Hni; apply (in_map fst) in H2; exact H2).
              assert (In (name2, c2) es) as Hin2 by (apply Hl; now right).
              assert (ok_comp name2 = true) as Hname2.
              { unfold ok_comps in No. rewrite Forall_forall in No. apply No. apply (in_map fst) in Hin2. exact Hin2. }
              assert (forall cs, file_in c2 cs -> (covered (w_excludes s1) (abs_path (root ++ (pre ++ [name2]) ++ cs)) <->
                                   covered (w_excludes sa) (abs_path (root ++ (pre ++ [name2]) ++ cs)))) as Cov.
              { intros cs Hcs. assert (ok_comps cs) as Hcso by (eapply file_in_ok; [|exact Hcs]; eapply Ns; eassumption).
                rewrite A2. split.
                - intros (p & Hp & Wp). apply in_app_or in Hp as [Hp|Hp]; [exists p; auto|]. exfalso.
                  apply A3 in Hp as [Hp _]. rewrite app_assoc in Hp.
                  replace (root ++ (pre ++ [name2]) ++ cs) with ((root ++ pre) ++ name2 :: cs) in Wp by (now rewrite <- !app_assoc).
                  eapply siblings; [| | |exact Hp|exact Wp].
                  + apply ok_comps_app; split; [assumption|constructor; [assumption|constructor]].
                  + apply ok_comps_app; split; [assumption|constructor; assumption].
                  + now apply not_eq_sym.
                - intros (p & Hp & Wp). exists p. split; [apply in_or_app; now left|assumption]. }
              split; intros (cs & F1 & F2 & F3 & F4 & F5 & F6); exists cs; split; [assumption|split; [assumption|]|assumption|split; [assumption|]];
                (split; [assumption|]; split; [assumption|]; split; [|assumption]); rewrite F2 in *;
                intros C; apply F5; now apply (Cov cs F1). }
            split; [|split].
            + intros p Hp. apply in_app_or in Hp as [Hp|Hp].
              * exists name. split; [now left|]. now apply A3.
              * apply B3 in Hp as (nm & Hn & Hw). exists nm. split; [now right|assumption].
            + rewrite map_app. apply nodup_app; [assumption|assumption|].
              intros q Hq1 Hq2. apply in_map_iff in Hq1 as (f1 & <- & Hf1). apply in_map_iff in Hq2 as (f2 & Ef & Hf2).
              apply A5, Under in Hf1 as (t1 & Ht1 & P1). apply B5 in Hf2 as (nm & c2 & Hin2 & F2).
              destruct F2 as (cs & G1 & G2 & _). rewrite Ef in G2. rewrite P1 in G2.
              assert (In (nm, c2) es) as Hin2' by (apply Hl; now right).
              assert (ok_comp nm = true) as Hnm.
              { unfold ok_comps in No. rewrite Forall_forall in No. apply No. apply (in_map fst) in Hin2'. exact Hin2'. }
              assert (ok_comps cs) as Hcs by (eapply file_in_ok; [|exact G1]; eapply Ns; eassumption).
              apply abs_path_inj in G2.
              * apply app_inv_head in G2. rewrite <- app_assoc in G2. apply app_inv_head in G2. injection G2 as <- _.
                apply Hni. apply (in_map fst) in Hin2. exact Hin2.
              * rewrite app_assoc. apply ok_comps_app; split; [assumption|constructor; assumption].
              * rewrite <- app_assoc, app_assoc. apply ok_comps_app; split; [assumption|constructor; assumption].
            + intros f. rewrite in_app_iff, A5, B5. split.
              * intros [H|(nm & c2 & H2 & F)]; [exists name, c; split; [now left|assumption]|].
                exists nm, c2. split; [now right|]. now apply Same.
              * intros (nm & c2 & [H2|H2] & F); [injection H2 as <- <-; now left|]. right. exists nm, c2. split; [assumption|]. now apply Same. }
        apply Loop in W as (new & Y & A1 & A2 & A3 & A4 & A5); [|apply incl_refl|assumption|exact HE1].
        cbn [w_files w_excludes] in *. exists new, (X ++ Y). rewrite A1, A2, app_assoc.
        split; [reflexivity|]. split; [reflexivity|]. split; [|split; [assumption|]].
        * intros p Hp. apply in_app_or in Hp as [Hp|Hp]; [auto|]. apply A3 in Hp as (nm & Hnm & Hw).
          assert (ok_comp nm = true) as Hnm' by (unfold ok_comps in No; rewrite Forall_forall in No; now apply No).
          assert (ok_comps ((root ++ pre) ++ [nm])) as Hrn by (apply ok_comps_app; split; [assumption|constructor; [assumption|constructor]]).
          rewrite app_assoc in Hw. split.
          -- eapply within_trans; [|exact Hw]. apply within_abs; [assumption|constructor; [assumption|constructor]].
          -- intros C. apply (deeper (root ++ pre) nm Hrn). eapply within_trans; eassumption.
        * intros f. rewrite A5. split.
          -- intros (nm & c & Hin & cs & F1 & F2 & F3 & F4 & F5 & F6).
             assert (root ++ (pre ++ [nm]) ++ cs = root ++ pre ++ nm :: cs) as Ecs by (now rewrite <- !app_assoc).
             exists (nm :: cs). split; [econstructor; eassumption|]. rewrite <- Ecs. split; [assumption|]. split; [assumption|].
             split; [assumption|]. split; [intros (p & Hp & Wp); apply F5; exists p; split; [apply in_or_app; now left|assumption]|].
             intros (a & b & p & Eab & Hb & He & Wp). destruct a as [|x a].
             ++ rewrite app_nil_r in He. apply F5. exists p. split; [apply in_or_app; right; now apply VX|].
                rewrite F2, Ecs. exact Wp.
             ++ cbn in Eab. injection Eab as <- ->. apply F6. exists a, b, p. split; [reflexivity|]. split; [assumption|].
                split; [now rewrite <- app_assoc|]. rewrite <- app_assoc. cbn [app]. exact Wp.
          -- intros (cs & F1 & F2 & F3 & F4 & F5 & F6). inversion F1 as [|? nm c cs' Hin Hcs]; subst. exists nm, c. split; [assumption|].
             assert (root ++ (pre ++ [nm]) ++ cs' = root ++ pre ++ nm :: cs') as Ecs by (now rewrite <- !app_assoc).
             exists cs'. split; [assumption|]. rewrite Ecs. split; [assumption|]. split; [assumption|]. split; [assumption|]. split.
             ++ intros (p & Hp & Wp). apply in_app_or in Hp as [Hp|Hp]; [apply F5; now exists p|].
                apply F6. exists [], (nm :: cs'), p. split; [reflexivity|]. split; [discriminate|]. rewrite app_nil_r.
                split; [now apply VX|]. now rewrite <- F2.
             ++ intros (a & b & p & -> & Hb & He & Wp). apply F6. exists (nm :: a), b, p. split; [reflexivity|]. split; [assumption|].
                rewrite <- app_assoc in He, Wp. cbn [app] in *. split; assumption.
  Qed.
End Walk.
