(** What is in an excluded directory makes no difference. *)
From Coq Require Import Permutation.
From Verif Require Import GoStrFacts GoMapFacts GoPathFacts Settings_Model Settings_Spec Settings_Proofs File_Model File_Spec File_Proofs File_Proofs2 File_Proofs3 File_Proofs4 Settings_Proofs2 LintRun_Proofs Exclude_Spec.

Section Walk.
  Variable ex : string -> bool.
  Variable rd : string -> result string.
  Variable dj dy : string -> result external_config.
  Variable data work : string.
  Variable root : list string.
  Hypothesis Hr : ok_comps root.
  Variable names : list string.
  Hypothesis Hn : ok_comps names.
  Hypothesis Nn : names <> [].
  Notation D := (abs_path (root ++ names)).
  Notation visit := (visit_path ex rd dj dy data work (abs_path root)).
  Notation walkp := (walk ex rd dj dy data work (abs_path root)).
  Notation walk_entries := (walk_entries ex rd dj dy data work root).

  Lemma not_above : ~ within D (abs_path root).
  Proof.
    intros W. assert (O : ok_comps (root ++ names)) by (now apply ok_comps_app). apply within_abs_iff in W as (rs & Ors & E); [|exact O].
    apply abs_path_inj in E; [|exact Hr|now apply ok_comps_app]. apply (f_equal (@length string)) in E. rewrite !app_length in E. destruct names; [contradiction|]. cbn in E. lia.
  Qed.
  Lemma visit_keeps path b st v st' : visit path b st = Ok (v, st') -> incl (w_excludes st) (w_excludes st').
  Proof.
    unfold visit_path. destruct b.
    - destruct (is_empty data); [destruct (get_exclude_prefixes_for_dir _ _ _ _ _) as [X|]; [|discriminate]|]; cbn [bind]; (destruct (is_excluded _ _ _); intros [= <- <-]; cbn [w_excludes]; [|]; first [apply incl_refl|apply incl_appl, incl_refl]).
    - destruct (negb _); [intros [= <- <-]; apply incl_refl|]. destruct (is_excluded _ _ _); intros [= <- <-]; apply incl_refl.
  Qed.
  Lemma walk_keeps n : forall path st st', walkp path n st = Ok st' -> incl (w_excludes st) (w_excludes st').
  Proof.
    induction n as [| | |es IH] using node_ind'; intros path st st'; cbn [walk]; try discriminate.
    - destruct (visit path false st) as [[v st1]|] eqn:E; [|discriminate]. intros [= <-]. eapply visit_keeps; eassumption.
    - destruct (visit path true st) as [[v st1]|] eqn:E; [|discriminate]. apply visit_keeps in E. cbn [bind]. destruct v; [|intros [= <-]; exact E].
      revert st1 E. induction IH as [|[name c] es Hc Hr0 IHes]; intros st1 E; [intros [= <-]; exact E|]. cbn [snd] in Hc.
      destruct (walkp (path_join [path; name]) c st1) as [st2|] eqn:W; [|discriminate]. cbn [bind]. apply IHes. eapply incl_tran; [exact E|]. eapply Hc; eassumption.
  Qed.
  Lemma visit_skips st v st' : In D (w_excludes st) -> visit D true st = Ok (v, st') -> v = VSkipDir.
  Proof.
    intros I E. assert (X : is_excluded D (abs_path root) (w_excludes st') = true).
    { apply excluded_iff; [now apply within_abs|]. exists D. split; [apply visit_keeps in E; now apply E|]. split; [|exact not_above]. apply within_refl. exists (root ++ names). split; [now apply ok_comps_app|reflexivity]. }
    revert E X. unfold visit_path. destruct (is_empty data); [destruct (get_exclude_prefixes_for_dir _ _ _ _ _) as [Z|]; [|discriminate]|]; cbn [bind];
      (match goal with |- context [if is_excluded ?a ?b ?c then _ else _] => destruct (is_excluded a b c) eqn:Q end; intros [= <- <-]; [reflexivity|]; cbn [w_excludes] in *; congruence).
  Qed.
  Lemma step pre name : ok_comps pre -> ok_comp name = true -> path_join [abs_path (root ++ pre); name] = abs_path (root ++ pre ++ [name]).
  Proof.
    intros O1 O2. change name with (join "/" [name]) at 1. rewrite app_assoc. apply path_join_abs_ok; [now apply ok_comps_app|constructor; [exact O2|constructor]|discriminate].
  Qed.
  Lemma walk_hollow l : forall n pre st, ok_comps pre -> pre ++ l = names -> pre <> [] -> named n -> In D (w_excludes st) ->
    walkp (abs_path (root ++ pre)) n st = walkp (abs_path (root ++ pre)) (hollow l n) st.
  Proof.
    induction l as [|x l IH]; intros n pre st O E Np Na I; (destruct n as [|es| |]; [reflexivity| |reflexivity|reflexivity]); cbn [hollow].
    - rewrite app_nil_r in E. subst pre. cbn [walk]. destruct (visit D true st) as [[v st1]|] eqn:Q; [|reflexivity]. apply visit_skips in Q; [|exact I]. subst v. reflexivity.
    - rewrite !walk_dir. destruct (visit (abs_path (root ++ pre)) true st) as [[v st1]|] eqn:Q; [|reflexivity]. cbn [bind]. destruct v; [|reflexivity].
      apply visit_keeps in Q. apply Q in I. clear Q st. inversion Na as [| | |? No _ Nc]; subst. clear Na. revert st1 I.
      induction es as [|[name c] es IHes]; intros st1 I; [reflexivity|]. cbn [map fst snd] in *. inversion No as [|? ? O1 O2]; subst. cbn [File_Proofs.walk_entries].
      assert (S : walkp (path_join [abs_path (root ++ pre); name]) c st1 = walkp (path_join [abs_path (root ++ pre); name]) (if String.eqb name x then hollow l c else c) st1).
      { destruct (String.eqb_spec name x) as [->|]; [|reflexivity]. rewrite step by assumption. apply IH.
        - apply ok_comps_app. split; [exact O|repeat constructor; exact O1].
        - now rewrite <- app_assoc.
        - now destruct pre.
        - eapply Nc. left. reflexivity.
        - exact I. }
      rewrite <- S. destruct (walkp (path_join [abs_path (root ++ pre); name]) c st1) as [st2|] eqn:W; [|reflexivity]. cbn [bind].
      apply IHes; [exact O2|intros; eapply Nc; right; eassumption|]. apply walk_keeps in W. now apply W.
  Qed.
  (** The root itself may be what excludes the directory. *)
  Lemma root_hollow n st : named n -> (forall v st1, visit (abs_path root) true st = Ok (v, st1) -> In D (w_excludes st1)) ->
    walkp (abs_path root) n st = walkp (abs_path root) (hollow names n) st.
  Proof.
    intros Na I. destruct n as [|es| |]; [destruct names; reflexivity| |destruct names; reflexivity|destruct names; reflexivity]. assert (exists x l, names = x :: l) as (x & l & El) by (destruct names; [contradiction|eauto]). replace (hollow names (NDir es)) with (hollow (x :: l) (NDir es)) by (now rewrite El). cbn [hollow].
    rewrite !walk_dir. destruct (visit (abs_path root) true st) as [[v st1]|] eqn:Q; [|reflexivity]. cbn [bind]. destruct v; [|reflexivity]. specialize (I _ _ eq_refl). clear Q st.
    inversion Na as [| | |? No _ Nc]; clear Na; subst es0. revert st1 I.
    induction es as [|[name c] es IHes]; intros st1 I; [reflexivity|]. cbn [map fst snd] in *. apply Forall_cons_iff in No as [O1 O2]. cbn [File_Proofs.walk_entries].
    assert (S : walkp (path_join [abs_path root; name]) c st1 = walkp (path_join [abs_path root; name]) (if String.eqb name x then hollow l c else c) st1).
    { destruct (String.eqb_spec name x) as [->|]; [|reflexivity]. rewrite <- (app_nil_r root) at 2 4. rewrite step by (assumption || constructor). apply walk_hollow.
      - repeat constructor. exact O1.
      - now rewrite El.
      - discriminate.
      - eapply Nc. left. reflexivity.
      - exact I. }
    rewrite <- S. destruct (walkp (path_join [abs_path root; name]) c st1) as [st2|] eqn:W; [|reflexivity]. cbn [bind].
    apply IHes; [exact O2|intros; eapply Nc; right; eassumption|]. apply walk_keeps in W. now apply W.
  Qed.
  (** No file of the directory is found. *)
  Definition outside (fs : list proto_file) : Prop := Forall (fun f => ~ within D (pf_path f)) fs.
  Lemma visit_outside path st v st' : outside (w_files st) -> visit path true st = Ok (v, st') -> outside (w_files st').
  Proof.
    intros F. unfold visit_path. destruct (is_empty data); [destruct (get_exclude_prefixes_for_dir _ _ _ _ _) as [Z|]; [|discriminate]|]; cbn [bind]; (destruct (is_excluded _ _ _); intros [= <- <-]; exact F).
  Qed.
  Lemma walk_outside n : forall pre st st', ok_comps pre -> named n -> pre = [] \/ In D (w_excludes st) ->
    (forall v st1, visit (abs_path (root ++ pre)) true st = Ok (v, st1) -> In D (w_excludes st1)) ->
    outside (w_files st) -> walkp (abs_path (root ++ pre)) n st = Ok st' -> outside (w_files st').
  Proof.
    induction n as [| | |es IH] using node_ind'; intros pre st st' O Na I Iv F; cbn [walk]; try discriminate.
    - unfold visit_path. destruct (negb _); [intros [= <-]; exact F|]. destruct (is_excluded (abs_path (root ++ pre)) (abs_path root) (w_excludes st)) eqn:X; intros [= <-]; [exact F|]. cbn [w_files].
      apply Forall_app. split; [exact F|]. repeat constructor. cbn [pf_path]. intros W. destruct I as [->|I]; [rewrite app_nil_r in W; now apply not_above|].
      assert (Y : is_excluded (abs_path (root ++ pre)) (abs_path root) (w_excludes st) = true); [|congruence].
      apply excluded_iff; [now apply within_abs|]. exists D. split; [exact I|]. split; [exact W|exact not_above].
    - destruct (visit (abs_path (root ++ pre)) true st) as [[v st1]|] eqn:Q; [|discriminate]. cbn [bind]. specialize (Iv _ _ eq_refl). apply visit_outside in Q; [|exact F]. destruct v; [|intros [= <-]; exact Q].
      clear F I. inversion Na as [| | |? No _ Nc]; subst. clear Na. revert st1 Iv Q.
      induction IH as [|[name c] es Hc Hr0 IHes]; intros st1 Iv Q; [intros [= <-]; exact Q|]. cbn [map fst snd] in *. inversion No as [|? ? O1 O2]; subst.
      rewrite step by assumption. destruct (walkp (abs_path (root ++ pre ++ [name])) c st1) as [st2|] eqn:W; [|discriminate]. cbn [bind].
      apply IHes; [exact O2|intros; eapply Nc; right; eassumption|apply walk_keeps in W; now apply W|].
      eapply Hc; [| | | | |exact W].
      + apply ok_comps_app. split; [exact O|repeat constructor; exact O1].
      + eapply Nc. left. reflexivity.
      + now right.
      + intros v st3 Z. apply visit_keeps in Z. now apply Z.
      + exact Q.
  Qed.
End Walk.

(** What is found is among what was walked over. *)
Section Found.
  Variable P : proto_file -> Prop.
  Notation all := (Forall P).
  Definition all_in (m : list (string * list proto_file)) : Prop := Forall (fun e => all (snd e)) m.
  Lemma all_put d fs m : all fs -> all_in m -> all_in (gput d fs m).
  Proof. intros H M. induction M as [|[k v] m X M IH]; cbn [gput]; [now repeat constructor|]. destruct (keqb d k); constructor; auto. Qed.
  Lemma all_get d m : all_in m -> all (match gget d m with Some l => l | None => [] end).
  Proof. intros M. destruct (gget d m) eqn:E; [|constructor]. apply gget_In in E. unfold all_in in M. rewrite Forall_forall in M. apply (M _ E). Qed.
  Lemma dirs_all fs : all fs -> all_in (dir_path_to_proto_files fs).
  Proof.
    unfold dir_path_to_proto_files. intros F. assert (M : all_in []) by constructor. revert M. generalize (@nil (string * list proto_file)).
    induction F as [|f fs X F IH]; intros m M; cbn [fold_left]; [assumption|]. apply IH. apply all_put; [|assumption].
    apply Forall_app. split; [now apply all_get|now repeat constructor].
  Qed.
  Variable ex : string -> bool.
  Variable rd : string -> result string.
  Variable dj dy : string -> result external_config.
  Variable look : string -> result string.
  Variable sort : list gen_plugin -> list gen_plugin.
  Variable devel : bool.
  Variable data : string.
  Lemma add_dirs_all work ds : all_in ds -> forall m m',
    add_dirs ex rd dj dy look sort devel data work ds m = Ok m' ->
    Forall (fun e => all_in (fst (snd e))) m -> Forall (fun e => all_in (fst (snd e))) m'.
  Proof.
    induction 1 as [|[d fs] ds X F IH]; intros m m' A M; cbn [add_dirs] in A; [now injection A as <-|].
    destruct (add_dir ex rd dj dy look sort devel data work m (d, fs)) as [m1|] eqn:E; [|discriminate A]. cbn [bind] in A.
    apply (IH _ _ A). clear A IH. unfold add_dir in E.
    destruct (if is_empty data then _ else _) as [cf|]; [|discriminate E]. cbn [bind] in E.
    destruct (if negb (is_empty data) then _ else _) as [c|]; [|discriminate E]. cbn [bind] in E. injection E as <-.
    assert (G : all_in (match gget cf m with Some (files, _) => files | None => [] end)).
    { destruct (gget cf m) as [[fl c']|] eqn:E; [|constructor]. apply gget_In in E. rewrite Forall_forall in M. apply (M _ E). }
    assert (N : all_in (gput d (match gget d (match gget cf m with Some (files, _) => files | None => [] end) with Some l => l | None => [] end ++ fs)
                   (match gget cf m with Some (files, _) => files | None => [] end))).
    { apply all_put; [|assumption]. apply Forall_app. split; [now apply all_get|assumption]. }
    revert N. generalize (gput d (match gget d (match gget cf m with Some (files, _) => files | None => [] end) with Some l => l | None => [] end ++ fs)
                   (match gget cf m with Some (files, _) => files | None => [] end)). clear - M. intros new N.
    induction M as [|[k v] m X M IH]; cbn [gput]; [now repeat constructor|].
    destruct (keqb cf k); constructor; auto.
  Qed.
  Variable ord : order.
  Hypothesis V : forall place A (l : list A) x, In x (ord place A l) -> In x l.
  Lemma sets_all work fs sets : all fs -> base_proto_sets ord ex rd dj dy look sort devel data work (dir_path_to_proto_files fs) = Ok sets -> Forall (fun s => all_in (fst s)) sets.
  Proof.
    intros F B. apply dirs_all in F. unfold base_proto_sets in B. destruct (dir_path_to_proto_files fs) as [|d ds] eqn:D.
    - destruct (default_base_proto_set _ _ _ _ _ _ _ _ _) as [s|] eqn:Q; [|discriminate B]. cbn [bind] in B. injection B as <-.
      unfold default_base_proto_set in Q. destruct (if is_empty data then _ else _); [|discriminate Q]. cbn [bind] in Q. injection Q as <-.
      constructor; [constructor|constructor].
    - rewrite <- D in *. clear D.
      destruct (add_dirs _ _ _ _ _ _ _ _ _ _ _) as [m|] eqn:Q; [|discriminate B]. cbn [bind] in B. injection B as <-.
      apply add_dirs_all in Q; [|apply Forall_forall; intros x I; apply V in I; unfold all_in in F; rewrite Forall_forall in F; now apply F|constructor].
      apply Forall_map. exact Q.
  Qed.
End Found.

Section Provider.
  Variable ex : string -> bool.
  Variable rd : string -> result string.
  Variable dj dy : string -> result external_config.
  Variable look : string -> result string.
  Variable sort : list gen_plugin -> list gen_plugin.
  Variable devel : bool.
  Variable data : string.
  Variable ord : order.
  Hypothesis V : forall place A (l : list A) x, In x (ord place A l) -> In x l.
  Variable nd nd' : string -> node.
  Hypothesis Nm : forall p, named (nd p).
  Hypothesis Nm' : forall p, named (nd' p).
  Variable cwd work dir : string.
  Variable hs ds root names : list string.
  Hypothesis Hh : ok_comps hs.
  Hypothesis Hd : ok_comps ds.
  Hypothesis Hn : ok_comps names.
  Hypothesis Nn : names <> [].
  Hypothesis Ew : abs_clean cwd work = abs_path hs.
  Hypothesis Ed : abs_clean cwd dir = abs_path ds.
  Hypothesis Ex : (data = "" /\ searched ex ds root /\ entry ex rd dj dy root (abs_path (root ++ names))) \/
    (data <> "" /\ root = hs /\ exists e x, dj data = Ok e /\ In x (x_excludes e) /\ x <> "" /\ against (abs_path hs) x = abs_path (hs ++ names)).
  Notation D := (abs_path (root ++ names)).
  Lemma root_ok : ok_comps root.
  Proof.
    destruct Ex as [(_ & S & _)|(_ & -> & _)]; [|exact Hh]. destruct S as [(_ & ->)|(p & (b & E & _) & _)]; [exact Hd|]. rewrite E in Hd. now apply ok_comps_app in Hd.
  Qed.
  Lemma the_root : (if is_empty data then do cf <- get_file_path_for_dir ex (abs_path ds); Ok (if negb (is_empty cf) then path_dir cf else abs_path ds) else Ok (abs_path hs)) = Ok (abs_path root).
  Proof.
    pose proof root_ok as Ro. destruct Ex as [(N & S & _)|(N & R & _)].
    - rewrite N. apply (root_searched ex (abs_path hs) ds (abs_path root) Hd). exists root. split; [exact Ro|]. split; [reflexivity|exact S].
    - apply is_empty_false in N. rewrite N. now rewrite R.
  Qed.
  Lemma excluded_first e v st1 fs : initial_excludes dj data (abs_path hs) = Ok e -> visit_path ex rd dj dy data (abs_path hs) (abs_path root) (abs_path root) true (mk_walk_state e fs) = Ok (v, st1) -> In D (w_excludes st1).
  Proof.
    intros I Q. destruct Ex as [(N & S & En)|(N & R & e' & x & Dj & Ix & Nx & Ag)].
    - apply (visit_dir ex rd dj dy data (abs_path hs) root root) in Q as (X & -> & Y & _); [|exact root_ok]. cbn [w_excludes]. apply in_app_iff. right. apply Y. split; [exact N|exact En].
    - apply visit_keeps in Q. apply Q. cbn [w_excludes]. unfold initial_excludes in I. apply is_empty_false in N. rewrite N in I.
      unfold get_exclude_prefixes_for_data in I. rewrite is_abs_abs_path, Dj in I. cbn [negb bind] in I. rewrite (clean_abs_path hs Hh) in I.
      apply exclude_prefixes_ok in I as [_ I]; [|exists hs; auto]. apply I. exists x. split; [exact Ix|]. split; [exact Nx|]. rewrite R. now rewrite Ag.
  Qed.
  Lemma provider_hollow : hollow names (nd (abs_path root)) = hollow names (nd' (abs_path root)) ->
    provider_get_for_dir ord cwd nd ex rd dj dy look sort devel data work dir = provider_get_for_dir ord cwd nd' ex rd dj dy look sort devel data work dir.
  Proof.
    intros E. unfold provider_get_for_dir, get_multiple_for_dir. rewrite Ew, Ed, the_root. cbn [bind].
    assert (X : walk_and_get_all_proto_files nd ex rd dj dy data (abs_path hs) (abs_path root) = walk_and_get_all_proto_files nd' ex rd dj dy data (abs_path hs) (abs_path root)); [|now rewrite X].
    unfold walk_and_get_all_proto_files. destruct (initial_excludes dj data (abs_path hs)) as [e|] eqn:I; [|reflexivity]. cbn [bind].
    rewrite (root_hollow ex rd dj dy data (abs_path hs) root root_ok names Hn Nn (nd (abs_path root)) _ (Nm _) (fun v st1 => excluded_first e v st1 [] I)).
    rewrite (root_hollow ex rd dj dy data (abs_path hs) root root_ok names Hn Nn (nd' (abs_path root)) _ (Nm' _) (fun v st1 => excluded_first e v st1 [] I)).
    rewrite E. reflexivity.
  Qed.
  Lemma provider_outside ps : provider_get_for_dir ord cwd nd ex rd dj dy look sort devel data work dir = Ok ps -> forall d fs f, In (d, fs) (ps_files ps) -> In f fs -> ~ within D (pf_path f).
  Proof.
    unfold provider_get_for_dir, get_multiple_for_dir. rewrite Ew, Ed, the_root. cbn [bind].
    unfold walk_and_get_all_proto_files. destruct (initial_excludes dj data (abs_path hs)) as [e|] eqn:I; [|discriminate]. cbn [bind].
    destruct (walk ex rd dj dy data (abs_path hs) (abs_path root) (abs_path root) (nd (abs_path root)) (mk_walk_state e [])) as [st|] eqn:W; [|discriminate]. cbn [bind].
    assert (F : outside root names (w_files st)).
    { rewrite <- (app_nil_r root) in W at 2. eapply (walk_outside ex rd dj dy data (abs_path hs) root root_ok names Hn Nn); [| | | | |exact W]; [constructor|apply Nm|now left| |constructor].
      rewrite app_nil_r. intros v st1. now apply excluded_first. }
    destruct (base_proto_sets ord ex rd dj dy look sort devel data (abs_path hs) (dir_path_to_proto_files (w_files st))) as [sets|] eqn:B; [|discriminate]. cbn [bind].
    destruct (mapM _ _); [|discriminate]. cbn [bind]. apply (sets_all _ _ _ _ _ _ _ _ _ _ V) with (1 := F) in B.
    destruct sets as [|s [|s' sets]]; [discriminate| |discriminate]. cbn [map]. intros [= <-]. cbn [ps_files]. inversion B as [|? ? B1 _]; subst.
    assert (G : all_in (fun f => ~ within D (pf_path f)) (by_dir (fst s))) by (eapply Permutation_Forall; [apply (isort_perm (fun a b => str_leb (fst a) (fst b)))|exact B1]).
    intros d fs f I1 I2. unfold all_in in G. rewrite Forall_forall in G. specialize (G _ I1). cbn [snd] in G. rewrite Forall_forall in G. exact (G _ I2).
  Qed.
End Provider.
