(** Properties of the commands: C27, C54, C59, C67, C68. *)
From Verif Require Import GoStrFacts Exec_Proofs3.

Section Commands.
  Variable ord : map_order.
  Variable cwd work_dir error_format : string.
  Variable json : bool.
  Variable to_json : failure -> string.
  Variable stat : string -> result file_kind.
  Variable get_for_dir : string -> string -> result proto_set.
  Variable D : Type.
  Variable compiler : bool -> bool -> option (bool * bool) -> (string -> result string) -> proto_set -> result (list failure * list D).
  Variable commands : bool -> proto_set -> result (list string).
  Variable transform : Z -> string -> string -> string -> string -> result (string * list failure).
  Variable diff : string -> string -> string -> result string.
  Variable run_lint : (string -> result string) -> proto_set -> bool -> result (list failure).
  Variable write_error : string -> string -> option (result string * string).
  Hypothesis Hord : visits_all ord.
  Notation found := (found work_dir stat get_for_dir).
  Notation format_cmd := (format_cmd ord cwd work_dir error_format json to_json stat get_for_dir D compiler commands transform diff write_error).
  Notation formatter := (formatter transform).
  Notation handled := (handled cwd error_format json to_json transform diff write_error).
  (** The files compile without failures, and the error format can be used. *)
  Definition ready (args : list string) (m : meta) (disk : string -> result string) : Prop :=
    found args m /\ distinct_paths (m_set m) /\ (exists ds, compiler false false None disk (m_set m) = Ok ([], ds)) /\ exists fields, fields_of error_format fields.

  Lemma one_mode o d l md : mode_of o d l md -> more_than_one_set [o; d; l] = false.
  Proof. destruct md; cbn; intros (-> & -> & ->); reflexivity. Qed.
  Lemma format_ready args m disk o d l x : ready args m disk -> more_than_one_set [o; d; l] = false ->
    exists es, only_prints es /\ printed es = "" /\
      format_cmd args o d l x (mk_io disk []) = format ord cwd error_format json to_json transform diff write_error o d l x m (mk_io disk (Compiled false :: es)).
  Proof.
    intros (F & _ & (ds & C) & Hf) M. unfold Exec_Model.format_cmd. rewrite M. unfold and_then at 1. rewrite (get_meta_found _ _ _ _ _ _ F).
    destruct (compile_pure cwd error_format json to_json D compiler false false None m disk) as (es & r & E & O & _ & K & _).
    destruct (K [] ds C Hf) as (-> & kept & (b & _ & ->) & (fields & srt & _ & P & _ & Q)). cbn in P. apply Permutation_nil in P as ->. cbn in Q.
    exists es. split; [exact O|]. split; [exact Q|]. unfold and_then at 1. unfold compile. rewrite E by reflexivity. reflexivity.
  Qed.
  Lemma not_ready args o d l x s s' r : format_cmd args o d l x s = (s', r) -> (exists m, found args m /\ more_than_one_set [o; d; l] = false /\ exists es, only_prints es /\
    (s', r) = format ord cwd error_format json to_json transform diff write_error o d l x m (adds s (Compiled false :: es))) \/
    (exists es, s' = adds s es /\ written es = [] /\ r <> Value tt).
  Proof.
    unfold Exec_Model.format_cmd. destruct (more_than_one_set [o; d; l]) eqn:M.
    { intros [= <- <-]. right. exists []. rewrite adds_nil. repeat split; discriminate. }
    destruct (get_meta_pure work_dir stat get_for_dir args) as (v & E & [(m & -> & F)|((e & ->) & _)]).
    2:{ unfold and_then at 1. rewrite E. intros [= <- <-]. right. exists []. rewrite adds_nil. repeat split; discriminate. }
    unfold and_then at 1. rewrite E. destruct (compile_pure cwd error_format json to_json D compiler false false None m (io_disk s)) as (es & r' & C & O & _).
    unfold and_then at 1. unfold compile. rewrite C by reflexivity. destruct r' as [ds|e|e].
    - intros H. left. exists m. split; [exact F|]. split; [reflexivity|]. exists es. split; [exact O|now rewrite H].
    - intros [= <- <-]. right. exists (Compiled false :: es). split; [reflexivity|]. split; [exact (only_prints_written _ O)|discriminate].
    - intros [= <- <-]. right. exists (Compiled false :: es). split; [reflexivity|]. split; [exact (only_prints_written _ O)|discriminate].
  Qed.

  (** ** C27 *)
  (** The modes exclude each other: nothing is read, printed or written. *)
  Theorem C27_flags args o d l x s : (o = true /\ d = true) \/ (o = true /\ l = true) \/ (d = true /\ l = true) ->
    exists e, e <> "" /\ format_cmd args o d l x s = (s, Exit e).
  Proof.
    intros H. exists "can only set one of overwrite, diff, lint". split; [discriminate|]. unfold Exec_Model.format_cmd.
    destruct H as [(-> & ->)|[(-> & ->)|(-> & ->)]]; [destruct l|destruct d|destruct o]; reflexivity.
  Qed.
  Lemma went_reads d l x m s fs hs s' : went cwd error_format json to_json transform diff write_error false d l x m s fs hs s' -> io_disk s' = io_disk s /\ written (io_done s') = written (io_done s).
  Proof.
    assert (K : forall f c w es r, handled false d l x m f c w es r -> w = None /\ written es = []).
    { intros f c w es r H. destruct H; try discriminate; (split; [reflexivity|]); try reflexivity.
      - destruct (print_failures_pure cwd json to_json error_format (pf_display f) (Some m) fs0) as (es' & r' & P & O & _).
        assert (es = es') as -> by (specialize (H3 (mk_io (fun _ => c) [])); rewrite P in H3; injection H3; auto). now apply only_prints_written.
      - destruct (negb false && negb l && negb d); reflexivity.
      - destruct (print_failures_pure cwd json to_json error_format "" (Some m) [mk_failure (pf_display f) 0 0 "FORMAT_DIFF" "Format returned a diff."]) as (es' & r' & P & O & _).
        assert (es = es') as -> by (specialize (H5 (mk_io (fun _ => c) [])); rewrite P in H5; injection H5; auto). now apply only_prints_written. }
    induction 1 as [s|s f fs w es v hs s' H W (IH1 & IH2)|s f fs w es r H N]; [auto|..].
    - destruct (K _ _ _ _ _ H) as (-> & E). rewrite IH1, IH2. split; [reflexivity|]. cbn [put io_done]. unfold put. cbn [io_done]. rewrite written_app, E. apply app_nil_r.
    - destruct (K _ _ _ _ _ H) as (-> & E). split; [reflexivity|]. unfold put. cbn [io_done]. rewrite written_app, E. apply app_nil_r.
  Qed.
  (** Without overwrite no file is written, whatever happens. *)
  Theorem C27_reads args d l x s s' r : format_cmd args false d l x s = (s', r) -> io_disk s' = io_disk s /\ written (io_done s') = written (io_done s).
  Proof.
    intros H. apply not_ready in H as [(m & _ & _ & es & O & E)|(es & -> & W & _)].
    - unfold format in E. unfold and_then in E. destruct (files_went cwd error_format json to_json transform diff write_error false d l x m
        (concat (map snd (filter (fun d => has_prefix (fst d) (ps_dir (m_set m))) (ord "format" _ (ps_files (m_set m)))))) true (adds s (Compiled false :: es))) as (hs & s1 & W & F).
      rewrite F in E. assert (s' = s1) as -> by (destruct (final true hs) as [[|]| |]; now injection E). apply went_reads in W as (W1 & W2). rewrite W1, W2. split; [reflexivity|].
      unfold adds. cbn [io_done]. rewrite written_app. change (Compiled false :: es) with ([Compiled false] ++ es). rewrite written_app, (only_prints_written es O). apply app_nil_r.
    - split; [reflexivity|]. unfold adds. cbn [io_done]. now rewrite written_app, W, app_nil_r.
  Qed.
  (** Whatever happens, a file is written at most once, only if it is asked for and its
      contents change, with what the formatter returned for it; other files do not change. *)
  Theorem C27_writes args m o d l x disk s' r : found args m -> distinct_paths (m_set m) -> format_cmd args o d l x (mk_io disk []) = (s', r) ->
    NoDup (map fst (written (io_done s'))) /\
    (forall p data, In (p, data) (written (io_done s')) -> o = true /\ exists f input, asked cwd m f /\ p = pf_path f /\
       disk p = Ok input /\ formatter x m p input = Ok (data, []) /\ data <> input) /\
    (forall q, ~ In q (map fst (written (io_done s'))) -> io_disk s' q = disk q).
  Proof.
    intros F N H. apply not_ready in H as [(m' & F' & _ & es & O & E)|(es & -> & W & _)].
    2:{ unfold adds. cbn [io_done io_disk app]. rewrite W. split; [constructor|]. split; [intros p data []|reflexivity]. }
    rewrite <- (found_fun _ _ _ _ _ _ F F') in E. clear m' F'.
    destruct (format_run ord cwd error_format json to_json transform diff write_error o d l x m (adds (mk_io disk []) (Compiled false :: es)) Hord N) as (fs & hs & s1 & rest & F1 & F2 & F3 & (F4 & _) & F5 & F6 & F7 & F8).
    rewrite F8 in E. injection E as -> _. cbn [io_disk adds] in F3, F6, F7.
    assert (W : written (io_done s1) = concat (map (fun h => written (h_events h)) hs)).
    { rewrite F5, written_app. replace (written (io_done (adds (mk_io disk []) (Compiled false :: es)))) with (@nil (string * string)) by (symmetry; exact (only_prints_written es O)). cbn [app].
      clear. induction hs as [|h hs IH]; [reflexivity|]. cbn [map concat]. now rewrite written_app, IH. }
    assert (K : forall h, In h hs -> (written (h_events h) = [] /\ h_put h = None) \/
      (exists data input, written (h_events h) = [(pf_path (h_file h), data)] /\ h_put h <> None /\ o = true /\ asked cwd m (h_file h) /\ disk (pf_path (h_file h)) = Ok input /\ formatter x m (pf_path (h_file h)) input = Ok (data, []) /\ data <> input)).
    { intros h Hh. rewrite Forall_forall in F3. specialize (F3 h Hh). assert (B : below (m_set m) (h_file h)) by (apply F1; rewrite F4; apply in_or_app; left; now apply in_map).
      destruct h as [[[f w] es'] v]. unfold h_file, h_put, h_events, h_result in *. cbn [fst snd] in *. destruct F3; try (left; auto; fail).
      - left. split; [|reflexivity]. destruct (print_failures_pure cwd json to_json error_format (pf_display f) (Some m) fs0) as (es2 & r2 & P & Op & _).
        assert (es0 = es2) as -> by (specialize (H3 (mk_io disk [])); rewrite P in H3; injection H3; auto). now apply only_prints_written.
      - left. split; [|reflexivity]. destruct (negb o && negb l && negb d); reflexivity.
      - right. exists data, input. split; [reflexivity|]. split; [discriminate|]. split; [assumption|]. split; [apply skips_asked; assumption|]. auto.
      - right. exists data, input. split; [reflexivity|]. split; [discriminate|]. split; [assumption|]. split; [apply skips_asked; assumption|]. auto.
      - left. split; [|reflexivity]. destruct (print_failures_pure cwd json to_json error_format "" (Some m) [mk_failure (pf_display f) 0 0 "FORMAT_DIFF" "Format returned a diff."]) as (es2 & r2 & P & Op & _).
        assert (es0 = es2) as -> by (specialize (H5 (mk_io disk [])); rewrite P in H5; injection H5; auto). now apply only_prints_written. }
    rewrite W. split; [|split].
    - rewrite F4, map_app in F2. apply NoDup_app_l in F2. clear - F2 K. induction hs as [|h hs IH]; [constructor|]. cbn [map concat] in *. apply NoDup_cons_iff in F2 as (Nh & F2).
      rewrite map_app. specialize (IH F2 (fun g Hg => K g (or_intror Hg))). destruct (K h (or_introl eq_refl)) as [(-> & _)|(data & input & -> & _)]; [exact IH|]. cbn. constructor; [|exact IH].
      intros Hin. apply Nh. apply in_map_iff in Hin as ((p & dd) & E & Hin). cbn in E. subst p. apply in_concat in Hin as (l0 & Hl & Hin). apply in_map_iff in Hl as (g & <- & Hg).
      destruct (K g (or_intror Hg)) as [(Eg & _)|(dt & ip & Eg & _)]; rewrite Eg in Hin; [destruct Hin|]. destruct Hin as [E|[]]. injection E as <- _. now apply in_map, in_map.
    - intros p data Hin. apply in_concat in Hin as (l0 & Hl & Hin). apply in_map_iff in Hl as (h & <- & Hh). destruct (K h Hh) as [(Eg & _)|(dt & ip & Eg & _ & Ho & A & Di & Fo & Ne)]; rewrite Eg in Hin; [destruct Hin|].
      destruct Hin as [E|[]]. injection E as <- <-. split; [exact Ho|]. exists (h_file h), ip. auto.
    - intros q Nq. apply F7. intros h Hh Np E. apply Nq. destruct (K h Hh) as [(_ & Eg)|(dt & ip & Eg & _)]; [easy|]. apply in_map_iff. exists (q, dt). split; [reflexivity|]. apply in_concat. exists [(q, dt)]. split; [|now left].
      rewrite E, <- Eg. apply in_map_iff. now exists h.
  Qed.
  (** With overwrite, after success every file asked for has its formatted contents. *)
  Theorem C27_formatted args m x disk s' : ready args m disk -> format_cmd args true false false x (mk_io disk []) = (s', Value tt) ->
    forall f, asked cwd m f -> exists input data, disk (pf_path f) = Ok input /\ formatter x m (pf_path f) input = Ok (data, []) /\ io_disk s' (pf_path f) = Ok data.
  Proof.
    intros R H f A. destruct (format_ready args m disk true false false x R eq_refl) as (es & _ & _ & E). rewrite H in E. destruct R as (F & N & _ & Hf).
    destruct (format_run ord cwd error_format json to_json transform diff write_error true false false x m (mk_io disk (Compiled false :: es)) Hord N) as (fs & hs & s1 & rest & F1 & F2 & F3 & (F4 & F4' & F4u) & F5 & F6 & F7 & F8).
    rewrite F8 in E. injection E as -> E. cbn [io_disk] in *.
    assert (E' : final true hs = Value true) by (destruct (final true hs) as [[|]| |]; discriminate || reflexivity). apply final_value in E' as (vs & Ev & Et). clear E.
    destruct F4' as [->|(h & Hh & Nv)].
    2:{ apply (in_map h_result) in Hh. rewrite Ev in Hh. apply in_map_iff in Hh as (b & E & _). symmetry in E. now apply Nv in E. }
    assert (Hin : In f fs) by (apply F1; apply A). rewrite F4, app_nil_r in Hin. apply in_map_iff in Hin as (h & <- & Hh).
    rewrite Forall_forall in F3. specialize (F3 h Hh). specialize (F6 h Hh).
    assert (V : h_result h = Value true).
    { apply (in_map h_result) in Hh. rewrite Ev in Hh. apply in_map_iff in Hh as (b & <- & Hb). f_equal. cbn in Et. symmetry in Et. rewrite forallb_forall in Et. now apply Et. }
    destruct (handled_cases cwd error_format json to_json transform diff write_error Hf true false false x m Overwrite _ disk _ _ _ (conj eq_refl (conj eq_refl eq_refl)) F3) as [(Sk & _)|(Sk & C)].
    - exfalso. apply skips_asked in A; [congruence|apply A].
    - rewrite V in C, F3. clear C V. destruct h as [[[f w] es'] v]. unfold h_file, h_put, h_events, h_result in *. cbn [fst snd] in *.
      inversion F3; subst; try congruence.
      + destruct r; discriminate.
      + exists data, data. split; [assumption|]. split; [assumption|]. rewrite F6. assumption.
      + exists input, data. auto.
  Qed.
  (** The files asked for, in the order they are visited, with what happened. *)
  Lemma format_all args m o d l x md disk s' r : ready args m disk -> mode_of o d l md -> format_cmd args o d l x (mk_io disk []) = (s', r) ->
    (exists f e, asked cwd m f /\ ~ fine transform write_error disk x m md f /\ ~ reported transform diff disk x m md f /\ r = Fail e) \/
    (exists fs outs, (forall f, In f fs <-> asked cwd m f) /\ NoDup (map pf_path fs) /\ printed (io_done s') = join "" outs /\
       Forall2 (fun f out => file_output transform diff json to_json cwd error_format disk x m md f out) fs outs /\
       ((r = Value tt /\ forall f, asked cwd m f -> fine transform write_error disk x m md f) \/
        (r = Exit "" /\ (forall f, asked cwd m f -> fine transform write_error disk x m md f \/ reported transform diff disk x m md f) /\
           exists f, asked cwd m f /\ reported transform diff disk x m md f))).
  Proof.
    intros R M H. destruct (format_ready args m disk o d l x R (one_mode _ _ _ _ M)) as (es & O & Pe & E). rewrite H in E. destruct R as (F & N & _ & Hf).
    destruct (format_run ord cwd error_format json to_json transform diff write_error o d l x m (mk_io disk (Compiled false :: es)) Hord N) as (fs & hs & s1 & rest & F1 & F2 & F3 & (F4 & F4' & F4u) & F5 & F6 & F7 & F8).
    rewrite F8 in E. injection E as -> ->. cbn [io_disk io_done] in *. clear H F6 F7 F8.
    assert (B : forall h, In h hs -> below (m_set m) (h_file h)) by (intros h Hh; apply F1; rewrite F4; apply in_or_app; left; now apply in_map).
    assert (C := fun h Hh => handled_cases cwd error_format json to_json transform diff write_error Hf o d l x m md (h_file h) disk (h_put h) (h_events h) (h_result h) M (proj1 (Forall_forall _ _) F3 h Hh)).
    destruct (final_cases true hs) as [(v & Ev)|(h & Hh & Eh & Nv)].
    2:{ left. destruct (C h Hh) as [(_ & _ & _ & K)|(Sk & [(K & _)|[(K & _)|(e & K & K1 & K2)]])]; try (now apply Nv in K).
        exists (h_file h), e. rewrite Eh, K. split; [now apply skips_asked; [apply B|]|]. auto. }
    right. assert (Fv := Ev). apply final_value in Fv as (vs & Em & Et). rewrite andb_true_l in Et.
    destruct F4' as [->|(h & Hh & Nv)].
    2:{ exfalso. apply (in_map h_result) in Hh. rewrite Em in Hh. apply in_map_iff in Hh as (b & E & _). symmetry in E. now apply Nv in E. }
    rewrite app_nil_r in F4. set (as_ := filter (fun h => negb (skips cwd m (h_file h))) hs).
    assert (Ha : forall f, In f (map h_file as_) <-> asked cwd m f).
    { intros f. rewrite in_map_iff. split.
      - intros (h & <- & Hh). apply filter_In in Hh as (Hh & Sk). apply negb_true_iff in Sk. now apply skips_asked; [apply B|].
      - intros A. assert (Hf' : In f fs) by (apply F1, A). rewrite F4 in Hf'. apply in_map_iff in Hf' as (h & <- & Hh). exists h. split; [reflexivity|]. apply filter_In. split; [exact Hh|]. apply negb_true_iff. now apply skips_asked; [apply B|]. }
    assert (Hv : forall h, In h hs -> exists b, In b vs /\ h_result h = Value b).
    { intros h Hh. apply (in_map h_result) in Hh. rewrite Em in Hh. apply in_map_iff in Hh as (b & E & Hb). exists b. auto. }
    exists (map h_file as_), (map (fun h => printed (h_events h)) as_). split; [exact Ha|]. split; [|split; [|split]].
    - rewrite F4 in F2. clear - F2. subst as_. induction hs as [|h hs IH]; [constructor|]. cbn [map] in F2. apply NoDup_cons_iff in F2 as (Nh & F2). cbn [filter]. destruct (negb (skips cwd m (h_file h))); [|auto].
      cbn [map]. constructor; [|auto]. intros K. apply Nh. apply in_map_iff in K as (f & E & K). apply in_map_iff in K as (g & <- & K). apply filter_In in K as (K & _). rewrite <- E. now apply in_map, in_map.
    - rewrite F5. change (Compiled false :: es) with ([Compiled false] ++ es). rewrite !printed_app, Pe. cbn [append]. change (printed [Compiled false]) with "". cbn [append].
      clear - C. subst as_. induction hs as [|h hs IH]; [reflexivity|]. cbn [map concat filter]. rewrite printed_app, IH by (intros g Hg; apply C; now right).
      destruct (C h (or_introl eq_refl)) as [(Sk & _ & Ee & _)|(Sk & _)]; rewrite Sk; cbn [negb]; [rewrite Ee; reflexivity|]. cbn [map].
      exact (eq_sym (join_empty_app [printed (h_events h)] _)).
    - assert (Q : Forall (fun h => file_output transform diff json to_json cwd error_format disk x m md (h_file h) (printed (h_events h))) as_).
      { apply Forall_forall. intros h Hh. apply filter_In in Hh as (Hh & Sk). apply negb_true_iff in Sk. destruct (Hv h Hh) as (b & _ & Eb).
        rewrite Forall_forall in F3. specialize (F3 h Hh). rewrite Eb in F3. eapply handled_output; eassumption. }
      clear - Q. induction Q; cbn; constructor; assumption.
    - rewrite Ev. destruct v.
      + left. split; [reflexivity|]. intros f A. apply Ha, in_map_iff in A as (h & <- & Hh). apply filter_In in Hh as (Hh & Sk). apply negb_true_iff in Sk.
        destruct (Hv h Hh) as (b & Hb & Eb). symmetry in Et. rewrite forallb_forall in Et. apply Et in Hb. subst b. destruct (C h Hh) as [(Sk' & _)|(_ & [(_ & K)|[(K & _)|(e & K & _)]])]; congruence || exact K.
      + right. split; [reflexivity|]. split.
        * intros f A. apply Ha, in_map_iff in A as (h & <- & Hh). apply filter_In in Hh as (Hh & Sk). apply negb_true_iff in Sk.
          destruct (Hv h Hh) as (b & Hb & Eb). destruct (C h Hh) as [(Sk' & _)|(_ & [(_ & K)|[(_ & K)|(e & K & _)]])]; [congruence|auto|auto|congruence].
        * symmetry in Et. assert (K : In false vs).
          { clear - Et. induction vs as [|[|] vs IH]; [discriminate| |now left]. right. apply IH. exact Et. }
          apply (in_map (@Value bool)) in K. rewrite <- Em in K. apply in_map_iff in K as (h & Er & Hh). exists (h_file h).
          destruct (C h Hh) as [(_ & _ & _ & K)|(Sk & [(K & _)|[(_ & K)|(e & K & _)]])]; try congruence. split; [|exact K]. now apply skips_asked; [apply B|].
  Qed.
  (** The exit status: success exactly if there is nothing to report about any file asked
      for; the status for findings exactly if there is something to report about one of them
      and an error for none. *)
  Lemma fine_not_reported disk x m md f : fine transform write_error disk x m md f -> ~ reported transform diff disk x m md f.
  Proof.
    intros (i & dt & E1 & E2 & H) (i' & dt' & fs & E1' & E2' & H'). rewrite E1 in E1'. injection E1' as <-. rewrite E2 in E2'. injection E2' as <- <-.
    destruct H' as [H'|(_ & N & Nm & _)]; [easy|]. destruct H as [->|(-> & _)]; now auto.
  Qed.
  Theorem C27_status args m o d l x md disk : ready args m disk -> mode_of o d l md ->
    let r := snd (format_cmd args o d l x (mk_io disk [])) in
    (r = Value tt <-> forall f, asked cwd m f -> fine transform write_error disk x m md f) /\
    (r = Exit "" <-> (forall f, asked cwd m f -> fine transform write_error disk x m md f \/ reported transform diff disk x m md f) /\
                      exists f, asked cwd m f /\ reported transform diff disk x m md f).
  Proof.
    intros R M r. destruct (format_cmd args o d l x (mk_io disk [])) as [s' r0] eqn:E. subst r. cbn [snd].
    destruct (format_all _ _ _ _ _ _ _ _ _ _ R M E) as [(f & e & A & N1 & N2 & ->)|(fs & outs & _ & _ & _ & _ & [(-> & K)|(-> & K1 & f & A & K2)])].
    - split; (split; [discriminate|]).
      + intros K. now apply K in A.
      + intros (K & _). apply K in A. tauto.
    - split; split.
      + intros _. exact K.
      + reflexivity.
      + discriminate.
      + intros (_ & f & A & K2). exfalso. exact (fine_not_reported _ _ _ _ _ (K f A) K2).
    - split; split.
      + discriminate.
      + intros K. exfalso. exact (fine_not_reported _ _ _ _ _ (K f A) K2).
      + intros _. split; [exact K1|]. exists f. auto.
      + reflexivity.
  Qed.
  (** What is printed, unless there is an error: for each file asked for, once, in some
      order, its diff, its formatted contents or its failures. *)
  Theorem C27_output args m o d l x md disk s' r : ready args m disk -> mode_of o d l md -> format_cmd args o d l x (mk_io disk []) = (s', r) ->
    (forall e, r <> Fail e) ->
    exists fs outs, (forall f, In f fs <-> asked cwd m f) /\ NoDup (map pf_path fs) /\ printed (io_done s') = join "" outs /\
       Forall2 (fun f out => file_output transform diff json to_json cwd error_format disk x m md f out) fs outs.
  Proof.
    intros R M E N. destruct (format_all _ _ _ _ _ _ _ _ _ _ R M E) as [(f & e & _ & _ & _ & ->)|(fs & outs & K1 & K2 & K3 & K4 & _)]; [now destruct (N e)|]. eauto 10.
  Qed.

  (** ** C54 *)
  Notation compile_cmd := (compile_cmd cwd work_dir error_format json to_json stat get_for_dir D compiler commands).
  Notation gen_cmd := (gen_cmd cwd work_dir error_format json to_json stat get_for_dir D compiler commands).
  Notation lint := (lint cwd error_format json to_json run_lint).
  Notation all_cmd := (all_cmd ord cwd work_dir error_format json to_json stat get_for_dir D compiler commands transform diff run_lint write_error).
  (** compile and generate print exactly the failures about what was asked for, sorted, and
      nothing else; the status is that for findings exactly if there is any failure. *)
  Theorem C54_compile args m disk fs ds s' r : found args m -> compiler false false None disk (m_set m) = Ok (fs, ds) -> (exists fields, fields_of error_format fields) ->
    compile_cmd args false (mk_io disk []) = (s', r) ->
    (exists kept, picks (about cwd m) fs kept /\ listing json to_json error_format kept (printed (io_done s'))) /\
    io_disk s' = disk /\ (r = Value tt <-> fs = []) /\ (r = Exit "" <-> fs <> []).
  Proof.
    intros F C Hf. unfold Exec_Model.compile_cmd. unfold and_then at 1. rewrite (get_meta_found _ _ _ _ _ _ F).
    destruct (compile_pure cwd error_format json to_json D compiler false false None m disk) as (es & r' & E & O & _ & K & _).
    destruct (K _ _ C Hf) as (-> & kept & P1 & P2). unfold and_then. unfold compile. rewrite E by reflexivity. intros H.
    assert (s' = adds (mk_io disk []) (Compiled false :: es)) as -> by (destruct fs; now injection H).
    split; [exists kept; split; [exact P1|exact P2]|]. split; [reflexivity|]. destruct fs; injection H as <-; split; split; intros; congruence || easy.
  Qed.
  Theorem C54_gen args m disk fs ds s' r : found args m -> compiler true false None disk (m_set m) = Ok (fs, ds) -> (exists fields, fields_of error_format fields) ->
    gen_cmd args false (mk_io disk []) = (s', r) ->
    (exists kept, picks (about cwd m) fs kept /\ listing json to_json error_format kept (printed (io_done s'))) /\
    io_disk s' = disk /\ (r = Value tt <-> fs = []) /\ (r = Exit "" <-> fs <> []).
  Proof.
    intros F C Hf. unfold Exec_Model.gen_cmd. unfold and_then at 1. rewrite (get_meta_found _ _ _ _ _ _ F).
    destruct (compile_pure cwd error_format json to_json D compiler true false None m disk) as (es & r' & E & O & _ & K & _).
    destruct (K _ _ C Hf) as (-> & kept & P1 & P2). unfold and_then. unfold compile. rewrite E by reflexivity. intros H.
    assert (s' = adds (mk_io disk []) (Compiled true :: es)) as -> by (destruct fs; now injection H).
    split; [exists kept; split; [exact P1|exact P2]|]. split; [reflexivity|]. destruct fs; injection H as <-; split; split; intros; congruence || easy.
  Qed.

  (** ** C59 *)
  (** files prints the display paths of the files of the directory asked for, in order, each
      file once, one on a line. *)
  Theorem C59_files args m s s' r : found args m -> distinct_paths (m_set m) -> (forall f, below (m_set m) f -> pf_display f <> "") ->
    files_cmd ord work_dir stat get_for_dir args s = (s', r) ->
    r = Value tt /\ io_disk s' = io_disk s /\
    exists fs sorted es, (forall f, In f fs <-> below (m_set m) f) /\ NoDup (map pf_path fs) /\
      Permutation (map pf_display fs) sorted /\ StronglySorted (fun a b => str_leb a b = true) sorted /\
      io_done s' = io_done s ++ es /\ written es = [] /\ printed es = join "" (map (fun p => p +++ String newline "") sorted).
  Proof.
    intros F N Hd. unfold files_cmd. unfold and_then at 1. rewrite (get_meta_found _ _ _ _ _ _ F). rewrite each_println. intros [= <- <-].
    split; [reflexivity|]. split; [reflexivity|].
    exists (visited ord "Files" (m_set m)). eexists _, _. split; [intros f; now apply visited_in|]. split; [now apply visited_distinct|].
    assert (E : map pf_display (visited ord "Files" (m_set m)) = concat (map (fun d => map pf_display (snd d)) (filter (fun d => has_prefix (fst d) (ps_dir (m_set m))) (ord "Files" _ (ps_files (m_set m)))))).
    { unfold visited. rewrite concat_map, map_map. reflexivity. }
    rewrite <- E. clear E. split; [apply isort_perm|]. split; [apply isort_sorted; [apply str_leb_total|apply str_leb_trans]|]. split; [reflexivity|].
    split; [apply only_prints_written, lines_only_print|]. rewrite printed_lines. do 2 f_equal. 
    assert (K : forall x, In x (isort str_leb (map pf_display (visited ord "Files" (m_set m)))) -> x <> "").
    { intros x Hx. apply (Permutation_in x (Permutation_sym (isort_perm _ _))) in Hx. apply in_map_iff in Hx as (f & <- & Hx). apply Hd. eapply visited_in; [exact Hord|exact Hx]. }
    revert K. generalize (isort str_leb (map pf_display (visited ord "Files" (m_set m)))). induction l as [|x l IH]; [reflexivity|]. intros K. cbn [filter].
    assert (Nx : x <> "") by (apply K; now left). apply is_empty_false in Nx. rewrite Nx. cbn [negb]. f_equal. apply IH. intros y Hy. apply K. now right.
  Qed.

  (** ** C67 *)
  Lemma lint_pure m disk fs : run_lint disk (m_set m) false = Ok fs -> (exists fields, fields_of error_format fields) ->
    exists es, only_prints es /\ (forall s, io_disk s = disk -> lint m s = (adds s es, match fs with [] => Value tt | _ => Exit "" end)) /\
      exists kept, picks (about cwd m) fs kept /\ listing json to_json error_format kept (printed es).
  Proof.
    intros L Hf. destruct (report_pure cwd error_format json to_json m fs) as (es & r & E & O & K & _). destruct (K Hf) as (-> & K').
    exists es. split; [exact O|]. split; [|exact K']. intros s <-. unfold Exec_Model.lint. unfold and_then at 1. rewrite L. cbn [check]. unfold ret at 1. apply E.
  Qed.
  Lemma lint_fail m disk e : run_lint disk (m_set m) false = Err e -> forall s, io_disk s = disk -> lint m s = (s, Fail e).
  Proof. intros L s <-. unfold Exec_Model.lint, and_then. now rewrite L. Qed.
  (** lint reports in the same way. *)
  Theorem C54_lint m disk fs s' r : run_lint disk (m_set m) false = Ok fs -> (exists fields, fields_of error_format fields) ->
    lint m (mk_io disk []) = (s', r) ->
    (exists kept, picks (about cwd m) fs kept /\ listing json to_json error_format kept (printed (io_done s'))) /\
    io_disk s' = disk /\ (r = Value tt <-> fs = []) /\ (r = Exit "" <-> fs <> []).
  Proof.
    intros L Hf H. destruct (lint_pure m disk fs L Hf) as (es & O & E & K). rewrite E in H by reflexivity. injection H as <- <-. split; [exact K|]. split; [reflexivity|].
    destruct fs; split; split; intros; congruence || easy.
  Qed.

  Lemma quiet_prints es : only_prints es -> ~ In (Compiled true) es.
  Proof. intros O H. unfold only_prints in O. rewrite Forall_forall in O. apply O in H as (s & H). discriminate. Qed.
  (** The rest of all, after formatting. *)
  Definition finish_all (args : list string) (disable_lint : bool) : cmd unit :=
    run m <- get_meta work_dir stat get_for_dir args;
    compile cwd error_format json to_json D compiler commands true false false m ;; (if disable_lint then ret tt else lint m).
  Lemma all_is args df dl x s : all_cmd args df dl x s =
    and_then (if df then compile_cmd args false else format_cmd args true false false x) (fun _ => finish_all args dl) s.
  Proof.
    unfold Exec_Model.all_cmd, finish_all, Exec_Model.format_cmd, Exec_Model.compile_cmd. cbn [more_than_one_set]. change (more_than_one_set [true; false; false]) with false. cbn iota.
    destruct (get_meta_pure work_dir stat get_for_dir args) as (v & E & [(m & -> & F)|((e & ->) & _)]).
    2:{ destruct df; unfold and_then; now rewrite E. }
    destruct df; unfold and_then at 1; rewrite E; unfold and_then; rewrite E.
    - destruct (compile cwd error_format json to_json D compiler commands false false false m s) as [s1 [ds|e|e]]; [|reflexivity|reflexivity]. cbn [ret]. unfold ret. rewrite E. reflexivity.
    - destruct (compile cwd error_format json to_json D compiler commands false false false m s) as [s1 [ds|e|e]]; [|reflexivity|reflexivity].
      destruct (format ord cwd error_format json to_json transform diff write_error true false false x m s1) as [s2 [u|e|e]]; [|reflexivity|reflexivity]. rewrite E. reflexivity.
  Qed.
  Lemma finish_is args m dl s s' r : found args m -> (exists fields, fields_of error_format fields) -> finish_all args dl s = (s', r) ->
    exists es, s' = adds s es /\ written es = [] /\ (exists rest, es = Compiled true :: rest /\ ~ In (Compiled true) rest) /\
      (r = Value tt <-> (exists ds, compiler true false None (io_disk s) (m_set m) = Ok ([], ds)) /\ (dl = false -> run_lint (io_disk s) (m_set m) false = Ok [])).
  Proof.
    intros F Hf. unfold finish_all. unfold and_then at 1. rewrite (get_meta_found _ _ _ _ _ _ F).
    destruct (compile_pure cwd error_format json to_json D compiler true false None m (io_disk s)) as (es & r' & E & O & K1 & K2 & _).
    unfold and_then, compile. rewrite E by reflexivity. destruct (compiler true false None (io_disk s) (m_set m)) as [[fs ds]|e] eqn:C.
    2:{ destruct (K1 e eq_refl) as (-> & ->). intros [= <- <-]. exists [Compiled true]. split; [reflexivity|]. split; [reflexivity|]. split; [exists []; split; [reflexivity|intros []]|]. split; [discriminate|]. intros ((ds & Hd) & _). discriminate. }
    destruct (K2 fs ds eq_refl Hf) as (-> & _). destruct fs as [|g fs].
    2:{ intros [= <- <-]. exists (Compiled true :: es). split; [reflexivity|]. split; [exact (only_prints_written es O)|]. split; [exists es; split; [reflexivity|exact (quiet_prints es O)]|]. split; [discriminate|]. intros ((ds' & Hd) & _). discriminate. }
    destruct dl.
    { intros [= <- <-]. exists (Compiled true :: es). split; [reflexivity|]. split; [exact (only_prints_written es O)|]. split; [exists es; split; [reflexivity|exact (quiet_prints es O)]|]. split; [intros _; split; [eauto|discriminate]|reflexivity]. }
    destruct (run_lint (io_disk s) (m_set m) false) as [ls|e] eqn:L.
    - destruct (lint_pure m (io_disk s) ls L Hf) as (es2 & O2 & E2 & _). rewrite E2 by reflexivity. intros H. exists ((Compiled true :: es) ++ es2). rewrite adds_adds in H.
      assert (s' = adds s ((Compiled true :: es) ++ es2)) as -> by (destruct ls; now injection H). split; [reflexivity|]. split.
      { rewrite written_app. rewrite (only_prints_written es2 O2), app_nil_r. exact (only_prints_written es O). }
      split. { exists (es ++ es2). split; [reflexivity|]. intros G. apply in_app_or in G as [G|G]; now apply quiet_prints in G. }
      destruct ls; injection H as <-; split; try discriminate; [intros _; eauto|reflexivity|]. intros (_ & H). now specialize (H eq_refl).
    - rewrite (lint_fail m (io_disk s) e L) by reflexivity. intros [= <- <-]. exists (Compiled true :: es). split; [reflexivity|]. split; [exact (only_prints_written es O)|]. split; [exists es; split; [reflexivity|exact (quiet_prints es O)]|]. split; [discriminate|].
      intros (_ & H). now specialize (H eq_refl).
  Qed.
  (** The files can be formatted in place. *)
  Definition all_fine (m : meta) (disk : string -> result string) (x : bool) : Prop := forall f, asked cwd m f -> fine transform write_error disk x m Overwrite f.
  Lemma quiet_handled o d l x m f c w es r : handled o d l x m f c w es r -> ~ In (Compiled true) es.
  Proof.
    intros H. destruct H; try (intros K; cbn in K; intuition discriminate).
    - destruct (print_failures_pure cwd json to_json error_format (pf_display f) (Some m) fs) as (es' & r' & P & O & _).
      assert (es = es') as -> by (specialize (H3 (mk_io (fun _ => c) [])); rewrite P in H3; injection H3; auto). now apply quiet_prints.
    - destruct (negb o && negb l && negb d); intros K; cbn in K; intuition discriminate.
    - destruct (print_failures_pure cwd json to_json error_format "" (Some m) [mk_failure (pf_display f) 0 0 "FORMAT_DIFF" "Format returned a diff."]) as (es' & r' & P & O & _).
      assert (es = es') as -> by (specialize (H5 (mk_io (fun _ => c) [])); rewrite P in H5; injection H5; auto). now apply quiet_prints.
  Qed.
  Lemma quiet_went o d l x m s fs hs s' : went cwd error_format json to_json transform diff write_error o d l x m s fs hs s' -> ~ In (Compiled true) (io_done s) -> ~ In (Compiled true) (io_done s').
  Proof.
    induction 1 as [s|s f fs w es v hs s' H W IH|s f fs w es r H N]; [auto|..]; intros Q.
    - apply IH. unfold put. destruct w; cbn [io_done]; intros K; apply in_app_or in K as [K|K]; auto; now apply quiet_handled in H.
    - unfold put. destruct w; cbn [io_done]; intros K; apply in_app_or in K as [K|K]; auto; now apply quiet_handled in H.
  Qed.
  Lemma quiet_format o d l x m s s' r : format ord cwd error_format json to_json transform diff write_error o d l x m s = (s', r) -> ~ In (Compiled true) (io_done s) -> ~ In (Compiled true) (io_done s').
  Proof.
    unfold format, and_then. destruct (files_went cwd error_format json to_json transform diff write_error o d l x m
        (concat (map snd (filter (fun d => has_prefix (fst d) (ps_dir (m_set m))) (ord "format" _ (ps_files (m_set m)))))) true s) as (hs & s1 & W & F).
    rewrite F. intros E. assert (s' = s1) as -> by (destruct (final true hs) as [[|]| |]; now injection E). exact (quiet_went _ _ _ _ _ _ _ _ _ W).
  Qed.
  Lemma first_step args m (df : bool) x disk s1 r1 : found args m -> distinct_paths (m_set m) -> (exists fields, fields_of error_format fields) ->
    (if df then compile_cmd args false else format_cmd args true false false x) (mk_io disk []) = (s1, r1) ->
    (r1 = Value tt <-> (exists ds, compiler false false None disk (m_set m) = Ok ([], ds)) /\ (df = false -> all_fine m disk x)) /\ (df = true -> io_disk s1 = disk /\ written (io_done s1) = []) /\
    (~ In (Compiled true) (io_done s1)).
  Proof.
    intros F N Hf. destruct (compile_pure cwd error_format json to_json D compiler false false None m disk) as (es & r' & E & O & K1 & K2 & _).
    assert (Q : ~ In (Compiled true) (Compiled false :: es)) by (intros [H|H]; [discriminate|now apply quiet_prints in H]).
    assert (W : written (Compiled false :: es) = []) by exact (only_prints_written es O).
    destruct (compiler false false None disk (m_set m)) as [[[|g fs] ds]|e] eqn:C.
    - assert (R : ready args m disk) by (split; [exact F|]; split; [exact N|]; split; [eauto|exact Hf]). destruct (K2 [] ds eq_refl Hf) as (-> & _). destruct df; intros H.
      + unfold Exec_Model.compile_cmd, and_then in H. rewrite (get_meta_found _ _ _ _ _ _ F) in H. unfold compile in H. rewrite E in H by reflexivity. injection H as <- <-.
        split; [|split; [intros _; split; [reflexivity|exact W]|exact Q]]. split; [intros _; split; [eauto|discriminate]|reflexivity].
      + split; [|split; [discriminate|]].
        * destruct (C27_status args m true false false x Overwrite disk R (conj eq_refl (conj eq_refl eq_refl))) as (S & _). rewrite H in S. cbn [snd] in S. unfold all_fine. rewrite S. split; [intros K; split; [eauto|auto]|intros (_ & K); auto].
        * destruct (format_ready args m disk true false false x R eq_refl) as (es' & O' & _ & E'). rewrite H in E'. symmetry in E'. apply quiet_format in E'; [exact E'|]. cbn [io_done]. intros [K|K]; [discriminate|now apply quiet_prints in K].
    - destruct (K2 (g :: fs) ds eq_refl Hf) as (-> & _).
      assert (G : (if df then compile_cmd args false else format_cmd args true false false x) (mk_io disk []) = (adds (mk_io disk []) (Compiled false :: es), Exit "")).
      { unfold Exec_Model.compile_cmd, Exec_Model.format_cmd. change (more_than_one_set [true; false; false]) with false. cbn iota. destruct df; unfold and_then; rewrite (get_meta_found _ _ _ _ _ _ F); unfold compile; rewrite E by reflexivity; reflexivity. }
      rewrite G. intros [= <- <-]. split; [|split; [intros _; split; [reflexivity|exact W]|exact Q]]. split; [discriminate|]. intros ((ds' & Hd) & _). discriminate.
    - destruct (K1 e eq_refl) as (-> & ->).
      assert (G : (if df then compile_cmd args false else format_cmd args true false false x) (mk_io disk []) = (adds (mk_io disk []) [Compiled false], Fail e)).
      { unfold Exec_Model.compile_cmd, Exec_Model.format_cmd. change (more_than_one_set [true; false; false]) with false. cbn iota. destruct df; unfold and_then; rewrite (get_meta_found _ _ _ _ _ _ F); unfold compile; rewrite E by reflexivity; reflexivity. }
      rewrite G. intros [= <- <-]. split; [|split; [intros _; split; [reflexivity|exact W]|exact Q]]. split; [discriminate|]. intros ((ds' & Hd) & _). discriminate.
  Qed.
  (** all succeeds exactly if the files compile, can be formatted, the code is generated
      from the formatted files, and lint finds nothing in them. *)
  Theorem C67_success args m df dl x disk s' r : found args m -> distinct_paths (m_set m) -> (exists fields, fields_of error_format fields) ->
    all_cmd args df dl x (mk_io disk []) = (s', r) ->
    (r = Value tt <-> (exists ds, compiler false false None disk (m_set m) = Ok ([], ds)) /\ (df = false -> all_fine m disk x) /\
       (exists ds, compiler true false None (io_disk s') (m_set m) = Ok ([], ds)) /\ (dl = false -> run_lint (io_disk s') (m_set m) false = Ok [])).
  Proof.
    intros F N Hf. rewrite all_is. unfold and_then. destruct ((if df then compile_cmd args false else format_cmd args true false false x) (mk_io disk [])) as [s1 r1] eqn:E1.
    destruct (first_step args m df x disk s1 r1 F N Hf E1) as (K & _). destruct r1 as [[]|e|e].
    - intros H. destruct (finish_is args m dl s1 s' r F Hf H) as (es & -> & _ & _ & K2). cbn [io_disk adds]. rewrite K2. destruct K as (K & _). specialize (K eq_refl). split; [intros (A & B); destruct K; auto|]. intros (_ & _ & A & B). auto.
    - intros [= <- <-]. split; [discriminate|]. intros (A & B & _). destruct K as (_ & K). specialize (K (conj A B)). discriminate.
    - intros [= <- <-]. split; [discriminate|]. intros (A & B & _). destruct K as (_ & K). specialize (K (conj A B)). discriminate.
  Qed.
  (** Code is only generated after the files compiled and were formatted, once, and no file
      is formatted afterwards. *)
  Theorem C67_order args m df dl x disk s' r : found args m -> distinct_paths (m_set m) -> (exists fields, fields_of error_format fields) ->
    all_cmd args df dl x (mk_io disk []) = (s', r) -> In (Compiled true) (io_done s') ->
    exists before after, io_done s' = before ++ Compiled true :: after /\ ~ In (Compiled true) (before ++ after) /\ written after = [] /\
      (exists ds, compiler false false None disk (m_set m) = Ok ([], ds)) /\ (df = false -> all_fine m disk x).
  Proof.
    intros F N Hf. rewrite all_is. unfold and_then. destruct ((if df then compile_cmd args false else format_cmd args true false false x) (mk_io disk [])) as [s1 r1] eqn:E1.
    destruct (first_step args m df x disk s1 r1 F N Hf E1) as (K & _ & Q). destruct r1 as [[]|e|e]; [|intros [= <- <-] H; now apply Q in H|intros [= <- <-] H; now apply Q in H].
    intros H _. destruct (finish_is args m dl s1 s' r F Hf H) as (es & -> & W & Q2 & _). destruct Q2 as (rest & -> & Q2). exists (io_done s1), rest. split; [reflexivity|].
    split; [intros G; apply in_app_or in G as [G|G]; auto|]. split; [exact W|]. apply K. reflexivity.
  Qed.
  (** Without formatting no file is written; with it, they are written as format does. *)
  Theorem C67_writes args m df dl x disk s' r : found args m -> distinct_paths (m_set m) -> (exists fields, fields_of error_format fields) ->
    all_cmd args df dl x (mk_io disk []) = (s', r) ->
    (df = true -> io_disk s' = disk /\ written (io_done s') = []) /\
    (df = false -> let f := fst (format_cmd args true false false x (mk_io disk [])) in io_disk s' = io_disk f /\ written (io_done s') = written (io_done f)).
  Proof.
    intros F N Hf. rewrite all_is. unfold and_then. destruct ((if df then compile_cmd args false else format_cmd args true false false x) (mk_io disk [])) as [s1 r1] eqn:E1.
    destruct (first_step args m df x disk s1 r1 F N Hf E1) as (_ & K & _). intros H.
    assert (exists es, s' = adds s1 es /\ written es = []) as (es & -> & W).
    { destruct r1 as [[]|e|e].
      - destruct (finish_is args m dl s1 s' r F Hf H) as (es & -> & W & _). eauto.
      - injection H as <- <-. exists []. now rewrite adds_nil.
      - injection H as <- <-. exists []. now rewrite adds_nil. }
    unfold adds. cbn [io_disk io_done]. rewrite written_app, W, app_nil_r. split; [exact K|]. intros ->. rewrite E1. split; reflexivity.
  Qed.

  (** ** C68 *)
  (** Whenever format is killed, every file but at most one has its old contents or those
      that the formatter returned for it; that one has a part of them. *)
  Theorem C68_killed args m o d l x disk s' r now : found args m -> distinct_paths (m_set m) -> format_cmd args o d l x (mk_io disk []) = (s', r) ->
    killed disk (written (io_done s')) now ->
    exists hit, length hit <= 1 /\ forall q,
      now q = disk q \/
      (exists f input data, asked cwd m f /\ q = pf_path f /\ disk q = Ok input /\ formatter x m q input = Ok (data, []) /\
         (now q = Ok data \/ (In q hit /\ exists part lost, data = part +++ lost /\ now q = Ok part))).
  Proof.
    intros F N H (done & next & rest & E & L & K1 & K2 & K3). destruct (C27_writes args m o d l x disk s' r F N H) as (_ & W & _).
    exists (map fst next). split; [now rewrite map_length|]. intros q. destruct (in_dec string_dec q (map fst (done ++ next))) as [I|I]; [|left; auto].
    right. apply in_map_iff in I as ((q' & data) & <- & I). cbn [fst]. assert (Iw : In (q', data) (written (io_done s'))) by (rewrite E, app_assoc; apply in_or_app; now left).
    destruct (W _ _ Iw) as (_ & f & input & A & Eq & Di & Fo & _). exists f, input, data. split; [exact A|]. split; [exact Eq|]. split; [exact Di|]. split; [exact Fo|].
    apply in_app_or in I as [I|I]; [left; now apply K1|right]. split; [apply in_map_iff; exists (q', data); auto|]. now apply K2.
  Qed.
  (** The same if a write fails: only the file that was being written can have other
      contents, and the error is returned. *)
  Theorem C68_failed args m o d l x disk s' r : found args m -> distinct_paths (m_set m) -> format_cmd args o d l x (mk_io disk []) = (s', r) ->
    forall q, io_disk s' q = disk q \/
      (exists f input data, asked cwd m f /\ q = pf_path f /\ disk q = Ok input /\ formatter x m q input = Ok (data, []) /\
         (io_disk s' q = Ok data \/ exists left_there e, write_error q data = Some (left_there, e) /\ io_disk s' q = left_there /\ r = Fail e)).
  Proof.
    intros F N H q. apply not_ready in H as [(m' & F' & _ & es & O & E)|(es & -> & W & _)]; [|left; reflexivity].
    rewrite <- (found_fun _ _ _ _ _ _ F F') in E. clear m' F'.
    destruct (format_run ord cwd error_format json to_json transform diff write_error o d l x m (adds (mk_io disk []) (Compiled false :: es)) Hord N) as (fs & hs & s1 & rest & F1 & F2 & F3 & (F4 & F4' & F4u) & F5 & F6 & F7 & F8).
    rewrite F8 in E. injection E as -> ->. cbn [io_disk adds] in *.
    destruct (in_dec string_dec q (map pf_path (map h_file hs))) as [I|I].
    2:{ left. apply F7. intros h Hh _ ->. apply I. now apply in_map, in_map. }
    rewrite map_map in I. apply in_map_iff in I as (h & <- & Hh). specialize (F6 h Hh). rewrite F6.
    assert (B : below (m_set m) (h_file h)) by (apply F1; rewrite F4; apply in_or_app; left; now apply in_map).
    assert (Fin : (forall b, h_result h <> Value b) -> match final true hs with Value true => Value tt | Value false => Exit "" | Exit e => Exit e | Fail e => Fail e end = match h_result h with Value _ => Value tt | Exit e => Exit e | Fail e => Fail e end).
    { intros Nv. destruct (final_cases true hs) as [(v & Ev)|(g & Hg & Eg & Ng)].
      - apply final_value in Ev as (vs & Ev & _). apply (in_map h_result) in Hh. rewrite Ev in Hh. apply in_map_iff in Hh as (b & Eb & _). symmetry in Eb. now apply Nv in Eb.
      - enough (Eq : h_result g = h_result h) by (rewrite Eg, Eq; destruct (h_result h) as [b| |]; [now destruct (Nv b)|reflexivity|reflexivity]). 
        f_equal. now apply F4u. }
    rewrite Forall_forall in F3. specialize (F3 h Hh). destruct h as [[[f w] es'] v]. unfold h_file, h_put, h_events, h_result in *. cbn [fst snd] in *.
    destruct F3; try (left; reflexivity); right; exists f, input, data; (split; [now apply skips_asked|]); repeat (split; [assumption || reflexivity|]).
    - left. reflexivity.
    - right. exists rest0, e. split; [assumption|]. split; [reflexivity|]. apply Fin. discriminate.
  Qed.

  (** ** C69 *)
  (** A dry run prints the commands, one on a line, and runs nothing. *)
  Theorem C69_dry_run args m cs s s' r (gen : bool) : found args m -> commands gen (m_set m) = Ok cs -> Forall (fun c => c <> "") cs ->
    (if gen then gen_cmd args true else compile_cmd args true) s = (s', r) ->
    r = Value tt /\ io_disk s' = io_disk s /\
    exists es, io_done s' = io_done s ++ es /\ Forall (fun e => exists t, e = Printed t) es /\ printed es = join "" (map (fun c => c +++ String newline "") cs).
  Proof.
    intros F C Nc. assert (G : (if gen then gen_cmd args true else compile_cmd args true) s = (adds s (lines_of cs), Value tt)).
    { unfold Exec_Model.gen_cmd, Exec_Model.compile_cmd. destruct gen; unfold and_then at 1; rewrite (get_meta_found _ _ _ _ _ _ F); unfold compile, and_then; rewrite C; cbn [check]; unfold ret; rewrite each_println; reflexivity. }
    rewrite G. intros [= <- <-]. split; [reflexivity|]. split; [reflexivity|]. exists (lines_of cs). split; [reflexivity|]. split; [exact (lines_only_print cs)|]. rewrite printed_lines. do 2 f_equal.
    clear C G. induction Nc as [|c cs Hc _ IH]; [reflexivity|]. cbn [filter]. apply is_empty_false in Hc. rewrite Hc. cbn [negb]. f_equal. exact IH.
  Qed.
End Commands.
Print Assumptions C27_flags.
Print Assumptions C27_reads.
Print Assumptions C27_writes.
Print Assumptions C27_formatted.
Print Assumptions C27_status.
Print Assumptions C27_output.
Print Assumptions C54_compile.
Print Assumptions C54_gen.
Print Assumptions C54_lint.
Print Assumptions C59_files.
Print Assumptions C67_success.
Print Assumptions C67_order.
Print Assumptions C67_writes.
Print Assumptions C68_killed.
Print Assumptions C68_failed.
Print Assumptions C69_dry_run.

(** ** Examples *)
(** A directory with two files, one of them not formatted: the formatter ends a file with a
    dot. *)
Definition in_order_map : map_order := fun _ _ l => l.
Lemma in_order_visits : visits_all in_order_map.
Proof. intros p A l. apply Permutation_refl. Qed.
Definition ex_config : config := mk_config "/w" [] (mk_compile_config "" [] false false) (mk_create_config []) (mk_lint_config "uber2" false [] [] [] "// h" "com" false)
  (mk_break_config false false) (mk_gen_config "" [] []).
Definition ex_set : proto_set := mk_proto_set "/w" "/w/a"
  [("/w/a", [mk_proto_file "/w/a/x.proto" "a/x.proto"; mk_proto_file "/w/a/y.proto" "a/y.proto"]); ("/w/b", [mk_proto_file "/w/b/z.proto" "b/z.proto"])] ex_config.
Definition ex_stat (p : string) : result file_kind :=
  if String.eqb p "a" || String.eqb p "." then Ok Directory else if String.eqb p "a/x.proto" then Ok Regular else Err "no such file".
Definition ex_get_for_dir (work dir : string) : result proto_set := if String.eqb dir "a" || String.eqb dir "." then Ok ex_set else Err "no files".
Definition ex_disk (p : string) : result string :=
  if String.eqb p "/w/a/x.proto" then Ok "x" else if String.eqb p "/w/a/y.proto" then Ok "y." else if String.eqb p "/w/b/z.proto" then Ok "z" else Err "no such file".
Definition ex_compiler (gen set : bool) (full : option (bool * bool)) (disk : string -> result string) (ps : proto_set) : result (list failure * list nat) :=
  match disk "/w/b/z.proto" with Ok "bad" => Ok ([mk_failure "b/z.proto" 1 2 "" "expected"], []) | _ => Ok ([], []) end.
Definition ex_commands (gen : bool) (ps : proto_set) : result (list string) := Ok ["protoc a/x.proto"; "protoc b/z.proto"].
Definition ex_transform (fix_value : Z) (header java_prefix name data : string) : result (string * list failure) :=
  if has_suffix data "." then Ok (data, []) else Ok (data +++ ".", []).
Definition ex_diff (a b name : string) : result string := Ok (name +++ ": " +++ a +++ " -> " +++ b +++ String newline "").
Definition ex_run_lint (disk : string -> result string) (ps : proto_set) (absolute : bool) : result (list failure) := Ok [].
Definition ex_write_error (p data : string) : option (result string * string) := None.
Definition full_disk (p data : string) : option (result string * string) := Some (Ok "", "no space left on device").
Notation ex_format w := (format_cmd in_order_map "/w" "/w" "" false (fun _ => "") ex_stat ex_get_for_dir nat ex_compiler ex_commands ex_transform ex_diff w).
Definition seen {A} (r : io * outcome A) : string * list (string * string) * outcome A := (printed (io_done (fst r)), written (io_done (fst r)), snd r).
Lemma ex_found : found "/w" ex_stat ex_get_for_dir ["a"] (mk_meta ex_set "").
Proof. apply FoundDirectory; reflexivity. Qed.
Lemma ex_distinct : distinct_paths ex_set.
Proof. unfold distinct_paths. cbn. repeat constructor; cbn; intuition discriminate. Qed.
Lemma ex_fields : exists fields, fields_of "" fields.
Proof. eexists. left. split; reflexivity. Qed.
Example C27_ex : ready "/w" "" ex_stat ex_get_for_dir nat ex_compiler ["a"] (mk_meta ex_set "") ex_disk /\
  seen (ex_format ex_write_error ["a"] true false false false (mk_io ex_disk [])) = ("", [("/w/a/x.proto", "x.")], Value tt) /\
  seen (ex_format ex_write_error ["a"] false true false false (mk_io ex_disk [])) = ("a/x.proto: x -> x." +++ String newline "", [], Exit "") /\
  seen (ex_format ex_write_error ["a"] false false false false (mk_io ex_disk [])) = ("x.y.", [], Exit "") /\
  seen (ex_format ex_write_error ["a"] false false true false (mk_io ex_disk [])) = ("a/x.proto:1:1:Format returned a diff." +++ String newline "", [], Exit "") /\
  seen (ex_format full_disk ["a"] true false false false (mk_io ex_disk [])) = ("", [("/w/a/x.proto", "x.")], Fail "no space left on device").
Proof.
  split; [|vm_compute; repeat split]. split; [exact ex_found|]. split; [exact ex_distinct|]. split; [exists []; reflexivity|exact ex_fields].
Qed.
Notation ex_compile := (compile_cmd "/w" "/w" "" false (fun _ => "") ex_stat ex_get_for_dir nat ex_compiler ex_commands).
Definition bad_disk (p : string) : result string := if String.eqb p "/w/b/z.proto" then Ok "bad" else ex_disk p.
Example C54_ex : seen (ex_compile ["."] false (mk_io bad_disk [])) = ("b/z.proto:1:2:expected" +++ String newline "", [], Exit "") /\
  seen (ex_compile ["."] false (mk_io ex_disk [])) = ("", [], Value tt).
Proof. vm_compute. split; reflexivity. Qed.
(** The status counts failures in other files than the one asked for, which are not
    printed. *)
Theorem C54_status_refuted : ~ forall cwd work_dir error_format json to_json stat get_for_dir D compiler commands args disk s' r,
  found work_dir stat get_for_dir args (mk_meta ex_set "a/x.proto") -> (exists fields, fields_of error_format fields) ->
  compile_cmd cwd work_dir error_format json to_json stat get_for_dir D compiler commands args false (mk_io disk []) = (s', r) ->
  printed (io_done s') = "" -> r <> Exit "".
Proof.
  intros H. refine (H "/w" "/w" "" false (fun _ => "") ex_stat ex_get_for_dir nat ex_compiler ex_commands ["a/x.proto"] bad_disk _ _ _ ex_fields eq_refl eq_refl eq_refl).
  apply FoundFile; reflexivity.
Qed.
Print Assumptions C54_status_refuted.
Example C59_ex : seen (files_cmd in_order_map "/w" ex_stat ex_get_for_dir ["a"] (mk_io ex_disk [])) =
  ("a/x.proto" +++ String newline ("a/y.proto" +++ String newline ""), [], Value tt).
Proof. reflexivity. Qed.
Notation ex_all w := (all_cmd in_order_map "/w" "/w" "" false (fun _ => "") ex_stat ex_get_for_dir nat ex_compiler ex_commands ex_transform ex_diff ex_run_lint w).
Example C67_ex : io_done (fst (ex_all ex_write_error ["a"] false false false (mk_io ex_disk []))) = [Compiled false; Wrote "/w/a/x.proto" "x."; Compiled true] /\
  snd (ex_all ex_write_error ["a"] false false false (mk_io ex_disk [])) = Value tt /\
  io_done (fst (ex_all full_disk ["a"] false false false (mk_io ex_disk []))) = [Compiled false; Wrote "/w/a/x.proto" "x."] /\
  seen (ex_all ex_write_error ["a"] false false false (mk_io bad_disk [])) = ("b/z.proto:1:2:expected" +++ String newline "", [], Exit "").
Proof. vm_compute. repeat split. Qed.
Example C68_ex : killed ex_disk (written (io_done (fst (ex_format ex_write_error ["a"] true false false false (mk_io ex_disk [])))))
  (fun q => if String.eqb q "/w/a/x.proto" then Ok "" else ex_disk q).
Proof.
  exists [], [("/w/a/x.proto", "x.")], []. split; [reflexivity|]. split; [cbn; lia|]. split; [intros q data []|]. split.
  - intros q data [[= <- <-]|[]]. exists "", "x.". split; reflexivity.
  - intros q N. destruct (String.eqb_spec q "/w/a/x.proto") as [->|_]; [|reflexivity]. destruct N. now left.
Qed.
(** So the contents of a file can be lost. *)
Theorem C68_atomic_refuted : ~ forall args m x disk s' r now, found "/w" ex_stat ex_get_for_dir args m -> distinct_paths (m_set m) ->
  ex_format ex_write_error args true false false x (mk_io disk []) = (s', r) -> killed disk (written (io_done s')) now ->
  forall q, now q = disk q \/ now q = io_disk s' q.
Proof.
  intros H. specialize (H ["a"] _ false ex_disk _ _ _ ex_found ex_distinct eq_refl C68_ex "/w/a/x.proto"). vm_compute in H. destruct H; discriminate.
Qed.
Print Assumptions C68_atomic_refuted.
Example C69_ex : seen (ex_compile ["a"] true (mk_io bad_disk [])) = ("protoc a/x.proto" +++ String newline ("protoc b/z.proto" +++ String newline ""), [], Value tt).
Proof. reflexivity. Qed.
