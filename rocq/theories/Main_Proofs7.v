(** The files that the commands work on, each once and under the name that files shows. *)
From Coq Require Import Permutation.
From Verif Require Import GoStrFacts GoPathFacts Strs_Spec Lint_Spec Settings_Spec Settings_Proofs Settings_Proofs2 File_Model File_Spec File_Proofs File_Proofs2 File_Proofs3 File_Proofs4
  Exec_Spec Exec_Proofs Exec_Proofs3 Props_Exec Props_Files Main_Model Main_Spec Main_Proofs Main_Proofs2 Main_Proofs4 Main_Proofs6.
From Verif Require Download_Proofs.

Section Distinct.
  Variable ex : string -> bool.
  Variable read : string -> result string.
  Variable dj dy : string -> result external_config.
  Variable data work : string.
  Variable root : list string.
  Lemma walk_distinct n : forall d st st', ok_comps d -> named n ->
    walk ex read dj dy data work (abs_path root) (abs_path d) n st = Ok st' ->
    exists new, w_files st' = w_files st ++ new /\ NoDup (map pf_path new) /\
      forall f, In f new -> exists cs, file_in n cs /\ pf_path f = abs_path (d ++ cs).
  Proof.
    induction n as [| | |es IH] using node_ind'; intros d st st' Hd Nn W.
    - cbn [walk] in W. unfold visit_path in W. destruct (negb _).
      { cbn in W. injection W as <-. exists []. rewrite app_nil_r. split; [reflexivity|]. split; [constructor|intros f []]. }
      destruct (is_excluded _ _ _); cbn [bind snd] in W; injection W as <-.
      + exists []. rewrite app_nil_r. split; [reflexivity|]. split; [constructor|intros f []].
      + eexists. cbn [w_files]. split; [reflexivity|]. split; [constructor; [intros []|constructor]|]. intros f [<-|[]]. exists [].
        rewrite app_nil_r. split; [constructor|reflexivity].
    - discriminate W.
    - discriminate W.
    - rewrite walk_dir in W. destruct (visit_path ex read dj dy data work (abs_path root) (abs_path d) true st) as [[v st1]|] eqn:V; [|discriminate].
      cbn [bind] in W. apply visit_dir in V as (X & E1 & _); [|assumption].
      assert (w_files st1 = w_files st) as Ef by (now subst st1). rewrite <- Ef. clear E1 Ef.
      inversion Nn as [| | |? No Nd Ns]; subst.
      destruct v; [|injection W as <-; exists []; rewrite app_nil_r; split; [reflexivity|]; split; [constructor|intros f []]].
      assert (forall l s, incl l es -> NoDup (map fst l) -> walk_entries ex read dj dy data work root (abs_path d) l s = Ok st' ->
        exists new, w_files st' = w_files s ++ new /\ NoDup (map pf_path new) /\
          forall f, In f new -> exists name c cs, In (name, c) l /\ file_in c cs /\ pf_path f = abs_path (d ++ name :: cs)) as L.
      { induction l as [|[name c] l IHl]; intros s Hl Nl Wl; cbn [walk_entries] in Wl.
        { injection Wl as <-. exists []. rewrite app_nil_r. split; [reflexivity|]. split; [constructor|intros f []]. }
        assert (In (name, c) es) as Hin by (apply Hl; now left).
        assert (Hok : forall x, In x es -> ok_comp (fst x) = true).
        { intros x Hx. unfold ok_comps in No. rewrite Forall_forall in No. apply No. now apply in_map. }
        assert (Hname := Hok _ Hin). cbn [fst] in Hname.
        replace (path_join [abs_path d; name]) with (abs_path (d ++ [name])) in Wl.
        2:{ symmetry. apply (path_join_abs_ok d [name]); [assumption|constructor; [assumption|constructor]|discriminate]. }
        destruct (walk ex read dj dy data work (abs_path root) (abs_path (d ++ [name])) c s) as [s1|] eqn:W1; [|discriminate]. cbn [bind] in Wl.
        cbn [map fst] in Nl. apply NoDup_cons_iff in Nl as (Nn1 & Nl).
        apply IHl in Wl as (new2 & B1 & B2 & B3); [|intros e He; apply Hl; now right|exact Nl].
        rewrite Forall_forall in IH.
        assert (ok_comps (d ++ [name])) as Hdn by (apply ok_comps_app; split; [assumption|constructor; [assumption|constructor]]).
        destruct (IH _ Hin (d ++ [name]) s s1 Hdn (Ns _ _ Hin) W1) as (new1 & A1 & A2 & A3).
        exists (new1 ++ new2). rewrite B1, A1, app_assoc. split; [reflexivity|]. split.
        - rewrite map_app. apply nodup_app; [assumption|assumption|]. intros p P1 P2.
          apply in_map_iff in P1 as (f1 & <- & P1). apply in_map_iff in P2 as (f2 & E & P2).
          destruct (A3 _ P1) as (c1 & C1 & E1). destruct (B3 _ P2) as (n2 & d2 & c2 & I2 & C2 & E2).
          rewrite E1, E2 in E. assert (In (n2, d2) es) as Hin2 by (apply Hl; now right). assert (Hn2 := Hok _ Hin2). cbn [fst] in Hn2.
          assert (O1 : ok_comps c1) by (eapply file_in_ok; [|exact C1]; eapply Ns; eassumption).
          assert (O2 : ok_comps c2) by (eapply file_in_ok; [|exact C2]; eapply Ns; eassumption).
          apply abs_path_inj in E.
          + rewrite <- app_assoc in E. apply app_inv_head in E. injection E as -> _. apply Nn1. now apply (in_map fst) in I2.
          + apply ok_comps_app. split; [assumption|]. now constructor.
          + apply ok_comps_app. split; assumption.
        - intros f Hf. apply in_app_iff in Hf as [Hf|Hf].
          + destruct (A3 _ Hf) as (cs & C & E). exists name, c, cs. split; [now left|]. split; [exact C|]. now rewrite E, <- app_assoc.
          + destruct (B3 _ Hf) as (n2 & d2 & c2 & I2 & C2 & E2). exists n2, d2, c2. split; [now right|auto]. }
      destruct (L es st1 (incl_refl _) Nd W) as (new & A & B & C). exists new. split; [exact A|]. split; [exact B|].
      intros f Hf. destruct (C _ Hf) as (name & c & cs & I & F & E). exists (name :: cs). split; [econstructor; eassumption|exact E].
  Qed.
End Distinct.

Lemma provide_files ord cwd node_at ex read dj dy look sort devel data dir s : reorders ord -> (forall p, named (node_at p)) ->
  clean_abs cwd -> dir <> "" ->
  provider_get_for_dir ord cwd node_at ex read dj dy look sort devel data cwd dir = Ok s ->
  distinct_paths s /\ forall d l f, In (d, l) (ps_files s) -> In f l -> File_Spec.shown cwd (pf_path f) (pf_display f).
Proof.
  intros O Nm Hc Hd H. apply provide_ok in H; [|assumption].
  destruct (abs_clean_ok cwd dir Hc Hd) as (ds & Hds & Ed). pose proof Hc as Hc'. destruct Hc' as (w & Hw & ->).
  rewrite (File_Proofs4.abs_clean_abs _ w Hw), Ed in H.
  destruct H as (_ & _ & root & fs & R & F & G & _).
  assert (exists r, ok_comps r /\ root = abs_path r) as (r & Hr & ->).
  { unfold root_of in R. destruct (is_empty data) eqn:E; [|injection R as <-; eauto].
    apply is_empty_true in E. subst data. apply (root_searched ex "" ds root Hds) in R as (r & Hr & -> & _). eauto. }
  split.
  - unfold distinct_paths. destruct G as (Gn & Gm). apply (groups_distinct fs); [exact Gn|intros d l H; now apply Gm in H as (_ & H)|].
    unfold walk_and_get_all_proto_files in F. destruct (initial_excludes dj data (abs_path w)) as [e|]; [|discriminate]. cbn [bind] in F.
    destruct (walk _ _ _ _ _ _ _ _ _ _) as [st|] eqn:W; [|discriminate]. cbn [bind] in F. injection F as <-.
    apply walk_distinct in W as (new & -> & N & _); [exact N|assumption|apply Nm].
  - intros d l f Hl Hf. apply (proj2 G) in Hl as [_ ->]. apply filter_In in Hf as [Hf _].
    destruct (files_paths _ _ _ _ _ _ _ _ _ _ Hr (Nm _) F Hf) as (cs & _ & _ & _ & S). apply S. now exists w.
Qed.

Lemma path_clean_not_empty p : path_clean p <> "".
Proof.
  intros E. assert (K := Download_Proofs.path_join_not_empty p []). destruct (string_dec p "") as [->|Hp]; [discriminate|]. rewrite Download_Proofs.path_join_cons in K by exact Hp. now apply (K Hp).
Qed.

(** Formatting changes only the files asked for. *)
Lemma does_format_below (P : event -> Prop) ord cwd format json to_json transform diff write_error overwrite diff_mode lint_mode fix_flag m :
  visits_all ord -> (forall t, P (Printed t)) -> (overwrite = true -> forall f x, below (m_set m) f -> P (Wrote (pf_path f) x)) ->
  does P (Exec_Model.format ord cwd format json to_json transform diff write_error overwrite diff_mode lint_mode fix_flag m).
Proof.
  intros V T H. unfold Exec_Model.format. apply does_then; [|intros []; [apply does_ret|apply does_exit]].
  change (concat (map snd (filter (fun d => has_prefix (fst d) (ps_dir (m_set m))) (ord "format" _ (ps_files (m_set m))))))
    with (Exec_Proofs3.visited ord "format" (m_set m)).
  assert (G : forall f, In f (Exec_Proofs3.visited ord "format" (m_set m)) -> overwrite = true -> forall x, P (Wrote (pf_path f) x)).
  { intros f I O x. apply H; [exact O|]. now apply (visited_in ord "format" _ f V). }
  set (fs := Exec_Proofs3.visited ord "format" (m_set m)) in *. clearbody fs.
  generalize true as ok. induction fs as [|f fs IH]; intros ok; cbn [format_files]; [apply does_ret|].
  apply does_then; [apply does_format_file; [assumption|intros; apply G; [now left|assumption]]|].
  intros ok'. apply IH. intros g I. apply G. now right.
Qed.
(** Whatever is compiled, nothing is written. *)
Lemma does_compile_any (P : event -> Prop) cwd format json to_json D compiler commands gen m : (forall t, P (Printed t)) -> P (Compiled gen) ->
  does P (compile cwd format json to_json D compiler commands gen false false m).
Proof. intros T C. apply does_compile; auto. Qed.

(** A successful check by protoc. *)
Lemma compiled_value cwd format json to_json D compiler commands gen m s s1 ds :
  compile cwd format json to_json D compiler commands gen false false m s = (s1, Value ds) ->
  compiler gen false None (io_disk s) (m_set m) = Ok ([], ds) /\ exists fields, Exec_Spec.fields_of format fields.
Proof.
  unfold compile, do_compile, and_then, emit. cbn [io_disk]. destruct (compiler gen false None (io_disk s) (m_set m)) as [[fs d]|e]; [|discriminate].
  cbn [Exec_Model.check ret fst snd]. unfold report, and_then. destruct fs as [|f fs].
  - unfold print_failures, print_failures_for. cbn [map filter sort_failures]. unfold and_then, Exec_Model.check, ret, fail.
    destruct (parse_colon_separated_failure_fields format) as [fields|] eqn:E; cbn; [|discriminate]. intros [= _ <-]. split; [reflexivity|].
    exists fields. now apply fields_of_ok.
  - destruct (print_failures _ _ _ _ _ _ _ _) as [s2 [|e|e]]; discriminate.
Qed.

(** The parts of a runner that the files depend on. *)
Definition same_files (r r' : runner) : Prop :=
  r_work_dir r = r_work_dir r' /\ r_config_data r = r_config_data r' /\ r_walk_timeout r = r_walk_timeout r'.
Lemma provider_runner w r r' d a b : same_files r r' -> provider w r d a b = provider w r' d a b.
Proof. intros (E1 & E2 & E3). unfold provider, here. now rewrite E1, E2, E3. Qed.

Section Files.
  Variable w : world.
  Hypothesis V : visits_all (w_order w).
  Hypothesis Nm : forall p, named (w_node_at w p).
  Hypothesis St : forall k, w_stat w "" <> Ok k.
  Variable r : runner.
  Hypothesis Cl : clean_abs (here r).
  Notation getm := (get_meta (here r) (w_stat w)).
  Lemma found_files disk args m : found (here r) (w_stat w) (provider w r disk) args m ->
    distinct_paths (m_set m) /\ forall f, below (m_set m) f -> File_Spec.shown (here r) (pf_path f) (pf_display f).
  Proof.
    assert (K : forall dir ps, dir <> "" -> provider w r disk (here r) dir = Ok ps ->
      distinct_paths ps /\ forall f, below ps f -> File_Spec.shown (here r) (pf_path f) (pf_display f)).
    { intros dir ps N E. unfold provider in E.
      destruct (provider_get_for_dir _ _ _ _ _ _ _ _ _ _ _ _ _) as [s|] eqn:P; [|discriminate E]. cbn [bind] in E.
      assert (s = ps) as -> by (destruct (_ =? 0)%Z; [now injection E|]; destruct (w_too_slow _ _ _); [discriminate E|now injection E]).
      destruct (provide_files _ _ _ _ _ _ _ _ _ _ _ _ _ V Nm Cl N P) as (D & S). split; [exact D|].
      intros f (d & l & A & B & _). eapply S; eassumption. }
    intros [ps S G|ps S G]; cbn [m_set]; eapply K; try exact G; [|apply path_clean_not_empty]. intros E. rewrite E in S. now apply St in S.
  Qed.
  Lemma getm_found disk args s m : getm (provider w r disk) args s = (s, Value m) -> found (here r) (w_stat w) (provider w r disk) args m.
  Proof.
    destruct (Exec_Proofs.get_meta_pure (here r) (w_stat w) (provider w r disk) args) as (o & E & [(m' & -> & F)|((e & ->) & _)]); rewrite E; [|discriminate].
    intros [= ->]. exact F.
  Qed.
  (** What files shows. *)
  Lemma files_shows args s s1 : method w r (CallFiles args) s = (s1, Value tt) ->
    exists m names, found (here r) (w_stat w) (provider w r (io_disk s)) args m /\
      s1 = mk_io (io_disk s) (io_done s ++ Main_Spec.shown names) /\
      forall n, In n names <-> exists f, below (m_set m) f /\ pf_display f = n.
  Proof.
    intros H. change (files_cmd (w_order w) (here r) (w_stat w) (provider w r (io_disk s)) args s = (s1, Value tt)) in H.
    unfold files_cmd, and_then in H.
    destruct (Exec_Proofs.get_meta_pure (here r) (w_stat w) (provider w r (io_disk s)) args) as (o & E & [(m & -> & F)|((e & ->) & _)]); rewrite E in H; [|discriminate].
    exists m. eexists. split; [exact F|]. rewrite each_println in H. injection H as <-.
    match goal with |- adds s (lines_of ?l) = _ /\ _ => set (names := l) end.
    assert (I : forall n, In n names <-> exists f, below (m_set m) f /\ pf_display f = n).
    { intros n. unfold names. rewrite <- (isort_perm str_leb). 
      replace (concat _) with (map pf_display (Exec_Proofs3.visited (w_order w) "Files" (m_set m))) by (unfold Exec_Proofs3.visited; rewrite concat_map, map_map; reflexivity).
      rewrite in_map_iff. split; intros (f & A & B); exists f.
      - split; [apply (visited_in (w_order w) "Files" _ f V); exact B|exact A].
      - split; [exact B|apply (visited_in (w_order w) "Files" _ f V); exact A]. }
    refine (conj _ I). destruct (found_files _ _ _ F) as (_ & S).
    change (adds s (lines_of names) = mk_io (io_disk s) (io_done s ++ Main_Spec.shown names)).
    assert (lines_of names = Main_Spec.shown names) as <-; [|reflexivity]. clear - I S. unfold lines_of, Main_Spec.shown.
    assert (N : forall n, In n names -> n <> ""). { intros n K. apply I in K as (f & B & <-). apply S in B as (A1 & A2 & _). intros E. rewrite E in A2. discriminate A2. }
    clear I. induction names as [|n l IH]; [reflexivity|]. cbn [map concat].
    destruct (is_empty n) eqn:E; [apply is_empty_true in E; now destruct (N n (or_introl eq_refl))|]. 
    cbn. f_equal. apply IH. intros x K. apply N. now right.
  Qed.
  (** format and all change only those files. *)
  Lemma changes_below r' args m k s : same_files r' r -> found (here r) (w_stat w) (provider w r (io_disk s)) args m ->
    (exists o d l x, k = CallFormat args o d l x) \/ (exists df dl x, k = CallAll args df dl x) ->
    forall p, io_disk (fst (method w r' k s)) p <> io_disk s p -> exists f, below (m_set m) f /\ pf_path f = p.
  Proof.
    intros S F K.
    set (P := fun e => match e with Wrote p _ => exists f, below (m_set m) f /\ pf_path f = p | _ => True end).
    assert (T : forall t, P (Printed t)) by (intros; exact I). assert (C : forall g, P (Compiled g)) by (intros; exact I).
    assert (G : forall s', get_meta (here r') (w_stat w) (provider w r' (io_disk s)) args s' = (s', Value m)).
    { intros s'. rewrite (get_meta_same _ _ _ (provider w r (io_disk s))) by (intros; now apply provider_runner).
      unfold here. rewrite (proj1 S). now apply get_meta_found. }
    assert (D : exists c : cmd unit, (method w r' k s = c s \/ exists e, method w r' k s = (s, Exit e)) /\ does P c).
    { destruct K as [(o & d & l & x & ->)|(df & dl & x & ->)].
      - set (e := Exec_Model.format (w_order w) (here r') (r_error_format r') (r_json r') Json_Model.failure_json (the_transform w) (w_diff w) (w_write_error w) o d l x m).
        exists (compile (here r') (r_error_format r') (r_json r') Json_Model.failure_json file_set (the_compiler w r') (the_commands w r') false false false m ;; e). split.
        + change (method w r' (CallFormat args o d l x) s) with (format_cmd (w_order w) (here r') (here r') (r_error_format r') (r_json r') Json_Model.failure_json (w_stat w) (provider w r' (io_disk s)) file_set (the_compiler w r') (the_commands w r')
            (the_transform w) (w_diff w) (w_write_error w) args o d l x s).
          unfold format_cmd. destruct (more_than_one_set _); [right; eexists; reflexivity|left]. unfold and_then at 1. rewrite G. reflexivity.
        + apply does_then; [now apply does_compile_any|]. intros _. apply does_format_below; [assumption|assumption|]. intros _ f y B. exists f. auto.
      - eexists. split.
        + left. change (method w r' (CallAll args df dl x) s) with (all_cmd (w_order w) (here r') (here r') (r_error_format r') (r_json r') Json_Model.failure_json (w_stat w) (provider w r' (io_disk s)) file_set (the_compiler w r') (the_commands w r')
            (the_transform w) (w_diff w) (the_lint w r') (w_write_error w) args df dl x s).
          unfold all_cmd. unfold and_then at 1. rewrite G. reflexivity.
        + cbv beta. apply does_then; [now apply does_compile_any|]. intros _. apply does_then.
          { destruct df; [apply does_ret|]. apply does_format_below; [assumption|assumption|]. intros _ f y B. exists f. auto. }
          intros _. apply does_then; [now apply does_compile_any|]. intros _. destruct dl; [apply does_ret|now apply does_lint]. }
    destruct D as (c & [E|(e & E)] & D); rewrite E; [|intros p N; now destruct N].
    intros p N. destruct (D s) as (es & _ & Fa & W). destruct (W p N) as (d & I). rewrite Forall_forall in Fa. exact (Fa _ I).
  Qed.
  Lemma fine_parsed disk x m md f : fine (the_transform w) (w_write_error w) disk x m md f ->
    exists data els, disk (pf_path f) = Ok data /\ w_parse w (pf_path f) data = Ok els.
  Proof.
    intros (i & d & R & T & _). exists i. 
    assert (exists els, w_parse w (pf_path f) i = Ok els) as (els & ->); [|eauto].
    unfold formatter, the_transform, Format_Model.transform in T.
    destruct x; (destruct (Format_Model.check_fix _); [|discriminate T]; cbn [bind] in T; destruct (w_parse w (pf_path f) i); [eauto|discriminate T]).
  Qed.
  Lemma one_of o d l : more_than_one_set [o; d; l] = false -> exists md, mode_of o d l md.
  Proof.
    destruct o, d, l; intros E; try discriminate E; (now exists Overwrite) || (now exists Diff) || (now exists LintOnly) || (now exists Exec_Spec.Plain).
  Qed.
  (** A format that succeeds found nothing to report about any file asked for. *)
  Lemma format_fine r' args m o d l x s s2 : same_files r' r -> found (here r) (w_stat w) (provider w r (io_disk s)) args m ->
    method w r' (CallFormat args o d l x) s = (s2, Value tt) ->
    exists md, mode_of o d l md /\
      ready (here r') (r_error_format r') (w_stat w) (provider w r' (io_disk s)) file_set (the_compiler w r') args m (io_disk s) /\
      forall f, Exec_Spec.asked (here r) m f -> fine (the_transform w) (w_write_error w) (io_disk s) x m md f.
  Proof.
    intros S F E. assert (H : here r' = here r) by apply S.
    assert (F' : found (here r') (w_stat w) (provider w r' (io_disk s)) args m).
    { rewrite H. destruct F as [ps A B|ps A B]; [apply FoundDirectory|apply FoundFile]; try exact A; rewrite (provider_runner w r' r) by exact S; exact B. }
    destruct (method_framed w r' (CallFormat args o d l x) (io_disk s)) as (es & d' & o' & Q & _).
    assert (o' = Value tt) as -> by (specialize (Q (io_done s)); destruct s as [dk dn]; cbn [io_disk io_done] in Q; rewrite Q in E; now injection E).
    specialize (Q []).
    change (format_cmd (w_order w) (here r') (here r') (r_error_format r') (r_json r') Json_Model.failure_json (w_stat w) (provider w r' (io_disk s)) file_set (the_compiler w r') (the_commands w r')
            (the_transform w) (w_diff w) (w_write_error w) args o d l x (mk_io (io_disk s) []) = (mk_io d' ([] ++ es), Value tt)) in Q.
    assert (M : more_than_one_set [o; d; l] = false).
    { unfold format_cmd in Q. destruct (more_than_one_set _); [discriminate Q|reflexivity]. }
    destruct (one_of _ _ _ M) as (md & Mo). exists md. split; [exact Mo|].
    assert (R : ready (here r') (r_error_format r') (w_stat w) (provider w r' (io_disk s)) file_set (the_compiler w r') args m (io_disk s)).
    { split; [exact F'|]. split; [apply (found_files _ _ _ F)|]. unfold format_cmd in Q. rewrite M in Q. unfold and_then at 1 in Q. rewrite (get_meta_found _ _ _ _ _ _ F') in Q.
      unfold and_then at 1 in Q. destruct (compile _ _ _ _ _ _ _ _ _ _ _ _) as [s1 [ds|e|e]] eqn:C; try discriminate Q.
      apply compiled_value in C as (C & Hf). split; [exists ds; exact C|exact Hf]. }
    split; [exact R|]. rewrite <- H.
    apply (proj1 (C27_status (w_order w) (here r') (here r') (r_error_format r') (r_json r') Json_Model.failure_json (w_stat w) (provider w r' (io_disk s)) file_set (the_compiler w r') (the_commands w r')
            (the_transform w) (w_diff w) (the_lint w r') (w_write_error w) V args m o d l x md (io_disk s) R Mo)).
    now rewrite Q.
  Qed.
  (** A lint that succeeds read and parsed them all. *)
  Lemma lint_parsed r' args m s s2 : same_files r' r -> found (here r) (w_stat w) (provider w r (io_disk s)) args m ->
    method w r' (CallLint args false false false "" "" false) s = (s2, Value tt) ->
    forall f, below (m_set m) f -> exists data els, io_disk s (pf_path f) = Ok data /\ w_parse w (pf_path f) data = Ok els.
  Proof.
    intros S F E. 
    assert (G : forall s', get_meta (here r') (w_stat w) (provider w r' (io_disk s)) args s' = (s', Value m)).
    { intros s'. rewrite (get_meta_same _ _ _ (provider w r (io_disk s))) by (intros; now apply provider_runner).
      unfold here. rewrite (proj1 S). now apply get_meta_found. }
    change (method w r' (CallLint args false false false "" "" false) s) with
      ((run m <- get_meta (here r') (w_stat w) (provider w r' (io_disk s)) args;
        compile (here r') (r_error_format r') (r_json r') Json_Model.failure_json file_set (the_compiler w r') (the_commands w r') false false false m ;;
        lint (here r') (r_error_format r') (r_json r') Json_Model.failure_json (the_lint w r') m) s) in E.
    unfold and_then at 1 in E. rewrite G in E. unfold and_then at 1 in E.
    destruct (compile _ _ _ _ _ _ _ _ _ _ _ _) as [s1 [ds|e|e]] eqn:C; try discriminate E.
    apply compiled_ok in C. subst s1. unfold lint, and_then in E. cbn [io_disk] in E.
    destruct (the_lint w r' (io_disk s) (m_set m) false) as [fs|] eqn:L; [|discriminate E]. clear E.
    unfold the_lint, LintCmd_Model.run_lint, Lint_Model.lint_run in L.
    destruct (Lint_Model.get_linters _ _ _ _) as [ls|]; [|discriminate L]. cbn [bind] in L.
    destruct (Lint_Model.dir_path_to_descriptors _ _ _ _) as [dirs|] eqn:D; [|discriminate L]. clear L.
    unfold Lint_Model.dir_path_to_descriptors in D.
    match type of D with (do _ <- mapM ?g ?l; _) = _ => destruct (mapM g l) as [ds'|] eqn:M; [|discriminate D]; set (dd := l) in *; set (gg := g) in * end.
    clear D. intros f (dir & files & I1 & I2 & I3).
    apply Settings_Proofs.mapM_ok in M.
    assert (J : In (dir, files) dd). { unfold dd. apply filter_In. split; [eapply Permutation_in; [apply V|exact I1]|exact I3]. }
    destruct (Forall2_In_l _ _ _ _ M J) as (y & _ & Y). unfold gg in Y. cbn [snd fst] in Y.
    destruct (mapM _ files) as [dl|] eqn:Mf in Y; [|discriminate Y]. apply Settings_Proofs.mapM_ok in Mf. destruct (Forall2_In_l _ _ _ _ Mf I2) as (z & _ & Z).
    unfold Lint_Model.read_descriptor, LintCmd_Model.read_proto in Z. destruct (io_disk s (pf_path f)) as [data|]; [|discriminate Z]. cbn [bind] in Z.
    destruct (w_parse w (pf_path f) data) as [els|] eqn:W; [|discriminate Z]. eauto.
  Qed.
End Files.
