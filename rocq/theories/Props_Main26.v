(** C115: format and all that are killed, for the whole program. *)
From Verif Require Import Crash_Proofs.
From Verif Require Import GoStrFacts GoPathFacts Settings_Spec File_Spec Exec_Spec Exec_Proofs Exec_Proofs3 Cmd_Spec LintRun_Spec Text_Spec Format_Model Format_Spec Main_Model Main_Spec Main_Spec2
  Main_Proofs Main_Proofs2 Main_Proofs6 Main_Proofs7 Main_Proofs9 Main_Proofs10 Props_Format Props_Main Props_Main2 Props_Main3 Props_Main4 Props_Main5 Props_Main8 Props_Main9.
From Verif Require Props_Main19.

(** The text of a formatted file: the elements of the file in the order of the style, and with
    --fix the header and the options that the configuration asks for. *)
Definition formatted_text (w : world) (c : config) (fix_flag : bool) (p : string) (es : list element) (text : string) : Prop :=
  (fix_flag = false -> kept_file es ->
     reads_as text (concat (map (tokens (w_sort_options w)) (canonical (w_sort_options w) (w_sort_imports w) es)))) /\
  (fix_flag = true -> kept_file es -> forall pk hts, In (EPackage pk) es -> a_package (pk_name pk) ->
     quotes_free p -> quotes_free (lc_java_package_prefix (cfg_lint c)) ->
     let header := lc_file_header (cfg_lint c) in
     reads_as (header +++ String newline "") hts ->
     reads_as text ((if is_empty header then concat (map (tokens (w_sort_options w)) (leading es)) else hts) ++
       concat (map (tokens (w_sort_options w))
         (canonical_with (w_sort_options w) (w_sort_imports w) [] (fixed_options (set_by_fix c p (pk_name pk)) (own_options es)) es)))).
Lemma formatter_text w x m p input es text : sorts_by o_name (w_sort_options w) -> sorts_by im_filename (w_sort_imports w) ->
  formatter (the_transform w) x m p input = Ok (text, []) -> w_parse w p input = Ok es -> formatted_text w (ps_config (m_set m)) x p es text.
Proof.
  intros Sopt Simp T P. unfold formatter, the_transform in T. split.
  - intros Fx Ke. rewrite Fx in T. destruct (C24_tokens (w_sort_options w) (w_sort_imports w) p "" "" es Sopt Simp Ke) as (text' & E' & Re).
    now rewrite (transform_text _ _ _ _ _ _ _ _ _ _ T P FixNone text' eq_refl E').
  - intros Fx Ke pk hts Pk Ap Qp Qx header Rh. rewrite Fx in T. unfold set_by_fix.
    destruct (String.eqb (lc_group (cfg_lint (ps_config (m_set m)))) "uber2").
    + destruct (C25_written (w_sort_options w) (w_sort_imports w) p FixV2 header _ es pk hts Sopt Simp Ke Pk Ap Qp Qx Rh ltac:(discriminate)) as (text' & E' & Re).
      now rewrite (transform_text _ _ _ _ _ _ _ _ _ _ T P FixV2 text' eq_refl E').
    + destruct (C25_written (w_sort_options w) (w_sort_imports w) p FixV1 header _ es pk hts Sopt Simp Ke Pk Ap Qp Qx Rh ltac:(discriminate)) as (text' & E' & Re).
      now rewrite (transform_text _ _ _ _ _ _ _ _ _ _ T P FixV1 text' eq_refl E').
Qed.

(** The command asks for files to be overwritten. *)
Definition overwrites (c : command) (items : list item) : Prop :=
  (c_words c = ["format"] /\ on items "overwrite" = true) \/ (c_words c = ["all"] /\ on items "disable-format" = false).

(** Whatever the status, and at whatever moment the program is killed: each file is as it was, or
    holds the formatted text of what it was, but for one that may hold the beginning of that text.
    Given a file, no other one is touched. *)
Theorem C115_killed : forall w cwd args l c items s s2 z es now, ordinary w cwd -> sorts (w_sort_plugins w) ->
  sorts_by o_name (w_sort_options w) -> sorts_by im_filename (w_sort_imports w) ->
  means (w_read_csv w) l c items args -> c_words c = ["format"] \/ c_words c = ["all"] ->
  main w l s = (s2, z) -> io_done s2 = io_done s ++ es -> killed (io_disk s) (written es) now ->
  exists hit, length hit <= 1 /\ forall q, now q = io_disk s q \/
    (overwrites c items /\ (w_stat w (Exec_Spec.target args) = Ok Exec_Model.Regular -> q = path_abs cwd (Exec_Spec.target args)) /\
     exists cf input parsed text n, in_force w (io_disk s) cwd (Cmd_Spec.text items "config-data") q cf /\ File_Spec.shown cwd q n /\
       io_disk s q = Ok input /\ w_parse w q input = Ok parsed /\ formatted_text w cf (on items "fix") q parsed text /\
       (now q = Ok text \/ (In q hit /\ exists part lost, text = part +++ lost /\ now q = Ok part))).
Proof.
  intros w cwd args l c items s s2 z es now (V & G & Wd & Cl & Nm & St) So Sopt Simp M Wc.
  destruct (line_is w l c items args G M) as (k & Ak & L). rewrite L. clear L.
  assert (Nothing : io_done s2 = io_done s ++ es -> forall es', io_done s2 = io_done s ++ es' -> written es' = [] -> killed (io_disk s) (written es) now -> forall q, now q = io_disk s q).
  { intros E es' E' W. rewrite E in E'. apply app_inv_head in E'. subst es'. rewrite W. intros (a & b & d & X & _ & _ & _ & K) q. symmetry in X. apply app_eq_nil in X as (-> & X). apply app_eq_nil in X as (-> & _). apply K. intros []. }
  destruct (the_options w items) as [r|e] eqn:Op.
  2:{ rewrite no_options. intros [= <- _] E K. exists []. split; [auto|]. intros q. left. revert q. rewrite Exec_Proofs.println_adds in *. cbn [fst adds io_done] in *. eapply Nothing; [exact E|reflexivity| |exact K]. now destruct (is_empty e). }
  rewrite with_options. pose proof (Props_Main19.options_here w _ items r Wd Op) as Hr. assert (Cr : clean_abs (here r)) by now rewrite Hr.
  assert (Da : r_config_data r = Cmd_Spec.text items "config-data").
  { clear - Op Wd. unfold the_options in Op. rewrite Wd in Op. destruct (if String.eqb _ _ then _ else _) in Op; [|discriminate Op]. cbn [bind] in Op. injection Op as <-. reflexivity. }
  assert (X : forall s' o, method w r k s = (s', o) -> writes w r args (on items "fix") s s' /\ (overwrites c items \/ exists es, io_done s' = io_done s ++ es /\ written es = [])).
  { intros s' o. unfold asked in Ak. destruct Wc as [Wc|Wc]; rewrite Wc in Ak; injection Ak as <-; intros E.
    - destruct (format_writes w V Nm St r Cr args _ _ _ _ _ _ _ E) as (A & B). split; [exact A|]. destruct (on items "overwrite") eqn:O; [left; left; auto|right; now apply B].
    - destruct (all_writes w V Nm St r Cr args _ _ _ _ _ _ E) as (A & B). split; [exact A|]. destruct (on items "disable-format") eqn:O; [right; now apply B|left; right; auto]. }
  assert (Y : forall o, process (method w r k) s = (s2, o) -> writes w r args (on items "fix") s s2 /\ (overwrites c items \/ exists es, io_done s2 = io_done s ++ es /\ written es = [])).
  { intros o. unfold process. destruct (method w r k s) as [s' oc] eqn:E. destruct (X s' oc eq_refl) as (A & B).
    assert (Z : forall e, writes w r args (on items "fix") s (fst (println e s')) /\ (overwrites c items \/ exists es, io_done (fst (println e s')) = io_done s ++ es /\ written es = [])).
    { intros e. rewrite Exec_Proofs.println_adds. cbn [fst]. split; [apply writes_more; [exact A|now destruct (is_empty e)]|]. destruct B as [B|(es0 & B & W)]; [now left|right].
      exists (es0 ++ (if is_empty e then [] else [Printed (e +++ String newline "")])). cbn [adds io_done]. rewrite B, app_assoc, written_app, W. split; [reflexivity|]. now destruct (is_empty e). }
    destruct oc; intros [= <- _]; auto. }
  intros E. destruct (Y z E) as ((es1 & Ed & Nd & Wr & _) & [Ov|(es2 & B & W)]).
  2:{ intros E' K. exists []. split; [auto|]. intros q. left. revert q. exact (Nothing E' es2 B W K). }
  intros E'. rewrite E' in Ed. apply app_inv_head in Ed. subst es1. intros (dn & next & rest & Ew & Ln & K1 & K2 & K3).
  exists (map fst next). split; [now rewrite map_length|]. intros q. destruct (in_dec string_dec q (map fst (dn ++ next))) as [I|I]; [|left; auto].
  right. apply in_map_iff in I as ((q' & data) & <- & I). cbn [fst]. assert (Iw : In (q', data) (written es)) by (rewrite Ew, app_assoc; apply in_or_app; now left).
  destruct (Wr _ _ Iw) as (m & g & input & F & (Bl & As) & -> & Di & T & _). split; [exact Ov|].
  split.
  { intros Reg. rewrite <- Hr. destruct F as [ps Sd _|ps Sf _]; [congruence|]. cbn [m_single] in As. assert (Nt : Exec_Spec.target args <> "") by (intros Q; rewrite Q in Sf; now apply St in Sf).
    destruct As as [As|As]; [contradiction|]. rewrite As. unfold File_Model.abs_clean, path_abs. destruct (Exec_Spec.target args) as [|a0 t0]; [contradiction|]. cbn [is_empty]. destruct (is_abs (String a0 t0)); reflexivity. }
  destruct (formatter_parsed _ _ _ _ _ _ T) as (parsed & P).
  destruct (found_config w V So Nm St r Cr _ _ _ F) as (Fc & _ & _). rewrite Hr, Da in Fc. destruct Bl as (d0 & l0 & B1 & B2 & _). destruct (Fc d0 l0 g B1 B2) as (Fo & _ & _ & Sh).
  exists (ps_config (m_set m)), input, parsed, data, (pf_display g). split; [exact Fo|]. split; [exact Sh|]. split; [exact Di|]. split; [exact P|]. split; [eapply formatter_text; eassumption|].
  apply in_app_or in I as [I|I]; [left; now apply K1|right]. split; [apply in_map_iff; exists (pf_path g, data); auto|]. now apply K2.
Qed.
Print Assumptions C115_killed.

(** ** Example: killed while the second of two files is written. *)
Definition exw26_text : string := Eval vm_compute in match io_disk (fst (main exw9 ["format"; "-w"] exw8_s)) "/w/a.proto" with Ok t => t | Err _ => "" end.
Definition exw26_lost : string := Eval vm_compute in substring 6 (String.length exw26_text) exw26_text.
Definition exw26_at (disk : string -> result string) (text part : string) (q : string) : result string :=
  if String.eqb q "/w/a.proto" then Ok text else if String.eqb q "/w/b/bad.proto" then Ok part else disk q.
Lemma exw26_two disk text part lost : text = part +++ lost -> killed disk [("/w/a.proto", text); ("/w/b/bad.proto", text)] (exw26_at disk text part).
Proof.
  intros E. exists [("/w/a.proto", text)], [("/w/b/bad.proto", text)], []. split; [reflexivity|]. split; [auto|].
  split; [intros q d [[= <- <-]|[]]; reflexivity|]. split.
  - intros q d [[= <- <-]|[]]. exists part, lost. split; [exact E|reflexivity].
  - intros q N. unfold exw26_at. destruct (String.eqb q "/w/a.proto") eqn:A; [apply String.eqb_eq in A; subst; exfalso; apply N; cbn; tauto|].
    destruct (String.eqb q "/w/b/bad.proto") eqn:B; [apply String.eqb_eq in B; subst; exfalso; apply N; cbn; tauto|]. reflexivity.
Qed.
Definition exw26_now : string -> result string := exw26_at (io_disk exw8_s) exw26_text "syntax".
Lemma exw26_killed : killed (io_disk exw8_s) (written (io_done (fst (main exw9 ["format"; "-w"] exw8_s)))) exw26_now.
Proof.
  assert (W : written (io_done (fst (main exw9 ["format"; "-w"] exw8_s))) = [("/w/a.proto", exw26_text); ("/w/b/bad.proto", exw26_text)]) by (vm_compute; reflexivity).
  rewrite W. exact (exw26_two _ _ "syntax" exw26_lost eq_refl).
Qed.
Lemma exw26_means : means (w_read_csv exw9) ["format"; "-w"] exw_format [Given "overwrite" ShortAlone "true"] [].
Proof. exact (exw_mode "overwrite" "w"%char ltac:(cbn; tauto)). Qed.
Example C115_killed_ex : ordinary exw9 "/w" /\ sorts (w_sort_plugins exw9) /\ sorts_by o_name (w_sort_options exw9) /\ sorts_by im_filename (w_sort_imports exw9) /\
  means (w_read_csv exw9) ["format"; "-w"] exw_format [Given "overwrite" ShortAlone "true"] [] /\ overwrites exw_format [Given "overwrite" ShortAlone "true"] /\
  snd (main exw9 ["format"; "-w"] exw8_s) = 0%Z /\ io_done exw8_s = [] /\
  killed (io_disk exw8_s) (written (io_done (fst (main exw9 ["format"; "-w"] exw8_s)))) exw26_now /\ io_disk exw8_s "/w/a.proto" <> exw26_now "/w/a.proto".
Proof.
  split; [exact (proj1 C89_lint_ex)|]. split; [exact Settings_Proofs2.by_name_sorts|]. split; [apply sort_by_sorts|]. split; [apply sort_by_sorts|].
  split; [exact exw26_means|]. split; [left; split; reflexivity|]. split; [vm_compute; reflexivity|]. split; [reflexivity|]. split; [exact exw26_killed|]. vm_compute. discriminate.
Qed.
(** Files are not replaced at once: a file may be lost. *)
Theorem C115_atomic_refuted : ~ (forall w cwd args l c items s s2 z es now, ordinary w cwd -> sorts (w_sort_plugins w) ->
  means (w_read_csv w) l c items args -> c_words c = ["format"] \/ c_words c = ["all"] ->
  main w l s = (s2, z) -> io_done s2 = io_done s ++ es -> killed (io_disk s) (written es) now ->
  forall q, now q = io_disk s q \/ now q = io_disk s2 q).
Proof.
  intros H.
  specialize (H exw9 "/w" [] ["format"; "-w"] exw_format [Given "overwrite" ShortAlone "true"] exw8_s (fst (main exw9 ["format"; "-w"] exw8_s)) 0%Z
    (io_done (fst (main exw9 ["format"; "-w"] exw8_s))) exw26_now (proj1 C89_lint_ex) Settings_Proofs2.by_name_sorts exw26_means (or_introl eq_refl)).
  specialize (H ltac:(vm_compute; reflexivity) eq_refl exw26_killed "/w/b/bad.proto"). vm_compute in H. destruct H; discriminate.
Qed.
Print Assumptions C115_atomic_refuted.
