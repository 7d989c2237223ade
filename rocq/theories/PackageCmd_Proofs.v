(** Proofs about the commands about packages and descriptor sets. *)
From Verif Require Import GoStrFacts GoMapFacts GoPathFacts Text_Proofs Reflect_Model Reflect_Proofs ReflectValid_Proofs
  Breaking_Model Breaking_Spec Extract_Proofs BreakRun_Proofs Desc_Spec Desc_Proofs Exec_Proofs Exec_Proofs3 LintCmd_Proofs.
From Verif Require Export PackageCmd_Model PackageCmd_Spec.
From Coq Require Import Lia.

(** ** Files of descriptor sets *)
Definition opt_sets (sets : list file_set) : list (option (list (option file_desc))) := map (fun fs => Some (map Some fs)) sets.
Lemma file_in_opt sets f : Desc_Spec.file_in (opt_sets sets) f <-> in_sets sets f.
Proof.
  unfold Desc_Spec.file_in, in_sets, opt_sets. split.
  - intros (l & Hl & Hf). apply in_map_iff in Hl as (s & E & Hs). injection E as <-. apply in_map_iff in Hf as (g & E & Hg). injection E as <-. eauto.
  - intros (s & Hs & Hf). exists (map Some s). split; [apply in_map_iff; eauto|now apply in_map].
Qed.
Lemma no_nil_opt sets : no_nil (opt_sets sets).
Proof.
  intros x Hx. unfold opt_sets in Hx. apply in_map_iff in Hx as (s & <- & Hs). exists (map Some s). split; [reflexivity|].
  intros y Hy. apply in_map_iff in Hy as (f & <- & _). eauto.
Qed.
Lemma merge_joined sha256 sets : tells_apart sha256 sets -> consistent sets ->
  exists merged, merge_file_descriptor_sets sha256 (opt_sets sets) = Ok merged /\ joined sets merged.
Proof.
  intros T (N & U). destruct (merge_ok sha256 (opt_sets sets)) as (r & Hr).
  - apply no_nil_opt.
  - intros f Hf. apply N. now apply file_in_opt.
  - intros f g Hf Hg. apply U; now apply file_in_opt.
  - exists r. split; [exact Hr|]. apply merge_spec in Hr as (I & F & _).
    + split; [exact I|]. intros f. now rewrite F, file_in_opt.
    + intros f g Hf Hg E. f_equal. apply T; try apply file_in_opt; assumption.
    + intros f g Hf Hg E. apply T; try apply file_in_opt; try assumption. now rewrite E.
Qed.
Lemma merge_consistent sha256 sets merged : tells_apart sha256 sets -> merge_file_descriptor_sets sha256 (opt_sets sets) = Ok merged -> consistent sets.
Proof.
  intros T Hr. apply merge_spec in Hr as (_ & _ & _ & N & U).
  - split.
    + intros f Hf. apply N. now apply file_in_opt.
    + intros f g Hf Hg. apply U; now apply file_in_opt.
  - intros f g Hf Hg E. f_equal. apply T; try apply file_in_opt; assumption.
  - intros f g Hf Hg E. apply T; try apply file_in_opt; try assumption. now rewrite E.
Qed.
Lemma joined_fun sets a b : joined sets a -> joined sets b -> consistent sets -> a = b.
Proof.
  intros (Ia & Fa) (Ib & Fb) (_ & U). 
  assert (P : Permutation a b).
  { apply NoDup_Permutation.
    - apply increasing_nodup in Ia. now apply NoDup_map_inv in Ia.
    - apply increasing_nodup in Ib. now apply NoDup_map_inv in Ib.
    - intros f. now rewrite Fa, Fb. }
  clear Fa Fb U. revert b Ib P. induction a as [|x a IH]; intros b Ib P; [now apply Permutation_nil in P|].
  destruct b as [|y b]; [symmetry in P; now apply Permutation_nil in P|].
  inversion Ia as [|? ? Xa Ia']; subst. inversion Ib as [|? ? Yb Ib']; subst.
  assert (E : x = y).
  { assert (Hx : In x (y :: b)) by (eapply Permutation_in; [exact P|now left]).
    assert (Hy : In y (x :: a)) by (eapply Permutation_in; [symmetry; exact P|now left]).
    destruct Hx as [->|Hx]; [reflexivity|]. destruct Hy as [->|Hy]; [reflexivity|].
    assert (L1 := Yb _ (in_map fl_name _ _ Hx)). assert (L2 := Xa _ (in_map fl_name _ _ Hy)).
    assert (L := str_ltb_trans _ _ _ L1 L2). now rewrite str_ltb_irrefl in L. }
  subst y. f_equal. apply IH; [assumption|assumption|]. now apply Permutation_cons_inv in P.
Qed.

(** ** Commands *)
Lemma filter_yes {A} (l : list A) : filter (fun _ => true) l = l.
Proof. induction l as [|x l IH]; [reflexivity|]. cbn. now rewrite IH. Qed.
Lemma print_failures_none cwd json to_json format fields fs : fields_of format fields -> exists es,
  (forall s, print_failures_for cwd json to_json format "" None fs s = (adds s es, Value tt)) /\ only_prints es /\ listing json to_json format fs (printed es).
Proof.
  intros P. unfold print_failures_for. rewrite (proj2 (fields_of_ok format fields) P).
  replace (map (with_filename "") fs) with fs by (rewrite <- (map_id fs) at 1; apply map_ext; reflexivity).
  destruct (sorted_plain fs) as (srt & E & Pm & S). rewrite E. change (should_print cwd None) with (fun _ : failure => true). rewrite filter_yes.
  assert (L := lines_ok json to_json format fields srt P).
  exists (match map (shown_line json to_json fields) srt with [] => [] | ls => [Printed (join "" ls)] end). split; [|split].
  - intros s. unfold and_then, Exec_Model.check. unfold ret at 1. rewrite L. unfold ret at 1. destruct (map (shown_line json to_json fields) srt); [now rewrite adds_nil|reflexivity].
  - destruct (map (shown_line json to_json fields) srt); repeat constructor. eauto.
  - exists fields, srt. split; [exact P|]. split; [exact Pm|]. split; [exact S|]. destruct (map (shown_line json to_json fields) srt); reflexivity.
Qed.
Lemma print_nothing cwd json to_json format name m s : (exists fields, fields_of format fields) ->
  print_failures_for cwd json to_json format name m [] s = (s, Value tt).
Proof. intros (fields & P). unfold print_failures_for. rewrite (proj2 (fields_of_ok format fields) P). reflexivity. Qed.

Section Facts.
  Variable ord : map_order.
  Variable cwd work_dir error_format : string.
  Variable json : bool.
  Variable to_json : failure -> string.
  Variable stat : string -> result file_kind.
  Variable get_for_dir : string -> string -> result proto_set.
  Variable compiler : bool -> bool -> option (bool * bool) -> (string -> result string) -> proto_set -> result (list failure * list file_set).
  Variable commands : bool -> proto_set -> result (list string).
  Variable sha256 : string -> string.
  Variable marshal to_jsonpb : file_set -> result string.
  Variable unmarshal : string -> result file_set.
  Variable write_error : string -> string -> option (result string * string).
  Variable temp_file : result string.
  Variable temp_dir : result string.
  Variable git : list string -> result unit.
  Hypothesis Hfields : exists fields, fields_of error_format fields.
  Notation do_compile := (do_compile cwd error_format json to_json file_set compiler).
  Notation descriptor_set := (descriptor_set cwd work_dir error_format json to_json stat get_for_dir compiler sha256 marshal to_jsonpb write_error temp_file).
  Notation break_descriptor_set := (break_descriptor_set cwd work_dir error_format json to_json stat get_for_dir compiler sha256 marshal to_jsonpb write_error temp_file).
  Notation found := (found work_dir stat get_for_dir).
  Notation encode all := (if json then to_jsonpb all else marshal all).

  Lemma compile_clean gen set full m sets s : compiler gen set full (io_disk s) (m_set m) = Ok ([], sets) ->
    do_compile gen set full m s = (adds s [Compiled gen], Value sets).
  Proof.
    intros C. unfold Exec_Model.do_compile. unfold and_then at 1, Exec_Model.emit at 1. unfold and_then at 1. cbn [io_disk]. rewrite C.
    cbn [Exec_Model.check]. unfold ret at 1. unfold report, print_failures, and_then, fst, snd. now rewrite print_nothing.
  Qed.
  (** What is done before the data is there. *)
  Lemma descriptor_set_flags args ii si output tmp s : output <> "" -> tmp = true -> descriptor_set args ii si output tmp s = (s, Exit "can only set one of output-path, tmp").
  Proof. intros N ->. unfold PackageCmd_Model.descriptor_set. apply is_empty_false in N. now rewrite N. Qed.
  Lemma not_both output tmp d : destination_of output tmp temp_file d -> negb (is_empty output) && tmp = false.
  Proof. destruct d; cbn; [intros (-> & _); reflexivity|intros (_ & _ & ->); apply andb_false_r|intros (-> & _); reflexivity]. Qed.
  Definition deliver (output : string) (tmp : bool) (data : string) : cmd unit :=
    if is_empty output && negb tmp then print data
    else if negb (is_empty output) then write_file write_error output data
    else run name <- Exec_Model.check temp_file; write_file write_error name data ;; println name.
  Definition produce (sets : list file_set) : result string := do merged <- merge_file_descriptor_sets sha256 (opt_sets sets); encode merged.
  Lemma descriptor_set_eq args ii si output tmp m s : found args m -> negb (is_empty output) && tmp = false ->
    descriptor_set args ii si output tmp s = (run sets <- do_compile false false (Some (ii, si)) m; run data <- Exec_Model.check (produce sets); deliver output tmp data) s.
  Proof.
    intros F N. unfold PackageCmd_Model.descriptor_set. rewrite N. unfold compile_full_control, and_then. rewrite (get_meta_found _ _ _ _ _ _ F).
    destruct (do_compile false false (Some (ii, si)) m s) as [s1 [sets|e|e]]; [|reflexivity|reflexivity].
    unfold produce. fold (opt_sets sets). destruct (merge_file_descriptor_sets sha256 (opt_sets sets)) as [merged|e]; [|reflexivity].
    cbn [bind Exec_Model.check]. unfold ret at 1. destruct (encode merged); reflexivity.
  Qed.
  Lemma deliver_ok output tmp d data s s0 : destination_of output tmp temp_file d -> writable write_error d data -> (forall p, d = ToTemp p -> p <> "") ->
    io_disk s = io_disk s0 -> (exists es, io_done s = io_done s0 ++ es /\ printed es = "" /\ written es = []) ->
    exists s', deliver output tmp data s = (s', Value tt) /\ delivered d data s0 s'.
  Proof.
    intros D W Ne Ed (es & Ee & P & Wr). destruct s as [disk done], s0 as [disk0 done0]. cbn [io_disk io_done] in *. subst disk done. unfold deliver. destruct d as [|p|p]; cbn [destination_of writable delivered] in *.
    - destruct D as (-> & ->). eexists. split; [reflexivity|]. cbn [io_disk io_done]. split; [reflexivity|]. exists (es ++ [Printed data]). rewrite printed_app, written_app, P, Wr. split; [now rewrite app_assoc|]. split; reflexivity.
    - destruct D as (-> & N & ->). apply is_empty_false in N as N'. rewrite N'. cbn. unfold write_file. rewrite W. eexists. split; [reflexivity|]. unfold changes_only. cbn [io_disk io_done]. rewrite seqb_refl.
      split; [split; [reflexivity|]|].
      + intros q Hq. destruct (String.eqb_spec q p) as [->|]; [now destruct Hq|reflexivity].
      + exists (es ++ [Wrote p data]). rewrite printed_app, written_app, P, Wr, app_assoc. repeat split; reflexivity.
    - destruct D as (-> & -> & ->). cbn [is_empty negb andb Exec_Model.check]. unfold and_then. unfold ret at 1. unfold write_file. rewrite W. rewrite println_adds. assert (N := Ne p eq_refl). apply is_empty_false in N as N'. rewrite N'.
      eexists. split; [reflexivity|]. unfold changes_only, adds. cbn [io_disk io_done]. rewrite seqb_refl. split; [split; [reflexivity|]|].
      + intros q Hq. destruct (String.eqb_spec q p) as [->|]; [now destruct Hq|reflexivity].
      + exists (es ++ [Wrote p data; Printed (p +++ String newline "")]). rewrite printed_app, written_app, P, Wr, <- !app_assoc. repeat split; reflexivity.
  Qed.
  Theorem descriptor_set_delivers args ii si output tmp m d sets s :
    found args m -> destination_of output tmp temp_file d -> temp_file <> Ok "" ->
    compiler false false (Some (ii, si)) (io_disk s) (m_set m) = Ok ([], sets) -> tells_apart sha256 sets -> consistent sets ->
    exists all, joined sets all /\ forall data, encode all = Ok data -> writable write_error d data ->
      exists s', descriptor_set args ii si output tmp s = (s', Value tt) /\ delivered d data s s'.
  Proof.
    intros F D T C Ht Hc. destruct (merge_joined sha256 sets Ht Hc) as (all & M & J). exists all. split; [exact J|]. intros data E W.
    rewrite (descriptor_set_eq _ _ _ _ _ m _ F (not_both _ _ _ D)). unfold and_then. rewrite (compile_clean _ _ _ _ _ _ C). unfold produce. rewrite M. cbn [bind]. rewrite E. cbn [Exec_Model.check]. unfold ret at 1.
    apply deliver_ok; [exact D|exact W| |reflexivity|].
    - intros p ->. intros ->. cbn in D. now destruct D as (_ & _ & ->).
    - exists [Compiled false]. repeat split.
  Qed.
  Theorem descriptor_set_inconsistent args ii si output tmp m sets s :
    found args m -> (output = "" \/ tmp = false) ->
    compiler false false (Some (ii, si)) (io_disk s) (m_set m) = Ok ([], sets) -> tells_apart sha256 sets -> ~ consistent sets ->
    exists e, descriptor_set args ii si output tmp s = (adds s [Compiled false], Fail e).
  Proof.
    intros F O C Ht Hc. rewrite (descriptor_set_eq _ _ _ _ _ m _ F) by (destruct O as [ -> | -> ]; [reflexivity|apply andb_false_r]).
    unfold and_then. rewrite (compile_clean _ _ _ _ _ _ C). unfold produce. destruct (merge_file_descriptor_sets sha256 (opt_sets sets)) as [merged|e] eqn:M.
    - now apply merge_consistent in M.
    - eexists. reflexivity.
  Qed.
  Theorem descriptor_set_failures args ii si output tmp m fs sets s :
    found args m -> (output = "" \/ tmp = false) ->
    compiler false false (Some (ii, si)) (io_disk s) (m_set m) = Ok (fs, sets) -> fs <> [] ->
    exists es kept, descriptor_set args ii si output tmp s = (adds s (Compiled false :: es), Exit "") /\ only_prints es /\
      picks (about cwd m) fs kept /\ listing json to_json error_format kept (printed es).
  Proof.
    intros F O C N. rewrite (descriptor_set_eq _ _ _ _ _ m _ F) by (destruct O as [ -> | -> ]; [reflexivity|apply andb_false_r]).
    destruct (compile_pure cwd error_format json to_json file_set compiler false false (Some (ii, si)) m (io_disk s)) as (es & r & P & Op & _ & V & _).
    destruct (V _ _ C Hfields) as (Er & kept & K & L). exists es, kept. split; [|auto]. unfold and_then. rewrite P by reflexivity. rewrite Er. destruct fs; [easy|reflexivity].
  Qed.
  (** Whatever happens, only the destination is written to, at most once, and only whole data. *)
  Lemma deliver_writes output tmp data s s' r : negb (is_empty output) && tmp = false -> deliver output tmp data s = (s', r) ->
    (io_disk s' = io_disk s /\ exists es, io_done s' = io_done s ++ es /\ written es = []) \/
    exists p, (destination_of output tmp temp_file (ToFile p) \/ destination_of output tmp temp_file (ToTemp p)) /\ changes_only (eq p) s s' /\
      exists es, io_done s' = io_done s ++ es /\ written es = [(p, data)] /\ (r = Value tt -> io_disk s' p = Ok data).
  Proof.
    unfold deliver. intros N. destruct (is_empty output) eqn:E; cbn [negb andb] in *; [destruct tmp; cbn [negb andb]|].
    - apply is_empty_true in E. subst output. unfold Exec_Model.check. destruct temp_file as [name|e] eqn:T.
      + unfold and_then. unfold ret at 1. unfold write_file. destruct (write_error name data) as [[rest e]|] eqn:W; [|rewrite println_adds]; intros H; injection H as <- <-; right; exists name; (split; [right; cbn; auto|]); unfold changes_only, adds; cbn [io_disk io_done].
        * split; [intros q Hq; destruct (String.eqb_spec q name) as [->|]; [now destruct Hq|reflexivity]|]. eexists. split; [reflexivity|]. split; [reflexivity|discriminate].
        * split; [intros q Hq; destruct (String.eqb_spec q name) as [->|]; [now destruct Hq|reflexivity]|]. eexists. split; [rewrite <- app_assoc; reflexivity|]. rewrite written_app. split; [now destruct (is_empty name)|]. intros _. now rewrite seqb_refl.
      + intros H. injection H as <- <-. left. split; [reflexivity|]. exists []. now rewrite app_nil_r.
    - intros H. injection H as <- <-. left. split; [reflexivity|]. eexists. split; [reflexivity|]. reflexivity.
    - subst tmp. apply is_empty_false in E. unfold write_file. destruct (write_error output data) as [[rest e]|] eqn:W; intros H; injection H as <- <-; right; exists output; (split; [left; cbn; auto|]); unfold changes_only; cbn [io_disk io_done].
      + split; [intros q Hq; destruct (String.eqb_spec q output) as [->|]; [now destruct Hq|reflexivity]|]. eexists. split; [reflexivity|]. split; [reflexivity|discriminate].
      + split; [intros q Hq; destruct (String.eqb_spec q output) as [->|]; [now destruct Hq|reflexivity]|]. eexists. split; [reflexivity|]. split; [reflexivity|]. intros _. now rewrite seqb_refl.
  Qed.
  Theorem descriptor_set_writes args ii si output tmp s s' r : descriptor_set args ii si output tmp s = (s', r) ->
    exists es, io_done s' = io_done s ++ es /\
    ((written es = [] /\ io_disk s' = io_disk s) \/
     exists p m sets all data, (destination_of output tmp temp_file (ToFile p) \/ destination_of output tmp temp_file (ToTemp p)) /\
       found args m /\ compiler false false (Some (ii, si)) (io_disk s) (m_set m) = Ok ([], sets) /\ (tells_apart sha256 sets -> joined sets all) /\ encode all = Ok data /\
       written es = [(p, data)] /\ changes_only (eq p) s s' /\ (r = Value tt -> io_disk s' p = Ok data)).
  Proof.
    intros H. destruct (negb (is_empty output) && tmp) eqn:N.
    { unfold PackageCmd_Model.descriptor_set in H. rewrite N in H. injection H as <- <-. exists []. rewrite app_nil_r. auto. }
    destruct (get_meta_pure work_dir stat get_for_dir args) as (r0 & G & [(m & -> & F)|((e & ->) & _)]).
    - rewrite (descriptor_set_eq _ _ _ _ _ m _ F N) in H. unfold and_then in H.
      destruct (compile_pure cwd error_format json to_json file_set compiler false false (Some (ii, si)) m (io_disk s)) as (es & r1 & P & Op & X & V & _). rewrite P in H by reflexivity.
      assert (W0 : written (Compiled false :: es) = []) by (change (Compiled false :: es) with ([Compiled false] ++ es); rewrite written_app; now apply only_prints_written).
      destruct r1 as [sets|e|e]; [|injection H as <- <-; exists (Compiled false :: es); auto|injection H as <- <-; exists (Compiled false :: es); auto].
      destruct (compiler false false (Some (ii, si)) (io_disk s) (m_set m)) as [[fs sets']|e] eqn:C; [|destruct (X e eq_refl); discriminate].
      destruct (V _ _ eq_refl Hfields) as (Er & _). destruct fs; [|discriminate]. injection Er as <-.
      unfold produce in H. destruct (merge_file_descriptor_sets sha256 (opt_sets sets)) as [all|e] eqn:M; [|injection H as <- <-; exists (Compiled false :: es); auto]. cbn [bind] in H.
      destruct (encode all) as [data|e] eqn:En; [|injection H as <- <-; exists (Compiled false :: es); auto]. cbn [Exec_Model.check] in H. unfold ret at 1 in H.
      apply (deliver_writes _ _ _ _ _ _ N) in H as [(E & es' & D & W)|(p & Hp & Ch & es' & D & W & Hr)].
      + exists ((Compiled false :: es) ++ es'). rewrite written_app, W0, W. split; [rewrite D; unfold adds; cbn [io_done]; now rewrite app_assoc|]. left. auto.
      + exists ((Compiled false :: es) ++ es'). rewrite written_app, W0, W. split; [rewrite D; unfold adds; cbn [io_done]; now rewrite app_assoc|]. right. exists p, m, sets, all, data.
        split; [exact Hp|]. split; [exact F|]. split; [exact C|]. split; [|auto].
        intros T. assert (Hc := merge_consistent _ _ _ T M). destruct (merge_joined sha256 sets T Hc) as (all' & M' & J). rewrite M in M'. injection M' as <-. exact J.
    - unfold PackageCmd_Model.descriptor_set in H. rewrite N in H. unfold and_then in H. rewrite G in H. injection H as <- <-. exists []. rewrite app_nil_r. auto.
  Qed.
  Theorem break_descriptor_set_eq args output s :
    (output = "" -> break_descriptor_set args output s = (s, Exit "must set output-path")) /\
    (output <> "" -> break_descriptor_set args output s = descriptor_set args true false output false s).
  Proof.
    unfold PackageCmd_Model.break_descriptor_set. split; [intros ->; reflexivity|]. intros N. apply is_empty_false in N. now rewrite N.
  Qed.
End Facts.
