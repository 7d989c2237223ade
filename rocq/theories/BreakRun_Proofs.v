(** The break check as a whole: what it reports, and the laws that follow. *)
From Verif Require Import GoMapFacts Extract_Model Breaking_Model Breaking_Spec Protostrs_Proofs Extract_Proofs Breaking_Proofs.
From Coq Require Import Lia.

(** ** The run *)
Lemma set_rep_of ps wb xs : new_package_set ps wb = Ok xs -> set_rep (packages_of (negb wb) ps) xs.
Proof. apply new_package_set_spec. Qed.
Definition checked_set (cfg : break_config) (ps : package_set) : result x_package_set :=
  new_package_set ps (negb (include_beta cfg)).
Definition checkers_of (cfg : break_config) : list (string * check) :=
  if negb (include_beta cfg) && negb (allow_beta_deps cfg)
  then all_checkers ++ [packages_no_beta_deps_checker] else all_checkers.
Definition checker_run (xs ys : x_package_set) (c : string * check) : result (list failure) :=
  do msgs <- snd c xs ys; Ok (map (fun m => mk_failure "" 0 0 (fst c) m) msgs).
Lemma run_break_eq cfg from to :
  run_break cfg from to =
  do from0 <- new_package_set from false;
  do to0 <- new_package_set to false;
  do xs <- checked_set cfg from;
  do ys <- checked_set cfg to;
  concatM (checker_run xs ys) (checkers_of cfg).
Proof.
  unfold run_break, checked_set. destruct (include_beta cfg) eqn:E; cbn [negb];
    destruct (new_package_set from false); destruct (new_package_set to false); cbn [bind]; try reflexivity;
    unfold checkers_of; rewrite E; reflexivity.
Qed.
Lemma checked_set_rep cfg ps xs : checked_set cfg ps = Ok xs -> set_rep (packages_of (include_beta cfg) ps) xs.
Proof. unfold checked_set. intros H. apply set_rep_of in H. now rewrite negb_involutive in H. Qed.
Lemma checker_run_emits xs ys c f : emits (checker_run xs ys c) f <->
  exists m, emits (snd c xs ys) m /\ f = mk_failure "" 0 0 (fst c) m.
Proof.
  unfold checker_run. split.
  - intros (l & Hl & Hf). destruct (snd c xs ys) as [msgs|]; [|discriminate]. cbn [bind] in Hl. injection Hl as <-.
    apply in_map_iff in Hf as (m & <- & Hm). exists m. rewrite emits_Ok. auto.
  - intros (m & (msgs & -> & Hm) & ->). cbn [bind]. apply emits_Ok. apply in_map_iff. eauto.
Qed.
Lemma run_break_inv cfg from to fs : run_break cfg from to = Ok fs ->
  exists xs ys, checked_set cfg from = Ok xs /\ checked_set cfg to = Ok ys /\
    (forall c, In c (checkers_of cfg) -> ok (snd c xs ys)) /\
    forall f, In f fs <-> exists c m, In c (checkers_of cfg) /\ emits (snd c xs ys) m /\ f = mk_failure "" 0 0 (fst c) m.
Proof.
  rewrite run_break_eq. destruct (new_package_set from false); [|discriminate].
  destruct (new_package_set to false); [|discriminate]. cbn [bind].
  destruct (checked_set cfg from) as [xs|]; [|discriminate]. destruct (checked_set cfg to) as [ys|]; [|discriminate].
  cbn [bind]. intros H. exists xs, ys. split; [reflexivity|split; [reflexivity|]].
  apply concatM_Ok in H as [H1 H2]. split.
  - intros c Hc. destruct (H1 c Hc) as [l Hl]. unfold checker_run in Hl.
    destruct (snd c xs ys) as [msgs|]; [eapply ok_Ok|discriminate].
  - intros f. rewrite H2. split.
    + intros (c & l & Hc & Hl & Hf). assert (He : emits (checker_run xs ys c) f) by (exists l; auto).
      apply checker_run_emits in He as (m & Hm & ->). eauto.
    + intros (c & m & Hc & Hm & ->). assert (He : emits (checker_run xs ys c) (mk_failure "" 0 0 (fst c) m)).
      { apply checker_run_emits. eauto. }
      destruct He as (l & Hl & Hf). eauto.
Qed.
Lemma run_break_Ok cfg from to xs ys : ok (new_package_set from false) -> ok (new_package_set to false) ->
  checked_set cfg from = Ok xs -> checked_set cfg to = Ok ys ->
  (forall c, In c (checkers_of cfg) -> ok (snd c xs ys)) -> exists fs, run_break cfg from to = Ok fs.
Proof.
  rewrite run_break_eq. intros [? ->] [? ->] -> -> H. cbn [bind]. apply concatM_all_Ok. intros c Hc.
  destruct (H c Hc) as [l Hl]. unfold checker_run. rewrite Hl. cbn [bind]. eauto.
Qed.

Lemma packages_of_name wb ps n p : packages_of wb ps n p -> pk_name p = n.
Proof. intros [D _]. now apply declares_In in D. Qed.
Lemma packages_of_fun wb ps n p p' : packages_of wb ps n p -> packages_of wb ps n p' -> p = p'.
Proof. intros [D _] [D' _]. eapply declares_fun; eassumption. Qed.
Lemma packages_of_dec wb ps n : (exists p, packages_of wb ps n p) \/ (forall p, ~ packages_of wb ps n p).
Proof.
  destruct (declares_or_absent pk_name ps n) as [[p Hp]|Ha].
  - destruct wb; [left; exists p; split; auto|]. destruct (beta_name_dec n) as [B|B].
    + right. intros p' [_ [?|?]]; [discriminate|contradiction].
    + left. exists p. split; auto.
  - right. intros p [D _]. rewrite absent_declares in Ha. now apply Ha in D.
Qed.
Lemma packages_of_named wb ps n p : packages_named ps -> packages_of wb ps n p -> n <> "".
Proof.
  intros H [D _]. apply declares_In in D as [Hi <-]. unfold packages_named in H. rewrite Forall_forall in H. now apply H.
Qed.

Section Run.
  Variables (cfg : break_config) (from to : package_set).
  Let F := packages_of (include_beta cfg) from.
  Let T := packages_of (include_beta cfg) to.
  Hypothesis NAMED : packages_named from.
  Variables (xs ys : x_package_set).
  Hypothesis RF : set_rep F xs.
  Hypothesis RT : set_rep T ys.
  Let NF : forall n p, F n p -> n <> "" := fun n p => packages_of_named _ _ n p NAMED.
  Let NT : forall n p, T n p -> pk_name p = n := packages_of_name _ _.

  Lemma checker_sound c m : In c (checkers_of cfg) -> ok (snd c xs ys) -> emits (snd c xs ys) m ->
    reported cfg from to (fst c) m.
  Proof.
    intros Hc Hok He. unfold reported. fold F T.
    assert (Hc' : In c all_checkers \/ (include_beta cfg = false /\ allow_beta_deps cfg = false /\ c = packages_no_beta_deps_checker)).
    { unfold checkers_of in Hc. destruct (include_beta cfg), (allow_beta_deps cfg); cbn [negb andb] in Hc; auto.
      apply in_app_or in Hc as [?|[<-|[]]]; auto. }
    destruct Hc' as [Hc'|(E1 & E2 & ->)].
    2:{ right. right. repeat split; auto. now apply (no_beta_deps_spec T xs ys RT). }
    clear Hc. cbn [all_checkers In] in Hc'.
    destruct Hc' as [<-|[<-|[<-|[<-|[<-|[<-|[<-|[<-|[<-|[<-|[<-|[<-|[<-|[<-|[<-|[<-|[<-|[<-|[]]]]]]]]]]]]]]]]]]];
      cbn [fst snd] in *.
    - left. now apply (enums_not_deleted_spec F T xs ys).
    - left. now apply (enum_values_not_deleted_spec F T xs ys).
    - right. left. now apply (enum_values_same_name_spec F T xs ys).
    - left. now apply (messages_not_deleted_spec F T xs ys).
    - left. now apply (message_fields_not_deleted_spec F T xs ys).
    - right. left. now apply (same_label_spec F T xs ys).
    - right. left. now apply (same_name_spec F T xs ys).
    - right. left. now apply (same_oneof_sound F T xs ys).
    - right. left. now apply (same_type_spec F T xs ys).
    - left. now apply (message_oneofs_not_deleted_spec F T xs ys).
    - right. left. now apply (message_oneofs_fields_not_removed_spec F T xs ys).
    - left. now apply (packages_not_deleted_spec F T xs ys).
    - left. now apply (services_not_deleted_spec F T xs ys).
    - left. now apply (service_methods_not_deleted_spec F T xs ys).
    - right. left. now apply (client_streaming_spec F T xs ys).
    - right. left. now apply (request_spec F T xs ys).
    - right. left. now apply (response_spec F T xs ys).
    - right. left. now apply (server_streaming_spec F T xs ys).
  Qed.
  Lemma in_checkers c : In c all_checkers -> In c (checkers_of cfg).
  Proof. unfold checkers_of. destruct (_ && _); [|auto]. intros H. apply in_or_app. now left. Qed.

  (** [loosely]: without assuming a field is in at most one oneof, the message
      naming the oneof may name another of the oneofs it is in. *)
  Lemma checker_complete id m : (forall c, In c (checkers_of cfg) -> ok (snd c xs ys)) -> reported cfg from to id m ->
    exists c m', In c (checkers_of cfg) /\ fst c = id /\ emits (snd c xs ys) m' /\
      (oneofs_disjoint T \/ id <> "MESSAGE_FIELDS_SAME_ONEOF" -> m' = m).
  Proof.
    intros Hok H. unfold reported in H. fold F T in H.
    assert (K : forall c, In c all_checkers -> fst c = id -> emits (snd c xs ys) m ->
      exists c m', In c (checkers_of cfg) /\ fst c = id /\ emits (snd c xs ys) m' /\
      (oneofs_disjoint T \/ id <> "MESSAGE_FIELDS_SAME_ONEOF" -> m' = m)).
    { intros c Hc Hi He. exists c, m. repeat split; auto. now apply in_checkers. }
    destruct H as [H|[H|(E1 & E2 & H)]].
    - pose proof H as H0. destruct H0.
      + apply (K ("PACKAGES_NOT_DELETED", check_packages_not_deleted)); [cbn; tauto|reflexivity|].
        now apply (packages_not_deleted_spec F T xs ys).
      + apply (K ("MESSAGES_NOT_DELETED", check_messages_not_deleted)); [cbn; tauto|reflexivity|].
        now apply (messages_not_deleted_spec F T xs ys).
      + apply (K ("ENUMS_NOT_DELETED", check_enums_not_deleted)); [cbn; tauto|reflexivity|].
        now apply (enums_not_deleted_spec F T xs ys).
      + apply (K ("MESSAGE_FIELDS_NOT_DELETED", check_message_fields_not_deleted)); [cbn; tauto|reflexivity|].
        now apply (message_fields_not_deleted_spec F T xs ys).
      + apply (K ("MESSAGE_ONEOFS_NOT_DELETED", check_message_oneofs_not_deleted)); [cbn; tauto|reflexivity|].
        now apply (message_oneofs_not_deleted_spec F T xs ys).
      + apply (K ("ENUM_VALUES_NOT_DELETED", check_enum_values_not_deleted)); [cbn; tauto|reflexivity|].
        now apply (enum_values_not_deleted_spec F T xs ys).
      + apply (K ("SERVICES_NOT_DELETED", check_services_not_deleted)); [cbn; tauto|reflexivity|].
        now apply (services_not_deleted_spec F T xs ys).
      + apply (K ("SERVICE_METHODS_NOT_DELETED", check_service_methods_not_deleted)); [cbn; tauto|reflexivity|].
        now apply (service_methods_not_deleted_spec F T xs ys).
    - pose proof H as H0. destruct H0.
      + apply (K ("MESSAGE_FIELDS_SAME_NAME", check_message_fields_same_name)); [cbn; tauto|reflexivity|].
        now apply (same_name_spec F T xs ys).
      + apply (K ("MESSAGE_FIELDS_SAME_LABEL", check_message_fields_same_label)); [cbn; tauto|reflexivity|].
        apply (same_label_spec F T xs ys); auto. apply (Hok ("MESSAGE_FIELDS_SAME_LABEL", check_message_fields_same_label)).
        apply in_checkers. cbn; tauto.
      + apply (K ("MESSAGE_FIELDS_SAME_TYPE", check_message_fields_same_type)); [cbn; tauto|reflexivity|].
        apply (same_type_spec F T xs ys); auto. apply (Hok ("MESSAGE_FIELDS_SAME_TYPE", check_message_fields_same_type)).
        apply in_checkers. cbn; tauto.
      + apply (K ("MESSAGE_FIELDS_SAME_TYPE", check_message_fields_same_type)); [cbn; tauto|reflexivity|].
        apply (same_type_spec F T xs ys); auto. apply (Hok ("MESSAGE_FIELDS_SAME_TYPE", check_message_fields_same_type)).
        apply in_checkers. cbn; tauto.
      + apply (same_oneof_complete F T xs ys) in H as (m' & He & Hm); auto.
        exists ("MESSAGE_FIELDS_SAME_ONEOF", check_message_fields_same_oneof), m'. repeat split; auto.
        * apply in_checkers. cbn; tauto.
        * intros [?|?]; [auto|contradiction].
      + apply (K ("MESSAGE_ONEOFS_FIELDS_NOT_REMOVED", check_message_oneofs_fields_not_removed)); [cbn; tauto|reflexivity|].
        now apply (message_oneofs_fields_not_removed_spec F T xs ys).
      + apply (K ("ENUM_VALUES_SAME_NAME", check_enum_values_same_name)); [cbn; tauto|reflexivity|].
        now apply (enum_values_same_name_spec F T xs ys).
      + apply (K ("SERVICE_METHODS_SAME_REQUEST_TYPE", check_service_methods_same_request_type)); [cbn; tauto|reflexivity|].
        now apply (request_spec F T xs ys).
      + apply (K ("SERVICE_METHODS_SAME_RESPONSE_TYPE", check_service_methods_same_response_type)); [cbn; tauto|reflexivity|].
        now apply (response_spec F T xs ys).
      + apply (K ("SERVICE_METHODS_SAME_CLIENT_STREAMING", check_service_methods_same_client_streaming)); [cbn; tauto|reflexivity|].
        now apply (client_streaming_spec F T xs ys).
      + apply (K ("SERVICE_METHODS_SAME_SERVER_STREAMING", check_service_methods_same_server_streaming)); [cbn; tauto|reflexivity|].
        now apply (server_streaming_spec F T xs ys).
    - exists packages_no_beta_deps_checker, m. repeat split.
      + unfold checkers_of. rewrite E1, E2. cbn [negb andb]. apply in_or_app. right. now left.
      + now destruct H.
      + apply (no_beta_deps_spec T xs ys RT); [assumption|]. destruct H. now apply (beta_dep T n p d).
  Qed.
  Lemma all_ok c : ok (check_message_fields_same_label xs ys) -> ok (check_message_fields_same_type xs ys) ->
    In c (checkers_of cfg) -> ok (snd c xs ys).
  Proof.
    intros HL HT Hc.
    assert (Hc' : In c all_checkers \/ c = packages_no_beta_deps_checker).
    { unfold checkers_of in Hc. destruct (_ && _); auto. apply in_app_or in Hc as [?|[<-|[]]]; auto. }
    destruct Hc' as [Hc'| ->].
    2:{ apply no_beta_deps_ok. }
    clear Hc. cbn [all_checkers In] in Hc'.
    destruct Hc' as [<-|[<-|[<-|[<-|[<-|[<-|[<-|[<-|[<-|[<-|[<-|[<-|[<-|[<-|[<-|[<-|[<-|[<-|[]]]]]]]]]]]]]]]]]]];
      cbn [snd].
    - now apply (enums_not_deleted_ok F T).
    - now apply (enum_values_not_deleted_ok F T).
    - now apply (enum_values_same_name_ok F T).
    - now apply (messages_not_deleted_ok F).
    - now apply (message_fields_not_deleted_ok F T).
    - assumption.
    - now apply (same_name_ok F T).
    - now apply (same_oneof_ok F T).
    - assumption.
    - now apply (message_oneofs_not_deleted_ok F T).
    - now apply (message_oneofs_fields_not_removed_ok F T).
    - apply packages_not_deleted_ok.
    - now apply (services_not_deleted_ok F).
    - now apply (service_methods_not_deleted_ok F T).
    - apply (method_check_ok F T xs ys RF RT (fun m t => Bool.eqb (mt_client_streaming m) (mt_client_streaming t))
               (fun m _ => streaming_change "client" (mt_client_streaming m))).
    - apply (method_check_ok F T xs ys RF RT (fun m t => String.eqb (mt_request m) (mt_request t))
               (fun m t => "request type from " +++ quote (mt_request m) +++ " to " +++ quote (mt_request t))).
    - apply (method_check_ok F T xs ys RF RT (fun m t => String.eqb (mt_response m) (mt_response t))
               (fun m t => "response type from " +++ quote (mt_response m) +++ " to " +++ quote (mt_response t))).
    - apply (method_check_ok F T xs ys RF RT (fun m t => Bool.eqb (mt_server_streaming m) (mt_server_streaming t))
               (fun m _ => streaming_change "server" (mt_server_streaming m))).
  Qed.
End Run.

Theorem run_break_sound cfg from to fs f : packages_named from -> run_break cfg from to = Ok fs -> In f fs ->
  exists id msg, f = mk_failure "" 0 0 id msg /\ reported cfg from to id msg.
Proof.
  intros N H Hf. apply run_break_inv in H as (xs & ys & Hx & Hy & Hok & Hin).
  apply Hin in Hf as (c & m & Hc & He & ->). exists (fst c), m. split; [reflexivity|].
  apply (checker_sound cfg from to N xs ys); auto using checked_set_rep.
Qed.
Theorem run_break_some cfg from to fs id msg : packages_named from -> run_break cfg from to = Ok fs ->
  reported cfg from to id msg -> exists msg', In (mk_failure "" 0 0 id msg') fs.
Proof.
  intros N H Hr. apply run_break_inv in H as (xs & ys & Hx & Hy & Hok & Hin).
  destruct (checker_complete cfg from to N xs ys) with (id := id) (m := msg) as (c & m' & Hc & <- & He & _);
    auto using checked_set_rep. exists m'. apply Hin. eauto.
Qed.
Theorem run_break_spec cfg from to fs : packages_named from -> oneofs_disjoint (packages_of (include_beta cfg) to) ->
  run_break cfg from to = Ok fs ->
  forall f, In f fs <-> exists id msg, f = mk_failure "" 0 0 id msg /\ reported cfg from to id msg.
Proof.
  intros N D H f. split; [now apply (run_break_sound cfg from to)|]. intros (id & msg & -> & Hr).
  apply run_break_inv in H as (xs & ys & Hx & Hy & Hok & Hin).
  destruct (checker_complete cfg from to N xs ys) with (id := id) (m := msg) as (c & m' & Hc & <- & He & Em);
    auto using checked_set_rep. rewrite (Em (or_introl D)) in He. apply Hin. eauto.
Qed.
Theorem run_break_deleted cfg from to fs : packages_named from -> run_break cfg from to = Ok fs ->
  forall id msg, In id deletion_rules ->
  (In (mk_failure "" 0 0 id msg) fs <->
   deleted (packages_of (include_beta cfg) from) (packages_of (include_beta cfg) to) id msg).
Proof.
  intros N H id msg Hid. split.
  - intros Hi. apply (run_break_sound cfg from to fs _ N H) in Hi as (id' & msg' & E & R). injection E as <- <-.
    destruct R as [R|[R|(_ & _ & R)]]; [assumption| |].
    + exfalso. destruct R; cbn in Hid; repeat destruct Hid as [Hid|Hid]; try discriminate; contradiction.
    + exfalso. destruct R; cbn in Hid; repeat destruct Hid as [Hid|Hid]; try discriminate; contradiction.
  - intros Hd. apply run_break_inv in H as (xs & ys & Hx & Hy & Hok & Hin).
    destruct (checker_complete cfg from to N xs ys) with (id := id) (m := msg) as (c & m' & Hc & <- & He & Em);
      auto using checked_set_rep; [now left|].
    rewrite Em in He; [apply Hin; eauto|]. right. intros E. rewrite E in Hid. cbn in Hid.
    repeat destruct Hid as [Hid|Hid]; try discriminate; contradiction.
Qed.
Theorem run_break_changed cfg from to fs : packages_named from -> run_break cfg from to = Ok fs ->
  forall id msg, In id change_rules ->
  (In (mk_failure "" 0 0 id msg) fs ->
   changed (packages_of (include_beta cfg) from) (packages_of (include_beta cfg) to) id msg) /\
  (changed (packages_of (include_beta cfg) from) (packages_of (include_beta cfg) to) id msg ->
   exists msg', In (mk_failure "" 0 0 id msg') fs /\
     (oneofs_disjoint (packages_of (include_beta cfg) to) \/ id <> "MESSAGE_FIELDS_SAME_ONEOF" -> msg' = msg)).
Proof.
  intros N H id msg Hid. split.
  - intros Hi. apply (run_break_sound cfg from to fs _ N H) in Hi as (id' & msg' & E & R). injection E as <- <-.
    destruct R as [R|[R|(_ & _ & R)]]; [|assumption|].
    + exfalso. destruct R; cbn in Hid; repeat destruct Hid as [Hid|Hid]; try discriminate; contradiction.
    + exfalso. destruct R; cbn in Hid; repeat destruct Hid as [Hid|Hid]; try discriminate; contradiction.
  - intros Hd. apply run_break_inv in H as (xs & ys & Hx & Hy & Hok & Hin).
    destruct (checker_complete cfg from to N xs ys) with (id := id) (m := msg) as (c & m' & Hc & <- & He & Em);
      auto using checked_set_rep; [right; now left|]. exists m'. split; [apply Hin; eauto|assumption].
Qed.
Theorem run_break_beta_deps cfg from to fs : packages_named from -> run_break cfg from to = Ok fs -> forall msg,
  In (mk_failure "" 0 0 "PACKAGES_NO_BETA_DEPS" msg) fs <->
  include_beta cfg = false /\ allow_beta_deps cfg = false /\
  exists n p d, packages_of false to n p /\ In d (pk_deps p) /\ beta_name d /\
    msg = "Package " +++ quote n +++ " depends on beta package " +++ quote d +++ " which is not allowed.".
Proof.
  intros N H msg. split.
  - intros Hi. apply (run_break_sound cfg from to fs _ N H) in Hi as (id' & msg' & E & R). injection E as <- <-.
    destruct R as [R|[R|(E1 & E2 & R)]]; [inversion R|inversion R|]. repeat split; auto. rewrite E1 in R.
    inversion R as [n p d Hp Hd B]; subst. exists n, p, d. auto.
  - intros (E1 & E2 & n & p & d & Hp & Hd & B & ->). apply run_break_inv in H as (xs & ys & Hx & Hy & Hok & Hin).
    destruct (checker_complete cfg from to N xs ys) with (id := "PACKAGES_NO_BETA_DEPS")
      (m := "Package " +++ quote n +++ " depends on beta package " +++ quote d +++ " which is not allowed.")
      as (c & m' & Hc & Ei & He & Em); auto using checked_set_rep.
    { right. right. repeat split; auto. rewrite E1. now apply (beta_dep _ n p d). }
    rewrite Em in He by (right; discriminate). apply Hin. exists c. rewrite Ei. eauto.
Qed.

(** ** When it runs *)
Lemma valid_message_inv m : valid_message m -> Forall valid_field (msg_fields m) /\ Forall valid_message (msg_nested m).
Proof. destruct 1; auto. Qed.
Lemma scope_valid ms es path ms' es' : scope_in ms es path ms' es' -> Forall valid_message ms -> Forall valid_message ms'.
Proof.
  induction 1 as [|ms es n m path ms' es' D S IH]; [auto|]. intros V. apply IH.
  apply declares_In in D as [Hi _]. rewrite Forall_forall in V. apply V in Hi. now apply valid_message_inv in Hi.
Qed.
Lemma valid_fields wb ps : valid_set ps -> fields_valid (packages_of wb ps).
Proof.
  intros V pkg path n m f (ms & es & (p & [Dp _] & S) & D) Hf. apply declares_In in Dp as [Hp _].
  unfold valid_set in V. rewrite Forall_forall in V. apply V in Hp as (_ & Vm & _).
  apply scope_valid in S; [|assumption]. apply declares_In in D as [Hi _]. rewrite Forall_forall in S.
  apply S, valid_message_inv in Hi as [Hi _]. rewrite Forall_forall in Hi. now apply Hi.
Qed.
Lemma valid_set_named ps : valid_set ps -> packages_named ps.
Proof. unfold valid_set, packages_named. apply Forall_impl. now intros p (? & _). Qed.
Theorem run_break_valid cfg from to : valid_set from -> valid_set to -> exists fs, run_break cfg from to = Ok fs.
Proof.
  intros VF VT. destruct (new_package_set_Ok from false VF) as [x0 Hx0]. destruct (new_package_set_Ok to false VT) as [y0 Hy0].
  destruct (new_package_set_Ok from (negb (include_beta cfg)) VF) as [xs Hx].
  destruct (new_package_set_Ok to (negb (include_beta cfg)) VT) as [ys Hy].
  apply (run_break_Ok cfg from to xs ys); auto; [now exists x0|now exists y0|].
  pose proof (checked_set_rep _ _ _ Hx) as RF. pose proof (checked_set_rep _ _ _ Hy) as RT.
  intros c. apply (all_ok cfg from to xs ys RF RT).
  - eapply same_label_ok; eauto using valid_fields.
  - eapply same_type_ok; eauto using valid_fields.
Qed.

(** ** Nothing reported, as a relation *)
Definition quiet (F T : packages) : Prop := forall id s, ~ deleted F T id s /\ ~ changed F T id s.
Definition type_names_set (F T : packages) : Prop :=
  forall pkg path n m t z a b, field_pair F T pkg path n m t z a b -> fd_type a = fd_type b ->
    named_type (fd_type a) -> fd_type_name a <> "" /\ fd_type_name b <> "".
Definition no_beta_deps (T : packages) : Prop := forall n p d, T n p -> In d (pk_deps p) -> ~ beta_name d.

Lemma scope_snoc ms es path n a b : scope_in ms es (path ++ [n]) a b <->
  exists a' b' m, scope_in ms es path a' b' /\ declares msg_name a' n m /\ a = msg_nested m /\ b = msg_enums m.
Proof.
  split.
  - revert ms es. induction path as [|k path IH]; intros ms es H; cbn [app] in H.
    + inversion H as [|? ? ? m ? ? ? D S]; subst. inversion S; subst. exists ms, es, m. repeat split; auto. constructor.
    + inversion H as [|? ? ? m ? ? ? D S]; subst. apply IH in S as (a' & b' & m' & S & H1 & H2 & H3).
      exists a', b', m'. repeat split; auto. econstructor; eassumption.
  - intros (a' & b' & m & S & D & -> & ->). induction S as [ms es|ms es k m' path a' b' Dk S IH]; cbn [app];
      econstructor; eauto. constructor.
Qed.
Lemma scope_at_snoc P pkg path n a b : scope_at P pkg (path ++ [n]) a b <->
  exists m, message_at P pkg path n m /\ a = msg_nested m /\ b = msg_enums m.
Proof.
  split.
  - intros (p & Hp & S). apply scope_snoc in S as (a' & b' & m & S & D & -> & ->). exists m. repeat split.
    exists a', b'. split; [|assumption]. exists p. auto.
  - intros (m & (a' & b' & (p & Hp & S) & D) & -> & ->). exists p. split; [assumption|]. apply scope_snoc. eauto 8.
Qed.

Section Quiet.
  Variables F T : packages.
  Hypothesis Q : quiet F T.
  Hypothesis DT : forall n, (exists p, T n p) \/ (forall p, ~ T n p).
  Lemma q_package n p : F n p -> exists t, T n t.
  Proof. intros H. destruct (DT n) as [?|Hn]; [assumption|]. exfalso. exact (proj1 (Q _ _) (del_package F T n p H Hn)). Qed.
  Lemma q_scope pkg path : forall ms es, scope_at F pkg path ms es -> exists ms' es', scope_at T pkg path ms' es'.
  Proof.
    induction path as [|n path IH] using rev_ind; intros ms es H.
    - destruct H as (p & Hp & _). apply q_package in Hp as [t Ht]. exists (pk_messages t), (pk_enums t), t. split; [assumption|constructor].
    - apply scope_at_snoc in H as (m & M & _ & _). pose proof M as (a & b & S & D).
      apply IH in S as (a' & b' & S'). destruct (declares_or_absent msg_name a' n) as [[t Ht]|Ha].
      + exists (msg_nested t), (msg_enums t). apply scope_at_snoc. exists t. repeat split. exists a', b'. auto.
      + exfalso. exact (proj1 (Q _ _) (del_message F T pkg path n m a' b' M S' Ha)).
  Qed.
  Lemma q_message pkg path n m : message_at F pkg path n m -> exists t, message_at T pkg path n t.
  Proof.
    intros M. pose proof M as (a & b & S & D). apply q_scope in S as (a' & b' & S').
    destruct (declares_or_absent msg_name a' n) as [[t Ht]|Ha]; [exists t, a', b'; auto|].
    exfalso. exact (proj1 (Q _ _) (del_message F T pkg path n m a' b' M S' Ha)).
  Qed.
  Lemma q_enum pkg path n e : enum_at F pkg path n e -> exists t, enum_at T pkg path n t.
  Proof.
    intros E. pose proof E as (a & b & S & D). apply q_scope in S as (a' & b' & S').
    destruct (declares_or_absent en_name b' n) as [[t Ht]|Ha]; [exists t, a', b'; auto|].
    exfalso. exact (proj1 (Q _ _) (del_enum F T pkg path n e a' b' E S' Ha)).
  Qed.
  Lemma q_service pkg n s : service_at F pkg n s -> exists t, service_at T pkg n t.
  Proof.
    intros (p & Hp & D). destruct (q_package _ _ Hp) as [t Ht].
    destruct (declares_or_absent sv_name (pk_services t) n) as [[s' Hs]|Ha]; [exists s', t; auto|].
    apply declares_In in D as [Hi <-]. exfalso. exact (proj1 (Q _ _) (del_service F T pkg p t s Hp Ht Hi Ha)).
  Qed.
  Lemma q_field pkg path n m t z a : message_at F pkg path n m -> message_at T pkg path n t ->
    declares fd_number (msg_fields m) z a ->
    exists b, field_pair F T pkg path n m t z a b /\ same_field a b /\
      ((forall o, ~ in_oneof m z o) -> forall o, ~ in_oneof t z o).
  Proof.
    intros M M' D. destruct (declares_or_absent fd_number (msg_fields t) z) as [[b Hb]|Ha].
    - exists b. assert (P : field_pair F T pkg path n m t z a b) by (repeat split; auto).
      assert (L : fd_label a = fd_label b).
      { destruct (Z.eq_dec (fd_label a) (fd_label b)) as [|E]; [assumption|].
        exfalso. exact (proj2 (Q _ _) (ch_field_label F T _ _ _ _ _ _ _ _ P E)). }
      split; [assumption|]. split.
      + repeat split; [| assumption | |].
        * destruct (string_dec (fd_name a) (fd_name b)) as [|E]; [assumption|].
          exfalso. exact (proj2 (Q _ _) (ch_field_name F T _ _ _ _ _ _ _ _ P E)).
        * destruct (Z.eq_dec (fd_type a) (fd_type b)) as [|E]; [assumption|].
          exfalso. exact (proj2 (Q _ _) (ch_field_type F T _ _ _ _ _ _ _ _ P E)).
        * intros NT. destruct (string_dec (fd_type_name a) (fd_type_name b)) as [|E]; [assumption|].
          destruct (Z.eq_dec (fd_type a) (fd_type b)) as [Et|Et].
          -- exfalso. exact (proj2 (Q _ _) (ch_field_type_name F T _ _ _ _ _ _ _ _ P Et NT E)).
          -- exfalso. exact (proj2 (Q _ _) (ch_field_type F T _ _ _ _ _ _ _ _ P Et)).
      + intros Ho o Hi. exact (proj2 (Q _ _) (ch_field_into_oneof F T _ _ _ _ _ _ _ _ _ P Ho Hi)).
    - apply declares_In in D as [Hi <-]. exfalso. exact (proj1 (Q _ _) (del_field F T _ _ _ _ _ _ M M' Hi Ha)).
  Qed.
  Lemma q_oneof pkg path n m t k o : message_at F pkg path n m -> message_at T pkg path n t ->
    declares oo_name (msg_oneofs m) k o ->
    exists o', declares oo_name (msg_oneofs t) k o' /\ forall z, In z (oo_numbers o) -> In z (oo_numbers o').
  Proof.
    intros M M' D. destruct (declares_or_absent oo_name (msg_oneofs t) k) as [[o' Ho]|Ha].
    - exists o'. split; [assumption|]. intros z Hz. destruct (in_dec Z.eq_dec z (oo_numbers o')) as [|Hn]; [assumption|].
      exfalso. exact (proj2 (Q _ _) (ch_oneof_field_removed F T _ _ _ _ _ _ _ _ _ M M' D Ho Hz Hn)).
    - apply declares_In in D as [Hi <-]. exfalso. exact (proj1 (Q _ _) (del_oneof F T _ _ _ _ _ _ M M' Hi Ha)).
  Qed.
  Lemma q_value pkg path n e t k v : enum_at F pkg path n e -> enum_at T pkg path n t ->
    declares ev_number (en_values e) k v -> exists w, declares ev_number (en_values t) k w /\ ev_name v = ev_name w.
  Proof.
    intros E E' D. destruct (declares_or_absent ev_number (en_values t) k) as [[w Hw]|Ha].
    - exists w. split; [assumption|]. destruct (string_dec (ev_name v) (ev_name w)) as [|N]; [assumption|].
      exfalso. exact (proj2 (Q _ _) (ch_enum_value_name F T _ _ _ _ _ _ _ _ E E' D Hw N)).
    - apply declares_In in D as [Hi <-]. exfalso. exact (proj1 (Q _ _) (del_enum_value F T _ _ _ _ _ _ E E' Hi Ha)).
  Qed.
  Definition same_method (a b : method) : Prop :=
    mt_request a = mt_request b /\ mt_response a = mt_response b /\
    mt_client_streaming a = mt_client_streaming b /\ mt_server_streaming a = mt_server_streaming b.
  Lemma q_method pkg n s t k a : service_at F pkg n s -> service_at T pkg n t ->
    declares mt_name (sv_methods s) k a -> exists b, declares mt_name (sv_methods t) k b /\ same_method a b.
  Proof.
    intros S S' D. destruct (declares_or_absent mt_name (sv_methods t) k) as [[b Hb]|Ha].
    - exists b. split; [assumption|]. assert (P : method_pair F T pkg n k a b) by (exists s, t; auto).
      repeat split.
      + destruct (string_dec (mt_request a) (mt_request b)) as [|N]; [assumption|].
        exfalso. exact (proj2 (Q _ _) (ch_request F T _ _ _ _ _ P N)).
      + destruct (string_dec (mt_response a) (mt_response b)) as [|N]; [assumption|].
        exfalso. exact (proj2 (Q _ _) (ch_response F T _ _ _ _ _ P N)).
      + destruct (bool_dec (mt_client_streaming a) (mt_client_streaming b)) as [|N]; [assumption|].
        exfalso. exact (proj2 (Q _ _) (ch_client_streaming F T _ _ _ _ _ P N)).
      + destruct (bool_dec (mt_server_streaming a) (mt_server_streaming b)) as [|N]; [assumption|].
        exfalso. exact (proj2 (Q _ _) (ch_server_streaming F T _ _ _ _ _ P N)).
    - apply declares_In in D as [Hi <-]. exfalso. exact (proj1 (Q _ _) (del_method F T _ _ _ _ _ S S' Hi Ha)).
  Qed.
End Quiet.

Section Transitive.
  Variables A B C : packages.
  Hypothesis DB : forall n, (exists p, B n p) \/ (forall p, ~ B n p).
  Hypothesis QAB : quiet A B.
  Hypothesis QBC : quiet B C.
  Lemma quiet_trans : quiet A C.
  Proof.
    intros id s. split.
    - intros H. destruct H as [n p Hp Hn|pkg path n m ms es M S Ha|pkg path n e ms es E S Ha|pkg path n m t f M M' Hf Ha
        |pkg path n m t o M M' Ho Ha|pkg path n e t v E E' Hv Ha|pkg p t sv Hp Ht Hs Ha|pkg n sv t m S S' Hm Ha].
      + destruct (q_package A B QAB DB _ _ Hp) as [b Hb]. exact (proj1 (QBC _ _) (del_package B C n b Hb Hn)).
      + destruct (q_message A B QAB DB _ _ _ _ M) as [b Hb]. exact (proj1 (QBC _ _) (del_message B C _ _ _ _ _ _ Hb S Ha)).
      + destruct (q_enum A B QAB DB _ _ _ _ E) as [b Hb]. exact (proj1 (QBC _ _) (del_enum B C _ _ _ _ _ _ Hb S Ha)).
      + destruct (q_message A B QAB DB _ _ _ _ M) as [b Hb].
        apply (In_declares fd_number) in Hf as [f' D].
        destruct (q_field A B QAB _ _ _ _ _ _ _ M Hb D) as (g & (_ & _ & _ & Dg) & _).
        apply declares_In in Dg as [Hg Eg]. rewrite <- Eg in Ha.
        exact (proj1 (QBC _ _) (del_field B C _ _ _ _ _ _ Hb M' Hg Ha)).
      + destruct (q_message A B QAB DB _ _ _ _ M) as [b Hb].
        apply (In_declares oo_name) in Ho as [o' D].
        destruct (q_oneof A B QAB _ _ _ _ _ _ _ M Hb D) as (g & Dg & _).
        apply declares_In in Dg as [Hg Eg]. rewrite <- Eg in Ha.
        exact (proj1 (QBC _ _) (del_oneof B C _ _ _ _ _ _ Hb M' Hg Ha)).
      + destruct (q_enum A B QAB DB _ _ _ _ E) as [b Hb].
        apply (In_declares ev_number) in Hv as [v' D].
        destruct (q_value A B QAB _ _ _ _ _ _ _ E Hb D) as (g & Dg & _).
        apply declares_In in Dg as [Hg Eg]. rewrite <- Eg in Ha.
        exact (proj1 (QBC _ _) (del_enum_value B C _ _ _ _ _ _ Hb E' Hg Ha)).
      + apply (In_declares sv_name) in Hs as [sv' D].
        destruct (q_service A B QAB DB pkg (sv_name sv) sv') as [b (pb & Hpb & Db)]; [exists p; auto|].
        apply declares_In in Db as [Hi Eb]. rewrite <- Eb in Ha.
        exact (proj1 (QBC _ _) (del_service B C _ _ _ _ Hpb Ht Hi Ha)).
      + destruct (q_service A B QAB DB _ _ _ S) as [b Hb].
        apply (In_declares mt_name) in Hm as [m' D].
        destruct (q_method A B QAB _ _ _ _ _ _ S Hb D) as (g & Dg & _).
        apply declares_In in Dg as [Hg Eg]. rewrite <- Eg in Ha.
        exact (proj1 (QBC _ _) (del_method B C _ _ _ _ _ Hb S' Hg Ha)).
    - assert (FP : forall pkg path n m t z f g, field_pair A C pkg path n m t z f g ->
        exists b h, message_at B pkg path n b /\ field_pair B C pkg path n b t z h g /\ same_field f h /\
          ((forall o, ~ in_oneof m z o) -> forall o, ~ in_oneof b z o)).
      { intros pkg path n m t z f g (M & M' & D & D'). destruct (q_message A B QAB DB _ _ _ _ M) as [b Hb].
        destruct (q_field A B QAB _ _ _ _ _ _ _ M Hb D) as (h & (_ & _ & _ & Dh) & Sm & Ho).
        exists b, h. repeat split; auto; apply Sm. }
      assert (MP : forall pkg n k f g, method_pair A C pkg n k f g -> exists h, method_pair B C pkg n k h g /\ same_method f h).
      { intros pkg n k f g (s1 & s2 & S1 & S2 & D & D'). destruct (q_service A B QAB DB _ _ _ S1) as [b Hb].
        destruct (q_method A B QAB _ _ _ _ _ _ S1 Hb D) as (h & Dh & Sm). exists h. split; [exists b, s2; auto|assumption]. }
      intros H. destruct H as [pkg path n m t z f g P E|pkg path n m t z f g P E|pkg path n m t z f g P E
        |pkg path n m t z f g P E N En|pkg path n m t z f g o P L L'|pkg path n m t k o o' z M M' D D' Hi Hn
        |pkg path n e t z v w E E' D D' N|pkg n k f g P E|pkg n k f g P E|pkg n k f g P E|pkg n k f g P E].
      + destruct (FP _ _ _ _ _ _ _ _ P) as (b & h & _ & P' & (E1 & _) & _). rewrite E1 in E.
        exact (proj2 (QBC _ _) (ch_field_name B C _ _ _ _ _ _ _ _ P' E)).
      + destruct (FP _ _ _ _ _ _ _ _ P) as (b & h & _ & P' & (_ & E1 & _) & _). rewrite E1 in E.
        exact (proj2 (QBC _ _) (ch_field_label B C _ _ _ _ _ _ _ _ P' E)).
      + destruct (FP _ _ _ _ _ _ _ _ P) as (b & h & _ & P' & (_ & _ & E1 & _) & _). rewrite E1 in E.
        exact (proj2 (QBC _ _) (ch_field_type B C _ _ _ _ _ _ _ _ P' E)).
      + destruct (FP _ _ _ _ _ _ _ _ P) as (b & h & _ & P' & (_ & _ & E1 & E2) & _). rewrite (E2 N) in En.
        rewrite E1 in E, N. exact (proj2 (QBC _ _) (ch_field_type_name B C _ _ _ _ _ _ _ _ P' E N En)).
      + destruct (FP _ _ _ _ _ _ _ _ P) as (b & h & _ & P' & _ & Ho).
        exact (proj2 (QBC _ _) (ch_field_into_oneof B C _ _ _ _ _ _ _ _ _ P' (Ho L) L')).
      + destruct (q_message A B QAB DB _ _ _ _ M) as [b Hb]. destruct (q_oneof A B QAB _ _ _ _ _ _ _ M Hb D) as (h & Dh & Hz).
        exact (proj2 (QBC _ _) (ch_oneof_field_removed B C _ _ _ _ _ _ _ _ _ Hb M' Dh D' (Hz _ Hi) Hn)).
      + destruct (q_enum A B QAB DB _ _ _ _ E) as [b Hb]. destruct (q_value A B QAB _ _ _ _ _ _ _ E Hb D) as (h & Dh & En).
        rewrite En in N. exact (proj2 (QBC _ _) (ch_enum_value_name B C _ _ _ _ _ _ _ _ Hb E' Dh D' N)).
      + destruct (MP _ _ _ _ _ P) as (h & P' & (E1 & _)). rewrite E1 in E. exact (proj2 (QBC _ _) (ch_request B C _ _ _ _ _ P' E)).
      + destruct (MP _ _ _ _ _ P) as (h & P' & (_ & E1 & _)). rewrite E1 in E. exact (proj2 (QBC _ _) (ch_response B C _ _ _ _ _ P' E)).
      + destruct (MP _ _ _ _ _ P) as (h & P' & (_ & _ & E1 & _)). rewrite E1 in E. exact (proj2 (QBC _ _) (ch_client_streaming B C _ _ _ _ _ P' E)).
      + destruct (MP _ _ _ _ _ P) as (h & P' & (_ & _ & _ & E1)). rewrite E1 in E. exact (proj2 (QBC _ _) (ch_server_streaming B C _ _ _ _ _ P' E)).
  Qed.
  Lemma type_names_trans : type_names_set A B -> type_names_set B C -> type_names_set A C.
  Proof.
    intros TAB TBC pkg path n m t z f g (M & M' & D & D') E N.
    destruct (q_message A B QAB DB _ _ _ _ M) as [b Hb].
    destruct (q_field A B QAB _ _ _ _ _ _ _ M Hb D) as (h & P & (_ & _ & E1 & _) & _).
    destruct (TAB _ _ _ _ _ _ _ _ P E1 N) as [H1 _].
    assert (P' : field_pair B C pkg path n b t z h g) by (destruct P as (_ & _ & _ & ?); repeat split; auto).
    assert (E2 : fd_type h = fd_type g) by congruence. rewrite E1 in N.
    destruct (TBC _ _ _ _ _ _ _ _ P' E2 N) as [_ H2]. auto.
  Qed.
End Transitive.

(** ** Quiet and runs *)
Lemma run_break_quiet cfg from to : packages_named from -> run_break cfg from to = Ok [] ->
  quiet (packages_of (include_beta cfg) from) (packages_of (include_beta cfg) to) /\
  type_names_set (packages_of (include_beta cfg) from) (packages_of (include_beta cfg) to) /\
  (include_beta cfg = false -> allow_beta_deps cfg = false -> no_beta_deps (packages_of (include_beta cfg) to)).
Proof.
  intros N H. split; [|split].
  - intros id s. split; intros Hd.
    + destruct (run_break_some cfg from to [] id s N H) as [? []]. now left.
    + destruct (run_break_some cfg from to [] id s N H) as [? []]. right. now left.
  - apply run_break_inv in H as (xs & ys & Hx & Hy & Hok & _).
    pose proof (checked_set_rep _ _ _ Hx) as RF. pose proof (checked_set_rep _ _ _ Hy) as RT.
    intros pkg path n m t z a b P E NT.
    assert (Ho : ok (check_message_fields_same_type xs ys)).
    { apply (Hok ("MESSAGE_FIELDS_SAME_TYPE", check_message_fields_same_type)). apply in_checkers. cbn. tauto. }
    destruct (field_visit _ _ xs ys RF RT (fun n p => packages_of_named _ _ n p N) _ _ _ _ _ _ _ _ _ Ho P)
      as (x & oo & oo' & _ & _ & _ & _ & [l Hl] & _).
    cbn [fst] in Hl. cbv zeta in Hl. apply Z.eqb_eq in E. rewrite E in Hl. cbn [negb] in Hl.
    assert (N' : ((fd_type a =? 14) || (fd_type a =? 10) || (fd_type a =? 11))%Z = true).
    { rewrite !orb_true_iff, !Z.eqb_eq. unfold named_type in NT. tauto. }
    rewrite N' in Hl. destruct (is_empty (fd_type_name a)) eqn:E1; [discriminate|].
    destruct (is_empty (fd_type_name b)) eqn:E2; [discriminate|].
    split; apply is_empty_false; assumption.
  - intros E1 E2 n p d Hp Hd B.
    destruct (run_break_some cfg from to [] "PACKAGES_NO_BETA_DEPS"
       ("Package " +++ quote n +++ " depends on beta package " +++ quote d +++ " which is not allowed.") N H) as [? []].
    right. right. repeat split; auto. now apply (beta_dep _ n p d).
Qed.
Lemma quiet_run cfg from to : packages_named from ->
  ok (new_package_set from false) -> ok (new_package_set to false) -> ok (checked_set cfg from) -> ok (checked_set cfg to) ->
  quiet (packages_of (include_beta cfg) from) (packages_of (include_beta cfg) to) ->
  type_names_set (packages_of (include_beta cfg) from) (packages_of (include_beta cfg) to) ->
  (include_beta cfg = false -> allow_beta_deps cfg = false -> no_beta_deps (packages_of (include_beta cfg) to)) ->
  run_break cfg from to = Ok [].
Proof.
  intros N O1 O2 [xs Hx] [ys Hy] Q TN NB.
  pose proof (checked_set_rep _ _ _ Hx) as RF. pose proof (checked_set_rep _ _ _ Hy) as RT.
  destruct (run_break_Ok cfg from to xs ys O1 O2 Hx Hy) as [fs Hfs].
  { intros c. apply (all_ok cfg from to xs ys RF RT).
    - eapply field_check_ok; [exact RF|exact RT|]. intros pkg path n m t x z a b oo oo' P. cbn [fst].
      destruct (fd_label a =? fd_label b)%Z eqn:E; [apply ok_Ok|]. apply Z.eqb_neq in E.
      exfalso. exact (proj2 (Q _ _) (ch_field_label _ _ _ _ _ _ _ _ _ _ P E)).
    - eapply field_check_ok; [exact RF|exact RT|]. intros pkg path n m t x z a b oo oo' P. cbn [fst]. cbv zeta.
      destruct (fd_type a =? fd_type b)%Z eqn:E; cbn [negb].
      + destruct ((fd_type a =? 14) || (fd_type a =? 10) || (fd_type a =? 11))%Z eqn:Nt; [|apply ok_Ok].
        rewrite !orb_true_iff, !Z.eqb_eq in Nt. apply Z.eqb_eq in E.
        destruct (TN _ _ _ _ _ _ _ _ P E) as [H1 H2]; [unfold named_type; tauto|].
        apply is_empty_false in H1. apply is_empty_false in H2. rewrite H1, H2. destruct (String.eqb _ _); apply ok_Ok.
      + apply Z.eqb_neq in E. exfalso. exact (proj2 (Q _ _) (ch_field_type _ _ _ _ _ _ _ _ _ _ P E)). }
  rewrite Hfs. destruct fs as [|f fs]; [reflexivity|].
  destruct (run_break_sound cfg from to _ f N Hfs) as (id & msg & _ & [H|[H|(E1 & E2 & H)]]); [now left|..].
  - now apply Q in H.
  - now apply Q in H.
  - destruct H as [n p d Hp Hd B]. now apply (NB E1 E2 n p d) in B.
Qed.
Theorem run_break_trans cfg a b c : packages_named a -> packages_named b ->
  run_break cfg a b = Ok [] -> run_break cfg b c = Ok [] -> run_break cfg a c = Ok [].
Proof.
  intros Na Nb Hab Hbc.
  destruct (run_break_quiet _ _ _ Na Hab) as (Q1 & T1 & _). destruct (run_break_quiet _ _ _ Nb Hbc) as (Q2 & T2 & B2).
  rewrite run_break_eq in Hab, Hbc.
  destruct (new_package_set a false) eqn:Ea; [|discriminate]. destruct (new_package_set b false); [|discriminate].
  destruct (new_package_set c false) eqn:Ec; [|discriminate]. cbn [bind] in Hab, Hbc.
  destruct (checked_set cfg a) eqn:Xa; [|discriminate]. destruct (checked_set cfg b); [|discriminate].
  destruct (checked_set cfg c) eqn:Xc; [|discriminate].
  assert (DB := packages_of_dec (include_beta cfg) b).
  apply quiet_run; auto; try (rewrite ?Ea, ?Ec, ?Xa, ?Xc; apply ok_Ok).
  - eapply quiet_trans; eassumption.
  - eapply type_names_trans; eassumption.
Qed.

(** ** Extensions are quiet *)
Section Extends.
  Variables (wb : bool) (from to : package_set).
  Let F := packages_of wb from.
  Let T := packages_of wb to.
  Hypothesis EXT : set_extends from to.
  Lemma ext_package n p t : F n p -> T n t -> package_extends p t.
  Proof.
    intros [D _] HT. apply EXT in D as (t' & D' & E). destruct HT as [DT _].
    now rewrite (declares_fun pk_name to n t t').
  Qed.
  Lemma ext_package_ex n p : F n p -> exists t, T n t.
  Proof. intros [D B]. apply EXT in D as (t' & D' & _). exists t'. split; auto. Qed.
  Lemma keeps_both {A K} {key0 : Key K} (key : A -> K) same l l' k x y :
    keeps key same l l' -> declares key l k x -> declares key l' k y -> same x y.
  Proof. intros H D D'. apply H in D as (y' & Dy & S). now rewrite (declares_fun key l' k y y'). Qed.
  Lemma ext_scope pkg path : forall ms es ms' es', scope_at F pkg path ms es -> scope_at T pkg path ms' es' ->
    keeps msg_name message_extends ms ms' /\ keeps en_name same_enum es es'.
  Proof.
    induction path as [|n path IH] using rev_ind; intros ms es ms' es' S S'.
    - destruct S as (p & Hp & S). destruct S' as (t & Ht & S'). inversion S; inversion S'; subst.
      destruct (ext_package _ _ _ Hp Ht) as (H1 & H2 & _). auto.
    - apply scope_at_snoc in S as (m & (a & b & S & D) & -> & ->).
      apply scope_at_snoc in S' as (t & (a' & b' & S' & D') & -> & ->).
      destruct (IH _ _ _ _ S S') as [H _]. pose proof (keeps_both _ _ _ _ _ _ _ H D D') as E.
      inversion E as [? ? H1 H2 H3 H4 H5]; subst. auto.
  Qed.
  Lemma ext_message pkg path n m t : message_at F pkg path n m -> message_at T pkg path n t -> message_extends m t.
  Proof.
    intros (a & b & S & D) (a' & b' & S' & D'). destruct (ext_scope _ _ _ _ _ _ S S') as [H _].
    exact (keeps_both _ _ _ _ _ _ _ H D D').
  Qed.
  Lemma ext_enum pkg path n m t : enum_at F pkg path n m -> enum_at T pkg path n t -> same_enum m t.
  Proof.
    intros (a & b & S & D) (a' & b' & S' & D'). destruct (ext_scope _ _ _ _ _ _ S S') as [_ H].
    exact (keeps_both _ _ _ _ _ _ _ H D D').
  Qed.
  Lemma ext_service pkg n s t : service_at F pkg n s -> service_at T pkg n t -> service_extends s t.
  Proof.
    intros (p & Hp & D) (q & Hq & D'). destruct (ext_package _ _ _ Hp Hq) as (_ & _ & H).
    exact (keeps_both _ _ _ _ _ _ _ H D D').
  Qed.
  Lemma keeps_absent {A K} {key0 : Key K} (key : A -> K) same l l' x :
    keeps key same l l' -> In x l -> absent key l' (key x) -> False.
  Proof.
    intros H Hi Ha. apply (In_declares key) in Hi as [y D]. apply H in D as (z & Dz & _).
    apply declares_In in Dz as [Hz E]. now apply Ha in Hz.
  Qed.
  Lemma ext_quiet : quiet F T.
  Proof.
    intros id s. split; intros H.
    - destruct H as [n p Hp Hn|pkg path n m ms es M S Ha|pkg path n e ms es E S Ha|pkg path n m t f M M' Hf Ha
        |pkg path n m t o M M' Ho Ha|pkg path n e t v E E' Hv Ha|pkg p t sv Hp Ht Hs Ha|pkg n sv t m S S' Hm Ha].
      + destruct (ext_package_ex _ _ Hp) as [t Ht]. now apply Hn in Ht.
      + destruct M as (a & b & S0 & D). destruct (ext_scope _ _ _ _ _ _ S0 S) as [H _].
        apply declares_In in D as [Hi <-]. exact (keeps_absent _ _ _ _ _ H Hi Ha).
      + destruct E as (a & b & S0 & D). destruct (ext_scope _ _ _ _ _ _ S0 S) as [_ H].
        apply declares_In in D as [Hi <-]. exact (keeps_absent _ _ _ _ _ H Hi Ha).
      + pose proof (ext_message _ _ _ _ _ M M') as X. inversion X as [? ? H1 H2 H3 H4 H5]; subst.
        exact (keeps_absent _ _ _ _ _ H1 Hf Ha).
      + pose proof (ext_message _ _ _ _ _ M M') as X. inversion X as [? ? H1 H2 H3 H4 H5]; subst.
        exact (keeps_absent _ _ _ _ _ H2 Ho Ha).
      + pose proof (ext_enum _ _ _ _ _ E E') as X. exact (keeps_absent _ _ _ _ _ X Hv Ha).
      + destruct (ext_package _ _ _ Hp Ht) as (_ & _ & X). exact (keeps_absent _ _ _ _ _ X Hs Ha).
      + pose proof (ext_service _ _ _ _ S S') as X. exact (keeps_absent _ _ _ _ _ X Hm Ha).
    - assert (FP : forall pkg path n m t z f g, field_pair F T pkg path n m t z f g ->
         same_field f g /\ ((forall o, ~ in_oneof m z o) -> forall o, ~ in_oneof t z o)).
      { intros pkg path n m t z f g (M & M' & D & D'). pose proof (ext_message _ _ _ _ _ M M') as X.
        inversion X as [? ? H1 H2 H3 H4 H5]; subst. split; [exact (keeps_both _ _ _ _ _ _ _ H1 D D')|]. eapply H3; eassumption. }
      assert (MP : forall pkg n k f g, method_pair F T pkg n k f g -> f = g).
      { intros pkg n k f g (s1 & s2 & S1 & S2 & D & D'). pose proof (ext_service _ _ _ _ S1 S2) as X.
        exact (keeps_both _ _ _ _ _ _ _ X D D'). }
      destruct H as [pkg path n m t z f g P E|pkg path n m t z f g P E|pkg path n m t z f g P E
        |pkg path n m t z f g P E N En|pkg path n m t z f g o P L L'|pkg path n m t k o o' z M M' D D' Hi Hn
        |pkg path n e t z v w E E' D D' N|pkg n k f g P E|pkg n k f g P E|pkg n k f g P E|pkg n k f g P E].
      + now apply FP in P as [(? & _) _].
      + now apply FP in P as [(_ & ? & _) _].
      + now apply FP in P as [(_ & _ & ? & _) _].
      + apply FP in P as [(_ & _ & _ & X) _]. exact (En (X N)).
      + apply FP in P as [_ X]. exact (X L o L').
      + pose proof (ext_message _ _ _ _ _ M M') as X. inversion X as [? ? H1 H2 H3 H4 H5]; subst.
        apply Hn. exact (keeps_both _ _ _ _ _ _ _ H2 D D' z Hi).
      + pose proof (ext_enum _ _ _ _ _ E E') as X. apply N. f_equal. exact (keeps_both _ _ _ _ _ _ _ X D D').
      + apply MP in P as ->. congruence.
      + apply MP in P as ->. congruence.
      + apply MP in P as ->. congruence.
      + apply MP in P as ->. congruence.
  Qed.
End Extends.
Lemma keeps_refl {A K} (key : A -> K) (same : A -> A -> Prop) l : (forall x, In x l -> same x x) -> keeps key same l l.
Proof. intros H k x D. exists x. split; [assumption|]. apply H. destruct D as (b & a & -> & _). apply in_elt. Qed.
Lemma same_enum_refl e : same_enum e e.
Proof. now apply keeps_refl. Qed.
Lemma same_field_refl f : same_field f f.
Proof. repeat split. Qed.
Lemma message_extends_refl m : message_extends m m.
Proof.
  induction m as [name fields oneofs nested enums IH] using message_ind'. constructor; cbn.
  - apply keeps_refl. intros. apply same_field_refl.
  - apply keeps_refl. intros. apply incl_refl.
  - auto.
  - apply keeps_refl. intros. apply same_enum_refl.
  - apply keeps_refl. rewrite Forall_forall in IH. auto.
Qed.
Lemma set_extends_refl ps : set_extends ps ps.
Proof.
  apply keeps_refl. intros p _. split; [|split].
  - apply keeps_refl. intros. apply same_enum_refl.
  - apply keeps_refl. intros. apply message_extends_refl.
  - apply keeps_refl. intros s _. now apply keeps_refl.
Qed.
Theorem run_break_extends cfg from to : valid_set from -> valid_set to -> set_extends from to ->
  exists fs, run_break cfg from to = Ok fs /\
    forall f, In f fs -> include_beta cfg = false /\ allow_beta_deps cfg = false /\
      exists msg, f = mk_failure "" 0 0 "PACKAGES_NO_BETA_DEPS" msg /\
        beta_dependency (packages_of false to) "PACKAGES_NO_BETA_DEPS" msg.
Proof.
  intros VF VT E. destruct (run_break_valid cfg from to VF VT) as [fs Hfs]. exists fs. split; [assumption|].
  intros f Hf. apply (run_break_sound cfg from to fs f (valid_set_named _ VF) Hfs) in Hf
    as (id & msg & -> & [H|[H|(E1 & E2 & H)]]).
  - now apply ext_quiet in H.
  - now apply ext_quiet in H.
  - rewrite E1 in H. repeat split; auto. exists msg. destruct H as [n p d Hp Hd B]. split; [reflexivity|].
    now apply (beta_dep _ n p d).
Qed.
Corollary run_break_extends_clean cfg from to : valid_set from -> valid_set to -> set_extends from to ->
  include_beta cfg = true \/ allow_beta_deps cfg = true \/
    (forall n p d, packages_of false to n p -> In d (pk_deps p) -> ~ beta_name d) ->
  run_break cfg from to = Ok [].
Proof.
  intros VF VT E H. destruct (run_break_extends cfg from to VF VT E) as (fs & Hfs & Hf). rewrite Hfs.
  destruct fs as [|f fs]; [reflexivity|]. destruct (Hf f (or_introl eq_refl)) as (E1 & E2 & msg & _ & D).
  destruct H as [H|[H|H]]; [congruence|congruence|]. destruct D as [n p d Hp Hd B]. now apply (H n p d) in B.
Qed.

(** ** Beta packages do not matter *)
Lemma same_but_beta_filter l l' : same_but_beta l l' ->
  filter (fun p => negb (ignore_package true (pk_name p))) l = filter (fun p => negb (ignore_package true (pk_name p))) l'.
Proof.
  induction 1 as [|p l l' H IH|p l l' B H IH|p l l' B H IH]; cbn [filter]; [reflexivity|now rewrite IH| |];
    assert (E : ignore_package true (pk_name p) = true) by (apply ignore_package_spec; auto); rewrite E; exact IH.
Qed.
Lemma same_but_beta_set l l' : same_but_beta l l' -> new_package_set l true = new_package_set l' true.
Proof. intros H. unfold new_package_set, base_packages. now rewrite (same_but_beta_filter _ _ H). Qed.
Theorem run_break_ignores_beta cfg from from' to to' : include_beta cfg = false ->
  valid_set from -> valid_set from' -> valid_set to -> valid_set to' ->
  same_but_beta from from' -> same_but_beta to to' -> run_break cfg from to = run_break cfg from' to'.
Proof.
  intros E V1 V2 V3 V4 S1 S2. rewrite !run_break_eq.
  destruct (new_package_set_Ok _ false V1) as [? ->]. destruct (new_package_set_Ok _ false V2) as [? ->].
  destruct (new_package_set_Ok _ false V3) as [? ->]. destruct (new_package_set_Ok _ false V4) as [? ->]. cbn [bind].
  unfold checked_set. rewrite E. cbn [negb]. now rewrite (same_but_beta_set _ _ S1), (same_but_beta_set _ _ S2).
Qed.

(** ** Renamed values *)
Lemma run_break_rename cfg from to fs pkg path n e t v w :
  packages_named from -> run_break cfg from to = Ok fs ->
  enum_at (packages_of (include_beta cfg) from) pkg path n e ->
  enum_at (packages_of (include_beta cfg) to) pkg path n t ->
  NoDup (map ev_number (en_values e)) -> NoDup (map ev_number (en_values t)) ->
  In v (en_values e) -> In w (en_values t) -> ev_number v = ev_number w -> ev_name v <> ev_name w ->
  In (mk_failure "" 0 0 "ENUM_VALUES_SAME_NAME"
        ("Enum value " +++ number_text (ev_number v) +++ " on enum " +++ quote (full_name pkg path n)
         +++ " changed from " +++ quote (ev_name v) +++ " to " +++ quote (ev_name w) +++ ".")) fs.
Proof.
  intros N H E E' ND ND' Hv Hw En Nn.
  destruct (proj2 (run_break_changed cfg from to fs N H "ENUM_VALUES_SAME_NAME"
    ("Enum value " +++ number_text (ev_number v) +++ " on enum " +++ quote (full_name pkg path n)
         +++ " changed from " +++ quote (ev_name v) +++ " to " +++ quote (ev_name w) +++ ".")
    ltac:(cbn; tauto))) as (msg' & Hi & Em).
  - apply (ch_enum_value_name _ _ pkg path n e t (ev_number v) v w); auto; apply declares_NoDup; auto.
  - rewrite Em in Hi by (right; discriminate). exact Hi.
Qed.

(** ** The package graph *)
Lemma new_package_set_inverse ps wb xs : new_package_set ps wb = Ok xs -> forall a b,
  ((exists p, gget a xs = Some p /\ gget b (xp_deps p) = Some tt) <->
   (exists p, gget b xs = Some p /\ gget a (xp_importers p) = Some tt)) /\
  ((exists p, gget a xs = Some p /\ gget b (xp_deps p) = Some tt) <->
   exists p, packages_of (negb wb) ps a p /\ In b (pk_deps p) /\ exists p', packages_of (negb wb) ps b p').
Proof.
  intros H a b. destruct (new_package_set_links ps wb xs H a b) as [D I]. split; [|exact D].
  unfold dep_of, importer_of in *. rewrite D, I. reflexivity.
Qed.
Lemma new_package_set_closed ps wb xs : new_package_set ps wb = Ok xs -> forall a p b,
  gget a xs = Some p -> (gget b (xp_deps p) = Some tt \/ gget b (xp_importers p) = Some tt) -> exists p', gget b xs = Some p'.
Proof.
  intros H a p b Hp [Hd|Hi].
  - destruct (new_package_set_links ps wb xs H a b) as [D _].
    destruct (proj1 D) as (_ & _ & _ & p' & Hp'); [exists p; auto|].
    apply new_package_set_spec in H as (_ & _ & H). apply H in Hp' as (x & Hx & _). now exists x.
  - destruct (new_package_set_links ps wb xs H b a) as [_ I].
    destruct (proj1 I) as (p' & Hp' & _); [exists p; auto|].
    apply new_package_set_spec in H as (_ & _ & H). apply H in Hp' as (x & Hx & _). now exists x.
Qed.
