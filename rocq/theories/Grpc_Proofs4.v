(** When the grpc command is refused. *)
From Verif Require Import GoStrFacts Exec_Spec Exec_Proofs Exec_Proofs3 Grpc_Spec Grpc_Proofs3 PackageCmd_Proofs5.

(** A command that does not end with 255. *)
Definition stays {A} (c : cmd A) : Prop := forall s s' e, c s <> (s', Exit e).
Lemma stays_then {A B} (c : cmd A) (k : A -> cmd B) : stays c -> (forall x, stays (k x)) -> stays (and_then c k).
Proof. intros H K s s' e. unfold and_then. destruct (c s) as [s1 [x|e'|e']] eqn:E; [apply K|now apply H in E|discriminate]. Qed.
Lemma stays_ret {A} (x : A) : stays (ret x).
Proof. intros s s' e. discriminate. Qed.
Lemma stays_fail {A} e : stays (@fail A e).
Proof. intros s s' e'. discriminate. Qed.
Lemma stays_check {A} (x : result A) : stays (Exec_Model.check x).
Proof. destruct x; intros s s' e; discriminate. Qed.
Lemma stays_emit e : stays (emit e).
Proof. intros s s' e'. discriminate. Qed.
Lemma stays_println x : stays (println x).
Proof. intros s s' e. rewrite println_adds. discriminate. Qed.
Lemma stays_print_proto details m key : stays (print_proto_message details m key).
Proof. unfold print_proto_message. destruct m as [[]|]; [apply stays_println|apply stays_ret..]. Qed.
Lemma stays_print_metadata details m key : stays (print_metadata details m key).
Proof. unfold print_metadata. destruct m; [apply stays_println|apply stays_ret]. Qed.
Lemma stays_on_event details err e : stays (on_event details err e).
Proof.
  unfold on_event. destruct e; destruct details; cbn [negb]; repeat first [apply stays_ret|apply stays_print_proto|apply stays_print_metadata|apply stays_then; [|intros _]].
Qed.
Lemma stays_on_events details es : forall err, stays (on_events details err es).
Proof. induction es as [|e es IH]; intros err; cbn [on_events]; [apply stays_ret|]. apply stays_then; [apply stays_on_event|exact IH]. Qed.

Section Facts.
  Variable ord : map_order.
  Variable cwd work_dir error_format : string.
  Variable json : bool.
  Variable to_json : failure -> string.
  Variable stat : string -> result file_kind.
  Variable get_for_dir : string -> string -> result proto_set.
  Variable compiler : bool -> bool -> option (bool * bool) -> (string -> result string) -> proto_set -> result (list failure * list file_set).
  Variable commands : bool -> proto_set -> result (list string).
  Variable parse_duration : string -> result Z.
  Variable create_descriptor create_source : file_set -> result unit.
  Variable credentials : tls_settings -> result unit.
  Variable dial : connection -> result unit.
  Variable invoke_rpc : connection -> call -> list rpc_event * option string.
  Notation grpc := (grpc ord cwd work_dir error_format json to_json stat get_for_dir compiler commands parse_duration create_descriptor create_source credentials dial invoke_rpc).
  Notation invoke := (invoke create_descriptor create_source credentials dial invoke_rpc).
  Lemma stays_invoke h sets address method i : stays (invoke h sets address method i).
  Proof.
    unfold Grpc_Model.invoke. apply stays_then; [apply stays_check|]. intros source. apply stays_then; [apply stays_check|]. intros resolver. apply stays_then.
    - unfold dial_handler. destruct (get_network_address address) as [[n a]|e]; [|apply stays_fail]. destruct (if h_tls h then _ else _); [|apply stays_fail]. apply stays_then; [apply stays_emit|]. intros _. apply stays_then; [apply stays_check|]. intros _. apply stays_ret.
    - intros c. apply stays_then; [apply stays_emit|]. intros _. apply stays_then; [apply stays_on_events|]. intros err. destruct (snd _); [apply stays_fail|]. destruct err; [apply stays_fail|apply stays_ret].
  Qed.
  Lemma grpc_exit args g m s s' e : found work_dir stat get_for_dir args m -> grpc args g s = (s', Exit e) ->
    (~ flags_fit g /\ s' = s) \/ compile_failed cwd error_format json to_json compiler false true None m s s' e.
  Proof.
    intros F H. unfold Grpc_Model.grpc in H. destruct (check_flags g) as [e'|] eqn:C.
    { left. injection H as <- <-. split; [|reflexivity]. intros X. apply check_flags_none in X. congruence. }
    right. unfold and_then in H. destruct (parse_headers (g_headers g) []) as [hs|]; cbn [Exec_Model.check] in H; [|discriminate H]. unfold ret in H at 1.
    destruct (parse_time parse_duration (g_call_timeout g)) as [t1|]; cbn [Exec_Model.check] in H; [|discriminate H]. unfold ret in H at 1.
    destruct (parse_time parse_duration (g_connect_timeout g)) as [t2|]; cbn [Exec_Model.check] in H; [|discriminate H]. unfold ret in H at 1.
    destruct (parse_time parse_duration (g_keepalive_time g)) as [t3|]; cbn [Exec_Model.check] in H; [|discriminate H]. unfold ret in H at 1.
    rewrite (get_meta_found _ _ _ _ _ _ F) in H. unfold compile in H. destruct (do_compile cwd error_format json to_json file_set compiler false true None m s) as [s1 o1] eqn:E.
    apply do_compile_inv in E as (_ & K2). destruct o1 as [sets|e'|e']; [|injection H as <- <-; now apply K2|discriminate H].
    destruct sets; [discriminate H|]. now apply stays_invoke in H.
  Qed.
End Facts.
