(** Properties of the grpc command: C57, C58, C75. *)
From Verif Require Import GoStrFacts Grpc_Proofs3.
From Verif Require Import Props_Reflect.

Section Command.
  Variable ord : map_order.
  Variable cwd work_dir error_format : string.
  Variable json : bool.
  Variable to_json : failure -> string.
  Variable stat : string -> result file_kind.
  Variable get_for_dir : string -> string -> result proto_set.
  Variable compiler : bool -> bool -> option (bool * bool) -> (string -> result string) -> proto_set -> result (list failure * list file_set).
  Variable commands : bool -> proto_set -> result (list string).
  Variable parse_duration : string -> result Z.
  Variable create_descriptor create_source : file_set -> result unit.
  Variable credentials : tls_settings -> result unit.
  Variable dial : connection -> result unit.
  Variable invoke_rpc : connection -> call -> list rpc_event * option string.
  (** The error format can be used; maps may be visited in any order. *)
  Hypothesis Hfields : exists fields, fields_of error_format fields.
  Hypothesis Hord : visits_all ord.
  Notation grpc := (grpc ord cwd work_dir error_format json to_json stat get_for_dir compiler commands parse_duration create_descriptor create_source credentials dial invoke_rpc).
  Notation found := (found work_dir stat get_for_dir).
  Notation the_run := (grpc_run ord cwd work_dir error_format json to_json stat get_for_dir compiler commands parse_duration create_descriptor create_source credentials dial invoke_rpc Hfields Hord).
  Lemma run_of args g s s' r : grpc args g s = (s', r) -> exists es, s' = adds s es /\ grpc args g s = (adds s es, r).
  Proof. intros H. destruct (the_run args g s) as (es & r' & E & _). rewrite H in E. injection E as -> ->. eauto. Qed.
  Lemma same_events (s : io) es es' : io_done (adds s es) = io_done s ++ es' -> es = es'.
  Proof. cbn. apply app_inv_head. Qed.
  Ltac use_run args g s es r H E :=
    let es0 := fresh "es0" in let r0 := fresh "r0" in let X := fresh in
    destruct (the_run args g s) as (es0 & r0 & X & H); rewrite E in X;
    assert (es0 = es) as -> by (assert (Y := f_equal (fun p => io_done (fst p)) X); cbn in Y; apply app_inv_head in Y; congruence);
    assert (r0 = r) as -> by congruence; clear X.

  (** ** C57 *)
  (** Flags that do not fit together are refused before anything is done ... *)
  Theorem C57_refused : forall args g s, ~ flags_fit g -> exists e, e <> "" /\ grpc args g s = (s, Exit e).
  Proof.
    intros args g s N. unfold Grpc_Model.grpc. destruct (check_flags g) as [e|] eqn:E; [|apply check_flags_none in E; contradiction]. exists e. split; [|reflexivity]. revert E. unfold check_flags.
    repeat match goal with |- context [if ?b then _ else _] => destruct b end; intros E; first [discriminate E|injection E as <-; discriminate].
  Qed.
  (** ... others are not refused. *)
  Theorem C57_accepted : forall args g s s' e, flags_fit g -> grpc args g s = (s', Exit e) -> e = "".
  Proof.
    intros args g s s' e F H. destruct (run_of _ _ _ _ _ H) as (es & -> & E). use_run args g s es (@Exit unit e) R E. destruct R as [(_ & _ & R & _)|(sets & c & Rd & [(x & _ & _ & X)|(ca & _ & _ & _ & (st & _ & X))])].
    - destruct (R e eq_refl) as [|X]; [assumption|contradiction].
    - discriminate.
    - destruct (snd _), st; discriminate.
  Qed.
  (** A header without a colon and a time that cannot be read: an error, nothing is done. *)
  Theorem C57_malformed : forall args g s, flags_fit g -> ~ headers_fit (g_headers g) \/ ~ times_fit parse_duration g -> exists e, grpc args g s = (s, Fail e).
  Proof.
    intros args g s F H. apply check_flags_none in F. unfold Grpc_Model.grpc. rewrite F. destruct (parse_headers (g_headers g) []) as [hs|e] eqn:Hh; cbn [Exec_Model.check]; [|exists e; reflexivity].
    destruct H as [H|H]; [destruct H; apply (parse_headers_err _ []); eauto|]. unfold and_then, ret.
    destruct (parse_time parse_duration (g_call_timeout g)) as [t1|e] eqn:T1; cbn [Exec_Model.check]; [|exists e; reflexivity]. unfold ret.
    destruct (parse_time parse_duration (g_connect_timeout g)) as [t2|e] eqn:T2; cbn [Exec_Model.check]; [|exists e; reflexivity]. unfold ret.
    destruct (parse_time parse_duration (g_keepalive_time g)) as [t3|e] eqn:T3; cbn [Exec_Model.check]; [|exists e; reflexivity].
    destruct H. apply times_fit_parse. eauto 6.
  Qed.
  Lemma dials_mild es : Forall mild es -> dials es = [] /\ calls es = [].
  Proof. induction 1 as [|e es [->|(t & ->)] _ IH]; [auto|exact IH|exact IH]. Qed.
  Lemma dials_prints l : dials (print_lines l) = [] /\ calls (print_lines l) = [].
  Proof. induction l as [|x l IH]; [auto|exact IH]. Qed.
  (** At most one connection, and at most one call on it, as the flags say; only if they fit. *)
  Theorem C57_connection : forall args g s s' r es, grpc args g s = (s', r) -> io_done s' = io_done s ++ es ->
    io_disk s' = io_disk s /\ written es = [] /\
    ((dials es = [] /\ calls es = [] /\ r <> Value tt) \/
     exists c, dials es = [c] /\ flags_fit g /\ headers_fit (g_headers g) /\ times_fit parse_duration g /\ connection_asked parse_duration g c /\
       ((calls es = [] /\ exists e, dial c = Err e /\ r = Fail e) \/ exists ca, calls es = [ca] /\ dial c = Ok tt /\ call_asked parse_duration g ca)).
  Proof.
    intros args g s s' r es H D. destruct (run_of _ _ _ _ _ H) as (es0 & -> & E). apply same_events in D as ->. split; [reflexivity|].
    use_run args g s es r R E. destruct R as [(Mi & V & _)|(sets & c & (Fl & Hh & Ti & _ & _ & Co & _) & [(x & Di & -> & ->)|(ca & Di & Ca & -> & Re)])].
    - split; [|left; destruct (dials_mild _ Mi); auto]. clear - Mi. induction Mi as [|e es [->|(t & ->)] _ IH]; [reflexivity|exact IH|exact IH].
    - split; [reflexivity|]. right. exists c. split; [reflexivity|]. split; [exact Fl|]. split; [exact Hh|]. split; [exact Ti|]. split; [exact Co|]. left. split; [reflexivity|]. eauto.
    - destruct (dials_prints (lines_for (g_details g) (fst (invoke_rpc c ca)))) as (Dl & Cl). split; [|right].
      + unfold written. cbn [map concat app]. clear. induction (lines_for _ _) as [|x l IH]; [reflexivity|exact IH].
      + exists c. unfold dials, calls. cbn [map concat app]. fold (dials (print_lines (lines_for (g_details g) (fst (invoke_rpc c ca))))). fold (calls (print_lines (lines_for (g_details g) (fst (invoke_rpc c ca))))). rewrite Dl, Cl.
        split; [reflexivity|]. split; [exact Fl|]. split; [exact Hh|]. split; [exact Ti|]. split; [exact Co|]. right. exists ca. split; [reflexivity|]. split; [exact Di|]. apply Ca.
  Qed.

  (** ** C58 *)
  (** A call is about the service with the full name of the method: the only one with the
      name in the first descriptor set that has the name; the set is handed over with its file last. *)
  Theorem C58_service : forall args g s s' r es ca, grpc args g s = (s', r) -> io_done s' = io_done s ++ es -> In (Called ca) es ->
    exists m sets full fs f sv, found args m /\ compiler false true None (io_disk s) (m_set m) = Ok ([], sets) /\
      about_service (g_method g) full /\ provides sets full fs f sv /\ with_last fs f (ca_source ca) /\ resolver_for sets (ca_resolver ca).
  Proof.
    intros args g s s' r es ca H D I. destruct (run_of _ _ _ _ _ H) as (es0 & -> & E). apply same_events in D as ->. use_run args g s es r R E.
    destruct R as [(Mi & _)|(sets & c & (_ & _ & _ & (m & F & C) & _) & [(x & Di & -> & ->)|(ca' & Di & Ca & -> & Re)])].
    - rewrite Forall_forall in Mi. destruct (Mi _ I) as [X|(t & X)]; discriminate.
    - destruct I as [X|[X|[]]]; discriminate.
    - assert (ca = ca') as ->. { destruct I as [X|[X|[X|X]]]; [discriminate|discriminate|now injection X|]. apply in_map_iff in X as (y & Y & _). discriminate. }
      destruct Ca as (_ & Rs & full & fs & f & sv & A & P & W). exists m, sets, full, fs, f, sv. auto 8.
  Qed.
  (** A method that is not of the form service/name, a service that is missing, or that the
      first set that has it has twice: no connection is made, and there is an error. *)
  Theorem C58_missing : forall args g s s' r es m sets, grpc args g s = (s', r) -> io_done s' = io_done s ++ es ->
    found args m -> compiler false true None (io_disk s) (m_set m) = Ok ([], sets) ->
    (forall full fs f sv, about_service (g_method g) full -> ~ provides sets full fs f sv) ->
    dials es = [] /\ calls es = [] /\ r <> Value tt.
  Proof.
    intros args g s s' r es m sets H D F C N. destruct (run_of _ _ _ _ _ H) as (es0 & -> & E). apply same_events in D as ->. use_run args g s es r R E.
    destruct R as [(Mi & V & _)|(sets' & c & (_ & _ & _ & (m' & F' & C') & (full & fs & f & sv & A & P) & _) & _)].
    - destruct (dials_mild _ Mi). auto.
    - rewrite (found_fun _ _ _ _ _ _ F' F) in C'. rewrite C in C'. injection C' as <-. now destruct (N full fs f sv A).
  Qed.
  (** Where all files have a package and the flags fit, such a service is found. *)
  Theorem C58_found_partial : forall args g s m sets full fs f sv network rest, flags_fit g -> headers_fit (g_headers g) -> times_fit parse_duration g ->
    found args m -> compiler false true None (io_disk s) (m_set m) = Ok ([], sets) -> named_files sets ->
    (forall x, create_source x = Ok tt) -> (forall x, create_descriptor x = Ok tt) -> about_service (g_method g) full -> provides sets full fs f sv ->
    network_of (g_address g) network rest -> (g_tls g = true -> credentials (tls_asked g) = Ok tt) ->
    exists es r c, grpc args g s = (adds s es, r) /\ In (Dialed c) es /\ connection_asked parse_duration g c.
  Proof. intros. eapply grpc_dials; eauto. Qed.

  (** ** C75 *)
  (** What is printed are the lines of what the server sends, in order, and nothing else; the
      error is that of the call, or of the last status that is not OK. *)
  Theorem C75_output : forall args g s s' r es c ca, grpc args g s = (s', r) -> io_done s' = io_done s ++ es -> In (Dialed c) es -> In (Called ca) es ->
    printed es = on_lines (lines_for (g_details g) (fst (invoke_rpc c ca))) /\ call_result (invoke_rpc c ca) r.
  Proof.
    intros args g s s' r es c ca H D Ic I. destruct (run_of _ _ _ _ _ H) as (es0 & -> & E). apply same_events in D as ->. use_run args g s es r R E.
    destruct R as [(Mi & _)|(sets & c' & _ & [(x & Di & -> & ->)|(ca' & Di & Ca & -> & Re)])].
    - rewrite Forall_forall in Mi. destruct (Mi _ I) as [X|(t & X)]; discriminate.
    - destruct I as [X|[X|[]]]; discriminate.
    - assert (ca = ca') as ->. { destruct I as [X|[X|[X|X]]]; [discriminate|discriminate|now injection X|]. apply in_map_iff in X as (y & Y & _). discriminate. }
      assert (c = c') as ->. { destruct Ic as [X|[X|[X|X]]]; [discriminate|now injection X|discriminate|]. apply in_map_iff in X as (y & Y & _). discriminate. }
      split; [|exact Re]. rewrite <- printed_print_lines. reflexivity.
  Qed.
  (** Without a call nothing is printed but the failures of the compiler. *)
  Theorem C75_silent : forall args g s s' r es m sets, grpc args g s = (s', r) -> io_done s' = io_done s ++ es ->
    found args m -> compiler false true None (io_disk s) (m_set m) = Ok ([], sets) -> calls es = [] -> printed es = "" /\ r <> Value tt.
  Proof.
    intros args g s s' r es m sets H D F C N. destruct (run_of _ _ _ _ _ H) as (es0 & -> & E). apply same_events in D as ->.
    use_run args g s es r R E. destruct R as [(_ & V & _ & [P|(m' & f & fs & ds & F' & C')])|(sets' & c & _ & [(x & _ & -> & ->)|(ca & _ & _ & -> & _)])].
    - auto.
    - rewrite (found_fun _ _ _ _ _ _ F' F) in C'. rewrite C in C'. discriminate.
    - split; [reflexivity|discriminate].
    - discriminate N.
  Qed.
End Command.
Print Assumptions C57_refused.
Print Assumptions C57_accepted.
Print Assumptions C57_malformed.
Print Assumptions C57_connection.
Print Assumptions C58_service.
Print Assumptions C58_missing.
Print Assumptions C58_found_partial.
Print Assumptions C75_output.
Print Assumptions C75_silent.

(** ** Examples *)
Definition gx_config : config := mk_config "/w" [] (mk_compile_config "" [] false false) (mk_create_config []) (mk_lint_config "uber2" false [] [] [] "// h" "com" false)
  (mk_break_config false false) (mk_gen_config "" [] []).
Definition gx_stat (p : string) : result file_kind := if String.eqb p "." then Ok Directory else Err "no such file".
Definition gx_get_for_dir (work dir : string) : result proto_set := Ok (mk_proto_set "/w" dir [] gx_config).
Definition gx_sets : list file_set := [[rx_bar; rx_foo1]; [rx_foo2; rx_bar; rx_foo1]].
(** The same with a file that has no package. *)
Definition gx_plain := mk_file_desc "plain.proto" "" [] [] [] [] "plain".
Definition gx_mixed : list file_set := [[rx_foo2; rx_bar; rx_foo1; gx_plain]].
Definition gx_compiler (sets : list file_set) (gen set : bool) (full : option (bool * bool)) (disk : string -> result string) (ps : proto_set) : result (list failure * list file_set) := Ok ([], sets).
Definition gx_commands (gen : bool) (ps : proto_set) : result (list string) := Ok [].
Definition gx_parse (s : string) : result Z := if String.eqb s "5s" then Ok 5000000000%Z else if String.eqb s "0s" then Ok 0%Z else Err "time: invalid duration".
Definition gx_ok {A} (x : A) : result unit := Ok tt.
Definition gx_events : list rpc_event :=
  [ReceivedHeaders (Some "{h}"); ReceivedResponse (Some (Ok "{a}")); ReceivedResponse (Some (Ok "{}")); ReceivedResponse (Some (Ok "{b}")); ReceivedTrailers None (Some (Ok "{}")) (Some "{t}")].
Definition gx_invoke (es : list rpc_event) (c : connection) (ca : call) : list rpc_event * option string := (es, None).
Definition gx_ord : map_order := fun _ _ l => l.
Notation gx_grpc sets es := (grpc gx_ord "/w" "/w" "" false (fun _ => "{}") gx_stat gx_get_for_dir (gx_compiler sets) gx_commands gx_parse gx_ok gx_ok gx_ok gx_ok (gx_invoke es)).
Definition gx_flags (headers : list string) (address method : string) (stdin details tls insecure : bool) : grpc_flags :=
  mk_grpc_flags headers address method (if stdin then "" else "{}") "5s" "0s" "" stdin details tls insecure "" "" "" "".
Definition gx_start : io := mk_io (fun _ => Err "no such file") [].
Definition gx_done {A} (r : io * outcome A) : list event * outcome A := (io_done (fst r), snd r).
Lemma gx_only : only_service [rx_foo2; rx_bar; rx_foo1] "foo.v1.API" rx_foo2 rx_api.
Proof.
  exists [], [rx_bar; rx_foo1], [], []. split; [reflexivity|]. split; [reflexivity|]. split; [reflexivity|]. split; [|intros ? []].
  intros g Hg (sv & Hs & _). cbn in Hg. members; destruct Hs.
Qed.
Example C57_ex : exists g, flags_fit g /\ headers_fit (g_headers g) /\ times_fit gx_parse g /\
  gx_done (gx_grpc gx_sets gx_events [] g gx_start) =
    ([Compiled false; Dialed (mk_connection "unix" "/s" (Some (mk_tls true "" "" "" "")) 0 (seconds 10));
      Called (mk_call "foo.v1.API/Put" [rx_bar; rx_foo1; rx_foo2] [[rx_foo1; rx_bar]; [rx_bar; rx_foo1]; [rx_bar; rx_foo1; rx_foo2]; [rx_foo2; rx_foo1; rx_bar]; [rx_foo2; rx_bar; rx_foo1]]
        ["k:v:w"; "l:"] (seconds 5) FromStdin);
      Printed ("{a}" +++ String newline ""); Printed ("{b}" +++ String newline "")], Value tt).
Proof.
  exists (gx_flags ["k:v:w"; "l:"] "unix:///s" "foo.v1.API/Put" true false true true). split; [|split; [|split; [|reflexivity]]].
  - apply check_flags_none. reflexivity.
  - apply (parse_headers_err _ []). eexists. reflexivity.
  - intros flag [<-|[<-|[<-|[]]]] N; [eexists; reflexivity|eexists; reflexivity|now destruct N].
Qed.
Example C57_refused_ex : ~ flags_fit (gx_flags [] "localhost:80" "foo.v1.API/Put" true false false true) /\
  snd (gx_grpc gx_sets gx_events [] (gx_flags [] "localhost:80" "foo.v1.API/Put" true false false true) gx_start) = Exit "tls must be specified if insecure, cacert, cert, key or server-name are specified".
Proof. split; [|reflexivity]. intros H. apply check_flags_none in H. discriminate. Qed.
(** A header that is given twice is sent once, with the last value. *)
Theorem C57_headers_refuted : exists g, flags_fit g /\ g_headers g = ["k:1"; "k:2"] /\
  map ca_headers (calls (io_done (fst (gx_grpc gx_sets gx_events [] g gx_start)))) = [["k:2"]].
Proof. exists (gx_flags ["k:1"; "k:2"] "localhost:80" "foo.v1.API/Put" true false false false). split; [apply check_flags_none; reflexivity|]. split; reflexivity. Qed.
Print Assumptions C57_headers_refuted.
Example C58_ex : provides gx_sets "foo.v1.API" [rx_foo2; rx_bar; rx_foo1] rx_foo2 rx_api /\ about_service ".foo.v1.API/Put" "foo.v1.API" /\ named_files gx_sets.
Proof.
  split; [|split].
  - exists [[rx_bar; rx_foo1]], []. split; [reflexivity|]. split; [|exact gx_only].
    intros es g Hes Hg (sv & Hs & _). members; destruct Hs.
  - exists ".foo.v1.API", "Put". split; [reflexivity|]. split; [|split; [|now left]]; apply no_char_no_slash; reflexivity.
  - intros fs Hfs. unfold gx_sets in Hfs. members; (split; [repeat constructor; cbn; intuition discriminate|]); intros f Hf; members; split; discriminate.
Qed.
Example C58_missing_ex : exists e, snd (gx_grpc gx_sets gx_events [] (gx_flags [] "a" "foo.v1.Api/Put" true false false false) gx_start) = Fail e /\
  dials (io_done (fst (gx_grpc gx_sets gx_events [] (gx_flags [] "a" "foo.v1.Api/Put" true false false false) gx_start))) = [].
Proof. eexists. split; reflexivity. Qed.
(** A file without a package, that has nothing to do with the service, makes calls impossible. *)
Theorem C58_package_refuted : provides gx_mixed "foo.v1.API" [rx_foo2; rx_bar; rx_foo1; gx_plain] rx_foo2 rx_api /\
  exists e, snd (gx_grpc gx_mixed gx_events [] (gx_flags [] "a" "foo.v1.API/Put" true false false false) gx_start) = Fail e.
Proof.
  split; [|eexists; reflexivity]. exists [], []. split; [reflexivity|]. split; [intros ? ? []|].
  exists [], [rx_bar; rx_foo1; gx_plain], [], []. split; [reflexivity|]. split; [reflexivity|]. split; [reflexivity|]. split; [|intros ? []].
  intros g Hg (sv & Hs & _). cbn in Hg. members; destruct Hs.
Qed.
Print Assumptions C58_package_refuted.
Example C75_ex : gx_done (gx_grpc gx_sets (gx_events ++ [ReceivedTrailers (Some "code = NotFound") (Some (Ok "{s}")) None]) [] (gx_flags [] "a" "foo.v1.API/Put" true true false false) gx_start) =
  (firstn 3 (io_done (fst (gx_grpc gx_sets gx_events [] (gx_flags [] "a" "foo.v1.API/Put" true true false false) gx_start))) ++
   map (fun x => Printed (x +++ String newline ""))
     ["{""headers"":{h}}"; "{""response"":{a}}"; "{""response"":{b}}"; "{""trailers"":{t}}"; "{""status"":{s}}"], Fail "code = NotFound").
Proof. reflexivity. Qed.
(** An empty response is not printed: there may be more responses than lines. *)
Theorem C75_empty_refuted : exists es, (forall e, In e es -> exists m, e = ReceivedResponse (Some (Ok m)) /\ m <> "") /\ es <> [] /\
  printed (io_done (fst (gx_grpc gx_sets es [] (gx_flags [] "a" "foo.v1.API/Put" true false false false) gx_start))) = "" /\
  printed (io_done (fst (gx_grpc gx_sets es [] (gx_flags [] "a" "foo.v1.API/Put" true true false false) gx_start))) = "".
Proof. exists [ReceivedResponse (Some (Ok "{}"))]. split; [intros e [<-|[]]; exists "{}"; split; [reflexivity|discriminate]|]. split; [discriminate|]. split; reflexivity. Qed.
Print Assumptions C75_empty_refuted.
