(** C57, C58: what is said of a call that cannot be made. *)
From Verif Require Import GoStrFacts Reflect_Proofs Desc_Proofs Exec_Proofs PackageCmd_Proofs Grpc_Proofs Grpc_Proofs2 Grpc_Proofs3 Grpc_Types Grpc_Model Grpc_Text_Spec Props_Grpc Props_Reflect.

Lemma parse_headers_bad before : forall h after m, headers_fit before -> (forall name value, ~ header h name value) ->
  parse_headers (before ++ h :: after) m = Err ("headers must be key:value but got " +++ h).
Proof.
  induction before as [|x before IH]; intros h after m F N; cbn [app parse_headers].
  - destruct (split_once ":" h) as [(k, v)|] eqn:E; [|reflexivity]. apply split_once_iff in E; [|discriminate]. destruct (N _ _ E).
  - destruct (F x (or_introl eq_refl)) as (k & v & H). apply split_once_iff in H; [|discriminate]. rewrite H. apply IH; [|exact N]. intros y I. apply F. now right.
Qed.
Lemma dup_service path package svs : forall found m, find_service path package svs found = Err m -> m = "duplicate services for path " +++ path.
Proof.
  induction svs as [|sv svs IH]; intros found m; cbn [find_service]; [discriminate|]. destruct (String.eqb _ path); [|apply IH]. destruct found; [|apply IH]. intros E. exact (eq_sym (f_equal (fun r => match r with Err x => x | Ok _ => "" end) E)).
Qed.
Lemma dup_file path fs : forall found m, (forall f, In f fs -> fl_package f <> "") -> find_file path fs found = Err m -> m = "duplicate services for path " +++ path.
Proof.
  induction fs as [|f fs IH]; intros found m P; cbn [find_file]; [discriminate|].
  assert (P' : forall g, In g fs -> fl_package g <> "") by (intros g I; apply P; now right).
  destruct (find_service_descriptor path f) as [[sv|]|e] eqn:E; cbn [bind].
  - destruct found; [|now apply IH]. intros X. exact (eq_sym (f_equal (fun r => match r with Err x => x | Ok _ => "" end) X)).
  - now apply IH.
  - intros X. assert (e = m) as -> by exact (f_equal (fun r => match r with Err x => x | Ok _ => "" end) X). revert E. unfold find_service_descriptor.
    rewrite (proj2 (is_empty_false _) (P f (or_introl eq_refl))). destruct (negb _); [discriminate|]. apply dup_service.
Qed.
Lemma find_set_missing path sets : (forall fs f, In fs sets -> In f fs -> fl_package f <> "" /\ ~ has_service f path) -> find_set path sets = Err ("no service for path " +++ path).
Proof.
  induction sets as [|fs sets IH]; intros H; cbn [find_set]; [reflexivity|]. rewrite find_file_none; [|intros f I; apply (H fs); [now left|exact I]]. cbn [bind]. apply IH. intros es f I. apply H. now right.
Qed.
Lemma find_set_twice path earlier fs later f : (forall es f', In es (earlier ++ fs :: later) -> In f' es -> fl_package f' <> "") ->
  (forall es f', In es earlier -> In f' es -> ~ has_service f' path) -> In f fs -> has_service f path -> (forall f' sv, ~ only_service fs path f' sv) ->
  find_set path (earlier ++ fs :: later) = Err ("duplicate services for path " +++ path).
Proof.
  intros P N I H O. induction earlier as [|x earlier IH]; cbn [find_set app].
  - destruct (find_file path fs None) as [o|m] eqn:E; cbn [bind].
    + apply find_file_ok in E as (_ & [(_ & X)|(_ & fb & f' & fa & sv & _ & -> & Oh & Nh)]); [destruct (X f I H)|]. destruct (O f' sv). apply only_service_here. exists fb, fa. auto.
    + apply f_equal. apply (dup_file path fs None); [|exact E]. intros g Ig. apply (P fs); [now left|exact Ig].
  - rewrite find_file_none; [cbn [bind]; apply IH|].
    + intros es g He. apply P. now right.
    + intros es g He. apply N. now right.
    + intros g Hg. split; [apply (P x); [now left|exact Hg]|apply (N x); [now left|exact Hg]].
Qed.
Lemma service_info_named sets path full : names_path path full -> get_service_info sets path = find_set full sets.
Proof.
  intros [->|(-> & N & D)]; unfold get_service_info; [reflexivity|]. destruct full as [|c rest]; [easy|]. destruct (Ascii.eqb c ".") eqn:E; [apply Ascii.eqb_eq in E as ->; now destruct (D rest)|reflexivity].
Qed.

Section Said.
  Variable ord : map_order.
  Variable cwd work_dir error_format : string.
  Variable json : bool.
  Variable to_json : failure -> string.
  Variable stat : string -> result file_kind.
  Variable get_for_dir : string -> string -> result proto_set.
  Variable compiler : bool -> bool -> option (bool * bool) -> (string -> result string) -> proto_set -> result (list failure * list file_set).
  Variable commands : bool -> proto_set -> result (list string).
  Variable parse_duration : string -> result Z.
  Variable create_descriptor create_source : file_set -> result unit.
  Variable credentials : tls_settings -> result unit.
  Variable dial : connection -> result unit.
  Variable invoke_rpc : connection -> call -> list rpc_event * option string.
  Hypothesis Hfields : exists fields, fields_of error_format fields.
  Notation grpc := (grpc ord cwd work_dir error_format json to_json stat get_for_dir compiler commands parse_duration create_descriptor create_source credentials dial invoke_rpc).
  Notation found := (found work_dir stat get_for_dir).

  Lemma parse_time_ok t : (t <> "" -> exists z, parse_duration t = Ok z) -> exists z, parse_time parse_duration t = Ok z.
  Proof. intros H. unfold parse_time. destruct (is_empty t) eqn:E; [eauto|]. apply is_empty_false in E. now apply H. Qed.
  Lemma parse_time_err t m : t <> "" -> parse_duration t = Err m -> parse_time parse_duration t = Err m.
  Proof. intros N E. unfold parse_time. apply is_empty_false in N. now rewrite N. Qed.
  (** The first of the headers and times that is malformed is told before anything is done. *)
  Theorem C57_said : forall args g s t, flags_fit g -> says_malformed parse_duration g t -> grpc args g s = (s, Fail t).
  Proof.
    intros args g s t F H. apply check_flags_none in F. unfold Grpc_Model.grpc. rewrite F. destruct H as [before h after E B N|before t after m Hh E B N P].
    - rewrite E, (parse_headers_bad before h after [] B N). reflexivity.
    - apply (parse_headers_err _ []) in Hh as (hs & ->). cbn [Exec_Model.check]. unfold and_then, ret. apply (parse_time_err _ _ N) in P.
      assert (B' : forall t', In t' before -> exists z, parse_time parse_duration t' = Ok z) by (intros t' I; apply parse_time_ok, (B t' I)).
      destruct before as [|a [|b [|c before]]]; cbn [app] in E.
      + injection E as E _. rewrite E, P. reflexivity.
      + injection E as E1 E2 _. destruct (B' a (or_introl eq_refl)) as (z & Z). rewrite E1, Z, E2, P. reflexivity.
      + injection E as E1 E2 E3 _. destruct (B' a (or_introl eq_refl)) as (z & Z). destruct (B' b (or_intror (or_introl eq_refl))) as (y & Y). rewrite E1, Z, E2, Y, E3, P. reflexivity.
      + injection E as _ _ _ E. destruct before; discriminate E.
  Qed.
  (** Of files that compile and have packages: what is wrong with the method, the address or the
      credentials is told, and no connection is made. *)
  Theorem C58_said : forall args g s m sets t, flags_fit g -> headers_fit (g_headers g) -> times_fit parse_duration g ->
    found args m -> compiler false true None (io_disk s) (m_set m) = Ok ([], sets) -> named_files sets ->
    (forall x, create_source x = Ok tt) -> (forall x, create_descriptor x = Ok tt) -> says_no_call credentials sets g t ->
    grpc args g s = (adds s [Compiled false], Fail t).
  Proof.
    intros args g s m sets t Fl Hh Ti F C Na Cs Cd T.
    apply check_flags_none in Fl. destruct (proj2 (parse_headers_err (g_headers g) []) Hh) as (hs & Eh). apply times_fit_parse in Ti as (t1 & t2 & t3 & T1 & T2 & T3).
    unfold Grpc_Model.grpc. rewrite Fl, Eh, T1, T2, T3. cbn [Exec_Model.check]. unfold and_then, ret. rewrite (get_meta_found _ _ _ _ _ _ F). unfold compile. rewrite (compile_clean cwd error_format json to_json compiler Hfields _ _ _ _ _ _ C).
    assert (P : forall es f, In es sets -> In f es -> fl_package f <> "") by (intros es f I J; exact (proj2 (proj2 (Na es I) f J))).
    assert (Src : forall e, sets <> [] -> Grpc_Model.get_descriptor_source create_source sets (g_method g) = Err e ->
      match sets with
      | [] => fail "no FileDescriptorSets returned"
      | _ :: _ => invoke create_descriptor create_source credentials dial invoke_rpc
          (new_grpc_handler ord hs t1 t2 t3 (g_details g) (g_tls g) (g_insecure g) (g_cacert g) (g_cert g) (g_key g) (g_server_name g)) sets (g_address g) (g_method g) (get_input (g_data g) (g_stdin g))
      end (adds s [Compiled false]) = (adds s [Compiled false], Fail e)).
    { intros e Ne E. destruct sets as [|d0 ds]; [destruct (Ne eq_refl)|]. unfold Grpc_Model.invoke, and_then. rewrite E. reflexivity. }
    destruct T as [E|Ne N|name Ne E N|full Ne A N|full ea fs la f A E N I H O|full fs f sv network rest A Pr Sp N1 N2|full fs f sv network rest e A Pr Nw Tl Cr].
    - rewrite E. reflexivity.
    - apply Src; [exact Ne|]. unfold Grpc_Model.get_descriptor_source. destruct (get_service_for_method (g_method g)) as [path|e] eqn:E.
      + apply get_service_for_method_ok in E as (name & E & Np & Nn). destruct (N path name E Np Nn).
      + cbn [bind]. unfold get_service_for_method in E. destruct (split_char "/" (g_method g)) as [|a [|b [|]]]; try discriminate E; now injection E as <-.
    - apply Src; [exact Ne|]. unfold Grpc_Model.get_descriptor_source. assert (G : get_service_for_method (g_method g) = Ok "").
      { apply get_service_for_method_ok. exists name. split; [exact E|]. split; [|exact N]. intros [|] b; discriminate. }
      rewrite G. reflexivity.
    - apply Src; [exact Ne|]. unfold Grpc_Model.get_descriptor_source. apply about_service_iff in A as (path & -> & Np). cbn [bind]. rewrite (service_info_named _ _ _ Np).
      rewrite find_set_missing; [reflexivity|]. intros es f I J. split; [exact (P es f I J)|exact (N es f I J)].
    - apply Src; [rewrite E; destruct ea; discriminate|]. unfold Grpc_Model.get_descriptor_source. apply about_service_iff in A as (path & -> & Np). cbn [bind]. rewrite (service_info_named _ _ _ Np).
      assert (X : find_set full sets = Err ("duplicate services for path " +++ full)); [|rewrite X; reflexivity].
      rewrite E. apply (find_set_twice full ea fs la f); [|exact N|exact I|exact H|exact O]. intros es f' J K. apply (P es f'); [rewrite E; exact J|exact K].
    - destruct (descriptor_source_one create_source _ _ _ _ _ _ Na Cs A Pr) as (source & Es). destruct (any_resolver_all create_descriptor _ Na Cd) as (resolver & Er).
      assert (Ne : sets <> []) by (destruct Pr as ([|] & ? & -> & _); discriminate). destruct sets as [|d0 ds]; [destruct (Ne eq_refl)|].
      unfold Grpc_Model.invoke, and_then. rewrite Es, Er. cbn [Exec_Model.check]. unfold ret. unfold dial_handler, get_network_address.
      apply split_once_iff in Sp; [|discriminate]. rewrite Sp. apply String.eqb_neq in N1, N2. rewrite N1, N2. reflexivity.
    - destruct (descriptor_source_one create_source _ _ _ _ _ _ Na Cs A Pr) as (source & Es). destruct (any_resolver_all create_descriptor _ Na Cd) as (resolver & Er).
      assert (Ne : sets <> []) by (destruct Pr as ([|] & ? & -> & _); discriminate). destruct sets as [|d0 ds]; [destruct (Ne eq_refl)|].
      unfold Grpc_Model.invoke, and_then. rewrite Es, Er. cbn [Exec_Model.check]. unfold ret. unfold dial_handler. apply get_network_address_ok in Nw. rewrite Nw, new_grpc_handler_is, Tl.
      cbn [h_tls h_settings]. unfold tls_asked in Cr. rewrite Cr. reflexivity.
  Qed.
End Said.
Print Assumptions C57_said.
Print Assumptions C58_said.
Example C57_said_ex : says_malformed gx_parse (gx_flags ["a:b"; "c"; "d"] "x" "m" true false false false) "headers must be key:value but got c" /\
  flags_fit (gx_flags ["a:b"; "c"; "d"] "x" "m" true false false false) /\
  gx_done (gx_grpc gx_sets gx_events [] (gx_flags ["a:b"; "c"; "d"] "x" "m" true false false false) gx_start) = ([], Fail "headers must be key:value but got c").
Proof.
  split; [|split; [apply check_flags_none; reflexivity|reflexivity]]. apply (Bad_header _ (gx_flags ["a:b"; "c"; "d"] "x" "m" true false false false) ["a:b"] "c" ["d"]).
  - reflexivity.
  - apply (parse_headers_err _ []). eexists. reflexivity.
  - intros name value H. apply split_once_iff in H; discriminate.
Qed.
Example C58_said_ex : says_no_call gx_ok gx_sets (gx_flags [] "a" "foo.v1.Api/Put" true false false false) "no service for path foo.v1.Api" /\
  says_no_call gx_ok gx_sets (gx_flags [] "udp://a" "foo.v1.API/Put" true false false false) "grpc dial: invalid network, only tcp or unix allowed: udp" /\
  gx_done (gx_grpc gx_sets gx_events [] (gx_flags [] "a" "foo.v1.Api/Put" true false false false) gx_start) = ([Compiled false], Fail "no service for path foo.v1.Api") /\
  gx_done (gx_grpc gx_sets gx_events [] (gx_flags [] "udp://a" "foo.v1.API/Put" true false false false) gx_start) = ([Compiled false], Fail "grpc dial: invalid network, only tcp or unix allowed: udp").
Proof.
  split; [|split; [|split; reflexivity]].
  - apply No_such_service; [discriminate|exists "foo.v1.Api", "Put"; split; [reflexivity|]; split; [apply no_char_no_slash; reflexivity|]; split; [apply no_char_no_slash; reflexivity|]; right; repeat split; discriminate|].
    intros fs f Hf Hg (sv & Hs & E). unfold gx_sets in Hf. members; cbn in Hs; members; discriminate E.
  - destruct C58_ex as (Pr & _ & _). eapply (Bad_network _ _ _ "foo.v1.API"); [|exact Pr|apply split_once_iff; [discriminate|reflexivity]|discriminate|discriminate].
    exists "foo.v1.API", "Put". split; [reflexivity|]. split; [apply no_char_no_slash; reflexivity|]. split; [apply no_char_no_slash; reflexivity|]. right. repeat split; discriminate.
Qed.
