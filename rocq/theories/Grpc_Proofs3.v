(** Proofs about Grpc_Model, third part: the command. *)
From Verif Require Import GoStrFacts GoMapFacts Reflect_Proofs Desc_Proofs Exec_Proofs3 PackageCmd_Proofs.
From Verif Require Export Grpc_Proofs2.
From Coq Require Import Lia.

Lemma with_last_sorted fs f r : sort_file_descriptor_set fs f = Ok r -> In f fs -> with_last fs f r.
Proof.
  intros H Hf. apply sort_file_descriptor_set_spec in H as (_ & N & b & g & a & -> & E & ->). exists b, a. split; [|reflexivity]. f_equal. f_equal.
  rewrite map_app in N. cbn [map] in N. rewrite E in N. apply NoDup_remove_2 in N. apply in_app_or in Hf as [H|[H|H]]; [|exact H|]; destruct N; apply in_or_app; [left|right]; now apply in_map.
Qed.
Lemma sorted_with_last fs f : In f fs -> Forall (fun g => fl_name g <> "") fs -> NoDup (map fl_name fs) -> exists r, sort_file_descriptor_set fs f = Ok r.
Proof. intros Hf F N. apply in_split in Hf as (b & a & ->). exists (b ++ a ++ [f]). apply sort_file_descriptor_set_spec. split; [exact F|]. split; [exact N|]. exists b, f, a. auto. Qed.
Lemma provides_in sets full fs f sv : provides sets full fs f sv -> In fs sets /\ In f fs.
Proof. intros (e & l & -> & _ & (fb & fa & _ & _ & -> & _)). split; apply in_or_app; right; now left. Qed.
Lemma mapM_ok {A B} (f : A -> result B) l : forall r, mapM f l = Ok r -> forall y, In y r <-> exists x, In x l /\ f x = Ok y.
Proof.
  induction l as [|x l IH]; intros r; cbn [mapM].
  - intros H. injection H as <-. intros y. split; [intros []|intros (x & [] & _)].
  - destruct (f x) as [b|] eqn:E; [|discriminate]. cbn [bind]. destruct (mapM f l) as [bs|]; [|discriminate]. cbn [bind]. intros H. injection H as <-. intros y. split.
    + intros [<-|Hy]; [exists x; split; [now left|exact E]|]. apply (IH bs eq_refl) in Hy as (x' & Hx & Ex). exists x'. split; [now right|exact Ex].
    + intros (x' & [<-|Hx] & Ex); [rewrite E in Ex; injection Ex as ->; now left|]. right. apply (IH bs eq_refl). eauto.
Qed.
Lemma mapM_each {A B} (f : A -> result B) l : forall r, mapM f l = Ok r -> forall x, In x l -> exists y, f x = Ok y.
Proof.
  induction l as [|x l IH]; intros r; cbn [mapM]; [intros _ ? []|]. destruct (f x) as [b|] eqn:E; [|discriminate]. cbn [bind]. destruct (mapM f l) as [bs|]; [|discriminate]. intros _ x' [<-|Hx]; [eauto|]. now apply (IH bs eq_refl).
Qed.
Lemma NoDup_split_unique {A} (b : list A) x a b' a' : NoDup (b ++ x :: a) -> b ++ x :: a = b' ++ x :: a' -> b = b' /\ a = a'.
Proof.
  revert b'. induction b as [|y b IH]; intros [|y' b'] N E; cbn in *; injection E.
  - intros ->. auto.
  - intros -> <-. inversion N as [|? ? X _]. destruct X. apply in_or_app. right. now left.
  - intros E' ->. inversion N as [|? ? X _]. destruct X. apply in_or_app. right. now left.
  - intros E' ->. inversion N as [|? ? _ N']. destruct (IH b' N' E') as (-> & ->). auto.
Qed.
Lemma mapM_all {A B} (f : A -> result B) l : (forall x, In x l -> exists y, f x = Ok y) -> exists r, mapM f l = Ok r.
Proof.
  induction l as [|x l IH]; intros H; cbn [mapM]; [eauto|]. destruct (H x (or_introl eq_refl)) as (y & ->). destruct IH as (r & ->); [intros; apply H; now right|]. cbn [bind]. eauto.
Qed.
Lemma in_pairs (sets : list file_set) p : In p (concat (map (fun fs => map (fun f => (fs, f)) fs) sets)) <-> In (fst p) sets /\ In (snd p) (fst p).
Proof.
  rewrite in_concat. split.
  - intros (l & Hl & Hp). apply in_map_iff in Hl as (fs & <- & Hs). apply in_map_iff in Hp as (f & <- & Hf). auto.
  - intros (Hs & Hf). exists (map (fun f => (fst p, f)) (fst p)). split; [apply in_map_iff; eauto|]. apply in_map_iff. exists (snd p). split; [now destruct p|exact Hf].
Qed.
Section Facts.
  Variable ord : map_order.
  Variable cwd work_dir error_format : string.
  Variable json : bool.
  Variable to_json : failure -> string.
  Variable stat : string -> result file_kind.
  Variable get_for_dir : string -> string -> result proto_set.
  Variable compiler : bool -> bool -> option (bool * bool) -> (string -> result string) -> proto_set -> result (list failure * list file_set).
  Variable commands : bool -> proto_set -> result (list string).
  Variable parse_duration : string -> result Z.
  Variable create_descriptor create_source : file_set -> result unit.
  Variable credentials : tls_settings -> result unit.
  Variable dial : connection -> result unit.
  Variable invoke_rpc : connection -> call -> list rpc_event * option string.
  Hypothesis Hfields : exists fields, fields_of error_format fields.
  Hypothesis Hord : visits_all ord.
  Notation grpc := (grpc ord cwd work_dir error_format json to_json stat get_for_dir compiler commands parse_duration create_descriptor create_source credentials dial invoke_rpc).
  Notation found := (found work_dir stat get_for_dir).
  Notation get_descriptor_source := (get_descriptor_source create_source).
  Notation get_any_resolver := (get_any_resolver create_descriptor).

  Lemma descriptor_source_ok sets method source : get_descriptor_source sets method = Ok source ->
    exists full fs f sv, about_service method full /\ provides sets full fs f sv /\ with_last fs f source /\ create_source source = Ok tt.
  Proof.
    unfold Grpc_Model.get_descriptor_source. destruct (get_service_for_method method) as [path|] eqn:M; [|discriminate]. cbn [bind]. destruct (get_service_info sets path) as [[[sv f] fs]|] eqn:I; [|discriminate]. cbn [bind fst snd].
    destruct (sort_file_descriptor_set fs f) as [r|] eqn:S; [|discriminate]. cbn [bind]. destruct (create_source r) as [[]|] eqn:C; [|discriminate]. cbn [bind]. intros H. injection H as <-.
    apply get_service_info_ok in I as (full & Np & P). exists full, fs, f, sv. split; [apply about_service_iff; eauto|]. split; [exact P|]. split; [|exact C]. apply with_last_sorted; [exact S|]. now apply (provides_in _ _ _ _ _ P).
  Qed.
  Lemma descriptor_source_one sets method full fs f sv : named_files sets -> (forall x, create_source x = Ok tt) -> about_service method full -> provides sets full fs f sv ->
    exists source, get_descriptor_source sets method = Ok source.
  Proof.
    intros N C A P. apply about_service_iff in A as (path & M & Np). unfold Grpc_Model.get_descriptor_source. rewrite M. cbn [bind]. rewrite (get_service_info_one sets path full sv f fs); [|intros es g He Hg; now apply (N es He)|exact Np|exact P]. cbn [bind fst snd].
    destruct (provides_in _ _ _ _ _ P) as (Hs & Hf). destruct (sorted_with_last fs f Hf) as (r & ->); [apply Forall_forall; intros g Hg; now apply (N fs Hs)|apply (N fs Hs)|]. cbn [bind]. rewrite C. cbn [bind]. eauto.
  Qed.
  Lemma any_resolver_ok sets r : get_any_resolver sets = Ok r -> resolver_for sets r.
  Proof.
    unfold Grpc_Model.get_any_resolver. intros H x. rewrite (mapM_ok _ _ _ H). split.
    - intros ((fs & f) & Hp & E). apply in_pairs in Hp as (Hs & Hf). cbn [fst snd] in *. exists fs, f. split; [exact Hs|]. split; [exact Hf|]. destruct (sort_file_descriptor_set fs f) as [y|] eqn:S; [|discriminate]. cbn [bind] in E. destruct (create_descriptor y); [|discriminate]. cbn [bind] in E. injection E as <-. now apply with_last_sorted.
    - intros (fs & f & Hs & Hf & W). exists (fs, f). split; [apply in_pairs; auto|]. cbn [fst snd]. destruct (sort_file_descriptor_set fs f) as [y|] eqn:S.
      + cbn [bind]. assert (W' := with_last_sorted _ _ _ S Hf). assert (y = x) as <-.
        { apply sort_file_descriptor_set_spec in S as (_ & N & _). apply NoDup_map_inv in N. clear - W W' N. destruct W as (b & a & E & ->), W' as (b' & a' & E' & ->). rewrite E in E', N. apply NoDup_split_unique in E'; [|exact N]. destruct E' as (-> & ->). reflexivity. }
        destruct (mapM_each _ _ _ H (fs, f)) as (z & Ez); [now apply in_pairs|]. cbn [fst snd] in Ez. rewrite S in Ez. cbn [bind] in Ez. destruct (create_descriptor y); [reflexivity|discriminate].
      + destruct (mapM_each _ _ _ H (fs, f)) as (z & Ez); [now apply in_pairs|]. cbn [fst snd] in Ez. rewrite S in Ez. discriminate.
  Qed.
  Lemma any_resolver_all sets : named_files sets -> (forall x, create_descriptor x = Ok tt) -> exists r, get_any_resolver sets = Ok r.
  Proof.
    intros N C. unfold Grpc_Model.get_any_resolver. apply mapM_all. intros (fs & f) Hp. apply in_pairs in Hp as (Hs & Hf). cbn [fst snd] in *.
    destruct (sorted_with_last fs f Hf) as (r & ->); [apply Forall_forall; intros g Hg; now apply (N fs Hs)|apply (N fs Hs)|]. cbn [bind]. rewrite C. cbn [bind]. eauto.
  Qed.

  (** Everything that has to be right before the connection is made. *)
  Definition ready (args : list string) (g : grpc_flags) (disk : string -> result string) (sets : list file_set) (c : connection) : Prop :=
    flags_fit g /\ headers_fit (g_headers g) /\ times_fit parse_duration g /\
    (exists m, found args m /\ compiler false true None disk (m_set m) = Ok ([], sets)) /\
    (exists full fs f sv, about_service (g_method g) full /\ provides sets full fs f sv) /\
    connection_asked parse_duration g c /\ (g_tls g = true -> credentials (tls_asked g) = Ok tt).
  Definition call_for (g : grpc_flags) (sets : list file_set) (ca : call) : Prop :=
    call_asked parse_duration g ca /\ resolver_for sets (ca_resolver ca) /\
    exists full fs f sv, about_service (g_method g) full /\ provides sets full fs f sv /\ with_last fs f (ca_source ca).
  (** The result of a call. *)
  Definition mild (e : event) : Prop := e = Compiled false \/ exists t, e = Printed t.
  Lemma times_fit_parse g : times_fit parse_duration g <-> (exists a b c, parse_time parse_duration (g_call_timeout g) = Ok a /\ parse_time parse_duration (g_connect_timeout g) = Ok b /\ parse_time parse_duration (g_keepalive_time g) = Ok c).
  Proof.
    assert (X : forall flag, (exists a, parse_time parse_duration flag = Ok a) <-> (flag <> "" -> exists t, parse_duration flag = Ok t)).
    { intros flag. unfold parse_time. destruct (is_empty flag) eqn:E; [apply is_empty_true in E as ->; split; [easy|intros _; eauto]|]. apply is_empty_false in E. split; auto. }
    unfold times_fit. split.
    - intros H. destruct (proj2 (X (g_call_timeout g))) as (a & Ea); [apply H; cbn; auto|]. destruct (proj2 (X (g_connect_timeout g))) as (b & Eb); [apply H; cbn; auto|]. destruct (proj2 (X (g_keepalive_time g))) as (c & Ec); [apply H; cbn; auto|]. eauto 6.
    - intros (a & b & c & Ea & Eb & Ec) flag [<-|[<-|[<-|[]]]]; apply X; eauto.
  Qed.

  Theorem grpc_run args g s : exists es r, grpc args g s = (adds s es, r) /\
    ((Forall mild es /\ r <> Value tt /\ (forall e, r = Exit e -> e = "" \/ ~ flags_fit g) /\
      (printed es = "" \/ exists m f fs ds, found args m /\ compiler false true None (io_disk s) (m_set m) = Ok (f :: fs, ds))) \/
     exists sets c, ready args g (io_disk s) sets c /\
       ((exists e, dial c = Err e /\ es = [Compiled false; Dialed c] /\ r = Fail e) \/
        exists ca, dial c = Ok tt /\ call_for g sets ca /\
          es = Compiled false :: Dialed c :: Called ca :: print_lines (lines_for (g_details g) (fst (invoke_rpc c ca))) /\
          call_result (invoke_rpc c ca) r)).
  Proof.
    unfold Grpc_Model.grpc. destruct (check_flags g) as [e|] eqn:Fl; [exists [], (Exit e); rewrite adds_nil; split; [reflexivity|left; split; [constructor|split; [discriminate|split; [intros e' _; right; intros X; apply check_flags_none in X; congruence|now left]]]]|]. apply check_flags_none in Fl.
    destruct (parse_headers (g_headers g) []) as [hs|e] eqn:Hh; cbn [Exec_Model.check]; [|unfold and_then; exists [], (Fail e); rewrite adds_nil; split; [reflexivity|left; split; [constructor|split; [discriminate|split; [intros e' X; discriminate|now left]]]]].
    destruct (parse_time parse_duration (g_call_timeout g)) as [t1|e] eqn:T1; cbn [Exec_Model.check]; [|unfold and_then, ret; exists [], (Fail e); rewrite adds_nil; split; [reflexivity|left; split; [constructor|split; [discriminate|split; [intros e' X; discriminate|now left]]]]].
    destruct (parse_time parse_duration (g_connect_timeout g)) as [t2|e] eqn:T2; cbn [Exec_Model.check]; [|unfold and_then, ret; exists [], (Fail e); rewrite adds_nil; split; [reflexivity|left; split; [constructor|split; [discriminate|split; [intros e' X; discriminate|now left]]]]].
    destruct (parse_time parse_duration (g_keepalive_time g)) as [t3|e] eqn:T3; cbn [Exec_Model.check]; [|unfold and_then, ret; exists [], (Fail e); rewrite adds_nil; split; [reflexivity|left; split; [constructor|split; [discriminate|split; [intros e' X; discriminate|now left]]]]].
    unfold and_then, ret. destruct (get_meta_pure work_dir stat get_for_dir args) as (rm & G & [(m & -> & F)|((e & ->) & _)]); rewrite G; [|exists [], (Fail e); rewrite adds_nil; split; [reflexivity|left; split; [constructor|split; [discriminate|split; [intros e' X; discriminate|now left]]]]].
    unfold compile. destruct (compile_pure cwd error_format json to_json file_set compiler false true None m (io_disk s)) as (ces & cr & P & Op & Pe & Pk & _).
    assert (Mild : Forall mild (Compiled false :: ces)) by (constructor; [now left|]; apply Forall_forall; intros x Hx; right; unfold only_prints in Op; rewrite Forall_forall in Op; now apply Op).
    destruct (compiler false true None (io_disk s) (m_set m)) as [[fs ds]|e] eqn:C.
    2: { destruct (Pe e eq_refl) as (-> & ->). rewrite P by reflexivity. exists [Compiled false], (Fail e). split; [reflexivity|]. left. split; [exact Mild|split; [discriminate|split; [intros e' X; discriminate|now left]]]. }
    destruct fs as [|f0 fs].
    2: { destruct (Pk _ _ eq_refl Hfields) as (-> & _). rewrite P by reflexivity. exists (Compiled false :: ces), (Exit ""). split; [reflexivity|]. left. split; [exact Mild|split; [discriminate|split; [intros e' X; injection X as <-; now left|right; exists m, f0, fs, ds; auto]]]. }
    rewrite (compile_clean cwd error_format json to_json compiler Hfields _ _ _ _ _ _ C). clear P Pe Pk Mild Op.
    assert (M1 : Forall mild [Compiled false]) by (constructor; [now left|constructor]).
    destruct ds as [|d0 ds]; [exists [Compiled false], (Fail "no FileDescriptorSets returned"); split; [reflexivity|left; split; [exact M1|split; [discriminate|split; [intros e' X; discriminate|now left]]]]|]. set (sets := d0 :: ds) in *.
    rewrite new_grpc_handler_is. unfold Grpc_Model.invoke, and_then.
    destruct (get_descriptor_source sets (g_method g)) as [source|e] eqn:S; cbn [Exec_Model.check]; [|exists [Compiled false], (Fail e); split; [reflexivity|left; split; [exact M1|split; [discriminate|split; [intros e' X; discriminate|now left]]]]]. unfold ret at 1.
    destruct (get_any_resolver sets) as [resolver|e] eqn:R; cbn [Exec_Model.check]; [|exists [Compiled false], (Fail e); split; [reflexivity|left; split; [exact M1|split; [discriminate|split; [intros e' X; discriminate|now left]]]]]. unfold ret at 1.
    apply descriptor_source_ok in S as (full & fs & f & sv & A & Pr & W & _). apply any_resolver_ok in R.
    unfold dial_handler. destruct (get_network_address (g_address g)) as [[network rest]|e] eqn:N; [|eexists [Compiled false], _; split; [reflexivity|left; split; [exact M1|split; [discriminate|split; [intros e' X; discriminate|now left]]]]]. apply get_network_address_ok in N.
    cbn [h_tls h_settings h_keepalive_time h_connect_timeout h_headers h_call_timeout h_details].
    set (c := mk_connection network rest (if g_tls g then Some (if g_tls g then tls_asked g else mk_tls false "" "" "" "") else None) t3 (or_default t2 (seconds 10))).
    change (mk_connection _ _ _ _ _) with c.
    destruct (if g_tls g then credentials (if g_tls g then mk_tls (g_insecure g) (g_cacert g) (g_cert g) (g_key g) (g_server_name g) else mk_tls false "" "" "" "") else Ok tt) as [u|e] eqn:Cr; [|eexists [Compiled false], _; split; [reflexivity|left; split; [exact M1|split; [discriminate|split; [intros e' X; discriminate|now left]]]]].
    assert (Rd : ready args g (io_disk s) sets c).
    { split; [exact Fl|]. split; [apply (parse_headers_err _ []); eauto|]. split; [apply times_fit_parse; eauto 6|]. split; [eauto|]. split; [exists full, fs, f, sv; auto|]. split.
      - split; [exact N|]. split; [unfold c; cbn [cn_tls]; now destruct (g_tls g)|]. split; apply time_asked_iff; [exists t3|exists t2]; split; auto. unfold c. cbn [cn_keepalive]. now rewrite or_default_none.
      - intros E. rewrite E in Cr. destruct u. exact Cr. }
    unfold emit, and_then. destruct (dial c) as [[]|e] eqn:D; cbn [Exec_Model.check].
    2: { unfold fail. exists [Compiled false; Dialed c], (Fail e). split; [unfold adds; cbn [io_disk io_done]; now rewrite <- !app_assoc|]. right. exists sets, c. split; [exact Rd|]. left. eauto. }
    unfold ret. rewrite on_events_is. set (ca := mk_call _ _ _ _ _ _). set (rpc := invoke_rpc c ca).
    exists (Compiled false :: Dialed c :: Called ca :: print_lines (lines_for (g_details g) (fst rpc))), (match snd rpc, fold_left status_after (fst rpc) None with Some e, _ => Fail e | None, Some e => Fail e | None, None => Value tt end).
    split.
    { destruct (snd rpc); [|destruct (fold_left _ _ _)]; unfold fail, ret, adds; cbn [io_disk io_done]; now rewrite <- !app_assoc. }
    right. exists sets, c. split; [exact Rd|]. right. exists ca. split; [exact D|]. split.
    - split; [|split; [exact R|exists full, fs, f, sv; auto]]. split; [reflexivity|]. split; [now apply parsed_last_values|]. split; [apply time_asked_iff; eauto|]. unfold ca, get_input. cbn [ca_input]. reflexivity.
    - split; [reflexivity|]. exists (fold_left status_after (fst rpc) None). split; [apply status_of_events|reflexivity].
  Qed.
  (** Nothing else is asked of the flags and the files. *)
  Theorem grpc_dials args g s m sets full fs f sv network rest : flags_fit g -> headers_fit (g_headers g) -> times_fit parse_duration g ->
    found args m -> compiler false true None (io_disk s) (m_set m) = Ok ([], sets) -> named_files sets ->
    (forall x, create_source x = Ok tt) -> (forall x, create_descriptor x = Ok tt) -> about_service (g_method g) full -> provides sets full fs f sv ->
    network_of (g_address g) network rest -> (g_tls g = true -> credentials (tls_asked g) = Ok tt) ->
    exists es r c, grpc args g s = (adds s es, r) /\ In (Dialed c) es /\ connection_asked parse_duration g c.
  Proof.
    intros Fl Hh Ti F C Na Cs Cd A Pr N Cr. destruct (grpc_run args g s) as (es & r & E & H).
    cut (exists c, In (Dialed c) es).
    { intros (c & Hc). exists es, r, c. split; [exact E|]. split; [exact Hc|]. destruct H as [(Mi & _)|(sets' & c' & Rd & Es)].
      - rewrite Forall_forall in Mi. destruct (Mi _ Hc) as [X|(t & X)]; discriminate.
      - assert (c = c') as ->; [|apply Rd]. assert (No : forall l, ~ In (Dialed c) (print_lines l)) by (intros l Hl; apply in_map_iff in Hl as (x & X & _); discriminate). destruct Es as [(e & _ & -> & _)|(ca & _ & _ & -> & _)].
        + destruct Hc as [X|[X|[]]]; [discriminate|]. now injection X.
        + destruct Hc as [X|[X|[X|X]]]; [discriminate|now injection X|discriminate|now apply No in X]. }
    apply check_flags_none in Fl. destruct (proj2 (parse_headers_err (g_headers g) []) Hh) as (hs & Eh). apply times_fit_parse in Ti as (t1 & t2 & t3 & T1 & T2 & T3).
    destruct (descriptor_source_one _ _ _ _ _ _ Na Cs A Pr) as (source & Es). destruct (any_resolver_all _ Na Cd) as (resolver & Er). apply get_network_address_ok in N.
    assert (E' := E). unfold Grpc_Model.grpc in E'. rewrite Fl, Eh, T1, T2, T3 in E'. cbn [Exec_Model.check] in E'. unfold and_then, ret in E'. rewrite (get_meta_found _ _ _ _ _ _ F) in E'. unfold compile in E'. rewrite (compile_clean cwd error_format json to_json compiler Hfields _ _ _ _ _ _ C) in E'.
    destruct sets as [|d0 ds]; [destruct Pr as ([|] & ? & X & _); discriminate|]. rewrite new_grpc_handler_is in E'. unfold Grpc_Model.invoke, and_then in E'. rewrite Es, Er in E'. cbn [Exec_Model.check] in E'. unfold ret in E'.
    unfold dial_handler in E'. rewrite N in E'. cbn [h_tls h_settings h_keepalive_time h_connect_timeout h_headers h_call_timeout h_details] in E'.
    assert (Cr' : (if g_tls g then credentials (if g_tls g then mk_tls (g_insecure g) (g_cacert g) (g_cert g) (g_key g) (g_server_name g) else mk_tls false "" "" "" "") else Ok tt) = Ok tt) by (destruct (g_tls g); [now apply Cr|reflexivity]).
    rewrite Cr' in E'. unfold emit, and_then in E'. set (c := mk_connection _ _ _ _ _) in E'. exists c.
    assert (Pre : forall (x : io) (y : outcome unit) l, (x, y) = (adds s es, r) -> io_done x = io_done s ++ l -> In (Dialed c) l -> In (Dialed c) es).
    { intros x y l X Y Hl. assert (Z := f_equal (fun p => io_done (fst p)) X). cbn in Z. rewrite Y in Z. apply app_inv_head in Z. now subst. }
    destruct (dial c) as [[]|e]; cbn [Exec_Model.check] in E'.
    - unfold ret in E'. rewrite on_events_is in E'. destruct (snd _); [|destruct (fold_left _ _ _)]; unfold fail in E'; (eapply Pre; [exact E'|unfold adds; cbn [io_disk io_done]; rewrite <- !app_assoc; reflexivity|cbn; auto]).
    - unfold fail in E'. eapply Pre; [exact E'|unfold adds; cbn [io_disk io_done]; rewrite <- !app_assoc; reflexivity|cbn; auto].
  Qed.
End Facts.
