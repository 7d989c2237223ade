(** C98: the grpc command, for the whole program. *)
From Coq Require Import Permutation.
From Verif Require Settings_Proofs Settings_Proofs2 Props_Grpc.
From Verif Require Import GoStrFacts GoPathFacts Settings_Spec File_Spec Exec_Spec Exec_Proofs Cmd_Spec Grpc_Types Grpc_Spec Grpc_Proofs3 Grpc_Proofs4 PackageCmd_Spec PackageCmd_Proofs5 Main_Model Main_Spec Main_Spec2
  Main_Spec3 Main_Spec4 Main_Proofs Main_Proofs2 Main_Proofs5 Main_Proofs6 Main_Proofs7 Main_Proofs13 Main_Proofs15 Main_Proofs16 Props_Main Props_Main2 Props_Main3 Props_Main4 Props_Main5 Props_Main8 Props_Main10 Props_Main11 Props_Main12.

(** The flags of a command line. *)
Definition flags_given (w : world) (items : list item) : Grpc_Model.grpc_flags := {|
  Grpc_Model.g_headers := headers (w_read_csv w) items;
  Grpc_Model.g_address := text items "address"; Grpc_Model.g_method := text items "method"; Grpc_Model.g_data := text items "data";
  Grpc_Model.g_call_timeout := text items "call-timeout"; Grpc_Model.g_connect_timeout := text items "connect-timeout";
  Grpc_Model.g_keepalive_time := text items "keepalive-time";
  Grpc_Model.g_stdin := on items "stdin"; Grpc_Model.g_details := on items "details"; Grpc_Model.g_tls := on items "tls"; Grpc_Model.g_insecure := on items "insecure";
  Grpc_Model.g_cacert := text items "cacert"; Grpc_Model.g_cert := text items "cert"; Grpc_Model.g_key := text items "key"; Grpc_Model.g_server_name := text items "server-name"
|}.
(** Protoc made these sets of the files, the flags fit, and a connection was tried as the flags say. *)
Definition may_dial (w : world) (disk : string -> result string) (cwd : string) (items : list item) (names : list string) (sets : list file_set) (cn : connection) : Prop :=
  exists c protoc wkt commands, set_up w disk cwd items names c protoc wkt /\ made_sets w disk cwd true false names c protoc wkt commands sets /\
    flags_fit (flags_given w items) /\ headers_fit (headers (w_read_csv w) items) /\ times_fit (w_parse_duration w) (flags_given w items) /\
    connection_asked (w_parse_duration w) (flags_given w items) cn /\ (on items "tls" = true -> w_credentials w (tls_asked (flags_given w items)) = Ok tt).
(** The call that is asked for: of the service that is found in the sets. *)
Definition may_call (w : world) (items : list item) (sets : list file_set) (ca : Grpc_Types.call) : Prop :=
  call_asked (w_parse_duration w) (flags_given w items) ca /\ resolver_for sets (ca_resolver ca) /\
  exists full fs f sv, about_service (text items "method") full /\ provides sets full fs f sv /\ with_last fs f (ca_source ca).

Lemma process_ends (c : cmd unit) s s2 z : process c s = (s2, z) -> exists s' o, c s = (s', o) /\
  ((o = Value tt /\ s2 = s' /\ z = 0%Z) \/ (exists e, o = Exit e /\ s2 = fst (println e s') /\ z = 255%Z) \/ (exists e, o = Fail e /\ s2 = fst (println e s') /\ z = 1%Z)).
Proof.
  unfold process. destruct (c s) as [s' [[]|e|e]]; intros [= <- <-]; (eexists; eexists; split; [reflexivity|]); eauto 8.
Qed.
Lemma println_says e s : exists error, fst (println e s) = adds s error /\ only_prints error.
Proof. rewrite println_adds. eexists. split; [reflexivity|]. destruct (is_empty e); repeat constructor. eexists. reflexivity. Qed.
Lemma only_prints_dials es : only_prints es -> dials es = [] /\ calls es = [] /\ written es = [].
Proof. induction 1 as [|e es (t & ->) _ IH]; [auto|exact IH]. Qed.
Lemma mild_dials es : Forall Grpc_Proofs3.mild es -> dials es = [] /\ calls es = [] /\ written es = [].
Proof. induction 1 as [|e es [->|(t & ->)] _ IH]; [auto|exact IH|exact IH]. Qed.
Lemma dials_app a b : dials (a ++ b) = dials a ++ dials b /\ calls (a ++ b) = calls a ++ calls b.
Proof. unfold dials, calls. rewrite !map_app, !concat_app. auto. Qed.

Theorem C98_grpc : forall w cwd args fl f fi dl d di s s1 s2 z, ordinary w cwd -> sorts (w_sort_plugins w) -> protoc_ordinary w ->
  (exists fields, Exec_Spec.fields_of (text di "error-format") fields) ->
  means (w_read_csv w) fl f fi args -> c_words f = ["files"] -> main w fl s = (s1, 0%Z) ->
  means (w_read_csv w) dl d di args -> c_words d = ["grpc"] -> same_settings fi di -> main w dl s = (s2, z) ->
  exists names, io_done s1 = io_done s ++ Main_Spec.shown names /\ (names <> [] -> io_disk s2 = io_disk s /\
    (* a call *)
    ((exists sets cn ca st out error, may_dial w (io_disk s) cwd di names sets cn /\ w_dial w cn = Ok tt /\ may_call w di sets ca /\
        status_of (fst (w_invoke_rpc w cn ca)) st /\ io_done s2 = io_done s ++ [Compiled false; Dialed cn; Called ca] ++ out ++ error /\ only_prints out /\ only_prints error /\
        printed out = on_lines (lines_for (on di "details") (fst (w_invoke_rpc w cn ca))) /\
        ((z = 0%Z /\ error = [] /\ snd (w_invoke_rpc w cn ca) = None /\ st = None) \/ (z = 1%Z /\ (snd (w_invoke_rpc w cn ca) <> None \/ st <> None)))) \/
    (* no connection *)
     (exists sets cn e error, may_dial w (io_disk s) cwd di names sets cn /\ w_dial w cn = Err e /\ z = 1%Z /\ io_done s2 = io_done s ++ [Compiled false; Dialed cn] ++ error /\ only_prints error) \/
    (* nothing but what the compiler and errors say *)
     (z <> 0%Z /\ (z = 255%Z -> ~ flags_fit (flags_given w di) \/ turned_down w cwd di args names true false s s2) /\
      exists es, io_done s2 = io_done s ++ es /\ dials es = [] /\ calls es = [] /\ written es = []))).
Proof.
  intros w cwd args fl f fi dl d di s s1 s2 z O So Po Hf Mf Wf Ef Md W Sm Ed. pose proof O as (V & G & Wd & Cl & Nm & St). pose proof Po as (Tn & En).
  destruct (files_see w cwd args fl f fi di s s1 O So Mf Wf Ef Sm) as (names & r & m & E1 & Or & S). exists names. split; [exact E1|]. intros Nn.
  destruct (line_is w dl d di args G Md) as (k & K & L). rewrite L in Ed. clear L. rewrite Or, with_options in Ed.
  pose proof (se_found _ _ _ _ _ _ _ _ S) as Fr. destruct (se_options _ _ _ _ _ _ _ _ S) as (zz & Rw). assert (Fm : r_error_format r = text di "error-format") by now rewrite Rw.
  apply process_ends in Ed as (s' & o & E & Z). unfold asked in K; rewrite W in K; injection K as <-.
  match type of E with Main_Model.method w r ?c s = _ => change (Main_Model.method w r c s) with (Grpc_Model.grpc (w_order w) (here r) (here r) (r_error_format r) (r_json r) Json_Model.failure_json (w_stat w) (provider w r (io_disk s)) (the_compiler w r) (the_commands w r)
    (w_parse_duration w) (w_create_descriptor w) (w_create_source w) (w_credentials w) (w_dial w) (w_invoke_rpc w) args (flags_given w di) s) in E end.
  rewrite <- Fm in Hf. pose proof E as E'.
  destruct (grpc_run (w_order w) (here r) (here r) (r_error_format r) (r_json r) Json_Model.failure_json (w_stat w) (provider w r (io_disk s)) (the_compiler w r) (the_commands w r)
    (w_parse_duration w) (w_create_descriptor w) (w_create_source w) (w_credentials w) (w_dial w) (w_invoke_rpc w) Hf V args (flags_given w di) s) as (es & o' & X & R).
  rewrite E in X. assert (s' = adds s es) as -> by exact (f_equal fst X). assert (o' = o) as -> by (symmetry; exact (f_equal snd X)). clear X.
  assert (Di : io_disk s2 = io_disk s).
  { destruct Z as [(_ & -> & _)|[(e & _ & -> & _)|(e & _ & -> & _)]]; rewrite ?println_disk; reflexivity. }
  split; [exact Di|].
  assert (Md' : forall sets cn, ready (here r) (w_stat w) (provider w r (io_disk s)) (the_compiler w r) (w_parse_duration w) (w_credentials w) args (flags_given w di) (io_disk s) sets cn -> may_dial w (io_disk s) cwd di names sets cn).
  { intros sets cn (A1 & A2 & A3 & (m' & F' & C) & _ & A4 & A5). rewrite (found_fun _ _ _ _ _ _ F' Fr) in C.
    destruct (sees_sets _ _ _ _ _ _ _ _ _ _ _ O Tn En S Nn (eq_refl : true || is_full None = true) C) as (protoc & wkt & commands & A & B). exists (ps_config (m_set m)), protoc, wkt, commands. auto 8. }
  destruct R as [(Mi & Nv & _)|(sets & cn & Rd & [(e & Dl & -> & ->)|(ca & Dl & Ca & -> & st & Hst & Ho)])].
  - right; right. assert (Hz : z <> 0%Z) by (destruct Z as [(X & _)|[(e & _ & _ & ->)|(e & _ & _ & ->)]]; [contradiction|discriminate|discriminate]). split; [exact Hz|]. split.
    + intros ->. destruct Z as [(_ & _ & X)|[(e & -> & -> & _)|(e & _ & _ & X)]]; [discriminate X| |discriminate X].
      destruct (grpc_exit (w_order w) (here r) (here r) (r_error_format r) (r_json r) Json_Model.failure_json (w_stat w) (provider w r (io_disk s)) (the_compiler w r) (the_commands w r)
        (w_parse_duration w) (w_create_descriptor w) (w_create_source w) (w_credentials w) (w_dial w) (w_invoke_rpc w) _ _ _ _ _ _ Fr E) as [(X & _)|Cf]; [now left|right].
      destruct (failed_turned_down _ _ _ _ _ _ _ _ _ _ _ _ O Po S Nn (eq_refl : true || is_full None = true) Cf) as (-> & X). exact X.
    + assert (exists error, s2 = adds (adds s es) error /\ only_prints error) as (error & -> & Op).
      { destruct Z as [(_ & -> & _)|[(e & _ & -> & _)|(e & _ & -> & _)]]; [|apply println_says..]. exists []. rewrite adds_nil. split; [reflexivity|constructor]. }
      exists (es ++ error). cbn [adds io_done]. split; [now rewrite app_assoc|]. destruct (mild_dials _ Mi) as (M1 & M2 & M3). destruct (only_prints_dials _ Op) as (P1 & P2 & P3).
      rewrite (proj1 (dials_app _ _)), (proj2 (dials_app _ _)), written_app, M1, M2, M3, P1, P2, P3. auto.
  - right; left. destruct Z as [(X & _)|[(? & X & _)|(e' & [= <-] & -> & ->)]]; [discriminate X|discriminate X|]. destruct (println_says e (adds s [Compiled false; Dialed cn])) as (error & -> & Op).
    exists sets, cn, e, error. split; [now apply Md'|]. split; [exact Dl|]. split; [reflexivity|]. split; [cbn [adds io_done]; now rewrite <- app_assoc|exact Op].
  - left. set (rpc := w_invoke_rpc w cn ca) in *. exists sets, cn, ca, st.
    assert (Pl : only_prints (print_lines (lines_for (Grpc_Model.g_details (flags_given w di)) (fst rpc))) /\ printed (print_lines (lines_for (Grpc_Model.g_details (flags_given w di)) (fst rpc))) = on_lines (lines_for (on di "details") (fst rpc))).
    { split; [|apply printed_print_lines]. unfold print_lines. apply Forall_forall. intros x Hx. apply in_map_iff in Hx as (y & <- & _). eexists. reflexivity. }
    destruct Pl as (Pl & Pr). exists (print_lines (lines_for (Grpc_Model.g_details (flags_given w di)) (fst rpc))).
    assert (exists error, s2 = adds (adds s (Compiled false :: Dialed cn :: Called ca :: print_lines (lines_for (Grpc_Model.g_details (flags_given w di)) (fst rpc)))) error /\ only_prints error /\
      ((z = 0%Z /\ error = [] /\ snd rpc = None /\ st = None) \/ (z = 1%Z /\ (snd rpc <> None \/ st <> None)))) as (error & -> & Op & Hz).
    { destruct (snd rpc) as [e0|]; [|destruct st as [e0|]]; subst o; destruct Z as [(X & -> & ->)|[(? & X & _)|(e & X & -> & ->)]]; try discriminate X; try (destruct (println_says e (adds s (Compiled false :: Dialed cn :: Called ca :: print_lines (lines_for (Grpc_Model.g_details (flags_given w di)) (fst rpc))))) as (error & -> & Op)).
      - exists error. split; [reflexivity|]. split; [exact Op|]. right. split; [reflexivity|]. left. discriminate.
      - exists error. split; [reflexivity|]. split; [exact Op|]. right. split; [reflexivity|]. right. discriminate.
      - exists []. rewrite adds_nil. split; [reflexivity|]. split; [constructor|]. left. auto. }
    exists error. split; [now apply Md'|]. split; [exact Dl|]. split; [exact Ca|]. split; [exact Hst|]. split; [cbn [adds io_done]; cbn [app]; rewrite <- app_assoc; reflexivity|]. auto.
Qed.
Print Assumptions C98_grpc.

(** ** Examples: a server that answers, and one that reports an error. *)
Definition exw13 (up : bool) : world := mk_world "linux" "amd64" "go1.13" (fun v => if String.eqb v "HOME" then "/home" else "") (Ok "/w")
  (fun s => if String.eqb s "3s" then Ok 3%Z else if String.eqb s "60s" then Ok 60%Z else if String.eqb s "10s" then Ok 10%Z else Err "bad time")
  (fun s => Ok [s]) (fun _ => "usage") (fun _ => "help") (fun _ => "") (fun _ => "topic")
  (fun _ A l => l) exw12_stat exw12_node (fun _ => None) (fun _ _ => None) (fun _ => None) (Ok "/tmp/f") (Ok "/tmp/d") (fun _ => Err "not found")
  (fun _ _ => None) (fun _ => Err "no json") (fun _ => Ok exw10_config) (fun _ => Ok "")
  Settings_Proofs2.by_name (fun l => l) (fun l => l) (fun _ _ => Ok []) (fun s => s) (fun _ _ _ => Ok "")
  (fun _ => Ok tt) (fun s => s) (fun _ => NotExist) exw12_temp (fun _ c => Protoc_Model.Ended "" Protoc_Model.NoError)
  exw12_set (fun n => rev (seq 0 n)) (fun _ n => n) (fun s => s) Props_PackageCmd.kx_marshal Props_PackageCmd.kx_jsonpb Props_PackageCmd.kx_unmarshal
  (fun _ => Ok tt) (fun _ => Ok tt) (fun _ => Ok tt) (fun _ => Ok tt) (fun c => if up then Ok tt else Err "no connection")
  (fun c ca => ([Grpc_Model.ReceivedResponse (Some (Ok "{1}")); Grpc_Model.ReceivedTrailers (match ca_input ca with FromStdin => Some "bad call" | _ => None end) None None], None)).
Definition exw_called (up : bool) (l : list string) (s : io) : list event * Z := let x := main (exw13 up) l s in (io_done (fst x), snd x).
Definition exw13_cn (network address : string) : connection := {| cn_network := network; cn_address := address; cn_tls := None; cn_keepalive := 0; cn_timeout := 3 |}.
Definition exw13_seen (up : bool) (l : list string) : (list connection * list (string * list string * Grpc_Types.input) * Z * string) * Z :=
  let x := exw_called up l exw8_s in ((dials (fst x), map (fun ca => (ca_method ca, ca_headers ca, ca_input ca)) (calls (fst x)), fold_right (fun ca _ => ca_timeout ca) 0%Z (calls (fst x)), printed (fst x)), snd x).
Lemma exw13_ordinary up : ordinary (exw13 up) "/w".
Proof. destruct (exw12_ordinary true) as (V & G & Wd & Cl & Nm & St). split; [exact V|]. split; [exact G|]. split; [reflexivity|]. split; [exact Cl|]. split; [exact Nm|exact St]. Qed.
Example C98_ex : ordinary (exw13 true) "/w" /\ sorts (w_sort_plugins (exw13 true)) /\ protoc_ordinary (exw13 true) /\ (exists fields, Exec_Spec.fields_of (text [] "error-format") fields) /\
  means (w_read_csv (exw13 true)) ["grpc"; "--address"; "unix://sock"; "--method"; "foo.v1.API/Get"; "--data"; "{}"; "-H"; "k:v"; "--connect-timeout"; "3s"] (exw_command ["grpc"])
    [Given "address" LongSpace "unix://sock"; Given "method" LongSpace "foo.v1.API/Get"; Given "data" LongSpace "{}"; Given "header" ShortSpace "k:v"; Given "connect-timeout" LongSpace "3s"] [] /\
  (let x := main (exw13 true) ["files"] exw8_s in (io_done (fst x), snd x)) = (Main_Spec.shown ["a.proto"; "b/bad.proto"], 0%Z) /\
  exw13_seen true ["grpc"; "--address"; "unix://sock"; "--method"; "foo.v1.API/Get"; "--data"; "{}"; "-H"; "k:v"; "--connect-timeout"; "3s"] =
    (([exw13_cn "unix" "sock"], [("foo.v1.API/Get", ["k:v"], FromData "{}")], 60%Z, exl "{1}"), 0%Z) /\
  exw13_seen true ["grpc"; "--address"; "localhost:1"; "--method"; "foo.v1.API/Put"; "--stdin"; "--details"; "--connect-timeout"; "3s"] =
    (([exw13_cn "tcp" "localhost:1"], [("foo.v1.API/Put", [], FromStdin)], 60%Z, exl "{""response"":{1}}" +++ exl "bad call"), 1%Z) /\
  exw13_seen false ["grpc"; "--address"; "localhost:1"; "--method"; "foo.v1.API/Put"; "--stdin"; "--details"; "--connect-timeout"; "3s"] =
    (([exw13_cn "tcp" "localhost:1"], [], 0%Z, exl "no connection"), 1%Z) /\
  snd (exw13_seen true ["grpc"; "--address"; "localhost:1"; "--method"; "foo.v1.API/Put"; "--stdin"; "--data"; "{}"]) = 255%Z /\
  exw13_seen true ["grpc"; "--address"; "localhost:1"; "--method"; "foo.v1.Api/Put"; "--stdin"] = (([], [], 0%Z, exl "no service for path foo.v1.Api"), 1%Z).
Proof.
  split; [apply exw13_ordinary|]. split; [exact Settings_Proofs2.by_name_sorts|]. split; [exact (exw12_protoc true)|]. split; [eexists; apply fields_of_ok; vm_compute; reflexivity|].
  split.
  { exists None. split; [cbn; tauto|]. split; [|split; [reflexivity|split; [split; cbn; auto with arith|reflexivity]]].
    repeat (constructor; [split; [first [intros [X|[X|X]]; discriminate X|intros _; cbn; tauto]|]; split; [discriminate|]; eexists; split; [unfold takes; cbn; tauto|first [reflexivity|(split; discriminate)|(split; [discriminate|split; [discriminate|eexists; reflexivity]])]]|]). constructor. }
  split; [vm_compute; reflexivity|]. split; [vm_compute; reflexivity|]. split; [vm_compute; reflexivity|]. split; [vm_compute; reflexivity|]. split; vm_compute; reflexivity.
Qed.
