(** Proofs about Grpc_Model, second part: services, handlers, output. *)
From Verif Require Import GoStrFacts GoMapFacts Reflect_Proofs Desc_Proofs.
From Verif Require Export Exec_Proofs Grpc_Proofs.
From Coq Require Import Lia.

(** ** Services *)
Lemma find_service_none path f svs found : (forall sv, In sv svs -> full_name f sv <> path) -> find_service path (fl_package f) svs found = Ok found.
Proof.
  induction svs as [|sv svs IH]; intros H; [reflexivity|]. cbn [find_service]. destruct (String.eqb _ path) eqn:E.
  - apply String.eqb_eq in E. destruct (H sv (or_introl eq_refl) E).
  - apply IH. intros sv' H'. apply H. now right.
Qed.
Lemma find_service_some path f svs sv : (forall x, In x svs -> full_name f x <> path) -> find_service path (fl_package f) svs (Some sv) = Ok (Some sv).
Proof. apply find_service_none. Qed.
Lemma find_service_ok path f svs : forall found r, find_service path (fl_package f) svs found = Ok r ->
  (r = found /\ forall sv, In sv svs -> full_name f sv <> path) \/
  (found = None /\ exists sb sv sa, r = Some sv /\ svs = sb ++ sv :: sa /\ full_name f sv = path /\ forall sv', In sv' (sb ++ sa) -> full_name f sv' <> path).
Proof.
  induction svs as [|sv svs IH]; intros found r; cbn [find_service].
  - intros H. injection H as <-. left. split; [reflexivity|]. intros ? [].
  - destruct (String.eqb _ path) eqn:E.
    + apply String.eqb_eq in E. destruct found as [x|]; [discriminate|]. intros H. apply IH in H as [(-> & N)|(? & _)]; [|discriminate]. right. split; [reflexivity|]. exists [], sv, svs. auto.
    + apply String.eqb_neq in E. intros H. apply IH in H as [(-> & N)|(-> & sb & sv' & sa & -> & -> & F & N)].
      * left. split; [reflexivity|]. intros x [<-|Hx]; [exact E|now apply N].
      * right. split; [reflexivity|]. exists (sv :: sb), sv', sa. repeat split; auto. intros x [<-|Hx]; [exact E|now apply N].
Qed.
Lemma not_prefix path f : has_prefix path (fl_package f) = false -> ~ has_service f path.
Proof. intros P (sv & _ & H). apply has_prefix_false with (r := "." +++ sv_name sv) in P. apply P. symmetry. exact H. Qed.
(** The only service of a file. *)
Definition only_here (f : file_desc) (path : string) (sv : service) : Prop :=
  exists sb sa, fl_services f = sb ++ sv :: sa /\ full_name f sv = path /\ forall sv', In sv' (sb ++ sa) -> full_name f sv' <> path.
Lemma only_here_has f path sv : only_here f path sv -> has_service f path.
Proof. intros (sb & sa & E & F & _). exists sv. split; [|exact F]. rewrite E. apply in_or_app. right. now left. Qed.
Lemma find_descriptor_ok path f r : find_service_descriptor path f = Ok r ->
  fl_package f <> "" /\ ((r = None /\ ~ has_service f path) \/ exists sv, r = Some sv /\ only_here f path sv).
Proof.
  unfold find_service_descriptor. destruct (is_empty (fl_package f)) eqn:N; [discriminate|]. apply is_empty_false in N. destruct (has_prefix path (fl_package f)) eqn:P; cbn [negb].
  - intros H. split; [exact N|]. apply find_service_ok in H as [(-> & H)|(_ & sb & sv & sa & -> & E & F & H)].
    + left. split; [reflexivity|]. intros (sv & Hs & Hf). now apply (H sv).
    + right. exists sv. split; [reflexivity|]. exists sb, sa. auto.
  - intros H. injection H as <-. split; [exact N|]. left. split; [reflexivity|]. now apply not_prefix.
Qed.
Lemma find_descriptor_none path f : fl_package f <> "" -> ~ has_service f path -> find_service_descriptor path f = Ok None.
Proof.
  intros N H. unfold find_service_descriptor. apply is_empty_false in N. rewrite N. destruct (has_prefix path (fl_package f)); [|reflexivity]. cbn [negb]. apply find_service_none. intros sv Hs Hf. apply H. now exists sv.
Qed.
Lemma find_service_one path f sb sv sa : full_name f sv = path -> (forall sv', In sv' (sb ++ sa) -> full_name f sv' <> path) -> find_service path (fl_package f) (sb ++ sv :: sa) None = Ok (Some sv).
Proof.
  intros F. induction sb as [|x sb IH]; intros N; cbn [find_service app].
  - change (fl_package f +++ "." +++ sv_name sv) with (full_name f sv). rewrite F, String.eqb_refl. now apply find_service_none.
  - destruct (String.eqb _ path) eqn:E; [apply String.eqb_eq in E; destruct (N x (or_introl eq_refl) E)|]. apply IH. intros y Hy. apply N. now right.
Qed.
Lemma find_descriptor_one path f sv : fl_package f <> "" -> only_here f path sv -> find_service_descriptor path f = Ok (Some sv).
Proof.
  intros N O. assert (Hs := only_here_has _ _ _ O). destruct O as (sb & sa & E & F & H). unfold find_service_descriptor. apply is_empty_false in N. rewrite N.
  destruct (has_prefix path (fl_package f)) eqn:P; [|now destruct (not_prefix _ _ P)]. cbn [negb]. rewrite E. now apply find_service_one.
Qed.
Lemma find_file_ok path fs : forall found r, find_file path fs found = Ok r ->
  (forall f, In f fs -> fl_package f <> "") /\
  ((r = found /\ forall f, In f fs -> ~ has_service f path) \/
   (found = None /\ exists fb f fa sv, r = Some (sv, f) /\ fs = fb ++ f :: fa /\ only_here f path sv /\ forall g, In g (fb ++ fa) -> ~ has_service g path)).
Proof.
  induction fs as [|f fs IH]; intros found r; cbn [find_file].
  - intros H. injection H as <-. split; [intros ? []|]. left. split; [reflexivity|]. intros ? [].
  - destruct (find_service_descriptor path f) as [o|] eqn:E; [|discriminate]. cbn [bind]. apply find_descriptor_ok in E as (Np & [(-> & Nh)|(sv & -> & O)]).
    + intros H. apply IH in H as (P & R). split; [intros g [<-|Hg]; [exact Np|now apply P]|]. destruct R as [(-> & N)|(-> & fb & g & fa & sv & -> & -> & O & N)].
      * left. split; [reflexivity|]. intros g [<-|Hg]; [exact Nh|now apply N].
      * right. split; [reflexivity|]. exists (f :: fb), g, fa, sv. repeat split; auto. intros x [<-|Hx]; [exact Nh|now apply N].
    + destruct found; [discriminate|]. intros H. apply IH in H as (P & R). split; [intros g [<-|Hg]; [exact Np|now apply P]|]. destruct R as [(-> & N)|(X & _)]; [|discriminate].
      right. split; [reflexivity|]. exists [], f, fs, sv. auto.
Qed.
Lemma find_file_none path fs found : (forall f, In f fs -> fl_package f <> "" /\ ~ has_service f path) -> find_file path fs found = Ok found.
Proof.
  induction fs as [|f fs IH]; intros H; [reflexivity|]. cbn [find_file]. destruct (H f (or_introl eq_refl)) as (N & X). rewrite (find_descriptor_none _ _ N X). cbn [bind]. apply IH. intros g Hg. apply H. now right.
Qed.
Lemma find_file_one path fb f fa sv : (forall g, In g (fb ++ f :: fa) -> fl_package g <> "") -> only_here f path sv -> (forall g, In g (fb ++ fa) -> ~ has_service g path) ->
  find_file path (fb ++ f :: fa) None = Ok (Some (sv, f)).
Proof.
  intros P O. induction fb as [|x fb IH]; intros N; cbn [find_file app].
  - rewrite (find_descriptor_one _ _ sv); [|apply P; now left|exact O]. cbn [bind]. apply find_file_none. intros g Hg. split; [apply P; now right|now apply N].
  - rewrite find_descriptor_none; [|apply P; now left|apply N; now left]. cbn [bind]. apply IH; intros g Hg; [apply P|apply N]; now right.
Qed.
Lemma only_service_here fs full f sv : only_service fs full f sv <-> exists fb fa, fs = fb ++ f :: fa /\ only_here f full sv /\ forall g, In g (fb ++ fa) -> ~ has_service g full.
Proof.
  split.
  - intros (fb & fa & sb & sa & E & S & F & N & N'). exists fb, fa. split; [exact E|]. split; [exists sb, sa; auto|exact N].
  - intros (fb & fa & E & (sb & sa & S & F & N') & N). exists fb, fa, sb, sa. auto.
Qed.
Lemma find_set_ok path sets : forall sv f fs, find_set path sets = Ok (sv, f, fs) -> provides sets path fs f sv.
Proof.
  induction sets as [|x sets IH]; intros sv f fs; cbn [find_set]; [discriminate|]. destruct (find_file path x None) as [o|] eqn:E; [|discriminate]. cbn [bind].
  apply find_file_ok in E as (_ & [(-> & N)|(_ & fb & g & fa & sv' & -> & -> & O & N)]).
  - intros H. apply IH in H as (ea & la & -> & N' & O). exists (x :: ea), la. split; [reflexivity|]. split; [|exact O]. intros es g [<-|He] Hg; [now apply N|now apply (N' es)].
  - intros H. injection H as -> -> <-. exists [], sets. split; [reflexivity|]. split; [intros ? ? []|]. apply only_service_here. exists fb, fa. auto.
Qed.
Lemma find_set_one path sets sv f fs : (forall es g, In es sets -> In g es -> fl_package g <> "") -> provides sets path fs f sv -> find_set path sets = Ok (sv, f, fs).
Proof.
  intros P (ea & la & -> & N & O). induction ea as [|x ea IH]; cbn [find_set app].
  - apply only_service_here in O as (fb & fa & -> & O & N'). rewrite (find_file_one _ fb f fa sv); auto. intros g Hg. apply (P (fb ++ f :: fa)); [now left|exact Hg].
  - rewrite find_file_none; [cbn [bind]; apply IH|].
    + intros es g He. apply P. now right.
    + intros es g He. apply N. now right.
    + intros g Hg. split; [apply (P x); [now left|exact Hg]|apply (N x); [now left|exact Hg]].
Qed.
(** The path of a service, with a leading dot or without. *)
Definition names_path (path full : string) : Prop := path = "." +++ full \/ (path = full /\ full <> "" /\ forall r, path <> "." +++ r).
Lemma names_path_fun path a b : names_path path a -> names_path path b -> a = b.
Proof.
  intros [E|(E & _ & N)] [E'|(E' & _ & N')].
  - rewrite E in E'. now injection E'.
  - now destruct (N' a).
  - now destruct (N b).
  - congruence.
Qed.
Lemma get_service_info_ok sets path sv f fs : get_service_info sets path = Ok (sv, f, fs) -> exists full, names_path path full /\ provides sets full fs f sv.
Proof.
  unfold get_service_info. destruct path as [|c rest]; [discriminate|]. destruct (Ascii.eqb c ".") eqn:E; intros H; apply find_set_ok in H.
  - apply Ascii.eqb_eq in E as ->. exists rest. split; [now left|exact H].
  - exists (String c rest). split; [|exact H]. right. split; [reflexivity|]. split; [discriminate|]. intros r X. injection X as -> _. discriminate.
Qed.
Lemma get_service_info_one sets path full sv f fs : (forall es g, In es sets -> In g es -> fl_package g <> "") -> names_path path full -> provides sets full fs f sv ->
  get_service_info sets path = Ok (sv, f, fs).
Proof.
  intros P [->|(-> & N & D)] V; unfold get_service_info.
  - cbn. now apply find_set_one.
  - destruct full as [|c rest]; [easy|]. destruct (Ascii.eqb c ".") eqn:E; [apply Ascii.eqb_eq in E as ->; now destruct (D rest)|]. now apply find_set_one.
Qed.
Lemma about_service_iff method full : about_service method full <-> exists path, get_service_for_method method = Ok path /\ names_path path full.
Proof.
  split.
  - intros (path & name & E & Np & Nn & H). exists path. split; [|exact H]. apply get_service_for_method_ok. exists name. auto.
  - intros (path & E & H). apply get_service_for_method_ok in E as (name & E & Np & Nn). exists path, name. auto.
Qed.

(** ** Handlers *)
Lemma fold_headers l : forall h, fold_left (fun h (o : handler_option) => o h) (map (fun kv : string * string => handler_with_header (fst kv) (snd kv)) l) h =
  mk_handler (h_call_timeout h) (h_connect_timeout h) (h_keepalive_time h) (h_headers h ++ map (fun kv => fst kv +++ ":" +++ snd kv) l) (h_details h) (h_tls h) (h_settings h).
Proof.
  induction l as [|kv l IH]; intros h; cbn [map fold_left]; [rewrite app_nil_r; now destruct h|]. rewrite IH. unfold handler_with_header. cbn [h_call_timeout h_connect_timeout h_keepalive_time h_headers h_details h_tls h_settings]. now rewrite <- app_assoc.
Qed.
Definition or_default (t d : Z) : Z := if Z.eqb t 0 then d else t.
Notation apply_options := (fold_left (fun h (o : handler_option) => o h)).
Lemma option_call t h : apply_options (if Z.eqb t 0 then [] else [handler_with_call_timeout t]) h =
  mk_handler (or_default t (h_call_timeout h)) (h_connect_timeout h) (h_keepalive_time h) (h_headers h) (h_details h) (h_tls h) (h_settings h).
Proof. unfold or_default. destruct h. now destruct (Z.eqb t 0). Qed.
Lemma option_connect t h : apply_options (if Z.eqb t 0 then [] else [handler_with_connect_timeout t]) h =
  mk_handler (h_call_timeout h) (or_default t (h_connect_timeout h)) (h_keepalive_time h) (h_headers h) (h_details h) (h_tls h) (h_settings h).
Proof. unfold or_default. destruct h. now destruct (Z.eqb t 0). Qed.
Lemma option_keepalive t h : apply_options (if Z.eqb t 0 then [] else [handler_with_keepalive_time t]) h =
  mk_handler (h_call_timeout h) (h_connect_timeout h) (or_default t (h_keepalive_time h)) (h_headers h) (h_details h) (h_tls h) (h_settings h).
Proof. unfold or_default. destruct h. now destruct (Z.eqb t 0). Qed.
Lemma option_details d h : apply_options (if d : bool then [handler_with_details] else []) h =
  mk_handler (h_call_timeout h) (h_connect_timeout h) (h_keepalive_time h) (h_headers h) (if d then true else h_details h) (h_tls h) (h_settings h).
Proof. destruct h. now destruct d. Qed.
Lemma option_tls tls i a b c d h : apply_options (if tls : bool then [handler_with_tls i a b c d] else []) h =
  mk_handler (h_call_timeout h) (h_connect_timeout h) (h_keepalive_time h) (h_headers h) (h_details h) (if tls then true else h_tls h) (if tls then mk_tls i a b c d else h_settings h).
Proof. destruct h. now destruct tls. Qed.
Lemma or_default_zero t d : (if Z.eqb (or_default t 0) 0 then d else or_default t 0) = or_default t d.
Proof. unfold or_default. destruct (Z.eqb t 0) eqn:E; [reflexivity|]. now rewrite E. Qed.
Lemma defaults h : (let h := if Z.eqb (h_call_timeout h) 0 then handler_with_call_timeout default_call_timeout h else h in
    if Z.eqb (h_connect_timeout h) 0 then handler_with_connect_timeout default_connect_timeout h else h) =
  mk_handler (or_default (h_call_timeout h) (seconds 60)) (or_default (h_connect_timeout h) (seconds 10)) (h_keepalive_time h) (h_headers h) (h_details h) (h_tls h) (h_settings h).
Proof.
  unfold or_default. change default_call_timeout with (seconds 60). change default_connect_timeout with (seconds 10). destruct h as [a b c d e f g]. cbn [h_call_timeout].
  destruct (Z.eqb a 0); unfold handler_with_call_timeout, handler_with_connect_timeout; cbn [h_call_timeout h_connect_timeout h_keepalive_time h_headers h_details h_tls h_settings]; now destruct (Z.eqb b 0).
Qed.
Definition with_defaults (h : handler) : handler :=
  mk_handler (or_default (h_call_timeout h) (seconds 60)) (or_default (h_connect_timeout h) (seconds 10)) (h_keepalive_time h) (h_headers h) (h_details h) (h_tls h) (h_settings h).
Lemma new_handler_is options : new_handler options = with_defaults (apply_options options (mk_handler 0 0 0 [] false false (mk_tls false "" "" "" ""))).
Proof. exact (defaults _). Qed.
Lemma or_default_twice t d : or_default (or_default t 0) d = or_default t d.
Proof. unfold or_default. destruct (Z.eqb t 0) eqn:E; [reflexivity|]. now rewrite E. Qed.
Lemma or_default_none t : or_default t 0 = t.
Proof. unfold or_default. destruct (Z.eqb t 0) eqn:E; [|reflexivity]. now apply Z.eqb_eq in E. Qed.
Lemma new_grpc_handler_is ord headers ct cn ka details tls insecure cacert cert key sn :
  new_grpc_handler ord headers ct cn ka details tls insecure cacert cert key sn =
  mk_handler (or_default ct (seconds 60)) (or_default cn (seconds 10)) ka (map (fun kv => fst kv +++ ":" +++ snd kv) (ord "newGRPCHandler" (string * string)%type headers)) details tls
    (if tls then mk_tls insecure cacert cert key sn else mk_tls false "" "" "" "").
Proof.
  unfold new_grpc_handler. rewrite new_handler_is. lazymatch goal with |- with_defaults ?x = _ => set (h0 := x) end.
  assert (E : h0 = mk_handler (or_default ct 0) (or_default cn 0) (or_default ka 0) (map (fun kv => fst kv +++ ":" +++ snd kv) (ord "newGRPCHandler" (string * string)%type headers)) (if details then true else false) (if tls then true else false)
    (if tls then mk_tls insecure cacert cert key sn else mk_tls false "" "" "" "")).
  { subst h0. rewrite !fold_left_app. rewrite fold_headers. rewrite option_call. rewrite option_connect. rewrite option_keepalive. rewrite option_details. rewrite option_tls. reflexivity. }
  clearbody h0. subst h0. unfold with_defaults.
  cbn [h_call_timeout h_connect_timeout h_keepalive_time h_headers h_details h_tls h_settings]. rewrite !or_default_twice, or_default_none. now destruct details, tls.
Qed.
Lemma time_asked_iff parse flag d t : time_asked parse flag d t <-> exists n, parse_time parse flag = Ok n /\ t = or_default n d.
Proof.
  unfold parse_time, or_default, time_asked. destruct (is_empty flag) eqn:E.
  - apply is_empty_true in E as ->. split.
    + intros [(_ & ->)|[(? & _)|(? & _)]]; [|easy|easy]. exists 0%Z. auto.
    + intros (n & H & ->). injection H as <-. left. auto.
  - apply is_empty_false in E. split.
    + intros [(? & _)|[(_ & P & N)|(_ & P & ->)]]; [easy| |].
      * exists t. split; [exact P|]. apply Z.eqb_neq in N. now rewrite N.
      * exists 0%Z. auto.
    + intros (n & P & ->). destruct (Z.eqb n 0) eqn:Z; [apply Z.eqb_eq in Z as ->|apply Z.eqb_neq in Z]; auto.
Qed.
Lemma check_flags_none g : check_flags g = None <-> flags_fit g.
Proof.
  unfold check_flags, flags_fit. destruct g as [hs ad me da c1 c2 c3 st de tl ins ca ce ke sn]. cbn [g_headers g_address g_method g_data g_stdin g_tls g_insecure g_cacert g_cert g_key g_server_name].
  destruct (is_empty ad) eqn:Ea; [apply is_empty_true in Ea; split; [discriminate|intros (X & _); contradiction]|]. apply is_empty_false in Ea.
  destruct (is_empty me) eqn:Em; [apply is_empty_true in Em; split; [discriminate|intros (_ & X & _); contradiction]|]. apply is_empty_false in Em.
  assert (D : (is_empty da && negb st = false /\ negb (is_empty da) && st = false) <-> ((da <> "" /\ st = false) \/ (da = "" /\ st = true))).
  { destruct da, st; cbn; split; intros H; repeat match goal with H : _ /\ _ |- _ => destruct H | H : _ \/ _ |- _ => destruct H end; try discriminate; try easy; auto. left. split; [discriminate|reflexivity]. }
  assert (T : (if tl then if ins && (negb (is_empty ca) || negb (is_empty ce) || negb (is_empty ke) || negb (is_empty sn)) then false else Bool.eqb (negb (is_empty ce)) (negb (is_empty ke))
               else negb (ins || negb (is_empty ca) || negb (is_empty ce) || negb (is_empty ke) || negb (is_empty sn))) = true <->
              (tl = false \/ ins = true -> ca = "" /\ ce = "" /\ ke = "" /\ sn = "") /\ (ins = true -> tl = true) /\ (ce = "" <-> ke = "")).
  { destruct tl, ins.
    1, 4: destruct ca, ce, ke, sn; cbn; (split; [intros X; first [discriminate X|repeat split; intros; first [reflexivity|discriminate|contradiction]]|
      intros (X & _); first [reflexivity|exfalso; first [destruct (X (or_intror eq_refl)) as (? & ? & ? & ?)|destruct (X (or_introl eq_refl)) as (? & ? & ? & ?)]; discriminate]]).
    - destruct ce, ke; cbn; split; intros H; try discriminate H; try reflexivity; try (destruct H as (_ & _ & X & Y); first [discriminate (X eq_refl)|discriminate (Y eq_refl)]);
        (split; [intros [X|X]; discriminate|split; [discriminate|split; intros X; first [reflexivity|discriminate]]]).
    - cbn. split; [discriminate|]. intros (_ & X & _). discriminate (X eq_refl). }
  rewrite <- D, <- T. clear D T. destruct (is_empty da && negb st); [split; [discriminate|intros (_ & _ & (X & _) & _); discriminate]|]. destruct (negb (is_empty da) && st); [split; [discriminate|intros (_ & _ & (_ & X) & _); discriminate]|].
  destruct tl.
  - destruct (ins && _); [split; [discriminate|intros (_ & _ & _ & X); discriminate]|]. destruct (Bool.eqb _ _); cbn [negb]; [split; auto|split; [discriminate|intros (_ & _ & _ & X); discriminate]].
  - destruct (_ || _ : bool); [split; [discriminate|intros (_ & _ & _ & X); discriminate]|split; auto].
Qed.

(** ** Output *)
Lemma object_sanitize key s : key <> "" -> (if is_empty (marshal_sanitize true s key) then [] else [marshal_sanitize true s key]) = object_of key s.
Proof.
  intros K. apply is_empty_false in K. unfold marshal_sanitize, object_of. rewrite K. cbv zeta. destruct (String.eqb s "{}") eqn:E.
  - cbn. now rewrite Bool.orb_true_r.
  - destruct s; reflexivity.
Qed.
Lemma plain_sanitize s : (if is_empty (marshal_sanitize false s "") then [] else [marshal_sanitize false s ""]) = if String.eqb s "" || String.eqb s "{}" then [] else [s].
Proof. unfold marshal_sanitize. cbv zeta. destruct (String.eqb s "{}") eqn:E; [apply String.eqb_eq in E as ->; reflexivity|]. destruct s; reflexivity. Qed.
Definition print_lines (l : list string) : list event := map (fun x => Printed (x +++ String newline "")) l.
Lemma println_lines x s : println x s = (adds s (print_lines (if is_empty x then [] else [x])), Value tt).
Proof. rewrite println_adds. now destruct (is_empty x). Qed.
Lemma print_message_object m key s : key <> "" -> print_proto_message true m key s = (adds s (print_lines (object_of key (text_of m))), Value tt).
Proof. intros K. destruct m as [[t|e]|]; cbn [print_proto_message text_of]; [|now rewrite adds_nil|now rewrite adds_nil]. rewrite println_lines. now rewrite object_sanitize. Qed.
Lemma print_metadata_object m key s : key <> "" -> print_metadata true m key s = (adds s (print_lines (object_of key (metadata_text m))), Value tt).
Proof. intros K. destruct m as [t|]; cbn [print_metadata metadata_text]; [|now rewrite adds_nil]. rewrite println_lines. now rewrite object_sanitize. Qed.
Lemma print_lines_app a b : print_lines (a ++ b) = print_lines a ++ print_lines b.
Proof. apply map_app. Qed.
Definition status_after (err : option string) (e : rpc_event) : option string :=
  match e with ReceivedTrailers (Some m) _ _ => Some m | _ => err end.
Lemma on_event_is details err e s : on_event details err e s = (adds s (print_lines ((if details then detailed_lines else plain_lines) e)), Value (status_after err e)).
Proof.
  destruct details; destruct e as [h|m|se st tr]; cbn [on_event negb status_after detailed_lines plain_lines].
  - unfold and_then. now rewrite print_metadata_object by discriminate.
  - unfold and_then. now rewrite print_message_object by discriminate.
  - unfold and_then. rewrite print_message_object by discriminate. rewrite print_metadata_object by discriminate. rewrite adds_adds, print_lines_app. now destruct se.
  - now rewrite adds_nil.
  - unfold and_then, print_proto_message. destruct m as [[t|x]|]; cbn [text_of String.eqb orb]; [|now rewrite adds_nil|now rewrite adds_nil]. rewrite println_lines. now rewrite plain_sanitize.
  - cbn [print_lines map]. rewrite adds_nil. now destruct se.
Qed.
Lemma on_events_is details es : forall err s, on_events details err es s = (adds s (print_lines (lines_for details es)), Value (fold_left status_after es err)).
Proof.
  unfold lines_for. induction es as [|e es IH]; intros err s; cbn [on_events map concat fold_left]; [now rewrite adds_nil|]. unfold and_then. rewrite on_event_is, IH, adds_adds, print_lines_app. reflexivity.
Qed.
Lemma printed_print_lines l : printed (print_lines l) = on_lines l.
Proof.
  unfold printed, print_lines, on_lines. f_equal. induction l as [|x l IH]; [reflexivity|]. cbn [map concat]. rewrite IH. reflexivity.
Qed.
Lemma status_of_fold es : forall err, (fold_left status_after es err = err /\ forall m st tr, ~ In (ReceivedTrailers (Some m) st tr) es) \/
  exists before after m st tr, fold_left status_after es err = Some m /\ es = before ++ ReceivedTrailers (Some m) st tr :: after /\ forall m' st' tr', ~ In (ReceivedTrailers (Some m') st' tr') after.
Proof.
  induction es as [|e es IH]; intros err; cbn [fold_left]; [left; split; [reflexivity|intros ? ? ? []]|]. destruct (IH (status_after err e)) as [(E & N)|(b & a & m & st & tr & E & -> & N)].
  - rewrite E. destruct e as [h|m|[x|] st tr]; cbn [status_after].
    + left. split; [reflexivity|]. intros m st tr [H|H]; [discriminate|now apply (N m st tr)].
    + left. split; [reflexivity|]. intros m' st tr [H|H]; [discriminate|now apply (N m' st tr)].
    + right. exists [], es, x, st, tr. auto.
    + left. split; [reflexivity|]. intros m' st' tr' [H|H]; [discriminate|now apply (N m' st' tr')].
  - right. exists (e :: b), a, m, st, tr. auto.
Qed.
Lemma status_of_events es : status_of es (fold_left status_after es None).
Proof. destruct (status_of_fold es None) as [(E & N)|(b & a & m & st & tr & E & X & N)]; [left; auto|]. right. exists b, a, m, st, tr. auto. Qed.
