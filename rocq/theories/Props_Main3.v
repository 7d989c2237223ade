(** C84: all is format --overwrite, generate and lint, one after the other. *)
From Verif Require Import GoStrFacts Exec_Spec Cmd_Spec Cmd_Proofs Cmd_Proofs3 Main_Model Main_Spec Main_Proofs Main_Proofs2 Main_Proofs6 Props_Main Props_Main2.

(** What a line does, with the options that the flags and the environment give. *)
Definition the_options (w : world) (items : list item) : result runner :=
  do walk <- (if String.eqb (text items "walk-timeout") "" then Ok 0%Z else w_parse_duration w (text items "walk-timeout"));
  do dir <- w_getwd w; Ok (options (w_getenv w) dir walk items).
Lemma line_is w l c items args : w_goos w = "darwin" \/ w_goos w = "linux" -> means (w_read_csv w) l c items args ->
  exists k, asked (w_read_csv w) c items args = Some k /\
    main w l = process (run r <- Exec_Model.check (the_options w items); Main_Model.method w r k).
Proof.
  intros G (more & Hc & I & -> & N & ->).
  assert (W : walk_asked (w_parse_duration w) items (if String.eqb (text items "walk-timeout") "" then Ok 0%Z else w_parse_duration w (text items "walk-timeout"))).
  { unfold walk_asked. destruct (String.eqb _ _); reflexivity. }
  exact (line_runs (w_read_csv w) (w_goos w) (w_getenv w) (w_getwd w) (w_parse_duration w) (w_usage w) (w_help w) (w_suggestions w)
    (w_help_topic w) (Main_Model.method w) c items more _ G Hc I N W).
Qed.
Lemma alike_options w a b : alike a b -> the_options w a = the_options w b.
Proof.
  intros (T & J). unfold the_options, options. rewrite !(T "walk-timeout"), !(T "cache-path"), !(T "config-data"), !(T "protoc-bin-path"), !(T "protoc-wkt-path"),
    !(T "protoc-url"), !(T "error-format"), J by (cbn; tauto). reflexivity.
Qed.
Lemma no_options {A} (m : string) (f : runner -> cmd A) s : process (run r <- Exec_Model.check (Err m); f r) s = (fst (println m s), 1%Z).
Proof. reflexivity. Qed.
Lemma with_options {A} (r : runner) (f : runner -> cmd A) s : process (run r <- Exec_Model.check (Ok r); f r) s = process (f r) s.
Proof. reflexivity. Qed.

(** With the same arguments and the flags that are common to all, run format -w (or compile,
    if --disable-format is given), generate and lint, each on the files that the one before
    left, as long as the status is 0.  all does exactly the same: it ends with the status of
    the first one that does not end with 0, having done the same to the same files.  The only
    difference is that lint runs protoc once more before it lints. *)
Theorem C84_in_turn : forall w args al a ai fl f fi gl g gi cl c ci ll l li s s1 z1 s2 z2 sc zc s3 z3,
  visits_all (w_order w) -> (w_goos w = "darwin" \/ w_goos w = "linux") ->
  (forall d e, w_decode_json w d = Ok e \/ w_decode_yaml w d = Ok e -> header_elsewhere e) ->
  means (w_read_csv w) al a ai args -> c_words a = ["all"] ->
  means (w_read_csv w) fl f fi args -> alike ai fi ->
    (on ai "disable-format" = false /\ c_words f = ["format"] /\ on fi "overwrite" = true /\ on fi "diff" = false /\ on fi "lint" = false /\ on fi "fix" = on ai "fix" \/
     on ai "disable-format" = true /\ c_words f = ["compile"] /\ on fi "dry-run" = false) ->
  means (w_read_csv w) gl g gi args -> alike ai gi -> c_words g = ["generate"] -> on gi "dry-run" = false ->
  means (w_read_csv w) cl c ci args -> alike ai ci -> c_words c = ["compile"] -> on ci "dry-run" = false ->
  means (w_read_csv w) ll l li args -> alike ai li -> c_words l = ["lint"] ->
    (forall name, In name ["generate-ignores"; "list-all-lint-groups"; "list-all-linters"; "list-linters"] -> on li name = false) ->
    text li "list-lint-group" = "" -> text li "diff-lint-groups" = "" ->
  main w fl s = (s1, z1) -> main w gl s1 = (s2, z2) -> main w cl s2 = (sc, zc) -> main w ll s2 = (s3, z3) ->
  (z1 <> 0%Z -> main w al s = (s1, z1)) /\
  (z1 = 0%Z -> z2 <> 0%Z \/ on ai "disable-lint" = true -> main w al s = (s2, z2)) /\
  (z1 = 0%Z -> z2 = 0%Z -> on ai "disable-lint" = false -> zc = 0%Z -> exists es,
     io_done s3 = io_done s2 ++ Compiled false :: es /\
     main w al s = (mk_io (io_disk s3) (io_done s2 ++ es), z3)).
Proof.
  intros w args al a ai fl f fi gl g gi cl c ci ll l li s s1 z1 s2 z2 sc zc s3 z3 V G H Ma Wa Mf Af Wf Mg Ag Wg Dg Mc Ac Wc Dc Ml Al Wl Ol T1 T2.
  destruct (line_is w al a ai args G Ma) as (ka & Ka & ->). destruct (line_is w fl f fi args G Mf) as (kf & Kf & ->).
  destruct (line_is w gl g gi args G Mg) as (kg & Kg & ->). destruct (line_is w cl c ci args G Mc) as (kc & Kc & ->).
  destruct (line_is w ll l li args G Ml) as (kl & Kl & ->).
  rewrite <- (alike_options w _ _ Af), <- (alike_options w _ _ Ag), <- (alike_options w _ _ Ac), <- (alike_options w _ _ Al).
  unfold asked in *. rewrite Wa in Ka. rewrite Wg, Dg in Kg. rewrite Wc, Dc in Kc. rewrite Wl, T1, T2, !Ol in Kl by (cbn; tauto).
  injection Ka as <-. injection Kg as <-. injection Kc as <-. injection Kl as <-.
  assert (F : kf = first_call args (on ai "disable-format") (on ai "fix")).
  { unfold first_call. destruct Wf as [(X1 & X2 & X3 & X4 & X5 & X6)|(X1 & X2 & X3)];
      [rewrite X2, X3, X4, X5, X6 in Kf; rewrite X1|rewrite X2, X3 in Kf; rewrite X1]; now injection Kf as <-. }
  subst kf. clear Kf.
  destruct (the_options w ai) as [r|m].
  - rewrite !with_options. apply all_in_turn; [now apply visits_ok|intros d e E; apply (H d); auto..].
  - rewrite !no_options. intros [= <- <-] _ _ _. split; [reflexivity|]. split; [discriminate|discriminate].
Qed.
Print Assumptions C84_in_turn.
Example C84_in_turn_ex :
  let out l s := let (s', z) := main exw l s in (io_done s', z) in
  let next l s := fst (main exw l s) in
  let s1 := next ["format"; "-w"] exw_s in let s2 := next ["generate"] s1 in
  let all := mk_command ["all"] (compiling ++ [("disable-format", OnOff); ("disable-lint", OnOff); ("error-format", Text); ("fix", OnOff); ("json", OnOff)])
               [("fix", "f"%char)] 0 (Some 1) in
  means (w_read_csv exw) ["all"] all [] [] /\
  means (w_read_csv exw) ["compile"] exw_compile [] [] /\ alike [] [Given "overwrite" ShortAlone "true"] /\
  out ["format"; "-w"] exw_s = ([Compiled false; Wrote "/w/a.proto" ""], 0%Z) /\
  out ["generate"] s1 = ([Compiled false; Wrote "/w/a.proto" ""; Compiled true], 0%Z) /\
  snd (out ["compile"] s2) = 0%Z /\
  exists t, out ["lint"] s2 = ([Compiled false; Wrote "/w/a.proto" ""; Compiled true; Compiled false; Printed t], 255%Z) /\
    out ["all"] exw_s = ([Compiled false; Wrote "/w/a.proto" ""; Compiled true; Printed t], 255%Z).
Proof.
  assert (E : forall c, In c commands -> c_least c = 0 -> means (w_read_csv exw) (c_words c) c [] []).
  { intros c I L. exists None. split; [assumption|]. split; [constructor|]. split; [reflexivity|]. split; [|cbn; now rewrite app_nil_r].
    unfold number_ok. cbn. rewrite L. destruct (c_most c); auto with arith. }
  split; [match goal with |- means _ _ ?a _ _ => apply (E a) end; [cbn; tauto|reflexivity]|]. split; [apply (E exw_compile); [cbn; tauto|reflexivity]|]. split; [split; [intros n [<-|[<-|[<-|[<-|[<-|[<-|[<-|[]]]]]]]]|]; reflexivity|].
  split; [vm_compute; reflexivity|]. split; [vm_compute; reflexivity|]. split; [vm_compute; reflexivity|]. eexists. split; vm_compute; reflexivity.
Qed.
