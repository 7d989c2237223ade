(** C77, the remaining ways to write flags: several letters behind one hyphen, a value
    attached to its letter, and the words for on and off. Each is the same as a line that
    C77_meaning is about. *)
From Verif Require Import GoStrFacts Cmd_Spec Cmd_Proofs Cmd_Proofs2 Cmd_Proofs3 Cmd_Proofs4 Props_Cmd.

(** The letter stands for a flag of that kind. *)
Definition letter_is (c : command) (l : ascii) (k : kind) : Prop := exists n, In (n, l) (c_letters c) /\ takes c n k.
(** The words that turn a switch on, and those that turn it off. *)
Definition on_words : list string := ["1"; "t"; "T"; "true"; "True"; "TRUE"].
Definition off_words : list string := ["0"; "f"; "F"; "false"; "False"; "FALSE"].

Section Cmd2.
  Variable goos : string.
  Variable getenv : string -> string.
  Variable getwd : result string.
  Variable parse_duration : string -> result Z.
  Variable csv : string -> result (list string).
  Variable usage help : list string -> string.
  Variable suggestions : string -> string.
  Variable help_topic : list string -> string.
  Variable exec : runner -> call -> cmd unit.
  Notation prototool := (prototool goos getenv getwd parse_duration csv usage help suggestions help_topic exec).
  Hypothesis os : goos = "darwin" \/ goos = "linux".

  Lemma in_context : forall t c items a b s, line_ok t c -> Forall (item_ok csv c) items ->
    (forall p, parse_args csv (all_flags t) a p = parse_args csv (all_flags t) b p) ->
    prototool (c_words c ++ concat (map (spell c) items) ++ a) s = prototool (c_words c ++ concat (map (spell c) items) ++ b) s.
  Proof.
    intros t c items a b s L I E.
    rewrite !(reach csv goos getenv getwd parse_duration usage help suggestions help_topic exec t c _ os L).
    unfold execute. rewrite (flags_at_all t c L).
    destruct (items_read_all csv false t c items (mk_parsed initial_flags false false []) [] L I (state_0 csv)) as (p & Ep & _).
    rewrite !Ep, E. reflexivity.
  Qed.
  Lemma the_letter : forall t c l k, In c commands -> line_ok t c -> letter_is c l k ->
    exists f, lookup_short l (all_flags t) = Some f /\ l <> "-"%char /\ l <> "t"%char /\ takes_value f = match k with OnOff => false | _ => true end /\
      (k = OnOff -> exists g, fl_target f = ToBool g).
  Proof.
    intros t c l k Hc (_ & Hf & Hl & _) (n & A & B). rewrite Forall_forall in Hf, Hl.
    destruct (Hl _ A) as ((f & F1 & F2) & N1 & N2 & _). destruct (Hf _ B) as ((f' & F3 & F4) & _). cbn [fst snd] in *.
    rewrite F2 in F3. injection F3 as <-. exists f. repeat (split; [assumption|]). destruct F4 as (_ & F4). unfold takes_value.
    destruct k; [destruct F4 as (g & -> & _) | destruct F4 as (g & -> & _) | destruct F4 as (-> & _)]; split; try reflexivity; intros X; try discriminate X; eauto.
  Qed.
  Lemma no_test ch s : ch <> "t"%char -> has_prefix (String ch s) "test." = false.
  Proof. intros N. cbn [has_prefix]. destruct (Ascii.eqb_spec "t" ch) as [X | _]; [now exfalso; apply N | reflexivity]. Qed.

  (** C77: the letter of a switch may be written together with what comes next: -df is -d -f. *)
  Theorem C77_cluster : forall c items l l' out rest s,
    In c commands -> Forall (item_ok csv c) items -> letter_is c l OnOff -> l' <> "="%char -> l' <> "-"%char ->
    prototool (c_words c ++ concat (map (spell c) items) ++ String "-" (String l (String l' out)) :: rest) s =
    prototool (c_words c ++ concat (map (spell c) items) ++ String "-" (String l "") :: String "-" (String l' out) :: rest) s.
  Proof.
    intros c items l l' out rest s Hc I Hl N1 N2. destruct (commands_ok c Hc) as (t & L). apply (in_context t); [assumption..|].
    intros p. destruct (the_letter t c l _ Hc L Hl) as (f & F1 & D & T & V & B). destruct (B eq_refl) as (g & G).
    rewrite !parse_short_word by assumption.
    assert (S : exists q, set_flag csv f "true" p = Ok q) by (unfold set_flag; rewrite G; eexists; reflexivity). destruct S as (q & S).
    assert (A : forall next, parse_short csv (all_flags t) (String l (String l' out)) next p = parse_short csv (all_flags t) (String l' out) next q).
    { intros next. remember (String l' out) as o eqn:O. cbn [parse_short]. rewrite (no_test _ _ T), F1, V, S. cbn [negb bind]. subst o.
      destruct (Ascii.eqb_spec l' "="); [contradiction|]. destruct l' as [[] [] [] [] [] [] [] []]; try reflexivity; destruct out; try reflexivity; now destruct n. }
    assert (A0 : forall next, parse_short csv (all_flags t) (String l "") next p = Ok (q, false)).
    { intros next. cbn [parse_short]. rewrite (no_test _ _ T), F1, V, S. reflexivity. }
    rewrite A0. cbn [bind fst snd]. rewrite parse_short_word by assumption.
    destruct rest; rewrite A; reflexivity.
  Qed.
  (** C77: a value may be attached to its letter: -ofile is -o file. *)
  Theorem C77_attached : forall c items l v rest s,
    In c commands -> Forall (item_ok csv c) items -> letter_is c l Text \/ letter_is c l Repeated ->
    v <> "" -> (forall r, v <> "=" +++ r) ->
    prototool (c_words c ++ concat (map (spell c) items) ++ String "-" (String l v) :: rest) s =
    prototool (c_words c ++ concat (map (spell c) items) ++ String "-" (String l "") :: v :: rest) s.
  Proof.
    intros c items l v rest s Hc I Hl N1 N2. destruct (commands_ok c Hc) as (t & L). apply (in_context t); [assumption..|].
    intros p.
    assert (X : exists f, lookup_short l (all_flags t) = Some f /\ l <> "-"%char /\ l <> "t"%char /\ takes_value f = true).
    { destruct Hl as [Hl|Hl]; destruct (the_letter t c l _ Hc L Hl) as (f & F1 & D & T & V & _); exists f; auto. }
    destruct X as (f & F1 & D & T & V). rewrite !parse_short_word by assumption.
    assert (A : forall next, parse_short csv (all_flags t) (String l v) next p = do q <- set_flag csv f v p; Ok (q, false)).
    { intros next. destruct v as [|l' out]; [contradiction|]. remember (String l' out) as o eqn:O.
      cbn [parse_short]. rewrite (no_test _ _ T), F1, V. cbn [negb]. subst o.
      destruct (Ascii.eqb_spec l' "="); [subst l'; now destruct (N2 out)|].
      destruct l' as [[] [] [] [] [] [] [] []]; try reflexivity; destruct out; try reflexivity; now destruct n. }
    assert (A0 : parse_short csv (all_flags t) (String l "") (Some v) p = do q <- set_flag csv f v p; Ok (q, true)).
    { cbn [parse_short]. rewrite (no_test _ _ T), F1, V. reflexivity. }
    rewrite A0. destruct (set_flag csv f v p) as [q|m]; cbn [bind fst snd]; destruct rest; rewrite A; reflexivity.
  Qed.
  (** C77: a switch may be given one of the words for on and off... *)
  Theorem C77_words : forall c items name v rest s,
    In c commands -> Forall (item_ok csv c) items -> takes c name OnOff -> In v (on_words ++ off_words) ->
    prototool (c_words c ++ concat (map (spell c) items) ++ ("--" +++ name +++ "=" +++ v) :: rest) s =
    prototool (c_words c ++ concat (map (spell c) items) ++ ("--" +++ name +++ "=" +++ (if existsb (String.eqb v) on_words then "true" else "false")) :: rest) s.
  Proof.
    intros c items name v rest s Hc I Hn Hv. destruct (commands_ok c Hc) as (t & L). apply (in_context t); [assumption..|].
    intros p. destruct L as (_ & Hf & _). rewrite Forall_forall in Hf. destruct (Hf _ Hn) as ((f & F1 & (_ & g & G & _)) & F2 & _). cbn [fst snd] in *.
    rewrite !(parse_long csv _ name rest p F2).
    change ("=" +++ v) with (String "=" v). change ("=" +++ ?x) with (String "=" x).
    rewrite !(cut_equals_some name _ (fine_no_equals name F2)), F1.
    unfold set_flag. rewrite G. cbn [on_words off_words app In] in Hv.
    repeat (destruct Hv as [<-|Hv]; [reflexivity|]). destruct Hv.
  Qed.
  (** ... and any other word is reported, and nothing is run. *)
  Theorem C77_bad_word : forall c items name v rest s,
    In c commands -> Forall (item_ok csv c) items -> takes c name OnOff -> ~ In v (on_words ++ off_words) ->
    exists s' l, prototool (c_words c ++ concat (map (spell c) items) ++ ("--" +++ name +++ "=" +++ v) :: rest) s = (s', 1%Z) /\ only_text s s' l /\ l <> [].
  Proof.
    intros c items name v rest s Hc I Hn Hv. destruct (commands_ok c Hc) as (t & L).
    rewrite (reach csv goos getenv getwd parse_duration usage help suggestions help_topic exec t c _ os L).
    unfold execute. rewrite (flags_at_all t c L).
    destruct (items_read csv false t c items (("--" +++ name +++ "=" +++ v) :: rest) (mk_parsed initial_flags false false []) [] L I (state_0 csv)) as (p & E & _).
    rewrite E. clear E.
    destruct L as (_ & Hf & _). rewrite Forall_forall in Hf. destruct (Hf _ Hn) as ((f & F1 & (_ & g & G & _)) & F2 & _). cbn [fst snd] in *.
    rewrite (parse_long csv _ name rest p F2). change ("=" +++ v) with (String "=" v).
    rewrite (cut_equals_some name _ (fine_no_equals name F2)), F1.
    assert (B : exists m, set_flag csv f v p = Err m /\ m <> "").
    { unfold set_flag. rewrite G. assert (P : exists m, parse_bool v = Err m).
      { unfold parse_bool. destruct (mem v ["1"; _; _; _; _; _]) eqn:M; [exfalso|destruct (mem v ["0"; _; _; _; _; _]) eqn:M'; [exfalso|eauto]];
          apply Hv; unfold mem in *; [rewrite existsb_exists in M; destruct M as (x & R & Q)|rewrite existsb_exists in M'; destruct M' as (x & R & Q)]; apply String.eqb_eq in Q; subst x; cbn in R |- *; tauto. }
      destruct P as (m & ->). eexists. split; [reflexivity | discriminate]. }
    destruct B as (m & -> & M). cbn [bind].
    destruct (cobra_error_does m (line (usage (c_words c))) s M) as (s' & E1 & E2).
    rewrite E1. do 2 eexists. split; [reflexivity|]. split; [exact E2 | discriminate].
  Qed.
  (** C77, refuted: a letter with "=" and no value does not stand for the flag with the empty
      value, as it does with the name: -o= is -o "=", and a file of that name is written. *)
  Theorem C77_letter_equals_refuted : forall c items l rest s,
    In c commands -> Forall (item_ok csv c) items -> letter_is c l Text ->
    prototool (c_words c ++ concat (map (spell c) items) ++ String "-" (String l "=") :: rest) s =
    prototool (c_words c ++ concat (map (spell c) items) ++ String "-" (String l "") :: "=" :: rest) s.
  Proof.
    intros c items l rest s Hc I Hl. destruct (commands_ok c Hc) as (t & L). apply (in_context t); [assumption..|].
    intros p. destruct (the_letter t c l _ Hc L Hl) as (f & F1 & D & T & V & _). rewrite !parse_short_word by assumption.
    assert (A : forall next, parse_short csv (all_flags t) (String l "=") next p = do q <- set_flag csv f "=" p; Ok (q, false)).
    { intros next. cbn [parse_short]. rewrite (no_test _ _ T), F1, V. reflexivity. }
    assert (A0 : parse_short csv (all_flags t) (String l "") (Some "=") p = do q <- set_flag csv f "=" p; Ok (q, true)).
    { cbn [parse_short]. rewrite (no_test _ _ T), F1, V. reflexivity. }
    rewrite A0. destruct (set_flag csv f "=" p) as [q|m]; cbn [bind fst snd]; destruct rest; rewrite A; reflexivity.
  Qed.
  (** C77: flags with a value may also be written before the command. *)
  Theorem C77_first : forall c pre rest s,
    In c commands -> flags_first (c_words c) pre ->
    prototool (pre ++ c_words c ++ rest) s = prototool (c_words c ++ pre ++ rest) s.
  Proof.
    intros c pre rest s Hc F. destruct (commands_ok c Hc) as (t & _ & _ & _ & _ & _ & Hf & Hn).
    unfold Cmd_Model.prototool. rewrite Hf, (found_past c pre rest Hc F). reflexivity.
  Qed.
End Cmd2.
Print Assumptions C77_cluster.
Print Assumptions C77_attached.
Print Assumptions C77_words.
Print Assumptions C77_bad_word.
Print Assumptions C77_letter_equals_refuted.
Print Assumptions C77_first.
Example C77_first_ex :
  flags_first ["files"] ["--config-data={}"; "--walk-timeout"; "3s"] /\
  exw_tool ["--config-data={}"; "--walk-timeout"; "3s"; "files"; "a"] = exw_tool ["files"; "--config-data={}"; "--walk-timeout"; "3s"; "a"] /\
  exw_tool ["files"; "--config-data={}"; "--walk-timeout"; "3s"; "a"] <> exw_tool ["files"; "a"; "b"].
Proof.
  split. { apply (ff_equals _ "config-data" "{}"); [discriminate|]. apply (ff_space _ "walk-timeout" "3s"); [|discriminate| |constructor].
    - split; [discriminate|]. split; [discriminate|]. intros a b E. assert (Y := equals_there a b). rewrite <- E in Y. discriminate Y.
    - cbn. intuition discriminate. }
  vm_compute. split; [reflexivity|discriminate].
Qed.
(** C77, refuted: a switch before the command is not the same as one behind it: the command is
    taken for the value of the switch, and the line is rejected... *)
Theorem C77_switch_first_refuted :
  ~ (forall c name rest, In c commands -> takes c name OnOff ->
     exw_tool (("--" +++ name) :: c_words c ++ rest) = exw_tool (c_words c ++ ("--" +++ name) :: rest)).
Proof.
  intros H. assert (X := H exw_format_cmd "json" []). cut (exw_tool ["--json"; "format"] = exw_tool ["format"; "--json"]).
  - vm_compute. discriminate.
  - apply X; [cbn; tauto|unfold takes; cbn; tauto].
Qed.
(** ... and neither are flags one of whose values is the name of the command: that value is
    dropped in place of the command. *)
Theorem C77_value_first_refuted :
  ~ (forall c n1 v1 n2 v2, In c commands -> takes c n1 Text -> takes c n2 Text ->
     exw_tool (["--" +++ n1; v1; "--" +++ n2; v2] ++ c_words c) = exw_tool (c_words c ++ ["--" +++ n1; v1; "--" +++ n2; v2])).
Proof.
  intros H. assert (X := H (nth 9 commands exw_format_cmd) "config-data" "files" "walk-timeout" "").
  cut (exw_tool ["--config-data"; "files"; "--walk-timeout"; ""; "files"] = exw_tool ["files"; "--config-data"; "files"; "--walk-timeout"; ""]).
  - vm_compute. discriminate.
  - apply X; [cbn; tauto|unfold takes; cbn; tauto..].
Qed.
Print Assumptions C77_switch_first_refuted.
Print Assumptions C77_value_first_refuted.
Example C77_cluster_ex :
  letter_is exw_format_cmd "d" OnOff /\ letter_is exw_format_cmd "f" OnOff /\ exw_tool ["format"; "-dfl"] = exw_tool ["format"; "-d"; "-f"; "-l"] /\
  exw_tool ["format"; "-dfl"] = ([], 255%Z).
Proof. split; [exists "diff"; cbn; unfold takes; cbn; tauto|]. split; [exists "fix"; cbn; unfold takes; cbn; tauto|]. vm_compute. repeat split. Qed.
Example C77_attached_ex :
  letter_is (nth 8 commands exw_format_cmd) "o" Text /\ letter_is exw_grpc_cmd "H" Repeated /\ c_words (nth 8 commands exw_format_cmd) = ["descriptor-set"].
Proof. split; [exists "output-path"; cbn; unfold takes; cbn; tauto|]. split; [exists "header"; cbn; unfold takes; cbn; tauto | reflexivity]. Qed.
Example C77_words_ex : takes exw_format_cmd "json" OnOff /\ In "T" (on_words ++ off_words) /\ ~ In "yes" (on_words ++ off_words).
Proof. split; [unfold takes; cbn; tauto|]. split; [cbn; tauto|]. cbn. intuition discriminate. Qed.
