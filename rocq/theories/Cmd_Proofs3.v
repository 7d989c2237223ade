(** Proofs about command lines: reading the items of a line. *)
From Verif Require Import GoStrFacts Exec_Proofs Cmd_Spec Cmd_Proofs Cmd_Proofs2.
From Coq Require Import Lia.

Lemma fine_no_equals : forall n, fine n = true -> sexists (Ascii.eqb "=") n = false.
Proof.
  intros [| c n] H; [discriminate|]. unfold fine in H.
  apply andb_true_iff in H as (_ & H). now apply negb_true_iff in H.
Qed.
Lemma flag_word_fine : forall n, flag_word n -> fine n = true.
Proof.
  intros n (H1 & H2 & H3).
  assert (E : sexists (Ascii.eqb "=") n = false).
  { clear H1 H2. induction n as [| c n IH]; [reflexivity|]. cbn [sexists].
    destruct (Ascii.eqb_spec "=" c) as [<- | _]; [exfalso; exact (H3 "" n eq_refl)|].
    apply IH. intros a b X. apply (H3 (String c a) b). cbn [String.append]. now rewrite X. }
  destruct n as [| c n]; [contradiction|]. unfold fine. rewrite E.
  destruct (Ascii.eqb_spec c "-") as [-> |]; [now exfalso; apply (H2 n)|].
  destruct (Ascii.eqb_spec c "=") as [-> |]; [now exfalso; apply (H3 "" n)|]. reflexivity.
Qed.
Lemma sapp_nil : forall s : string, s +++ "" = s.
Proof. induction s as [| c s IH]; cbn; [reflexivity | now rewrite IH]. Qed.
Lemma pick : forall a b : string, (if negb (is_empty a) then a else b) = (if String.eqb a "" then b else a).
Proof. intros [| c a] b; reflexivity. Qed.

Section Lines.
  Variable csv : string -> result (list string).

  (** One item is read. *)
  Lemma item_read : forall h t c i p items,
    line_ok t c -> item_ok csv c i -> state csv h p items ->
    exists p', (forall rest, parse_args csv (all_flags t) (spell c i ++ rest) p = parse_args csv (all_flags t) rest p') /\
      state csv h p' (items ++ [i]).
  Proof.
    intros h t c i p items (_ & Hf & Hl & _) I S.
    destruct i as [a | n w v].
    - cbn [spell app]. exists (add_args [a] p). split; [intros rest; now apply parse_plain|].
      destruct S as ((S1 & S2 & S3) & S4 & S5 & S6).
      repeat split; cbn [add_args p_flags p_header_set p_help p_args]; intros.
      + unfold text. now rewrite values_plain, S1.
      + unfold on. now rewrite values_plain, S2.
      + unfold headers. now rewrite values_plain, S3.
      + auto.
      + exact S5.
      + now rewrite arguments_snoc, S6.
    - destruct I as (Is & Ie & k & T & I).
      unfold takes in T. rewrite Forall_forall in Hf, Hl. specialize (Hf _ T).
      destruct Hf as ((f & Lf & Ff) & Fine & D1 & D2 & D3). cbn [fst snd] in *.
      assert (V : value_ok csv k v).
      { destruct k; cbn; [exact Logic.I | destruct w; tauto | tauto]. }
      assert (K : In k [Text; OnOff; Repeated]) by (destruct k; cbn; auto).
      destruct (set_fits csv h f n k v p items w Ff V S K D1 D2 D3) as (p' & E & S').
      assert (TV : takes_value f = match k with OnOff => false | _ => true end).
      { destruct Ff as (_ & Ff). unfold takes_value. destruct k.
        - now destruct Ff as (g & -> & _).
        - now destruct Ff as (g & -> & _).
        - now destruct Ff as (-> & _). }
      exists p'. split; [intros rest|exact S'].
      assert (Short : is_short w -> exists l, find (fun l => String.eqb (fst l) n) (c_letters c) = Some l /\
        lookup_short (snd l) (all_flags t) = Some f /\ snd l <> "-"%char /\ snd l <> "t"%char).
      { intros W. specialize (Is W). apply in_map_iff in Is as (l & <- & Inl).
        destruct (find (fun l0 => String.eqb (fst l0) (fst l)) (c_letters c)) as [l' |] eqn:Fl.
        - apply find_some in Fl as (Inl' & El). apply String.eqb_eq in El.
          destruct (Hl _ Inl') as ((g & G1 & G2) & N1 & N2 & _).
          exists l'. split; [reflexivity|]. split; [|auto]. rewrite El, Lf in G2. now injection G2 as <-.
        - apply find_none with (x := l) in Fl; [|exact Inl]. now rewrite String.eqb_refl in Fl. }
      assert (NP : forall ch s, ch <> "t"%char -> has_prefix (String ch s) "test." = false).
      { intros ch s N. cbn [has_prefix]. destruct (Ascii.eqb_spec "t" ch) as [X | _]; [now exfalso; apply N | reflexivity]. }
      destruct w; cbn [spell].
      + cbn [app]. rewrite (parse_long csv _ n rest p Fine ("=" +++ v)).
        change ("=" +++ v) with (String "=" v).
        rewrite (cut_equals_some n v (fine_no_equals n Fine)), Lf, E. reflexivity.
      + cbn [app]. rewrite <- (sapp_nil n). rewrite (parse_long csv _ n (v :: rest) p Fine "").
        rewrite sapp_nil, (cut_equals_none n (fine_no_equals n Fine)), Lf.
        destruct k; try (rewrite TV; cbn [negb]; rewrite E; reflexivity). contradiction.
      + cbn [app]. rewrite <- (sapp_nil n). rewrite (parse_long csv _ n rest p Fine "").
        rewrite sapp_nil, (cut_equals_none n (fine_no_equals n Fine)), Lf.
        destruct k; try (exfalso; tauto). rewrite TV; cbn [negb]. rewrite I in E. rewrite E. reflexivity.
      + destruct Short as (l & Fl & Ls & N1 & N2); [unfold is_short; auto|]. rewrite Fl.
        cbn [app]. change ("-" +++ String (snd l) "") with (String "-" (String (snd l) "")).
        rewrite parse_short_word by exact N1. cbn [parse_short]. rewrite (NP _ _ N2), Ls.
        destruct k; try contradiction; rewrite TV; cbn [negb is_empty]; rewrite E; reflexivity.
      + destruct Short as (l & Fl & Ls & N1 & N2); [unfold is_short; auto|]. rewrite Fl.
        cbn [app]. change ("-" +++ String (snd l) "" +++ "=" +++ v) with (String "-" (String (snd l) (String "=" v))).
        rewrite parse_short_word by exact N1.
        destruct v as [| v0 v]; [now exfalso; apply Ie|].
        assert (Q : forall next, parse_short csv (all_flags t) (String (snd l) (String "=" (String v0 v))) next p = Ok (p', false)).
        { intros next. cbn [parse_short]. rewrite (NP _ _ N2), Ls, E. reflexivity. }
        destruct rest as [| r rest]; rewrite Q; reflexivity.
      + destruct Short as (l & Fl & Ls & N1 & N2); [unfold is_short; auto|]. rewrite Fl.
        cbn [app]. change ("-" +++ String (snd l) "") with (String "-" (String (snd l) "")).
        rewrite parse_short_word by exact N1.
        assert (Q : forall next, parse_short csv (all_flags t) (String (snd l) "") next p = Ok (p', false)).
        { intros next. cbn [parse_short]. rewrite (NP _ _ N2), Ls.
          destruct k; try (exfalso; tauto). rewrite TV. cbn [negb]. rewrite I in E. rewrite E. reflexivity. }
        destruct rest as [| r rest]; rewrite Q; reflexivity.
  Qed.
  Lemma items_read_all : forall h t c items p before,
    line_ok t c -> Forall (item_ok csv c) items -> state csv h p before ->
    exists p', (forall rest, parse_args csv (all_flags t) (concat (map (spell c) items) ++ rest) p = parse_args csv (all_flags t) rest p') /\
      state csv h p' (before ++ items).
  Proof.
    intros h t c items p before L. revert p before. induction items as [| i items IH]; intros p before I S.
    - exists p. rewrite app_nil_r. split; [reflexivity | exact S].
    - inversion I as [| ? ? I1 I2]; subst. cbn [map concat].
      destruct (item_read h t c i p before L I1 S) as (p1 & E1 & S1).
      destruct (IH p1 (before ++ [i]) I2 S1) as (p2 & E2 & S2).
      exists p2. split; [intros rest; rewrite <- app_assoc, E1; apply E2|]. now rewrite <- app_assoc in S2.
  Qed.
  Lemma items_read : forall h t c items rest p before,
    line_ok t c -> Forall (item_ok csv c) items -> state csv h p before ->
    exists p', parse_args csv (all_flags t) (concat (map (spell c) items) ++ rest) p = parse_args csv (all_flags t) rest p' /\
      state csv h p' (before ++ items).
  Proof.
    intros h t c items rest p before L I S. destruct (items_read_all h t c items p before L I S) as (p' & E & S'). eauto.
  Qed.

  Variable goos : string.
  Variable getenv : string -> string.
  Variable getwd : result string.
  Variable parse_duration : string -> result Z.
  Variable usage help : list string -> string.
  Variable suggestions : string -> string.
  Variable help_topic : list string -> string.
  Variable exec : runner -> call -> cmd unit.
  Notation prototool := (prototool goos getenv getwd parse_duration csv usage help suggestions help_topic exec).
  Notation execute := (execute getenv getwd parse_duration csv usage help help_topic exec).

  Definition supported : Prop := goos = "darwin" \/ goos = "linux".
  Lemma reach : forall t c rest, supported -> line_ok t c -> prototool (c_words c ++ rest) = execute (c_words c) rest.
  Proof.
    intros t c rest G (_ & _ & _ & _ & _ & Hf & Hn). unfold Cmd_Model.prototool.
    assert (E : mem goos ["darwin"; "linux"] = true) by (destruct G as [-> | ->]; reflexivity).
    rewrite E. cbn [negb]. rewrite Hf. destruct (c_words c); [contradiction | reflexivity].
  Qed.
  Lemma flags_at_all : forall t c, line_ok t c -> flags_at (c_words c) ++ [help_flag] = all_flags t.
  Proof. intros t c (E & _). unfold flags_at. rewrite E. reflexivity. Qed.

  Lemma rule_ok : forall t c path args, rule_fits (t_args t) c -> number_ok c (length args) ->
    validate_args path (t_args t) args = Ok tt.
  Proof.
    intros t c path args R (N1 & N2). unfold rule_fits in R. unfold validate_args.
    destruct (t_args t) as [| n | n]; destruct R as (R1 & R2); rewrite R2 in N2.
    - destruct args; [reflexivity | cbn in N2; lia].
    - apply Nat.leb_le in N2. now rewrite N2.
    - rewrite R1 in N1. apply Nat.leb_le in N1. now rewrite N1.
  Qed.
  Lemma rule_bad : forall t c path args, rule_fits (t_args t) c -> ~ number_ok c (length args) ->
    exists m, validate_args path (t_args t) args = Err m /\ m <> "".
  Proof.
    intros t c path args R N. unfold rule_fits in R. unfold validate_args, number_ok in *.
    destruct (t_args t) as [| n | n]; destruct R as (R1 & R2); rewrite R1, R2 in N.
    - destruct args as [| a args]; [exfalso; apply N; cbn; lia |]. eexists; split; [reflexivity | discriminate].
    - destruct (length args <=? n) eqn:E; [apply Nat.leb_le in E; exfalso; apply N; lia |].
      eexists; split; [reflexivity | discriminate].
    - destruct (n <=? length args) eqn:E; [apply Nat.leb_le in E; exfalso; apply N; split; [lia | exact Logic.I] |].
      eexists; split; [reflexivity | discriminate].
  Qed.

  Lemma runner_is : forall fl items, agree csv fl items ->
    forall walk, walk_asked parse_duration items walk ->
    get_runner getenv getwd parse_duration fl =
    do w <- walk; do dir <- getwd; Ok (options getenv dir w items).
  Proof.
    intros fl items (A1 & A2 & A3) walk W. unfold get_runner, walk_asked in *.
    rewrite !A1, !A2. cbn [sname bname].
    destruct (String.eqb_spec (text items "walk-timeout") "") as [E | E].
    - rewrite E. cbn [is_empty negb]. subst walk. cbn [bind]. destruct getwd; [|reflexivity].
      cbn [bind]. unfold options, or_env, flag_else. f_equal.
      f_equal; apply pick.
    - destruct (is_empty (text items "walk-timeout")) eqn:E'; [now destruct (text items "walk-timeout")|].
      cbn [negb]. subst walk. destruct (parse_duration _); [|reflexivity]. cbn [bind]. destruct getwd; [|reflexivity].
      cbn [bind]. unfold options, or_env, flag_else. f_equal.
      f_equal; apply pick.
  Qed.

  (** The end of a line: nothing, or arguments after two hyphens. *)
  Lemma line_read : forall t c items more,
    line_ok t c -> Forall (item_ok csv c) items ->
    exists p, parse_args csv (all_flags t) (concat (map (spell c) items) ++ tail_words more) (mk_parsed initial_flags false false []) = Ok p /\
      agree csv (p_flags p) items /\ p_help p = false /\ p_args p = arguments items ++ tail_args more.
  Proof.
    intros t c items more L I.
    destruct (items_read false t c items (tail_words more) _ [] L I (state_0 csv)) as (p & E & S1 & S2 & S3 & S4).
    cbn [app] in S1, S4.
    destruct more as [l |]; cbn [tail_words tail_args] in *.
    - exists (add_args l p). split; [exact E|]. cbn [add_args p_flags p_help p_args]. now rewrite S4.
    - exists p. split; [exact E|]. rewrite app_nil_r. auto.
  Qed.
  Lemma line_runs : forall c items more walk,
    supported -> In c commands -> Forall (item_ok csv c) items ->
    number_ok c (length (arguments items ++ tail_args more)) ->
    walk_asked parse_duration items walk ->
    exists k, asked csv c items (arguments items ++ tail_args more) = Some k /\
      prototool (c_words c ++ concat (map (spell c) items) ++ tail_words more) =
      process (run r <- check (do w <- walk; do dir <- getwd; Ok (options getenv dir w items)); exec r k).
  Proof.
    intros c items more walk G Hc I N W. destruct (commands_ok c Hc) as (t & L).
    destruct (line_read t c items more L I) as (p & E & A & H & Ha).
    exists (t_call t (p_flags p) (p_args p)). destruct L as (L1 & L2 & L3 & L4 & L5 & L6 & L7).
    assert (L : line_ok t c) by (repeat split; assumption).
    split; [rewrite <- Ha; now apply L5|].
    rewrite (reach t c _ G L). unfold Cmd_Model.execute.
    rewrite (flags_at_all t c L), E, H, L1, (rule_ok t c _ _ L4) by now rewrite Ha.
    unfold check_cmd. now rewrite (runner_is _ _ A walk W).
  Qed.

  (** Errors of cobra. *)
  Lemma cobra_error_does : forall m extra s, m <> "" ->
    exists s', cobra_error m extra s = (s', 1%Z) /\
      only_text s s' ["Error: " +++ m +++ String newline "" +++ extra; m +++ String newline ""].
  Proof.
    intros m extra s N. unfold cobra_error, process, and_then, print, emit, fail, println.
    destruct (is_empty m) eqn:E; [now destruct m|].
    eexists. split; [reflexivity|]. unfold print, emit. cbn [fst io_done io_disk]. split; [reflexivity|].
    cbn [fst io_done]. rewrite <- app_assoc. cbn [app map]. unfold line. now rewrite !sapp_assoc.
  Qed.
End Lines.
