(** Properties of command lines: C76 (exit status), C77 (flags and arguments), C78 (the
    environment). *)
From Verif Require Import GoStrFacts Cmd_Spec Cmd_Proofs Cmd_Proofs2 Cmd_Proofs3.
From Coq Require Import Lia.

Lemma process_ends : forall (c : cmd unit) s, ends (c s) (process c s).
Proof.
  intros c s. unfold process. destruct (c s) as [s1 [[] | m | m]]; [constructor | |].
  - destruct m as [| ch m]; [apply Ends_failures | apply Ends_exit; [discriminate|]];
      (split; [reflexivity|]; cbn [println is_empty fst ret io_done print emit map app]; now rewrite ?app_nil_r).
  - destruct m as [| ch m]; [apply Ends_silent | apply Ends_error; [discriminate|]];
      (split; [reflexivity|]; cbn [println is_empty fst ret io_done print emit map app]; now rewrite ?app_nil_r).
Qed.
Lemma only_text_app : forall a b c l m, only_text a b l -> only_text b c m -> only_text a c (l ++ m).
Proof. intros a b c l m (A1 & A2) (B1 & B2). split; [congruence|]. now rewrite B2, A2, map_app, app_assoc. Qed.

Section Cmd.
  (** The operating system, the environment, the working directory, time.ParseDuration, how
      the value of --header is split, the texts of help, and what the runner does. *)
  Variable goos : string.
  Variable getenv : string -> string.
  Variable getwd : result string.
  Variable parse_duration : string -> result Z.
  Variable csv : string -> result (list string).
  Variable usage help : list string -> string.
  Variable suggestions : string -> string.
  Variable help_topic : list string -> string.
  Variable exec : runner -> call -> cmd unit.
  Notation prototool := (prototool goos getenv getwd parse_duration csv usage help suggestions help_topic exec).
  Hypothesis os : goos = "darwin" \/ goos = "linux".

  (** C76: for every command line, either one call of the runner is made and the status is 0,
      255 or 1 as that call returns nothing, failures, or another error; or nothing but text
      is printed, and then the status is 1, or 0 if the text is help. *)
  Theorem C76_status : forall args s,
    (exists r k, ends (exec r k s) (prototool args s)) \/
    (exists s' l, prototool args s = (s', 1%Z) /\ only_text s s' l) \/
    (exists s' h, prototool args s = (s', 0%Z) /\ only_text s s' [h] /\
       ((exists path, h = help path) \/ exists l, h = help_topic l)).
  Proof.
    intros args s. unfold Cmd_Model.prototool.
    assert (E : mem goos ["darwin"; "linux"] = true) by (destruct os as [-> | ->]; reflexivity).
    rewrite E. cbn [negb]. clear E.
    assert (Help : forall h, ((exists path, h = help path) \/ (exists l, h = help_topic l)) ->
      exists s' h', process (print h) s = (s', 0%Z) /\ only_text s s' [h'] /\
       ((exists path, h' = help path) \/ exists l, h' = help_topic l)).
    { intros h H. exists (mk_io (io_disk s) (io_done s ++ [Printed h])), h. repeat split; auto. }
    assert (Err : forall m extra, exists s' l, cobra_error m extra s = (s', 1%Z) /\ only_text s s' l).
    { intros m extra. unfold cobra_error, process, and_then, print, emit, fail, println.
      destruct (is_empty m); eexists; eexists; (split; [reflexivity|]); unfold only_text; cbn [fst ret io_disk io_done print emit].
      - split; [reflexivity|]. now instantiate (1 := [_]).
      - split; [reflexivity|]. instantiate (1 := [_; _]). now rewrite <- app_assoc. }
    assert (Ex : forall path rest,
      let doing := execute getenv getwd parse_duration csv usage help help_topic exec path rest in
      (exists r k, ends (exec r k s) (doing s)) \/
      (exists s' l, doing s = (s', 1%Z) /\ only_text s s' l) \/
      (exists s' h, doing s = (s', 0%Z) /\ only_text s s' [h] /\ ((exists path, h = help path) \/ exists l, h = help_topic l))).
    { intros path rest. cbv zeta. unfold execute.
      destruct (parse_args _ _ _ _) as [p | m]; [|right; left; apply Err].
      destruct (p_help p); [right; right; apply Help; eauto|].
      destruct (template_at path) as [t |].
      - destruct (validate_args _ _ _) as [[] | m]; [|right; left; apply Err].
        unfold check_cmd. destruct (get_runner getenv getwd parse_duration (p_flags p)) as [r | m].
        + left. exists r, (t_call t (p_flags p) (p_args p)). exact (process_ends _ s).
        + right; left. unfold process, and_then, check, fail. unfold println.
          destruct (is_empty m); eexists; eexists; (split; [reflexivity|]); unfold only_text; cbn [fst ret io_disk io_done print emit].
          * split; [reflexivity|]. instantiate (1 := []). now rewrite app_nil_r.
          * split; [reflexivity|]. now instantiate (1 := [_]).
      - destruct (list_eqb path ["help"]); right; right; apply Help; eauto. }
    destruct (find_command 4 [] args) as [path rest].
    destruct path as [| w path]; [|apply Ex].
    destruct (strip_flags (flags_at []) rest) as [| a l]; [apply Ex|]. right; left; apply Err.
  Qed.

  (** C76, refuted: a mistyped word after "break" (or "cache", "config", "x") makes the program
      print help and end with the status 0, although nothing was run and no help was asked for. *)
  Theorem C76_mistyped_refuted : forall s,
    prototool ["break"; "chek"; "proto"] s = (mk_io (io_disk s) (io_done s ++ [Printed (help ["break"])]), 0%Z).
  Proof.
    intros s. unfold Cmd_Model.prototool.
    assert (E : mem goos ["darwin"; "linux"] = true) by (destruct os as [-> | ->]; reflexivity).
    rewrite E. reflexivity.
  Qed.

  (** C77: a command line made of a command and of flags and arguments that it takes, in
      whatever order and way of writing, makes the call that is asked for: each flag has the
      last value given, or its default; --header collects; the arguments keep their order,
      and all words after two hyphens are arguments. *)
  Theorem C77_meaning : forall c items more walk,
    In c commands -> Forall (item_ok csv c) items ->
    number_ok c (length (arguments items ++ tail_args more)) ->
    walk_asked parse_duration items walk ->
    exists k, asked csv c items (arguments items ++ tail_args more) = Some k /\
    forall s w dir, walk = Ok w -> getwd = Ok dir ->
      ends (exec (options getenv dir w items) k s)
           (prototool (c_words c ++ concat (map (spell c) items) ++ tail_words more) s).
  Proof.
    intros c items more walk Hc I N W.
    destruct (line_runs csv goos getenv getwd parse_duration usage help suggestions help_topic exec c items more walk os Hc I N W) as (k & A & E).
    exists k. split; [exact A|]. intros s w dir -> G. rewrite E, G. exact (process_ends _ s).
  Qed.
  (** C77: a time that cannot be read is reported, and nothing is run. *)
  Theorem C77_bad_time : forall c items more m s,
    In c commands -> Forall (item_ok csv c) items ->
    number_ok c (length (arguments items ++ tail_args more)) ->
    text items "walk-timeout" <> "" -> parse_duration (text items "walk-timeout") = Err m -> m <> "" ->
    exists s', prototool (c_words c ++ concat (map (spell c) items) ++ tail_words more) s = (s', 1%Z) /\
      only_text s s' [m +++ String newline ""].
  Proof.
    intros c items more m s Hc I N T P M.
    assert (W : walk_asked parse_duration items (Err m)).
    { unfold walk_asked. destruct (String.eqb_spec (text items "walk-timeout") ""); [contradiction | now rewrite P]. }
    destruct (line_runs csv goos getenv getwd parse_duration usage help suggestions help_topic exec c items more _ os Hc I N W) as (k & A & E).
    rewrite E. cbn [bind]. unfold process, and_then, check, fail, println.
    destruct (is_empty m) eqn:Em; [now destruct m|].
    eexists. split; [reflexivity|]. now split.
  Qed.
  (** C77: how the flags are written, and their order, does not matter. *)
  Theorem C77_order : forall c items items' more more',
    In c commands -> Forall (item_ok csv c) items -> Forall (item_ok csv c) items' ->
    number_ok c (length (arguments items ++ tail_args more)) ->
    (forall name, values items name = values items' name) ->
    arguments items ++ tail_args more = arguments items' ++ tail_args more' ->
    forall s,
    prototool (c_words c ++ concat (map (spell c) items) ++ tail_words more) s =
    prototool (c_words c ++ concat (map (spell c) items') ++ tail_words more') s.
  Proof.
    intros c items items' more more' Hc I I' N V A s.
    assert (Ht : forall n, text items n = text items' n) by (intros n; unfold text; now rewrite V).
    assert (Ho : forall n, on items n = on items' n) by (intros n; unfold on; now rewrite V).
    assert (Hh : headers csv items = headers csv items') by (unfold headers; now rewrite V).
    assert (W : exists walk, walk_asked parse_duration items walk).
    { unfold walk_asked. destruct (String.eqb _ _); eauto. }
    destruct W as (walk & W).
    assert (W' : walk_asked parse_duration items' walk) by (unfold walk_asked in *; now rewrite <- Ht).
    assert (N' : number_ok c (length (arguments items' ++ tail_args more'))) by now rewrite <- A.
    destruct (line_runs csv goos getenv getwd parse_duration usage help suggestions help_topic exec c items more walk os Hc I N W) as (k & K & E).
    destruct (line_runs csv goos getenv getwd parse_duration usage help suggestions help_topic exec c items' more' walk os Hc I' N' W') as (k' & K' & E').
    assert (k = k').
    { assert (Q : asked csv c items (arguments items ++ tail_args more) = asked csv c items' (arguments items' ++ tail_args more')).
      { clear - Hc A Ht Ho Hh. rewrite A. cbn [In commands] in Hc.
        repeat (destruct Hc as [<- | Hc]; [unfold asked; cbn [c_words]; rewrite ?Ht, ?Ho, ?Hh; reflexivity|]). destruct Hc. }
      congruence. }
    subst k'. rewrite E, E'.
    assert (O : forall dir w, options getenv dir w items = options getenv dir w items')
      by (intros; unfold options; now rewrite !Ht, !Ho).
    destruct walk as [w | m]; [|reflexivity]. cbn [bind]. destruct getwd as [dir | m]; [|reflexivity]. cbn [bind]. now rewrite O.
  Qed.

  (** C77: a flag that the command does not take is reported, and nothing is run, whatever
      else is on the line. *)
  Theorem C77_unknown_flag : forall c items name value rest s,
    In c commands -> Forall (item_ok csv c) items ->
    name <> "help" -> (forall k, ~ takes c name k) -> flag_word name ->
    exists s' l, 
      prototool (c_words c ++ concat (map (spell c) items) ++
        ("--" +++ name +++ match value with Some v => "=" +++ v | None => "" end) :: rest) s = (s', 1%Z) /\
      only_text s s' (l ++ ["unknown flag: --" +++ name +++ String newline ""]).
  Proof.
    intros c items name value rest s Hc I Nh U Fw. pose proof (flag_word_fine name Fw) as Fn.
    destruct (commands_ok c Hc) as (t & L).
    rewrite (reach csv goos getenv getwd parse_duration usage help suggestions help_topic exec t c _ os L).
    unfold execute. rewrite (flags_at_all t c L).
    destruct (items_read csv false t c items (("--" +++ name +++ match value with Some v => "=" +++ v | None => "" end) :: rest)
      (mk_parsed initial_flags false false []) [] L I (state_0 csv)) as (p & E & _).
    rewrite E, (parse_long csv _ name rest p Fn).
    assert (Cut : fst (cut_equals (name +++ match value with Some v => "=" +++ v | None => "" end)) = name).
    { destruct value as [v |].
      - change ("=" +++ v) with (String "=" v). now rewrite (cut_equals_some name v (fine_no_equals name Fn)).
      - rewrite sapp_nil. now rewrite (cut_equals_none name (fine_no_equals name Fn)). }
    destruct (cut_equals _) as [n v]. cbn [fst] in Cut. subst n.
    rewrite (lookup_unknown c t name Hc L Nh U).
    destruct (cobra_error_does ("unknown flag: --" +++ name) (line (usage (c_words c))) s) as (s' & E1 & E2); [discriminate|].
    rewrite E1. exists s', ["Error: " +++ ("unknown flag: --" +++ name) +++ String newline "" +++ line (usage (c_words c))].
    split; [reflexivity|]. exact E2.
  Qed.
  (** C77: so is a letter that stands for no flag. *)
  Theorem C77_unknown_letter : forall c items letter rest s,
    In c commands -> Forall (item_ok csv c) items ->
    letter <> "h"%char -> letter <> "-"%char -> ~ In letter (map snd (c_letters c)) ->
    exists s' l m,
      prototool (c_words c ++ concat (map (spell c) items) ++ String "-" (String letter "") :: rest) s = (s', 1%Z) /\
      only_text s s' (l ++ [m +++ String newline ""]) /\ has_prefix m "unknown shorthand flag: " = true.
  Proof.
    intros c items letter rest s Hc I Nh Nd U.
    destruct (commands_ok c Hc) as (t & L).
    rewrite (reach csv goos getenv getwd parse_duration usage help suggestions help_topic exec t c _ os L).
    unfold execute. rewrite (flags_at_all t c L).
    destruct (items_read csv false t c items (String "-" (String letter "") :: rest)
      (mk_parsed initial_flags false false []) [] L I (state_0 csv)) as (p & E & _).
    rewrite E, (parse_short_word csv _ letter "" rest p Nd).
    assert (Q : forall next, parse_short csv (all_flags t) (String letter "") next p =
      Err ("unknown shorthand flag: " +++ quote_byte letter +++ " in -" +++ String letter "")).
    { intros next. cbn [parse_short]. rewrite (lookup_short_unknown c t letter Hc L Nh U).
      assert (P : has_prefix (String letter "") "test." = false).
      { cbn [has_prefix]. destruct (Ascii.eqb "t" letter); reflexivity. }
      now rewrite P. }
    assert (Q' : match rest with
      | [] => do r <- parse_short csv (all_flags t) (String letter "") None p; Ok (fst r)
      | v :: rest' => do r <- parse_short csv (all_flags t) (String letter "") (Some v) p;
          if snd r then parse_args csv (all_flags t) rest' (fst r) else parse_args csv (all_flags t) rest (fst r)
      end = Err ("unknown shorthand flag: " +++ quote_byte letter +++ " in -" +++ String letter "")).
    { destruct rest as [| v rest]; rewrite Q; reflexivity. }
    rewrite Q'.
    destruct (cobra_error_does ("unknown shorthand flag: " +++ quote_byte letter +++ " in -" +++ String letter "")
      (line (usage (c_words c))) s) as (s' & E1 & E2); [discriminate|].
    rewrite E1. exists s'. do 2 eexists. split; [reflexivity|].
    split; [|instantiate (1 := "unknown shorthand flag: " +++ quote_byte letter +++ " in -" +++ String letter ""); reflexivity].
    match type of E2 with only_text _ _ [?x; _] => instantiate (1 := [x]) end. exact E2.
  Qed.
  (** C77: too few or too many arguments are reported, and nothing is run. *)
  Theorem C77_number : forall c items more s,
    In c commands -> Forall (item_ok csv c) items ->
    ~ number_ok c (length (arguments items ++ tail_args more)) ->
    exists s' l, prototool (c_words c ++ concat (map (spell c) items) ++ tail_words more) s = (s', 1%Z) /\ only_text s s' l /\ l <> [].
  Proof.
    intros c items more s Hc I N. destruct (commands_ok c Hc) as (t & L).
    destruct (line_read csv t c items more L I) as (p & E & A & H & Ha).
    rewrite (reach csv goos getenv getwd parse_duration usage help suggestions help_topic exec t c _ os L).
    unfold execute. rewrite (flags_at_all t c L), E, H.
    pose proof L as (L1 & _ & _ & L4 & _). rewrite L1.
    destruct (rule_bad t c (c_words c) (p_args p) L4) as (m & -> & M); [now rewrite Ha|].
    destruct (cobra_error_does m (line (usage (c_words c))) s M) as (s' & E1 & E2).
    rewrite E1. do 2 eexists. split; [reflexivity|]. split; [exact E2 | discriminate].
  Qed.
  (** C77: a flag without its value at the end of a line is reported, and nothing is run. *)
  Theorem C77_no_value : forall c items name s,
    In c commands -> Forall (item_ok csv c) items -> takes c name Text \/ takes c name Repeated ->
    exists s' l, prototool (c_words c ++ concat (map (spell c) items) ++ ["--" +++ name]) s = (s', 1%Z) /\ only_text s s' l /\ l <> [].
  Proof.
    intros c items name s Hc I T. destruct (commands_ok c Hc) as (t & L).
    rewrite (reach csv goos getenv getwd parse_duration usage help suggestions help_topic exec t c _ os L).
    unfold execute. rewrite (flags_at_all t c L).
    destruct (items_read csv false t c items ["--" +++ name] (mk_parsed initial_flags false false []) [] L I (state_0 csv)) as (p & E & _).
    rewrite E. clear E.
    assert (F : exists f, lookup name (all_flags t) = Some f /\ fine name = true /\ takes_value f = true).
    { pose proof L as (_ & Hf & _). rewrite Forall_forall in Hf. unfold takes in T.
      destruct T as [T | T]; destruct (Hf _ T) as ((f & F1 & (_ & F2)) & F3 & _); cbn [fst snd] in *; exists f;
        (split; [exact F1 | split; [exact F3|]]); unfold takes_value; [destruct F2 as (g & -> & _) | destruct F2 as (-> & _)]; reflexivity. }
    destruct F as (f & F1 & F2 & F3).
    rewrite <- (sapp_nil name), (parse_long csv _ name [] p F2 "").
    rewrite sapp_nil, (cut_equals_none name (fine_no_equals name F2)), F1, F3. cbn [negb].
    destruct (cobra_error_does ("flag needs an argument: " +++ "--" +++ name) (line (usage (c_words c))) s) as (s' & E1 & E2); [discriminate|].
    rewrite E1. do 2 eexists. split; [reflexivity|]. split; [exact E2 | discriminate].
  Qed.
  (** C77: a line of flags and arguments with --help or -h in it shows the help of the command,
      and nothing is run, whatever else the line says. *)
  Theorem C77_help : forall c items word items' more s,
    In c commands -> Forall (item_ok csv c) items -> Forall (item_ok csv c) items' -> word = "--help" \/ word = "-h" ->
    exists s', prototool (c_words c ++ concat (map (spell c) items) ++ word :: concat (map (spell c) items') ++ tail_words more) s = (s', 0%Z) /\
      only_text s s' [help (c_words c)].
  Proof.
    intros c items word items' more s Hc I I' W. destruct (commands_ok c Hc) as (t & L).
    rewrite (reach csv goos getenv getwd parse_duration usage help suggestions help_topic exec t c _ os L).
    unfold execute. rewrite (flags_at_all t c L).
    destruct (items_read csv false t c items (word :: concat (map (spell c) items') ++ tail_words more)
      (mk_parsed initial_flags false false []) [] L I (state_0 csv)) as (p & E & S).
    rewrite E. clear E.
    assert (Lh : lookup_short "h"%char (all_flags t) = Some help_flag /\ lookup "help" (all_flags t) = Some help_flag).
    { clear - Hc L. destruct L as (L & _). cbn [In commands] in Hc.
      repeat (destruct Hc as [<- | Hc]; [cbn [c_words] in L; injection L as <-; split; reflexivity|]). destruct Hc. }
    assert (P : parse_args csv (all_flags t) (word :: concat (map (spell c) items') ++ tail_words more) p =
      parse_args csv (all_flags t) (concat (map (spell c) items') ++ tail_words more) (mk_parsed (p_flags p) (p_header_set p) true (p_args p))).
    { destruct W as [-> | ->].
      - change "--help" with ("--" +++ "help" +++ ""). rewrite (parse_long csv (all_flags t) "help" _ p eq_refl "").
        change (cut_equals ("help" +++ "")) with ("help", @None string). cbv iota beta. destruct Lh as (_ & ->). reflexivity.
      - change "-h" with (String "-" (String "h" "")). rewrite parse_short_word by discriminate.
        destruct Lh as (Lh & _).
        assert (Q : forall next, parse_short csv (all_flags t) (String "h" "") next p = Ok (mk_parsed (p_flags p) (p_header_set p) true (p_args p), false)).
        { intros next. cbn [parse_short]. rewrite Lh. reflexivity. }
        destruct (concat (map (spell c) items') ++ tail_words more) as [| r rest]; rewrite Q; reflexivity. }
    rewrite P. clear P.
    destruct S as (S1 & S2 & _ & S4).
    destruct (items_read csv true t c items' (tail_words more) (mk_parsed (p_flags p) (p_header_set p) true (p_args p)) items L I')
      as (p' & E' & S'); [split; [exact S1 | split; [exact S2 | split; [reflexivity | exact S4]]]|].
    rewrite E'. destruct S' as (_ & _ & S3 & _).
    assert (Q : exists p2, parse_args csv (all_flags t) (tail_words more) p' = Ok p2 /\ p_help p2 = true).
    { destruct more as [l |]; [|exists p'; split; [reflexivity | exact S3]].
      exists (add_args l p'). split; [reflexivity | exact S3]. }
    destruct Q as (p2 & -> & ->). exists (mk_io (io_disk s) (io_done s ++ [Printed (help (c_words c))])).
    split; [reflexivity | now split].
  Qed.
  (** C77, refuted: the value of --header does not reach the call as it was given: a comma
      splits it. *)
  Theorem C77_header_comma_refuted : csv "k:a,b" = Ok ["k:a"; "b"] -> parse_duration "3s" = Ok 3000000000%Z ->
    forall dir s, getwd = Ok dir ->
    exists address method r, 
      prototool ["grpc"; "--address"; address; "--method"; method; "--data"; "{}"; "-H"; "k:a,b"] s =
      process (exec r (CallGRPC [] ["k:a"; "b"] address method "{}" "60s" "10s" "" false false false false "" "" "" "")) s.
  Proof.
    intros C P dir s G. exists "localhost:8080", "pkg.Service/Method".
    eexists. unfold Cmd_Model.prototool.
    assert (E : mem goos ["darwin"; "linux"] = true) by (destruct os as [-> | ->]; reflexivity).
    rewrite E. cbn [negb]. 
    match goal with |- context [find_command 4 [] ?a] => 
      change (find_command 4 [] a) with (["grpc"], ["--address"; "localhost:8080"; "--method"; "pkg.Service/Method"; "--data"; "{}"; "-H"; "k:a,b"]) end.
    cbv iota beta. unfold execute.
    match goal with |- context [parse_args csv ?f ?a ?p] => 
      assert (Q : exists p', parse_args csv f a p = Ok p' /\ agree csv (p_flags p') 
        [Given "address" LongSpace "localhost:8080"; Given "method" LongSpace "pkg.Service/Method"; Given "data" LongSpace "{}"; Given "header" ShortSpace "k:a,b"] /\ p_help p' = false /\ p_args p' = []) end.
    { destruct (commands_ok (nth 12 commands (mk_command [] [] [] 0 None))) as (t & L); [cbn; tauto|].
      pose proof (flags_at_all t _ L) as Fl. cbn [nth commands c_words] in Fl. rewrite Fl. clear Fl.
      destruct (line_read csv t _ 
        [Given "address" LongSpace "localhost:8080"; Given "method" LongSpace "pkg.Service/Method"; Given "data" LongSpace "{}"; Given "header" ShortSpace "k:a,b"] None L) as (p & P1 & P2 & P3 & P4).
      - repeat apply Forall_cons; [| | | | apply Forall_nil].
        + split; [intros [X | [X | X]]; discriminate | split; [discriminate|]]. exists Text. split; [unfold takes; cbn; tauto | split; discriminate].
        + split; [intros [X | [X | X]]; discriminate | split; [discriminate|]]. exists Text. split; [unfold takes; cbn; tauto | split; discriminate].
        + split; [intros [X | [X | X]]; discriminate | split; [discriminate|]]. exists Text. split; [unfold takes; cbn; tauto | split; discriminate].
        + split; [cbn; tauto | split; [discriminate|]]. exists Repeated. split; [unfold takes; cbn; tauto | split; [discriminate | split; [discriminate | eauto]]].
      - exists p. split; [exact P1 | auto]. }
    destruct Q as (p & -> & (A1 & A2 & A3) & H & Ha). rewrite H.
    change (template_at ["grpc"]) with (Some grpc_template). cbv iota beta.
    rewrite Ha. change (validate_args ["grpc"] (t_args grpc_template) []) with (@Ok unit tt). cbv iota beta.
    unfold check_cmd. rewrite (runner_is csv getenv getwd parse_duration _ _ (conj A1 (conj A2 A3)) (Ok 3000000000%Z)) by exact (eq_sym P).
    rewrite G. cbn [bind].
    unfold process at 1. unfold and_then at 1, check at 1. unfold ret at 1.
    cbn [t_call grpc_template]. rewrite !A1, !A2, A3. 
    unfold headers. cbn [sname bname]. unfold process.
    change (values [Given "address" LongSpace "localhost:8080"; Given "method" LongSpace "pkg.Service/Method"; Given "data" LongSpace "{}"; Given "header" ShortSpace "k:a,b"] "header") with ["k:a,b"].
    cbn [map concat]. rewrite C. reflexivity.
  Qed.
End Cmd.

Section Environment.
  Variable goos : string.
  Variable getwd : result string.
  Variable parse_duration : string -> result Z.
  Variable csv : string -> result (list string).
  Variable usage help : list string -> string.
  Variable suggestions : string -> string.
  Variable help_topic : list string -> string.
  Variable exec : runner -> call -> cmd unit.
  Notation prototool getenv := (prototool goos getenv getwd parse_duration csv usage help suggestions help_topic exec).
  Hypothesis os : goos = "darwin" \/ goos = "linux".

  (** C78: no other variable has an influence on which call is made with which options. *)
  Theorem C78_no_other : forall getenv getenv' args s,
    (forall v f, In (v, f) stands_for -> getenv v = getenv' v) ->
    prototool getenv args s = prototool getenv' args s.
  Proof.
    intros getenv getenv' args s H.
    assert (R : forall fl, get_runner getenv getwd parse_duration fl = get_runner getenv' getwd parse_duration fl).
    { intros fl. unfold get_runner, or_env.
      rewrite (H "PROTOTOOL_CACHE_PATH" "cache-path"), (H "PROTOTOOL_PROTOC_BIN_PATH" "protoc-bin-path"),
        (H "PROTOTOOL_PROTOC_WKT_PATH" "protoc-wkt-path") by (cbn; tauto). reflexivity. }
    assert (X : forall path rest, execute getenv getwd parse_duration csv usage help help_topic exec path rest s =
      execute getenv' getwd parse_duration csv usage help help_topic exec path rest s).
    { intros path rest. unfold execute. destruct (parse_args _ _ _ _) as [p | m]; [|reflexivity].
      destruct (p_help p); [reflexivity|]. destruct (template_at path); [|reflexivity].
      destruct (validate_args _ _ _); [|reflexivity]. unfold check_cmd. now rewrite R. }
    unfold Cmd_Model.prototool. destruct (negb _); [reflexivity|].
    destruct (find_command 4 [] args) as [[| w path] rest]; [|apply X].
    destruct (strip_flags (flags_at []) rest); [apply X | reflexivity].
  Qed.
  (** C78: a flag that is given, and not empty, hides the variable. *)
  Theorem C78_flag_wins : forall getenv getenv' c items more s v f,
    In c commands -> Forall (item_ok csv c) items ->
    number_ok c (length (arguments items ++ tail_args more)) ->
    In (v, f) stands_for -> text items f <> "" ->
    (forall v', v' <> v -> getenv v' = getenv' v') ->
    prototool getenv (c_words c ++ concat (map (spell c) items) ++ tail_words more) s =
    prototool getenv' (c_words c ++ concat (map (spell c) items) ++ tail_words more) s.
  Proof.
    intros getenv getenv' c items more s v f Hc I N V T G.
    assert (W : exists walk, walk_asked parse_duration items walk).
    { unfold walk_asked. destruct (String.eqb _ _); eauto. }
    destruct W as (walk & W).
    destruct (line_runs csv goos getenv getwd parse_duration usage help suggestions help_topic exec c items more walk os Hc I N W) as (k & K & E).
    destruct (line_runs csv goos getenv' getwd parse_duration usage help suggestions help_topic exec c items more walk os Hc I N W) as (k' & K' & E').
    assert (k = k') by congruence. subst k'. rewrite E, E'.
    assert (O : forall dir w, options getenv dir w items = options getenv' dir w items).
    { intros dir w. unfold options, flag_else.
      cbn [In stands_for] in V.
      destruct V as [V | [V | [V | []]]]; injection V as <- <-; apply String.eqb_neq in T; rewrite T;
        rewrite ?(G "PROTOTOOL_CACHE_PATH"), ?(G "PROTOTOOL_PROTOC_BIN_PATH"), ?(G "PROTOTOOL_PROTOC_WKT_PATH") by discriminate;
        reflexivity. }
    destruct walk as [w | m]; [|reflexivity]. cbn [bind]. destruct getwd as [dir | m]; [|reflexivity]. cbn [bind]. now rewrite O.
  Qed.
  (** C78: otherwise the variable has the effect of the flag. *)
  Theorem C78_variable : forall getenv c items more s v f,
    In c commands -> Forall (item_ok csv c) items ->
    number_ok c (length (arguments items ++ tail_args more)) ->
    In (v, f) stands_for -> takes c f Text -> text items f = "" ->
    prototool getenv (c_words c ++ concat (map (spell c) items) ++ tail_words more) s =
    prototool getenv (c_words c ++ concat (map (spell c) (items ++ [Given f LongEquals (getenv v)])) ++ tail_words more) s.
  Proof.
    intros getenv c items more s v f Hc I N V T E0.
    set (i := Given f LongEquals (getenv v)).
    assert (I' : Forall (item_ok csv c) (items ++ [i])).
    { apply Forall_app; split; [exact I|]. constructor; [|constructor]. cbn.
      split; [intros [X | [X | X]]; discriminate | split; [discriminate|]]. exists Text. split; [exact T | split; discriminate]. }
    assert (A : arguments (items ++ [i]) = arguments items) by (rewrite arguments_snoc; apply app_nil_r).
    assert (Nf : f <> "header" /\ f <> "walk-timeout" /\ f <> "json" /\ f <> "config-data" /\ f <> "error-format" /\ f <> "protoc-url").
    { cbn [In stands_for] in V. destruct V as [V | [V | [V | []]]]; injection V as <- <-; repeat split; discriminate. }
    assert (W : exists walk, walk_asked parse_duration items walk).
    { unfold walk_asked. destruct (String.eqb _ _); eauto. }
    destruct W as (walk & W).
    assert (W' : walk_asked parse_duration (items ++ [i]) walk).
    { unfold walk_asked in *. unfold i. rewrite text_snoc.
      destruct (String.eqb_spec f "walk-timeout"); [tauto | exact W]. }
    destruct (line_runs csv goos getenv getwd parse_duration usage help suggestions help_topic exec c items more walk os Hc I N W) as (k & K & E).
    destruct (line_runs csv goos getenv getwd parse_duration usage help suggestions help_topic exec c (items ++ [i]) more walk os Hc I') as (k' & K' & E'); [now rewrite A | exact W' |].
    assert (k = k').
    { rewrite A in K'.
      assert (Q : asked csv c items (arguments items ++ tail_args more) = asked csv c (items ++ [i]) (arguments items ++ tail_args more)).
      { assert (Hh : headers csv (items ++ [i]) = headers csv items).
        { unfold i. rewrite headers_snoc. destruct (String.eqb_spec f "header"); [tauto | apply app_nil_r]. }
        assert (Hv : forall n, n <> f -> text (items ++ [i]) n = text items n /\ on (items ++ [i]) n = on items n).
        { intros n Nn. unfold i. rewrite text_snoc, on_snoc. destruct (String.eqb_spec f n); [congruence | auto]. }
        clear - Hc Hh Hv V. cbn [In stands_for] in V.
        assert (Ht : forall n, mem n ["cache-path"; "protoc-bin-path"; "protoc-wkt-path"] = false -> text (items ++ [i]) n = text items n).
        { intros n M. apply Hv. intros ->. destruct V as [V | [V | [V | []]]]; injection V as _ <-; discriminate. }
        assert (Ho : forall n, mem n ["cache-path"; "protoc-bin-path"; "protoc-wkt-path"] = false -> on (items ++ [i]) n = on items n).
        { intros n M. apply Hv. intros ->. destruct V as [V | [V | [V | []]]]; injection V as _ <-; discriminate. }
        cbn [In commands] in Hc.
        repeat (destruct Hc as [<- | Hc]; [unfold asked; cbn [c_words]; rewrite ?Hh; repeat (rewrite Ht by reflexivity); repeat (rewrite Ho by reflexivity); reflexivity|]).
        destruct Hc. }
      congruence. }
    subst k'. rewrite E, E'.
    assert (O : forall dir w, options getenv dir w items = options getenv dir w (items ++ [i])).
    { intros dir w. unfold options, i. rewrite !text_snoc, !on_snoc.
      clear - V E0. cbn [In stands_for] in V.
      destruct V as [V | [V | [V | []]]]; injection V as <- <-; cbn [String.eqb Ascii.eqb Bool.eqb]; rewrite E0; unfold flag_else;
        cbn [String.eqb]; f_equal; destruct (getenv _); reflexivity. }
    destruct walk as [w | m]; [|reflexivity]. cbn [bind]. destruct getwd as [dir | m]; [|reflexivity]. cbn [bind]. now rewrite O.
  Qed.
End Environment.

(** C76: on another system than Linux or macOS nothing is run. *)
Theorem C76_other_system : forall goos getenv getwd parse_duration csv usage help suggestions help_topic exec args s,
  goos <> "darwin" -> goos <> "linux" ->
  exists s', prototool goos getenv getwd parse_duration csv usage help suggestions help_topic exec args s = (s', 1%Z) /\
    only_text s s' [goos +++ " is not a supported operating system" +++ String newline ""].
Proof.
  intros goos getenv getwd pd csv usage help sug ht exec args s D L. unfold prototool.
  assert (E : mem goos ["darwin"; "linux"] = false).
  { unfold mem. cbn [existsb]. apply String.eqb_neq in D, L. now rewrite D, L. }
  rewrite E. cbn [negb]. unfold process, fail, println.
  destruct (is_empty (goos +++ " is not a supported operating system")) eqn:Em; [destruct goos; discriminate|].
  exists (mk_io (io_disk s) (io_done s ++ [Printed (goos +++ " is not a supported operating system" +++ String newline "")])).
  split; [|now split]. unfold print, emit. cbn [fst]. now rewrite sapp_assoc.
Qed.

(** A world for the examples: PROTOTOOL_CACHE_PATH is set, and what is run says what it is. *)
Definition exw_env (v : string) : string := if String.eqb v "PROTOTOOL_CACHE_PATH" then "/cache" else "".
Definition exw_dur (v : string) : result Z :=
  if String.eqb v "3s" then Ok 3000000000%Z else if String.eqb v "1m" then Ok 60000000000%Z else Err ("time: invalid duration " +++ v).
Definition exw_csv (v : string) : result (list string) := Ok (split_char "," v).
Definition exw_does (r : runner) (k : call) : cmd unit :=
  match k with
  | CallFormat _ _ _ true _ => exit255 ""
  | CallFormat args o d l f => print (join " " args +++ " in " +++ r_work_dir r +++ " with " +++ r_cache_path r)
  | CallLint _ _ _ _ _ _ _ => fail "no"
  | _ => ret tt
  end.
Definition exw_tool (args : list string) : list event * Z :=
  let r := prototool "linux" exw_env (Ok "/w") exw_dur exw_csv (fun _ => "usage") (fun p => "help of " +++ join " " p) (fun _ => "") (fun _ => "topic") exw_does
    args (mk_io (fun _ => Err "no file") []) in
  (io_done (fst r), snd r).
Definition exw_format_cmd : command := nth 10 commands (mk_command [] [] [] 0 None).
Definition exw_grpc_cmd : command := nth 12 commands (mk_command [] [] [] 0 None).
Definition exw_items : list item :=
  [Given "fix" ShortAlone "true"; Plain "a"; Given "walk-timeout" LongSpace "1m"; Given "diff" LongEquals "false";
   Given "error-format" LongEquals "message"].
(** The statuses of C76. *)
Example C76_status_ex :
  exw_tool ["format"; "a"] = ([Printed "a in /w with /cache"], 0%Z) /\
  exw_tool ["format"; "-l"] = ([], 255%Z) /\
  exw_tool ["lint"] = ([Printed ("no" +++ String newline "")], 1%Z) /\
  exw_tool [] = ([Printed "help of "], 0%Z) /\
  exw_tool ["help"; "lint"] = ([Printed "topic"], 0%Z) /\
  snd (exw_tool ["lnt"]) = 1%Z /\
  exw_tool ["x"; "inspect"; "packages"; "--name"; "p"] =
    ([Printed ("Error: unknown flag: --name" +++ String newline "" +++ "usage" +++ String newline "");
      Printed ("unknown flag: --name" +++ String newline "")], 1%Z).
Proof. vm_compute. repeat split. Qed.
(** The hypotheses of C77 and C78 hold for a line with flags of several kinds. *)
Example C77_meaning_ex :
  In exw_format_cmd commands /\ Forall (item_ok exw_csv exw_format_cmd) exw_items /\
  number_ok exw_format_cmd (length (arguments exw_items ++ tail_args None)) /\
  walk_asked exw_dur exw_items (Ok 60000000000%Z) /\
  c_words exw_format_cmd ++ concat (map (spell exw_format_cmd) exw_items) ++ tail_words None =
    ["format"; "-f"; "a"; "--walk-timeout"; "1m"; "--diff=false"; "--error-format=message"] /\
  asked exw_csv exw_format_cmd exw_items ["a"] = Some (CallFormat ["a"] false false false true).
Proof.
  split; [cbn; tauto|]. split; [|split; [|split; [|split]]].
  - repeat apply Forall_cons; [| | | | | apply Forall_nil].
    + split; [intros _; cbn; tauto | split; [discriminate|]]. exists OnOff. split; [unfold takes; cbn; tauto | reflexivity].
    + right. discriminate.
    + split; [intros [X | [X | X]]; discriminate | split; [discriminate|]]. exists Text. split; [unfold takes; cbn; tauto | split; discriminate].
    + split; [intros [X | [X | X]]; discriminate | split; [discriminate|]]. exists OnOff. split; [unfold takes; cbn; tauto | now right].
    + split; [intros [X | [X | X]]; discriminate | split; [discriminate|]]. exists Text. split; [unfold takes; cbn; tauto | split; discriminate].
  - split; cbn; lia.
  - reflexivity.
  - reflexivity.
  - reflexivity.
Qed.
Example C77_order_ex :
  let items := [Given "fix" LongEquals "true"; Given "fix" ShortAlone "true"; Plain "a"] in
  let items' := [Plain "a"; Given "fix" LongAlone "true"; Given "fix" ShortEquals "true"] in
  (forall name, values items name = values items' name) /\ arguments items ++ tail_args None = arguments items' ++ tail_args None /\
  exw_tool ["format"; "--fix=true"; "-f"; "a"] = exw_tool ["format"; "a"; "--fix"; "-f=true"].
Proof. cbv zeta. split; [intros name; reflexivity|]. split; vm_compute; reflexivity. Qed.
Example C77_unknown_flag_ex : flag_word "git-branch" /\ forall k, ~ takes exw_format_cmd "git-branch" k.
Proof.
  split.
  - repeat split; try discriminate. intros a b H.
    assert (X : sexists (Ascii.eqb "=") "git-branch" = sexists (Ascii.eqb "=") (a +++ "=" +++ b)) by now rewrite <- H.
    assert (Y : forall x, sexists (Ascii.eqb "=") (x +++ "=" +++ b) = true).
    { intros x. induction x as [| c x IH]; [reflexivity|]. cbn [String.append sexists]. change ("=" +++ b) with (String "=" b) in *.
      cbn [String.append] in IH. rewrite IH. apply orb_true_r. }
    rewrite Y in X. discriminate.
  - intros k H. unfold takes in H. cbn in H. repeat (destruct H as [H | H]; [discriminate|]). destruct H.
Qed.
Example C77_unknown_letter_ex : ~ In "o"%char (map snd (c_letters exw_format_cmd)).
Proof. cbn. intros H. repeat (destruct H as [H | H]; [discriminate|]). destruct H. Qed.
Example C77_number_ex : ~ number_ok exw_format_cmd (length (arguments [Plain "a"] ++ tail_args (Some ["-b"]))).
Proof. unfold number_ok. cbn. lia. Qed.
Example C77_bad_time_ex : exw_dur (text [Given "walk-timeout" LongEquals "soon"] "walk-timeout") = Err "time: invalid duration soon".
Proof. reflexivity. Qed.
Example C77_no_value_ex : takes exw_grpc_cmd "address" Text /\ takes exw_grpc_cmd "header" Repeated.
Proof. unfold takes. cbn. tauto. Qed.
Example C77_help_ex :
  exw_tool ["format"; "-f"; "a"; "--help"; "b"; "c"; "--"; "-d"] = ([Printed "help of format"], 0%Z).
Proof. vm_compute. reflexivity. Qed.
Example C77_header_comma_ex : exw_csv "k:a,b" = Ok ["k:a"; "b"] /\ exw_dur "3s" = Ok 3000000000%Z.
Proof. split; reflexivity. Qed.
Example C78_variable_ex :
  takes exw_format_cmd "cache-path" Text /\ text exw_items "cache-path" = "" /\
  exw_tool ["format"; "a"] = exw_tool ["format"; "a"; "--cache-path=/cache"].
Proof. split; [unfold takes; cbn; tauto|]. split; vm_compute; reflexivity. Qed.
Example C78_flag_wins_ex :
  text (Given "cache-path" LongSpace "/other" :: exw_items) "cache-path" <> "" /\
  exw_tool ["format"; "a"; "--cache-path"; "/other"] = ([Printed "a in /w with /other"], 0%Z).
Proof. split; [discriminate | vm_compute; reflexivity]. Qed.
Example C78_no_other_ex : (forall v f, In (v, f) stands_for -> exw_env v = (fun v => if String.eqb v "HOME" then "/h" else exw_env v) v) /\
  exw_env "HOME" <> "/h".
Proof.
  split; [|discriminate]. intros v f H. cbn in H. destruct H as [H | [H | [H | []]]]; injection H as <- <-; reflexivity.
Qed.
Example C76_other_system_ex : "windows" <> "darwin" /\ "windows" <> "linux".
Proof. split; discriminate. Qed.

Print Assumptions C76_status.
Print Assumptions C76_other_system.
Print Assumptions C76_mistyped_refuted.
Print Assumptions C77_meaning.
Print Assumptions C77_bad_time.
Print Assumptions C77_order.
Print Assumptions C77_unknown_flag.
Print Assumptions C77_unknown_letter.
Print Assumptions C77_number.
Print Assumptions C77_no_value.
Print Assumptions C77_help.
Print Assumptions C77_header_comma_refuted.
Print Assumptions C78_no_other.
Print Assumptions C78_flag_wins.
Print Assumptions C78_variable.
