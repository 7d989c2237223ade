(** C77: what is said of a command line that cannot be read. *)
From Verif Require Import GoStrFacts GoFmt Cmd_Spec Cmd_Text_Spec Cmd_Proofs Cmd_Proofs2 Cmd_Proofs3 Cmd_Proofs4 Props_Cmd Props_Cmd2.
From Coq Require Import Lia.

Lemma shorts_are : forall c t, In c commands -> line_ok t c ->
  forallb (fun n => match lookup (fst n) (all_flags t) with
    | Some f => String.eqb (fl_name f) (fst n) &&
        String.eqb (match fl_short f with Some l => "-" +++ String l ", " | None => "" end +++ "--" +++ fl_name f) (flag_names c (fst n))
    | None => false end) (("debug", OnOff) :: c_flags c) = true.
Proof.
  intros c t H (L & _). cbn [In commands] in H.
  repeat (destruct H as [<- | H]; [vm_compute in L; injection L as <-; vm_compute; reflexivity|]). destruct H.
Qed.
Lemma letters_plain : forall c n l, In c commands -> In (n, l) (c_letters c) -> quote_byte l = "'" +++ String l "'".
Proof.
  intros c n l H I. cbn [In commands] in H.
  repeat (destruct H as [<- | H]; [cbn [c_letters In] in I; repeat (destruct I as [I | I]; [injection I as <- <-; reflexivity|]); destruct I|]). destruct H.
Qed.
Lemma quote_byte_plain l : shows_itself l -> l <> dquote -> quote_byte l = "'" +++ String l "'".
Proof.
  intros ((A & B) & C & D) E. unfold quote_byte. destruct (Ascii.eqb_spec l "'"); [contradiction|]. destruct (Ascii.eqb_spec l dquote); [contradiction|].
  unfold quote_char. destruct (Ascii.eqb_spec l dquote); [contradiction|]. destruct (Ascii.eqb_spec l backslash); [contradiction|]. cbn [orb].
  assert (Q : forall k, k < 32 -> (code l =? k) = false) by (intros k K; apply Nat.eqb_neq; lia).
  rewrite !Q by lia. replace (code l <? 32) with false by (symmetry; apply Nat.ltb_ge; lia).
  replace (code l =? 127) with false by (symmetry; apply Nat.eqb_neq; lia). reflexivity.
Qed.
Lemma quote_byte_shows l : shows_itself l -> quote_byte l = "'" +++ String l "'".
Proof. intros H. destruct (Ascii.eqb_spec l dquote) as [-> | N]; [reflexivity|]. now apply quote_byte_plain. Qed.

Lemma quote_byte_said l t : shows l t -> quote_byte l = "'" +++ t +++ "'".
Proof. intros [(S & ->)|([-> | ->] & ->)]; [now apply quote_byte_shows|reflexivity..]. Qed.

Section CmdText.
  Variable goos : string.
  Variable getenv : string -> string.
  Variable getwd : result string.
  Variable parse_duration : string -> result Z.
  Variable csv : string -> result (list string).
  Variable usage help : list string -> string.
  Variable suggestions : string -> string.
  Variable help_topic : list string -> string.
  Variable exec : runner -> call -> cmd unit.
  Notation prototool := (prototool goos getenv getwd parse_duration csv usage help suggestions help_topic exec).
  Hypothesis os : goos = "darwin" \/ goos = "linux".

  Lemma says : forall t c items rest m s, line_ok t c -> Forall (item_ok csv c) items -> m <> "" ->
    (forall p, parse_args csv (all_flags t) rest p = Err m) ->
    exists s', prototool (c_words c ++ concat (map (spell c) items) ++ rest) s = (s', 1%Z) /\
      only_text s s' ["Error: " +++ m +++ String newline "" +++ usage (c_words c) +++ String newline ""; m +++ String newline ""].
  Proof.
    intros t c items rest m s L I N E.
    rewrite (reach csv goos getenv getwd parse_duration usage help suggestions help_topic exec t c _ os L).
    unfold execute. rewrite (flags_at_all t c L).
    destruct (items_read csv false t c items rest (mk_parsed initial_flags false false []) [] L I (state_0 csv)) as (p & -> & _).
    rewrite E. exact (cobra_error_does m (line (usage (c_words c))) s N).
  Qed.
  Lemma named_flag : forall t c name k, In c commands -> line_ok t c -> takes c name k ->
    exists f, lookup name (all_flags t) = Some f /\ fine name = true /\
      match fl_short f with Some l => "-" +++ String l ", " | None => "" end +++ "--" +++ fl_name f = flag_names c name /\
      takes_value f = match k with OnOff => false | _ => true end /\
      match k with OnOff => exists g, fl_target f = ToBool g | Text => True | Repeated => fl_target f = ToHeaders end.
  Proof.
    intros t c name k Hc L T. pose proof (shorts_are c t Hc L) as S. rewrite forallb_forall in S. specialize (S _ T). cbn [fst] in S.
    pose proof L as (_ & Hf & _). rewrite Forall_forall in Hf. destruct (Hf _ T) as ((f & F1 & (_ & F2)) & F3 & _). cbn [fst snd] in *.
    rewrite F1 in S. apply andb_true_iff in S as (_ & S). apply String.eqb_eq in S.
    exists f. split; [exact F1|]. split; [exact F3|]. split; [exact S|]. unfold takes_value.
    destruct k; [destruct F2 as (g & -> & _) | destruct F2 as (g & -> & _) | destruct F2 as (-> & _)]; split; try reflexivity; eauto.
  Qed.

  (** C77: of a line that cannot be read the program says why, twice: once behind "Error: " and before the
      usage of the command, and once alone. Nothing is run, and the status is 1. *)
  Theorem C77_said : forall c items rest m s,
    In c commands -> Forall (item_ok csv c) items -> unreadable csv c items rest m ->
    exists s', prototool (c_words c ++ concat (map (spell c) items) ++ rest) s = (s', 1%Z) /\
      only_text s s' ["Error: " +++ m +++ String newline "" +++ usage (c_words c) +++ String newline ""; m +++ String newline ""].
  Proof.
    intros c items rest m s Hc I U. destruct (commands_ok c Hc) as (t & L).
    assert (Num : forall more, rest = tail_words more ->
      (forall args, args = arguments items ++ tail_args more -> validate_args (c_words c) (t_args t) args = Err m) -> m <> "" ->
      exists s', prototool (c_words c ++ concat (map (spell c) items) ++ rest) s = (s', 1%Z) /\
        only_text s s' ["Error: " +++ m +++ String newline "" +++ usage (c_words c) +++ String newline ""; m +++ String newline ""]).
    { intros more -> V M. destruct (line_read csv t c items more L I) as (p & E & A & H & Ha).
      rewrite (reach csv goos getenv getwd parse_duration usage help suggestions help_topic exec t c _ os L).
      unfold execute. rewrite (flags_at_all t c L), E, H.
      pose proof L as (L1 & _). rewrite L1, (V _ Ha). exact (cobra_error_does m (line (usage (c_words c))) s M). }
    pose proof L as (_ & _ & Hl & Hr & _). rewrite Forall_forall in Hl.
    destruct U as [name value rest Nh U Fw | letter shown more rest Nh Nd U Sh Nt | word rest W | name k T K | name letter k Il T K | name v rest T Nv | name v rest m T V
      | more a l L0 M0 A | more n M0 N | more N].
    - apply (says t); [assumption..|discriminate|]. intros p. pose proof (flag_word_fine name Fw) as Fn. rewrite (parse_long csv _ name rest p Fn).
      assert (Cut : fst (cut_equals (name +++ match value with Some v => "=" +++ v | None => "" end)) = name).
      { destruct value as [v |].
        - change ("=" +++ v) with (String "=" v). now rewrite (cut_equals_some name v (fine_no_equals name Fn)).
        - rewrite sapp_nil. now rewrite (cut_equals_none name (fine_no_equals name Fn)). }
      destruct (cut_equals _) as [n v]. cbn [fst] in Cut. subst n. now rewrite (lookup_unknown c t name Hc L Nh U).
    - apply (says t); [assumption..|discriminate|]. intros p. rewrite (parse_short_word csv _ letter more rest p Nd).
      assert (Q : forall next, parse_short csv (all_flags t) (String letter more) next p =
        Err ("unknown shorthand flag: '" +++ shown +++ "' in -" +++ String letter more)).
      { intros next. cbn [parse_short].
        assert (P : has_prefix (String letter more) "test." = false).
        { destruct (has_prefix (String letter more) "test.") eqn:P; [|reflexivity]. apply has_prefix_spec in P as (r & P). now destruct (Nt r). }
        rewrite P, (lookup_short_unknown c t letter Hc L Nh U), (quote_byte_said letter shown Sh), !sapp_assoc. reflexivity. }
      destruct rest as [| v rest]; rewrite Q; reflexivity.
    - apply (says t); [assumption..|discriminate|]. intros p. destruct W as (r & [-> | ->]); reflexivity.
    - apply (says t); [assumption..|discriminate|]. intros p. destruct (named_flag t c name k Hc L T) as (f & F1 & F2 & _ & F3 & _).
      rewrite <- (sapp_nil name) at 1. rewrite (parse_long csv _ name [] p F2 "").
      rewrite sapp_nil, (cut_equals_none name (fine_no_equals name F2)), F1, F3. destruct k; [reflexivity | now destruct K | reflexivity].
    - apply (says t); [assumption..|discriminate|]. intros p. destruct (Hl _ Il) as ((f & F1 & F2) & N1 & N2 & _). cbn [fst snd] in *.
      destruct (named_flag t c name k Hc L T) as (f' & G1 & _ & _ & G3 & _). rewrite F2 in G1. injection G1 as <-.
      rewrite (parse_short_word csv _ letter "" [] p N1). cbn [parse_short]. rewrite (no_test _ _ N2), F1, G3, (letters_plain c name letter Hc Il).
      destruct k; [reflexivity | now destruct K | reflexivity].
    - destruct (named_flag t c name OnOff Hc L T) as (f & F1 & F2 & F4 & F3 & g & G).
      apply (says t); [assumption..|discriminate|]. intros p. rewrite (parse_long csv _ name rest p F2). change ("=" +++ v) with (String "=" v).
      rewrite (cut_equals_some name _ (fine_no_equals name F2)), F1. unfold set_flag. rewrite G.
      assert (P : parse_bool v = Err ("strconv.ParseBool: parsing " +++ quote v +++ ": invalid syntax")).
      { unfold parse_bool. destruct (mem v ["1"; _; _; _; _; _]) eqn:M; [exfalso|destruct (mem v ["0"; _; _; _; _; _]) eqn:M'; [exfalso|reflexivity]];
          apply Nv; unfold mem in *; [rewrite existsb_exists in M; destruct M as (x & R & Q)|rewrite existsb_exists in M'; destruct M' as (x & R & Q)]; apply String.eqb_eq in Q; subst x; cbn in R |- *; tauto. }
      rewrite P, F4. reflexivity.
    - destruct (named_flag t c name Repeated Hc L T) as (f & F1 & F2 & F4 & F3 & G).
      apply (says t); [assumption..|discriminate|]. intros p. rewrite (parse_long csv _ name rest p F2). change ("=" +++ v) with (String "=" v).
      rewrite (cut_equals_some name _ (fine_no_equals name F2)), F1. unfold set_flag. rewrite G, V, F4. reflexivity.
    - apply (Num more eq_refl); [|discriminate]. intros args ->. rewrite A. unfold rule_fits in Hr. unfold validate_args.
      destruct (t_args t) as [| n | n] eqn:R; [reflexivity | |].
      + destruct Hr as (_ & Hr). rewrite M0 in Hr. injection Hr as <-.
        (* no template says so *) exfalso. clear - Hc L R M0. destruct L as (L & _). cbn [In commands] in Hc.
        repeat (destruct Hc as [<- | Hc]; [vm_compute in L; injection L as <-; first [discriminate R | discriminate M0]|]). destruct Hc.
      + destruct Hr as (_ & Hr). congruence.
    - apply (Num more eq_refl); [|discriminate]. intros args ->. unfold rule_fits in Hr. unfold validate_args.
      destruct (t_args t) as [| k | k]; destruct Hr as (_ & Hr); try congruence. rewrite M0 in Hr. injection Hr as <-.
      destruct (Nat.leb_spec (length (arguments items ++ tail_args more)) (S n)); [lia|reflexivity].
    - apply (Num more eq_refl); [|discriminate]. intros args ->. unfold rule_fits in Hr. unfold validate_args.
      destruct (t_args t) as [| k | k]; destruct Hr as (Hr & _); try lia. subst k.
      destruct (Nat.leb_spec (c_least c) (length (arguments items ++ tail_args more))); [lia|reflexivity].
  Qed.
End CmdText.
Print Assumptions C77_said.
(** Each of the reasons, for a command. *)
Example C77_said_ex :
  unreadable exw_csv exw_format_cmd exw_items ["-o"] "unknown shorthand flag: 'o' in -o" /\
  unreadable exw_csv exw_format_cmd exw_items ["--=x"; "y"] "bad flag syntax: --=x" /\
  unreadable exw_csv exw_format_cmd exw_items ["--walk-timeout"] "flag needs an argument: --walk-timeout" /\
  unreadable exw_csv exw_grpc_cmd [] ["-H"] "flag needs an argument: 'H' in -H" /\
  unreadable exw_csv exw_format_cmd exw_items ["--fix=yes"]
    ("invalid argument " +++ quote "yes" +++ " for " +++ quote "-f, --fix" +++ " flag: strconv.ParseBool: parsing " +++ quote "yes" +++ ": invalid syntax") /\
  unreadable exw_csv exw_format_cmd exw_items ["--"; "-b"] "accepts at most 1 arg(s), received 2" /\
  exw_tool ["format"; "a"; "--"; "-b"] =
    ([Printed ("Error: accepts at most 1 arg(s), received 2" +++ String newline "" +++ "usage" +++ String newline "");
      Printed ("accepts at most 1 arg(s), received 2" +++ String newline "")], 1%Z) /\
  unreadable exw_csv (nth 7 commands exw_format_cmd) [] [] "requires at least 1 arg(s), only received 0" /\
  unreadable exw_csv (nth 14 commands exw_format_cmd) [Plain "now"] [] ("unknown command " +++ quote "now" +++ " for " +++ quote "prototool version").
Proof.
  split; [apply (Unknown_letter exw_csv exw_format_cmd exw_items "o" "o" "" []); try discriminate;
    [cbn; intros H; repeat (destruct H as [H | H]; [discriminate|]); destruct H | left; split; [|reflexivity]; vm_compute; repeat split; try discriminate; lia ]|].
  split; [apply Bad_syntax; exists "x"; now left|].
  split; [apply (No_value _ exw_format_cmd _ "walk-timeout" Text); [unfold takes; cbn; tauto|discriminate]|].
  split; [apply (No_value_letter _ exw_grpc_cmd _ "header" "H" Repeated); [cbn; tauto|unfold takes; cbn; tauto|discriminate]|].
  split; [apply (Bad_word _ exw_format_cmd _ "fix" "yes" []); [unfold takes; cbn; tauto|cbn; intuition discriminate]|].
  split; [apply (Too_many _ exw_format_cmd exw_items (Some ["-b"]) 0); [reflexivity|cbn; lia]|].
  split; [vm_compute; reflexivity|].
  split; [apply (Too_few exw_csv (nth 7 commands exw_format_cmd) [] None); cbn; lia|].
  apply (None_allowed _ (nth 14 commands exw_format_cmd) [Plain "now"] None "now" []); reflexivity.
Qed.
