(** Proofs about command lines. *)
From Verif Require Import GoStrFacts Cmd_Spec.
From Coq Require Import Lia.

(** The names of the flags that set the variables. *)
Definition sname (f : string_flag) : string :=
  match f with
  | AddressFlag => "address"
  | CachePathFlag => "cache-path"
  | CallTimeoutFlag => "call-timeout"
  | ConfigDataFlag => "config-data"
  | ConnectTimeoutFlag => "connect-timeout"
  | DataFlag => "data"
  | DescriptorSetPathFlag => "descriptor-set-path"
  | DiffLintGroupsFlag => "diff-lint-groups"
  | ErrorFormatFlag => "error-format"
  | GitBranchFlag => "git-branch"
  | KeepaliveTimeFlag => "keepalive-time"
  | ListLintGroupFlag => "list-lint-group"
  | MethodFlag => "method"
  | NameFlag => "name"
  | OutputPathFlag => "output-path"
  | PkgFlag => "package"
  | ProtocURLFlag => "protoc-url"
  | ProtocBinPathFlag => "protoc-bin-path"
  | ProtocWKTPathFlag => "protoc-wkt-path"
  | CacertFlag => "cacert"
  | CertFlag => "cert"
  | KeyFlag => "key"
  | ServerNameFlag => "server-name"
  | WalkTimeoutFlag => "walk-timeout"
  end.
Definition bname (f : bool_flag) : string :=
  match f with
  | DebugFlag => "debug"
  | DetailsFlag => "details"
  | DiffModeFlag => "diff"
  | DisableFormatFlag => "disable-format"
  | DisableLintFlag => "disable-lint"
  | DryRunFlag => "dry-run"
  | DocumentFlag => "document"
  | FixFlag => "fix"
  | IncludeImportsFlag => "include-imports"
  | IncludeSourceInfoFlag => "include-source-info"
  | JsonFlag => "json"
  | LintModeFlag => "lint"
  | ListAllLintersFlag => "list-all-linters"
  | ListLintersFlag => "list-linters"
  | ListAllLintGroupsFlag => "list-all-lint-groups"
  | OverwriteFlag => "overwrite"
  | StdinFlag => "stdin"
  | UncommentFlag => "uncomment"
  | GenerateIgnoresFlag => "generate-ignores"
  | TmpFlag => "tmp"
  | TlsFlag => "tls"
  | InsecureFlag => "insecure"
  end.
Lemma sname_inj : forall f g, String.eqb (sname f) (sname g) = string_flag_beq f g.
Proof. intros f g; destruct f, g; reflexivity. Qed.
Lemma bname_inj : forall f g, String.eqb (bname f) (bname g) = bool_flag_beq f g.
Proof. intros f g; destruct f, g; reflexivity. Qed.

Lemma values_snoc : forall items n w v m,
  values (items ++ [Given n w v]) m = values items m ++ (if String.eqb n m then [v] else []).
Proof.
  intros. unfold values. rewrite map_app, concat_app. cbn [map concat]. now rewrite app_nil_r.
Qed.
Lemma values_plain : forall items a m, values (items ++ [Plain a]) m = values items m.
Proof.
  intros. unfold values. rewrite map_app, concat_app. cbn [map concat]. now rewrite !app_nil_r.
Qed.
Lemma last_snoc : forall (l : list string) x d, last (l ++ [x]) d = x.
Proof. intros l x d. apply last_last. Qed.
Lemma text_snoc : forall items n w v m,
  text (items ++ [Given n w v]) m = if String.eqb n m then v else text items m.
Proof.
  intros. unfold text. rewrite values_snoc. destruct (String.eqb n m).
  - apply last_snoc.
  - now rewrite app_nil_r.
Qed.
Lemma on_snoc : forall items n w v m,
  on (items ++ [Given n w v]) m = if String.eqb n m then String.eqb v "true" else on items m.
Proof.
  intros. unfold on. rewrite values_snoc. destruct (String.eqb n m).
  - now rewrite last_snoc.
  - now rewrite app_nil_r.
Qed.

Section Agree.
  Variable csv : string -> result (list string).

  Lemma headers_snoc : forall items n w v,
    headers csv (items ++ [Given n w v]) =
    headers csv items ++ (if String.eqb n "header" then match csv v with Ok l => l | Err _ => [] end else []).
  Proof.
    intros. unfold headers. rewrite values_snoc, map_app, concat_app. f_equal.
    destruct (String.eqb n "header"); cbn [map concat]; [apply app_nil_r | reflexivity].
  Qed.
  Lemma arguments_snoc : forall items i,
    arguments (items ++ [i]) = arguments items ++ match i with Plain a => [a] | Given _ _ _ => [] end.
  Proof.
    intros. unfold arguments. rewrite map_app, concat_app. cbn [map concat]. now rewrite app_nil_r.
  Qed.

  (** What was read is what is asked for. *)
  Definition agree (fl : flags) (items : list item) : Prop :=
    (forall f, fs_string fl f = text items (sname f)) /\
    (forall f, fs_bool fl f = on items (bname f)) /\
    fs_headers fl = headers csv items.
  Definition state (h : bool) (p : parsed) (items : list item) : Prop :=
    agree (p_flags p) items /\ (p_header_set p = false -> fs_headers (p_flags p) = []) /\
    p_help p = h /\ p_args p = arguments items.
  Lemma state_0 : state false (mk_parsed initial_flags false false []) [].
  Proof.
    repeat split; cbn -[initial_flags]; intros; try destruct f; vm_compute; reflexivity.
  Qed.

  Definition fits (f : flag) (n : string) (k : kind) : Prop :=
    fl_name f = n /\
    match k with
    | Text => exists g, fl_target f = ToString g /\ sname g = n
    | OnOff => exists g, fl_target f = ToBool g /\ bname g = n
    | Repeated => fl_target f = ToHeaders /\ n = "header"
    end.
  Definition value_ok (k : kind) (v : string) : Prop :=
    match k with
    | Text => True
    | OnOff => v = "true" \/ v = "false"
    | Repeated => exists l, csv v = Ok l
    end.
  Lemma set_fits : forall h0 f n k v p items w,
    fits f n k -> value_ok k v -> state h0 p items -> In k [Text; OnOff; Repeated] ->
    (k <> OnOff -> forall b, n <> bname b) -> (k <> Text -> forall g, n <> sname g) -> (k <> Repeated -> n <> "header") ->
    exists p', set_flag csv f v p = Ok p' /\ state h0 p' (items ++ [Given n w v]).
  Proof.
    intros h0 f n k v p items w (Fn & F) V ((S1 & S2 & S3) & S4 & S5 & S6) _ D1 D2 D3.
    unfold set_flag. destruct k.
    - destruct F as (g & -> & Fg). eexists; split; [reflexivity|].
      repeat split; cbn [p_flags p_header_set p_help p_args fs_string fs_bool fs_headers put_string].
      + intros h. rewrite text_snoc, <- Fg, sname_inj, S1. reflexivity.
      + intros h. rewrite on_snoc, S2.
        destruct (String.eqb_spec n (bname h)) as [E | _]; [|reflexivity]. exfalso; revert E; apply D1; discriminate.
      + rewrite headers_snoc, S3.
        destruct (String.eqb_spec n "header") as [E | _]; [|now rewrite app_nil_r]. exfalso; revert E; apply D3; discriminate.
      + exact S4.
      + exact S5.
      + rewrite arguments_snoc, S6. symmetry; apply app_nil_r.
    - destruct F as (g & -> & Fg).
      assert (B : exists b, parse_bool v = Ok b /\ String.eqb v "true" = b)
        by (destruct V as [-> | ->]; eexists; split; reflexivity).
      destruct B as (b & -> & B). eexists; split; [reflexivity|].
      repeat split; cbn [p_flags p_header_set p_help p_args fs_string fs_bool fs_headers put_bool].
      + intros h. rewrite text_snoc, S1.
        destruct (String.eqb_spec n (sname h)) as [E | _]; [|reflexivity]. exfalso; revert E; apply D2; discriminate.
      + intros h. rewrite on_snoc, <- Fg, bname_inj, B, S2. reflexivity.
      + rewrite headers_snoc, S3.
        destruct (String.eqb_spec n "header") as [E | _]; [|now rewrite app_nil_r]. exfalso; revert E; apply D3; discriminate.
      + exact S4.
      + exact S5.
      + rewrite arguments_snoc, S6. symmetry; apply app_nil_r.
    - destruct F as (-> & Fg). destruct V as (l & V). rewrite V. eexists; split; [reflexivity|].
      repeat split; cbn [p_flags p_header_set p_help p_args fs_string fs_bool fs_headers put_headers].
      + intros h. rewrite text_snoc, S1.
        destruct (String.eqb_spec n (sname h)) as [E | _]; [|reflexivity]. exfalso; revert E; apply D2; discriminate.
      + intros h. rewrite on_snoc, S2.
        destruct (String.eqb_spec n (bname h)) as [E | _]; [|reflexivity]. exfalso; revert E; apply D1; discriminate.
      + rewrite headers_snoc, Fg, String.eqb_refl, V, <- S3.
        destruct (p_header_set p) eqn:E; [reflexivity|]. now rewrite (S4 eq_refl).
      + discriminate.
      + exact S5.
      + rewrite arguments_snoc, S6. symmetry; apply app_nil_r.
  Qed.
End Agree.

(** How long flags are read. *)
Definition fine (n : string) : bool :=
  match n with
  | EmptyString => false
  | String c r => negb (Ascii.eqb c "-") && negb (Ascii.eqb c "=") && negb (sexists (Ascii.eqb "=") n)
  end.
Lemma cut_equals_none : forall n, sexists (Ascii.eqb "=") n = false -> cut_equals n = (n, None).
Proof.
  induction n as [| c n IH]; cbn [sexists cut_equals]; [reflexivity|]. intros H. apply orb_false_iff in H as (H & H').
  rewrite Ascii.eqb_sym, H, (IH H'). reflexivity.
Qed.
Lemma cut_equals_some : forall n v, sexists (Ascii.eqb "=") n = false -> cut_equals (n +++ String "=" v) = (n, Some v).
Proof.
  induction n as [| c n IH]; cbn [sexists cut_equals String.append]; [reflexivity|]. intros v H. apply orb_false_iff in H as (H & H').
  rewrite Ascii.eqb_sym, H, (IH v H'). reflexivity.
Qed.
Section Parse.
  Variable csv : string -> result (list string).
  Notation parse := (parse_args csv).

  Lemma parse_long : forall fs n rest p,
    fine n = true ->
    forall tail,
    parse fs (("--" +++ n +++ tail) :: rest) p =
    let (name, value) := cut_equals (n +++ tail) in
    match lookup name fs with
    | None => Err ("unknown flag: --" +++ name)
    | Some f =>
        match value with
        | Some v => do p <- set_flag csv f v p; parse fs rest p
        | None =>
            if negb (takes_value f) then do p <- set_flag csv f "true" p; parse fs rest p
            else match rest with
            | v :: rest => do p <- set_flag csv f v p; parse fs rest p
            | [] => Err ("flag needs an argument: " +++ ("--" +++ n +++ tail))
            end
        end
    end.
  Proof.
    intros fs n rest p F tail. destruct n as [| c n]; [discriminate|].
    unfold fine in F. apply andb_true_iff in F as (F & _). apply andb_true_iff in F as (F1 & F2).
    apply negb_true_iff in F1, F2.
    cbn [String.append]. 
    destruct c as [[|] [|] [|] [|] [|] [|] [|] [|]]; try discriminate; reflexivity.
  Qed.
  Lemma parse_plain : forall fs a rest p, plain_word a ->
    parse fs (a :: rest) p = parse fs rest (add_args [a] p).
  Proof.
    intros fs a rest p [-> | H]; [reflexivity|].
    destruct a as [| c a]; [reflexivity|].
    destruct c as [[|] [|] [|] [|] [|] [|] [|] [|]]; try reflexivity.
    exfalso; exact (H a eq_refl).
  Qed.
  Lemma parse_short_word : forall fs c s rest p, c <> "-"%char ->
    parse fs (String "-" (String c s) :: rest) p =
    match rest with
    | [] => do r <- parse_short csv fs (String c s) None p; Ok (fst r)
    | v :: rest' =>
        do r <- parse_short csv fs (String c s) (Some v) p;
        if snd r then parse fs rest' (fst r) else parse fs rest (fst r)
    end.
  Proof.
    intros fs c s rest p H.
    destruct c as [[|] [|] [|] [|] [|] [|] [|] [|]]; try reflexivity.
    exfalso; now apply H.
  Qed.
End Parse.
