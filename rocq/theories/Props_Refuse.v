(** C105: a command line that contradicts itself is refused before anything is done. *)
From Verif Require Import GoStrFacts Exec_Spec Exec_Proofs Cmd_Spec Grpc_Model Main_Model Main_Spec Main_Spec3 Main_Proofs Main_Proofs7 Main_Proofs14 Refuse_Spec Props_Main Props_Main3 Props_Main4 Props_Main11.

Lemma two_given_iff l : more_than_one_set l = true <-> two_given l.
Proof.
  assert (One : forall l, 0 < length (filter (fun b : bool => b) l) <-> exists b c, l = b ++ true :: c).
  { induction l0 as [|[] l0 IH]; cbn [filter length].
    - split; [intros H; inversion H|intros ([|x b] & c & E); discriminate].
    - split; [intros _; now exists [], l0|intros _; auto with arith].
    - rewrite IH. split.
      + intros (b & c & ->). now exists (false :: b), c.
      + intros ([|x b] & c & E); [discriminate|]. injection E as <- ->. eauto. }
  unfold more_than_one_set, two_given. rewrite Nat.ltb_lt. induction l as [|[] l IH]; cbn [filter length].
  - split; [intros H; inversion H|intros ([|x a] & b & c & E); discriminate].
  - rewrite <- Nat.succ_lt_mono, One. split.
    + intros (b & c & ->). now exists [], b, c.
    + intros (a & b & c & E). destruct a as [|x a]; cbn in E; [injection E as E1; eauto|]. injection E as E1 E2. exists a, (b ++ true :: c). exact E2.
  - rewrite IH. split.
    + intros (a & b & c & ->). now exists (false :: a), b, c.
    + intros (a & b & c & E). destruct a as [|x a]; cbn in E; [discriminate|]. injection E as E1 E2. eauto.
Qed.
Lemma two_given_iff2 x y : two_given [x; y] <-> x = true /\ y = true.
Proof. rewrite <- two_given_iff. destruct x, y; cbn; intuition discriminate. Qed.
Lemma set_text_is items name : set_text items name = negb (is_empty (text items name)).
Proof. unfold set_text. now destruct (text items name). Qed.
Lemma ne_false s : s <> "" -> is_empty s = false.
Proof. now destruct s. Qed.

(** What the runner answers to a line that is refused. *)
Lemma refused_method w r c items args k s t : asked (w_read_csv w) c items args = Some k -> refuses c items t -> method w r k s = (s, Exit t).
Proof.
  intros K R. unfold asked in K.
  assert (Gr : c_words c = ["grpc"] -> check_flags (mk_grpc_flags (headers (w_read_csv w) items) (text items "address") (text items "method") (text items "data") (text items "call-timeout")
      (text items "connect-timeout") (text items "keepalive-time") (on items "stdin") (on items "details") (on items "tls") (on items "insecure")
      (text items "cacert") (text items "cert") (text items "key") (text items "server-name")) = Some t -> method w r k s = (s, Exit t)).
  { intros W E. rewrite W in K. injection K as <-. cbn [method]. unfold grpc. rewrite E. reflexivity. }
  assert (Dt : forall d (b : bool), (d = "" <-> b = true) -> is_empty d && negb b = false /\ negb (is_empty d) && b = false).
  { intros d b X. destruct d as [|ch d], b; cbn; auto; destruct X as (X1 & X2); [discriminate (X1 eq_refl)|discriminate (X2 eq_refl)]. }
  assert (Tl : (exists name, In name only_tls /\ text items name <> "") ->
     negb (is_empty (text items "cacert")) || negb (is_empty (text items "cert")) || negb (is_empty (text items "key")) || negb (is_empty (text items "server-name")) = true).
  { intros (name & Hn & N). cbn in Hn. apply ne_false in N. repeat (destruct Hn as [<-|Hn]; [rewrite N; cbn [negb]; rewrite ?orb_true_r; reflexivity|]). destruct Hn. }
  destruct R as [W T|W T|W T|W T|W T|W T|W A|W A M|W A M D S|W A M D S|W A M D S I N|W A M D S I N|W A M D S N].
  - rewrite W in K. injection K as <-. cbn [method]. unfold lint_cmd. rewrite !set_text_is in T. apply two_given_iff in T. rewrite T. reflexivity.
  - rewrite W in K. injection K as <-. cbn [method]. unfold format_cmd. apply two_given_iff in T. rewrite T. reflexivity.
  - rewrite W in K. injection K as <-. cbn [method]. unfold descriptor_set. rewrite set_text_is in T. apply two_given_iff2 in T as (-> & ->). reflexivity.
  - rewrite W, T in K. injection K as <-. reflexivity.
  - rewrite W in K. injection K as <-. cbn [method]. unfold break_check. rewrite !set_text_is in T. apply two_given_iff2 in T as (-> & ->). reflexivity.
  - cbn in W. destruct W as [W|[W|[]]]; rewrite <- W, T in K; injection K as <-; reflexivity.
  - apply Gr; [exact W|]. unfold check_flags. cbn [g_address]. now rewrite A.
  - apply Gr; [exact W|]. unfold check_flags. cbn [g_address g_method]. now rewrite (ne_false _ A), M.
  - apply Gr; [exact W|]. unfold check_flags. cbn [g_address g_method g_data g_stdin]. now rewrite (ne_false _ A), (ne_false _ M), D, S.
  - apply Gr; [exact W|]. unfold check_flags. cbn [g_address g_method g_data g_stdin]. now rewrite (ne_false _ A), (ne_false _ M), (ne_false _ D), S.
  - apply Gr; [exact W|]. unfold check_flags. cbn [g_address g_method g_data g_stdin g_tls g_insecure g_cacert g_cert g_key g_server_name].
    destruct (Dt _ _ D) as (-> & ->). rewrite (ne_false _ A), (ne_false _ M), S, I, (Tl N). reflexivity.
  - apply Gr; [exact W|]. unfold check_flags. cbn [g_address g_method g_data g_stdin g_tls g_insecure g_cacert g_cert g_key g_server_name].
    destruct (Dt _ _ D) as (-> & ->). rewrite (ne_false _ A), (ne_false _ M), S, I. cbn [andb].
    assert (E : negb (Bool.eqb (negb (is_empty (text items "cert"))) (negb (is_empty (text items "key")))) = true); [|now rewrite E].
    destruct (text items "cert"), (text items "key"); try reflexivity; destruct N; split; (reflexivity || discriminate).
  - apply Gr; [exact W|]. unfold check_flags. cbn [g_address g_method g_data g_stdin g_tls g_insecure g_cacert g_cert g_key g_server_name].
    destruct (Dt _ _ D) as (-> & ->). rewrite (ne_false _ A), (ne_false _ M), S.
    assert (E : on items "insecure" || negb (is_empty (text items "cacert")) || negb (is_empty (text items "cert")) || negb (is_empty (text items "key")) || negb (is_empty (text items "server-name")) = true).
    { destruct N as [->|N]; [reflexivity|]. rewrite <- !orb_assoc. rewrite <- !orb_assoc in Tl. rewrite (Tl N). apply orb_true_r. }
    now rewrite E.
Qed.
(** A line that is refused prints the reason, ends with status 255, and does nothing else. *)
Theorem C105_refused : forall w cwd l c items args s t, (w_goos w = "darwin" \/ w_goos w = "linux") -> w_getwd w = Ok cwd ->
  means (w_read_csv w) l c items args ->
  (text items "walk-timeout" = "" \/ exists z, w_parse_duration w (text items "walk-timeout") = Ok z) ->
  refuses c items t -> exists s', main w l s = (s', 255%Z) /\ io_disk s' = io_disk s /\ io_done s' = io_done s ++ Main_Spec.shown [t].
Proof.
  intros w cwd l c items args s t G Wd M Wt R. destruct (line_is w l c items args G M) as (k & K & ->).
  assert (Or : exists r, the_options w items = Ok r).
  { unfold the_options. rewrite Wd. destruct Wt as [->|(z & Wt)]; [cbn; eauto|]. destruct (String.eqb _ _); [cbn; eauto|]. rewrite Wt. cbn. eauto. }
  destruct Or as (r & ->). rewrite with_options. unfold process. rewrite (refused_method w r c items args k s t K R), println_adds. eexists. split; [reflexivity|].
  split; [reflexivity|]. cbn [fst adds io_done]. f_equal. destruct R; reflexivity.
Qed.
Print Assumptions C105_refused.
(** [format -w --lint], and calls that say nothing of the method. *)
Example C105_refused_ex : exists c items, means (w_read_csv exw) ["format"; "."; "--overwrite"; "--lint"] c items ["."] /\
  refuses c items "can only set one of overwrite, diff, lint" /\
  main exw ["format"; "."; "--overwrite"; "--lint"] exw_s = (mk_io exw_disk (Main_Spec.shown ["can only set one of overwrite, diff, lint"]), 255%Z) /\
  main exw ["grpc"; "--address"; "h:1"] exw_s = (mk_io exw_disk (Main_Spec.shown ["must set method"]), 255%Z) /\
  main exw ["break"; "check"; "-f"; "x"; "--git-branch"; "m"] exw_s = (mk_io exw_disk (Main_Spec.shown ["can only set one of git-branch, descriptor-set-path"]), 255%Z).
Proof.
  exists (mk_command ["format"]
    (compiling ++ [("diff", OnOff); ("error-format", Text); ("fix", OnOff); ("json", OnOff); ("lint", OnOff); ("overwrite", OnOff)])
    [("diff", "d"%char); ("fix", "f"%char); ("lint", "l"%char); ("overwrite", "w"%char)] 0 (Some 1)),
    [Plain "."; Given "overwrite" LongAlone "true"; Given "lint" LongAlone "true"].
  split; [|split; [apply Two_modes; [reflexivity|exists [], [false], []; reflexivity]|split; [vm_compute; reflexivity|split; vm_compute; reflexivity]]].
  exists None. split; [cbn; tauto|]. split; [|split; [reflexivity|split; [split; cbn; auto with arith|reflexivity]]].
  assert (NS : ~ is_short LongAlone) by (intros [X|[X|X]]; discriminate X).
  constructor; [right; intros r; discriminate|]. constructor; [|constructor; [|constructor]].
  - split; [intros X; destruct (NS X)|]. split; [discriminate|]. exists OnOff. unfold takes. cbn. tauto.
  - split; [intros X; destruct (NS X)|]. split; [discriminate|]. exists OnOff. unfold takes. cbn. tauto.
Qed.

(** ** C92: what is said of a file that is in the way. *)
Inductive says_in_the_way (w : world) (disk : string -> result string) (cwd : string) : string -> string -> Prop :=
| Nameless : says_in_the_way w disk cwd "" "filePath empty"
| Not_below_a_directory f data : f <> "" -> disk (path_abs cwd (path_dir f)) = Ok data ->
    says_in_the_way w disk cwd f (GoFmt.quote (path_dir f) +++ " is not a directory somehow")
| Already_there f m data : f <> "" -> disk (path_abs cwd (path_dir f)) = Err m -> w_stat w (path_abs cwd (path_dir f)) = Ok Exec_Model.Directory ->
    disk (path_abs cwd f) = Ok data -> data <> "" -> says_in_the_way w disk cwd f (GoFmt.quote f +++ " already exists").
Lemma says_err w cwd s f t : says_in_the_way w (io_disk s) cwd f t -> check_file_path cwd (files_now w s) f = Err t.
Proof.
  intros [|f' data N D|f' m data N D S F X]; unfold check_file_path; [reflexivity|rewrite (ne_false _ N)..]; unfold files_now.
  - now rewrite D.
  - now rewrite D, S, F, (ne_false _ X).
Qed.
Lemma not_in_the_way w cwd s f : ~ in_the_way w (io_disk s) cwd f -> check_file_path cwd (files_now w s) f = Ok tt.
Proof.
  intros H. unfold check_file_path, in_the_way in *. destruct (is_empty f) eqn:Ef; [destruct H; left; now destruct f|]. unfold files_now.
  destruct (io_disk s (path_abs cwd (path_dir f))) as [data|] eqn:D; [destruct H; eauto|].
  destruct (w_stat w (path_abs cwd (path_dir f))) as [[]|] eqn:S; try (destruct H; right; right; left; discriminate).
  destruct (io_disk s (path_abs cwd f)) as [data|m] eqn:F.
  - destruct data; [reflexivity|]. destruct H. right. right. right. left. eexists. split; [reflexivity|discriminate].
  - destruct (w_stat w (path_abs cwd f)) as [k|] eqn:S2; [|reflexivity]. destruct H. right. right. right. right. eauto.
Qed.
Lemma mapM_first {A B} (f : A -> result B) b x a m : (forall y, In y b -> exists v, f y = Ok v) -> f x = Err m -> mapM f (b ++ x :: a) = Err m.
Proof.
  induction b as [|y b IH]; intros H E; cbn [mapM app]; [now rewrite E|]. destruct (H y (or_introl eq_refl)) as (v & ->). cbn [bind].
  rewrite IH; [reflexivity|intros z I; apply H; now right|exact E].
Qed.
(** Of the first file that is in the way, create says why, and nothing is made. *)
Theorem C92_said : forall w cwd l c items b f a s t, (w_goos w = "darwin" \/ w_goos w = "linux") -> w_getwd w = Ok cwd ->
  means (w_read_csv w) l c items (b ++ f :: a) -> c_words c = ["create"] ->
  (text items "walk-timeout" = "" \/ exists z, w_parse_duration w (text items "walk-timeout") = Ok z) ->
  (forall g, In g b -> ~ in_the_way w (io_disk s) cwd g) -> says_in_the_way w (io_disk s) cwd f t ->
  exists s', main w l s = (s', 1%Z) /\ io_disk s' = io_disk s /\ io_done s' = io_done s ++ Main_Spec.shown [t].
Proof.
  intros w cwd l c items b f a s t G Wd M W Wt B T. destruct (line_is w l c items _ G M) as (k & K & ->). unfold asked in K. rewrite W in K. injection K as <-.
  assert (Or : exists z, the_options w items = Ok (options (w_getenv w) cwd z items)).
  { unfold the_options. rewrite Wd. destruct Wt as [->|(z & Wt)]; [cbn; eauto|]. destruct (String.eqb _ _); [cbn; eauto|]. rewrite Wt. cbn. eauto. }
  destruct Or as (z & ->). rewrite with_options. unfold process.
  assert (E : Main_Model.method w (options (w_getenv w) cwd z items) (CallCreate (b ++ f :: a) (text items "package")) s = (s, Fail t)).
  { cbn [Main_Model.method]. unfold create_cmd, and_then. change (here (options (w_getenv w) cwd z items)) with cwd.
    rewrite (mapM_first _ b f a t); [reflexivity|intros g I; exists tt; apply not_in_the_way; now apply B|now apply says_err]. }
  rewrite E, println_adds. eexists. split; [reflexivity|]. split; [reflexivity|]. cbn [fst adds io_done]. f_equal.
  destruct T as [|f' data N D|f' m data N D S F X]; reflexivity.
Qed.
Print Assumptions C92_said.
Example C92_said_ex : let s1 := fst (main exw11 ["create"; "bar_baz.proto"] exw11_s) in
  ~ in_the_way exw11 (io_disk s1) "/w" "x.proto" /\ says_in_the_way exw11 (io_disk s1) "/w" "bar_baz.proto" ("""bar_baz.proto""" +++ " already exists") /\
  main exw11 ["create"; "x.proto"; "bar_baz.proto"] s1 = (mk_io (io_disk s1) (io_done s1 ++ Main_Spec.shown ["""bar_baz.proto""" +++ " already exists"]), 1%Z).
Proof.
  split; [|split].
  - intros [H|[(d & H)|[H|[(d & H & _)|(m & k & _ & H)]]]]; vm_compute in H; try discriminate H. now apply H.
  - eapply (Already_there _ _ _ "bar_baz.proto"); [discriminate|vm_compute; reflexivity|vm_compute; reflexivity|vm_compute; reflexivity|discriminate].
  - vm_compute. reflexivity.
Qed.
