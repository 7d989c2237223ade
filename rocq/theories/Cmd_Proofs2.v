(** Proofs about command lines: the table of the commands, and whole lines. *)
From Verif Require Import GoStrFacts Cmd_Spec Cmd_Proofs.
From Coq Require Import Lia.

Definition all_flags (t : template) : list flag := (t_flags t ++ [bind_debug]) ++ [help_flag].
Definition rule_fits (r : arg_rule) (c : command) : Prop :=
  match r with
  | NoArgs => c_least c = 0 /\ c_most c = Some 0
  | AtMost n => c_least c = 0 /\ c_most c = Some n
  | AtLeast n => c_least c = n /\ c_most c = None
  end.
Definition letter_ok (fs : list flag) (l : string * ascii) : Prop :=
  (exists f, lookup_short (snd l) fs = Some f /\ lookup (fst l) fs = Some f) /\
  snd l <> "-"%char /\ snd l <> "t"%char /\ is_letter (snd l) = true.

Definition flag_ok (fs : list flag) (nk : string * kind) : Prop :=
  (exists f, lookup (fst nk) fs = Some f /\ fits f (fst nk) (snd nk)) /\
  fine (fst nk) = true /\
  (snd nk <> OnOff -> forall b, fst nk <> bname b) /\ (snd nk <> Text -> forall g, fst nk <> sname g) /\
  (snd nk <> Repeated -> fst nk <> "header").
Definition line_ok (t : template) (c : command) : Prop :=
  template_at (c_words c) = Some t /\
  Forall (flag_ok (all_flags t)) (("debug", OnOff) :: c_flags c) /\
  Forall (letter_ok (all_flags t)) (c_letters c) /\
  rule_fits (t_args t) c /\
  (forall csv fl items args, agree csv fl items -> asked csv c items args = Some (t_call t fl args)) /\
  (forall rest, find_command 4 [] (c_words c ++ rest) = (c_words c, rest)) /\
  c_words c <> [].

Lemma not_below : forall path next,
  2 <= length (path ++ [next]) -> forallb (fun t => negb (is_prefix path (t_words t)) || (length (t_words t) <=? length path)) templates = true ->
  is_command (path ++ [next]) = false.
Proof.
  intros path next L H. unfold is_command. apply orb_false_iff; split.
  - revert H. induction templates as [| t ts IH]; [reflexivity|]. cbn [existsb forallb]. intros H.
    apply andb_true_iff in H as (H & H'). rewrite (IH H'), orb_false_r.
    clear - H. revert H. generalize (t_words t). induction path as [| x p IH]; intros [| y w]; cbn; try reflexivity; try discriminate.
    destruct (String.eqb x y); [|reflexivity]. intros H. cbn in H. now apply IH.
  - destruct path as [| a [| b p]]; cbn in L |- *; try lia; unfold list_eqb; cbn; destruct (String.eqb a "help"); reflexivity.
Qed.
Ltac leaf := rewrite not_below; [reflexivity | cbn; lia | vm_compute; reflexivity].
Lemma leaf_done : forall d path rest,
  1 <= length path -> forallb (fun t => negb (is_prefix path (t_words t)) || (length (t_words t) <=? length path)) templates = true ->
  find_command d path rest = (path, rest).
Proof.
  intros [| d] path rest L H; cbn [find_command]; [reflexivity|].
  destruct (strip_flags (flags_at path) rest) as [| n r]; [reflexivity|].
  rewrite not_below; [reflexivity | rewrite app_length; cbn; lia | exact H].
Qed.
Lemma down : forall d path w rest,
  String.eqb w "--" = false -> eats_next (flags_at path) w = false -> negb (is_empty w) && negb (has_prefix w "-") = true ->
  is_command (path ++ [w]) = true ->
  find_command (S d) path (w :: rest) = find_command d (path ++ [w]) rest.
Proof.
  intros d path w rest E1 E2 E3 E4. cbn [find_command strip_flags]. rewrite E1, E2, E3, E4.
  cbn [minus_first]. now rewrite String.eqb_refl.
Qed.
Ltac downs := repeat (rewrite down; [| vm_compute; reflexivity | vm_compute; reflexivity | vm_compute; reflexivity | vm_compute; reflexivity]; cbn [app]);
  rewrite leaf_done; [reflexivity | cbn; lia | vm_compute; reflexivity].

Ltac one_flag :=
  split; [eexists; split; [vm_compute; reflexivity | split; [reflexivity | cbn [snd fst fl_target]; first [eexists; split; reflexivity | split; reflexivity]]] |
  split; [vm_compute; reflexivity |
  split; [intros N; try (exfalso; apply N; reflexivity); intros []; discriminate |
  split; [intros N; try (exfalso; apply N; reflexivity); intros []; discriminate |
  intros N; first [discriminate | exfalso; apply N; reflexivity]]]]].
Ltac one_letter :=
  split; [eexists; split; vm_compute; reflexivity | split; [discriminate | split; [discriminate | reflexivity]]].
Ltac one_command t :=
  exists t; split; [vm_compute; reflexivity |
  split; [cbn [c_flags compiling app]; repeat (apply Forall_cons; [one_flag|]); apply Forall_nil |
  split; [cbn [c_letters]; repeat (apply Forall_cons; [one_letter|]); apply Forall_nil |
  split; [split; reflexivity |
  split; [intros csv fl items args (A1 & A2 & A3); unfold asked; cbn [c_words t_call t]; rewrite ?A1, ?A2, ?A3; reflexivity |
  split; [intros rest; cbn [c_words app]; downs | discriminate]]]]]].
Lemma commands_ok : forall c, In c commands -> exists t, line_ok t c.
Proof.
  intros c H. cbn [In commands] in H.
  destruct H as [<- | H]; [one_command all_template|].
  destruct H as [<- | H]; [one_command break_check_template|].
  destruct H as [<- | H]; [one_command break_descriptor_set_template|].
  destruct H as [<- | H]; [one_command cache_delete_template|].
  destruct H as [<- | H]; [one_command cache_update_template|].
  destruct H as [<- | H]; [one_command compile_template|].
  destruct H as [<- | H]; [one_command config_init_template|].
  destruct H as [<- | H]; [one_command create_template|].
  destruct H as [<- | H]; [one_command descriptor_set_template|].
  destruct H as [<- | H]; [one_command files_template|].
  destruct H as [<- | H]; [one_command format_template|].
  destruct H as [<- | H]; [one_command generate_template|].
  destruct H as [<- | H]; [one_command grpc_template|].
  destruct H as [<- | H]; [one_command lint_template|].
  destruct H as [<- | H]; [one_command version_template|].
  destruct H as [<- | H]; [one_command inspect_packages_template|].
  destruct H as [<- | H]; [one_command inspect_package_deps_template|].
  destruct H as [<- | H]; [one_command inspect_package_importers_template|].
  destruct H.
Qed.

(** The commands have no other flags. *)
Lemma no_other_flags : forall c t, In c commands -> line_ok t c ->
  forallb (fun f => mem (fl_name f) ("help" :: "debug" :: map fst (c_flags c))) (all_flags t) = true /\
  forallb (fun f => match fl_short f with None => true | Some l => mem (String l "") ("h" :: map (fun x => String (snd x) "") (c_letters c)) end) (all_flags t) = true.
Proof.
  intros c t H (L & _). cbn [In commands] in H.
  repeat (destruct H as [<- | H]; [vm_compute in L; injection L as <-; split; vm_compute; reflexivity|]). destruct H.
Qed.
Lemma lookup_unknown : forall c t n, In c commands -> line_ok t c -> n <> "help" -> (forall k, ~ takes c n k) ->
  lookup n (all_flags t) = None.
Proof.
  intros c t n H L Nh U. destruct (no_other_flags c t H L) as (F & _). rewrite forallb_forall in F.
  destruct (lookup n (all_flags t)) as [f |] eqn:E; [|reflexivity]. exfalso.
  apply find_some in E as (E1 & E2). apply String.eqb_eq in E2. specialize (F f E1). rewrite E2 in F.
  unfold mem in F. apply existsb_exists in F as (x & X1 & X2). apply String.eqb_eq in X2. subst x.
  destruct X1 as [X | [X | X]]; [congruence | |].
  - apply (U OnOff). unfold takes. left. congruence.
  - apply in_map_iff in X as ((m & k) & X & Y). cbn in X. subst m. apply (U k). unfold takes. now right.
Qed.
Lemma lookup_short_unknown : forall c t l, In c commands -> line_ok t c -> l <> "h"%char -> ~ In l (map snd (c_letters c)) ->
  lookup_short l (all_flags t) = None.
Proof.
  intros c t l H L Nh U. destruct (no_other_flags c t H L) as (_ & F). rewrite forallb_forall in F.
  destruct (lookup_short l (all_flags t)) as [f |] eqn:E; [|reflexivity]. exfalso.
  apply find_some in E as (E1 & E2). specialize (F f E1). destruct (fl_short f) as [l' |]; [|discriminate].
  apply Ascii.eqb_eq in E2. subst l'.
  unfold mem in F. apply existsb_exists in F as (x & X1 & X2). apply String.eqb_eq in X2. subst x.
  destruct X1 as [X | X]; [congruence|]. apply in_map_iff in X as (y & Y1 & Y2). injection Y1 as Y1.
  apply U. apply in_map_iff. eauto.
Qed.
