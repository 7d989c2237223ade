(** From the words of a command line to what is asked for. *)
From Verif Require Import GoStrFacts GoMapFacts.
From Verif Require Import Main_Model Main_Spec Main_Proofs Main_Proofs2.

Definition flag_said (words : list string) (f : flag) : Prop := mentions words (Cmd_Model.fl_name f) (fl_short f).
(** What reading [words] can have changed. *)
Definition read_from (fs : list flag) (words : list string) (p q : parsed) : Prop :=
  (forall a, In a (p_args q) -> In a (p_args p) \/ In a words) /\
  (forall g, fs_string (p_flags q) g = fs_string (p_flags p) g \/
     exists f, In f fs /\ fl_target f = ToString g /\ flag_said words f /\ ends_a_word words (fs_string (p_flags q) g)) /\
  (forall g, fs_bool (p_flags q) g = fs_bool (p_flags p) g \/
     exists f, In f fs /\ fl_target f = ToBool g /\ flag_said words f).
Lemma read_refl fs words p : read_from fs words p p.
Proof. split; [|split]; auto. Qed.
Lemma read_trans fs words p q r : read_from fs words p q -> read_from fs words q r -> read_from fs words p r.
Proof.
  intros (A & S & B) (A' & S' & B'). split; [|split].
  - intros a I. destruct (A' a I); auto.
  - intros g. destruct (S' g) as [->|]; auto.
  - intros g. destruct (B' g) as [->|]; auto.
Qed.
Lemma mentions_incl l l' n c : incl l l' -> mentions l n c -> mentions l' n c.
Proof. intros I (word & H & X). exists word. auto. Qed.
Lemma read_incl fs words words' p q : incl words words' -> read_from fs words p q -> read_from fs words' p q.
Proof.
  intros I (A & S & B). split; [|split].
  - intros a H. destruct (A a H); auto.
  - intros g. destruct (S g) as [->|(f & F & T & M & (a & word & H & E))]; [auto|right]. exists f. split; [assumption|]. split; [assumption|].
    split; [eapply mentions_incl; eassumption|]. exists a, word. auto.
  - intros g. destruct (B g) as [->|(f & F & T & M)]; [auto|right]. exists f. split; [assumption|]. split; [assumption|]. eapply mentions_incl; eassumption.
Qed.
Section Read.
  Variable csv : string -> result (list string).
  Lemma set_reads fs words f v p q : In f fs -> flag_said words f -> (takes_value f = true -> ends_a_word words v) ->
    set_flag csv f v p = Ok q -> read_from fs words p q.
  Proof.
    intros F M V. unfold set_flag, takes_value in *. destruct (fl_target f) as [g|g| |] eqn:T.
    - intros [= <-]. split; [|split]; cbn; auto. intros h. destruct (string_flag_beq g h) eqn:E; [|auto].
      apply internal_string_flag_dec_bl in E. subst h. right. exists f. auto.
    - destruct (parse_bool v); [|discriminate]. intros [= <-]. split; [|split]; cbn; auto. intros h. destruct (bool_flag_beq g h) eqn:E; [|auto].
      apply internal_bool_flag_dec_bl in E. subst h. right. exists f. auto.
    - destruct (csv v); [|discriminate]. intros [= <-]. split; [|split]; cbn; auto.
    - destruct (parse_bool v); [|discriminate]. intros [= <-]. split; [|split]; cbn; auto.
  Qed.
  Lemma short_reads fs words next : (forall v, next = Some v -> In v words) -> forall rest a p q used,
    In ("-" +++ a +++ rest) words -> (forall r, "-" +++ a +++ rest <> "--" +++ r) ->
    parse_short csv fs rest next p = Ok (q, used) -> read_from fs words p q.
  Proof.
    intros N. induction rest as [|c out IH]; intros a p q used I S H; cbn [parse_short] in H; [injection H as <- _; apply read_refl|].
    destruct (has_prefix (String c out) "test."); [injection H as <- _; apply read_refl|].
    destruct (lookup_short c fs) as [f|] eqn:L; [|discriminate H].
    assert (F : In f fs /\ flag_said words f).
    { unfold lookup_short in L. apply find_some in L. destruct L as [L E]. split; [assumption|].
      destruct (Cmd_Model.fl_short f) as [d|] eqn:D; [|discriminate E]. apply Ascii.eqb_eq in E. subst d.
      exists ("-" +++ a +++ String c out). split; [assumption|]. right. exists c, a, out. auto. }
    destruct F as [F M].
    assert (G : forall v q', ends_a_word words v -> set_flag csv f v p = Ok q' -> read_from fs words p q').
    { intros v q' V E. eapply set_reads; eauto. }
    assert (O : ends_a_word words out).
    { exists ("-" +++ a +++ String c ""), ("-" +++ a +++ String c out). split; [assumption|]. rewrite !sapp_assoc. reflexivity. }
    assert (K : (if negb (takes_value f) then do p <- set_flag csv f "true" p; parse_short csv fs out next p
                else if negb (is_empty out) then do p <- set_flag csv f out p; Ok (p, false)
                else match next with
                | Some v => do p <- set_flag csv f v p; Ok (p, true)
                | None => Err ("flag needs an argument: " +++ quote_byte c +++ " in -" +++ String c out)
                end) = Ok (q, used) -> read_from fs words p q).
    { clear H. destruct (takes_value f) eqn:T; cbn [negb].
      - destruct (is_empty out); cbn [negb].
        + destruct next as [v|]; [|discriminate]. destruct (set_flag csv f v p) eqn:E; [|discriminate]. cbn [bind]. intros [= <- _].
          eapply G; [|eassumption]. exists "", v. split; [now apply N|reflexivity].
        + destruct (set_flag csv f out p) eqn:E; [|discriminate]. cbn [bind]. intros [= <- _]. eapply G; eassumption.
      - destruct (set_flag csv f "true" p) as [p1|] eqn:E; [|discriminate]. cbn [bind]. intros H.
        apply read_trans with p1; [apply (set_reads fs words f "true" p p1 F M); [rewrite T; discriminate|exact E]|].
        eapply (IH (a +++ String c "")); [| |exact H].
        + rewrite sapp_assoc. exact I.
        + rewrite sapp_assoc. exact S. }
    destruct out as [|e v]; [exact (K H)|].
    destruct (Ascii.eqb_spec e "=").
    - subst e. destruct v as [|x v]; [exact (K H)|]. destruct (set_flag csv f (String x v) p) eqn:E; [|discriminate H]. cbn [bind] in H. injection H as <- _.
      eapply G; [|eassumption]. exists ("-" +++ a +++ String c "="), ("-" +++ a +++ String c (String "=" (String x v))).
      split; [assumption|]. rewrite !sapp_assoc. reflexivity.
    - apply K. rewrite <- H. clear H. destruct e as [[] [] [] [] [] [] [] []]; try reflexivity. now destruct n.
  Qed.
  Lemma cut_is body : forall name value, cut_equals body = (name, value) ->
    body = name +++ match value with Some v => "=" +++ v | None => "" end.
  Proof.
    induction body as [|c r IH]; intros name value; cbn [cut_equals].
    - intros [= <- <-]. reflexivity.
    - destruct (Ascii.eqb_spec c "="); [subst c; intros [= <- <-]; reflexivity|].
      destruct (cut_equals r) as [a b] eqn:E. intros [= <- <-]. cbn [String.append]. f_equal. now apply IH.
  Qed.
  Lemma ends_self words v : In v words -> ends_a_word words v.
  Proof. intros I. exists "", v. auto. Qed.
  Lemma read_more fs words words' p q r : incl words words' -> read_from fs words' p q -> read_from fs words q r -> read_from fs words' p r.
  Proof. intros I A B. eapply read_trans; [exact A|]. eapply read_incl; eassumption. Qed.
  Lemma add_reads fs words l p : incl l words -> read_from fs words p (add_args l p).
  Proof. intros I. split; [|split]; cbn; auto. intros a H. apply in_app_iff in H. destruct H; auto. Qed.

  (** The word [s], with what follows it, is read as a long flag. *)
  Lemma long_reads fs body rest q (k : list string -> parsed -> result parsed) p :
    (forall l p, length l <= length rest -> k l p = Ok q -> read_from fs l p q) ->
    (let (name, value) := cut_equals body in
     match lookup name fs with
     | None => Err ("unknown flag: --" +++ name)
     | Some f =>
         match value with
         | Some v => do p <- set_flag csv f v p; k rest p
         | None =>
             if negb (takes_value f) then do p <- set_flag csv f "true" p; k rest p
             else match rest with
             | v :: rest => do p <- set_flag csv f v p; k rest p
             | [] => Err ("flag needs an argument: --" +++ body)
             end
         end
     end) = Ok q -> read_from fs (("--" +++ body) :: rest) p q.
  Proof.
    intros IH. set (words := ("--" +++ body) :: rest).
    assert (R : incl rest words) by (intros x X; now right).
    destruct (cut_equals body) as [name value] eqn:C. apply cut_is in C.
    destruct (lookup name fs) as [f|] eqn:L; [|discriminate].
    unfold lookup in L. apply find_some in L. destruct L as [F E]. apply String.eqb_eq in E.
    assert (M : flag_said words f).
    { exists ("--" +++ body). split; [now left|]. left. rewrite E. eexists. rewrite C. reflexivity. }
    destruct value as [v|].
    - destruct (set_flag csv f v p) as [p1|] eqn:S; [|discriminate]. cbn [bind]. intros H. apply IH in H; [|auto].
      eapply read_more; [exact R| |exact H]. apply (set_reads fs words f v p p1 F M); [intros _|exact S].
      exists ("--" +++ name +++ "="), ("--" +++ body). split; [now left|]. rewrite C, !sapp_assoc. reflexivity.
    - destruct (takes_value f) eqn:T; cbn [negb].
      + destruct rest as [|v rest]; [discriminate|]. destruct (set_flag csv f v p) as [p1|] eqn:S; [|discriminate]. cbn [bind]. intros H.
        apply IH in H; [|cbn; auto]. eapply read_more; [|  |exact H]; [intros x X; right; now right|].
        apply (set_reads fs words f v p p1 F M); [intros _|exact S]. apply ends_self. right. now left.
      + destruct (set_flag csv f "true" p) as [p1|] eqn:S; [|discriminate]. cbn [bind]. intros H. apply IH in H; [|auto].
        eapply read_more; [exact R| |exact H]. apply (set_reads fs words f "true" p p1 F M); [rewrite T; discriminate|exact S].
  Qed.
  Lemma shorts_read fs c out rest q (k : list string -> parsed -> result parsed) p : c <> "-"%char ->
    (forall l p, length l <= length rest -> k l p = Ok q -> read_from fs l p q) ->
    (match rest with
     | [] => do r <- parse_short csv fs (String c out) None p; Ok (fst r)
     | v :: rest' =>
         do r <- parse_short csv fs (String c out) (Some v) p;
         if snd r then k rest' (fst r) else k rest (fst r)
     end) = Ok q -> read_from fs (String "-" (String c out) :: rest) p q.
  Proof.
    intros N IH. set (words := String "-" (String c out) :: rest).
    assert (S : forall r, "-" +++ "" +++ String c out <> "--" +++ r) by (intros r [= E _]; now apply N).
    assert (I : In ("-" +++ "" +++ String c out) words) by now left.
    destruct rest as [|v rest].
    - destruct (parse_short csv fs (String c out) None p) as [[p1 u]|] eqn:E; [|discriminate]. cbn [bind fst]. intros [= <-].
      eapply (short_reads fs words None); [discriminate|exact I|exact S|exact E].
    - destruct (parse_short csv fs (String c out) (Some v) p) as [[p1 u]|] eqn:E; [|discriminate]. cbn [bind fst snd]. intros H.
      assert (A : read_from fs words p p1).
      { eapply (short_reads fs words (Some v)); [|exact I|exact S|exact E]. intros v' [= <-]. right. now left. }
      destruct u; apply IH in H; cbn; auto; (eapply read_more; [|exact A|exact H]).
      + intros x X. right. now right.
      + intros x X. now right.
  Qed.
  Lemma parse_reads fs q : forall args p, parse_args csv fs args p = Ok q -> read_from fs args p q.
  Proof.
    assert (G : forall n args p, length args <= n -> parse_args csv fs args p = Ok q -> read_from fs args p q).
    { induction n as [|n IH]; intros args p L H.
      { destruct args; [|inversion L]. injection H as <-. apply read_refl. }
      destruct args as [|s rest]; [injection H as <-; apply read_refl|]. cbn [length] in L. apply le_S_n in L.
      assert (K : forall l p, length l <= length rest -> parse_args csv fs l p = Ok q -> read_from fs l p q).
      { intros l p' X. apply IH. now apply Nat.le_trans with (length rest). }
      assert (P : parse_args csv fs rest (add_args [s] p) = Ok q -> read_from fs (s :: rest) p q).
      { intros X. apply K in X; [|auto]. eapply read_more; [|apply add_reads|exact X]; intros x; [now right|intros [->|[]]; now left]. }
      assert (B : forall body, s = String "-" (String "-" body) ->
        (let (name, value) := cut_equals body in
         match lookup name fs with
         | None => Err ("unknown flag: --" +++ name)
         | Some f =>
             match value with
             | Some v => do p <- set_flag csv f v p; parse_args csv fs rest p
             | None =>
                 if negb (takes_value f) then do p <- set_flag csv f "true" p; parse_args csv fs rest p
                 else match rest with
                 | v :: rest => do p <- set_flag csv f v p; parse_args csv fs rest p
                 | [] => Err ("flag needs an argument: --" +++ body)
                 end
             end
         end) = Ok q -> read_from fs (s :: rest) p q).
      { intros body -> X. now apply (long_reads fs body rest q (parse_args csv fs) p K). }
      clear IH. cbn [parse_args] in H.
      destruct s as [|c s]; [exact (P H)|].
      destruct (Ascii.eqb_spec c "-").
      - subst c. destruct s as [|d out]; [exact (P H)|]. destruct (Ascii.eqb_spec d "-").
        + subst d. specialize (B out eq_refl). destruct out as [|e out].
          { injection H as <-. apply add_reads. intros x X. now right. }
          destruct (Ascii.eqb_spec e "-"); [subst e; discriminate H|]. destruct (Ascii.eqb_spec e "="); [subst e; discriminate H|].
          apply B. rewrite <- H. destruct e as [[] [] [] [] [] [] [] []]; try reflexivity; congruence.
        + apply (shorts_read fs d out rest q (parse_args csv fs) p n0 K). rewrite <- H.
          destruct d as [[] [] [] [] [] [] [] []]; try reflexivity; congruence.
      - apply P. rewrite <- H. destruct c as [[] [] [] [] [] [] [] []]; try reflexivity; congruence. }
    intros args p. apply (G (length args)). auto.
  Qed.
End Read.

(** A command is found among the words. *)
Lemma strip_incl fs args : incl (strip_flags fs args) args.
Proof.
  assert (G : forall n args, length args <= n -> incl (strip_flags fs args) args).
  { induction n as [|n IH]; intros l L; [destruct l; [intros x []|inversion L]|].
    destruct l as [|s rest]; [intros x []|]. cbn [length] in L. apply le_S_n in L. cbn [strip_flags].
    assert (R : incl (strip_flags fs rest) (s :: rest)) by (intros x X; right; now apply (IH rest L)).
    destruct (String.eqb s "--"); [intros x []|]. destruct (eats_next fs s).
    - destruct rest as [|a [|b rest]]; [intros x []|intros x []|]. intros x X. right. right. apply (IH (b :: rest)); [cbn in *; lia|exact X].
    - destruct (_ && _); [|exact R]. intros x [->|X]; [now left|now apply R]. }
  apply (G (length args)). auto.
Qed.
Lemma minus_incl args x : incl (minus_first args x) args.
Proof.
  induction args as [|y r IH]; [intros z []|]. cbn [minus_first]. destruct (String.eqb x y); intros z Z; [now right|].
  destruct Z as [->|Z]; [now left|right; now apply IH].
Qed.
Lemma find_incl words : forall d path args path' rest, incl path words -> incl args words ->
  find_command d path args = (path', rest) -> incl path' words /\ incl rest words.
Proof.
  induction d as [|d IH]; intros path args path' rest P A H; cbn [find_command] in H; [injection H as <- <-; auto|].
  destruct (strip_flags _ args) as [|next l] eqn:E; [injection H as <- <-; auto|].
  destruct (is_command _); [|injection H as <- <-; auto].
  apply IH in H; [exact H| |].
  - apply incl_app; [exact P|]. intros x [<-|[]]. apply A, (strip_incl (flags_at path)). rewrite E. now left.
  - intros x X. apply A. eapply minus_incl, X.
Qed.
Lemma is_prefix_ok a : forall b, is_prefix a b = true -> exists c, b = a ++ c.
Proof.
  induction a as [|x a IH]; intros b H; [now exists b|]. destruct b as [|y b]; [discriminate H|]. cbn in H. apply andb_prop in H. destruct H as [E H].
  apply String.eqb_eq in E. subst y. destruct (IH b H) as (c & ->). now exists c.
Qed.
Lemma list_eqb_ok a b : list_eqb a b = true -> a = b.
Proof.
  intros H. apply andb_prop in H. destruct H as [A B]. apply is_prefix_ok in A. apply is_prefix_ok in B. destruct A as (c & ->), B as (d & E).
  rewrite <- app_assoc in E. rewrite <- (app_nil_r a) in E at 1. apply app_inv_head in E. symmetry in E. apply app_eq_nil in E. destruct E as [-> ->].
  now rewrite app_nil_r.
Qed.
Lemma template_ok path t : template_at path = Some t -> In t templates /\ t_words t = path.
Proof. intros H. apply find_some in H. destruct H as [I E]. split; [assumption|now apply list_eqb_ok]. Qed.

(** What a process does. *)
Definition process_does (P : event -> Prop) (f : io -> io * Z) : Prop := forall s,
  exists es, io_done (fst (f s)) = io_done s ++ es /\ Forall P es /\
    (forall p, io_disk (fst (f s)) p <> io_disk s p -> exists d, In (Wrote p d) es).
Lemma process_ok {A} (P : event -> Prop) (c : cmd A) : (forall t, P (Printed t)) -> does P c -> process_does P (process c).
Proof.
  intros H C s. destruct (C s) as (es & D & F & W). unfold process. destruct (c s) as [s1 [a|m|m]]; cbn [fst] in *; [eauto| |];
    unfold println; (destruct (is_empty m); cbn; [eauto|]); exists (es ++ [Printed (m +++ String newline "")]); rewrite D, app_assoc;
    (split; [reflexivity|]; split; [apply Forall_app; split; [assumption|now repeat constructor]|]);
    intros p N; destruct (W p N) as (d & I); exists d; apply in_app_iff; auto.
Qed.
Section Whole.
  Variable w : world.
  Variable args : list string.
  Let P := may_do (match w_getwd w with Ok d => d | Err _ => "" end) (w_temp_file w) (w_temp_dir w) args.
  Hypothesis V : visits (w_order w).
  Lemma prints t : P (Printed t). Proof. constructor. Qed.

  (** Variables that no flag of a command sets have their defaults. *)
  Lemma bool_said t words p g : read_from (flags_at (t_words t) ++ [help_flag]) words (mk_parsed initial_flags false false []) p ->
    fs_bool (p_flags p) g = true -> exists f, In f (flags_at (t_words t) ++ [help_flag]) /\ fl_target f = ToBool g /\ flag_said words f.
  Proof.
    intros (_ & _ & B) H. destruct (B g) as [E|E]; [|exact E]. exfalso. cbn [p_flags] in E. rewrite E in H. clear - H. destruct g; vm_compute in H; discriminate H.
  Qed.
  Lemma out_said t words p : read_from (flags_at (t_words t) ++ [help_flag]) words (mk_parsed initial_flags false false []) p ->
    fs_string (p_flags p) OutputPathFlag <> "" ->
    exists f, In f (flags_at (t_words t) ++ [help_flag]) /\ fl_target f = ToString OutputPathFlag /\ flag_said words f /\
      ends_a_word words (fs_string (p_flags p) OutputPathFlag).
  Proof.
    intros (_ & B & _) H. destruct (B OutputPathFlag) as [E|E]; [|exact E]. exfalso. cbn [p_flags] in E. rewrite E in H. now apply H.
  Qed.
  Ltac one_of I T := repeat (destruct I as [<-|I]; [try discriminate T|]); [..|destruct I].
  Lemma call_allowed t p r e : In t templates -> incl (t_words t) args -> 
    read_from (flags_at (t_words t) ++ [help_flag]) args (mk_parsed initial_flags false false []) p ->
    w_getwd w = Ok (r_work_dir r) -> may w r (t_call t (p_flags p) (p_args p)) e -> P e.
  Proof.
    intros T W R D M. unfold P. rewrite D. pose proof (bool_said t args p) as B. pose proof (out_said t args p R) as O.
    specialize (fun g => B g R).
    assert (A : incl (p_args p) args) by (intros x X; destruct R as (A & _); destruct (A x X) as [[]|]; assumption).
    clear V P R. cbn [templates In] in T.
    repeat (destruct T as [<-|T]); [..|destruct T];
      destruct e as [s|g|path data|path|l|path|c|c|path]; try apply Prints;
      cbn [t_words t_call all_template compile_template create_template files_template format_template generate_template grpc_template
   descriptor_set_template config_init_template lint_template version_template cache_update_template
   cache_delete_template break_check_template break_descriptor_set_template inspect_packages_template
   inspect_package_deps_template inspect_package_importers_template] in W, M;
      try (cbn in M; contradiction M);
      try (destruct g; [cbn in M; try contradiction M; apply Generates; auto | try (cbn in M; contradiction M)]);
      try (eapply Compiles; [|intros x [<-|[]]; apply W; now left]; cbn; tauto);
      try (apply Dials; assumption); try (apply Calls; assumption); try (apply Updates_cache; assumption).
    - apply Writes, Does_all; [assumption|apply M].
    - destruct M as (f & F & ->). apply Writes. apply (Creates _ _ _ _ f); auto.
    - destruct M as (M & E). apply Writes, Overwrites; [assumption| |assumption].
      destruct (B _ M) as (f & F & T & S). vm_compute in F. one_of F T. exact S.
    - destruct M as [(N & ->)|(M & E)].
      + destruct (O N) as (f & F & T & S & K). apply Writes, Writes_set; [assumption| |assumption|assumption].
        vm_compute in F. one_of F T. exact S.
      + apply Writes, Writes_temporary; [assumption| |assumption].
        destruct (B _ M) as (f & F & T & S). vm_compute in F. one_of F T. exact S.
    - cbn in M. apply Writes. destruct (p_args p) as [|d [|]]; [now apply Inits| |now apply Inits].
      apply (Inits_there _ _ _ _ d); [assumption|apply A; now left|assumption].
    - cbn in M. apply Makes_dir; [assumption|]. apply A. rewrite M. now left.
    - now apply Removes_cache.
    - apply Makes_temporary; [assumption|apply M].
    - destruct M as (_ & l' & ->). now apply Clones.
    - apply Removes_temporary; [assumption|apply M].
    - destruct M as (N & ->). destruct (O N) as (f & F & T & S & K). apply Writes, Writes_set; [| |assumption|assumption].
      + intros x [<-|[]]. apply W. right. now left.
      + vm_compute in F. one_of F T. exact S.
  Qed.
  Lemma print_does t : process_does P (process (print t)).
  Proof. apply process_ok; [apply prints|]. apply does_print, prints. Qed.
  Lemma error_does m x : process_does P (cobra_error m x).
  Proof. apply process_ok; [apply prints|]. apply does_then; [apply does_print, prints|intros _; apply does_fail]. Qed.
  Theorem main_does : process_does P (main w args).
  Proof.
    unfold main, prototool. destruct (negb _); [apply process_ok; [apply prints|apply does_fail]|].
    destruct (find_command 4 [] args) as [path rest] eqn:F. apply (find_incl args) in F; [|intros x []|apply incl_refl]. destruct F as [Fp Fr].
    assert (E : process_does P (execute (w_getenv w) (w_getwd w) (w_parse_duration w) (w_read_csv w) (w_usage w) (w_help w) (w_help_topic w)
                  (Main_Model.method w) path rest)).
    { unfold execute. destruct (parse_args _ _ _ _) as [p|m] eqn:H; [|apply error_does].
      destruct (p_help p); [apply print_does|].
      destruct (template_at path) as [t|] eqn:T; [|destruct (list_eqb _ _); apply print_does].
      destruct (validate_args _ _ _); [|apply error_does].
      apply template_ok in T. destruct T as [T <-]. apply parse_reads in H. apply (read_incl _ _ args) in H; [|assumption].
      apply process_ok; [apply prints|]. unfold check_cmd. apply checked. intros r R.
      apply (does_weaken (may w r (t_call t (p_flags p) (p_args p)))); [|now apply method_may].
      intros e M. eapply call_allowed; eauto. unfold get_runner in R. destruct (if negb _ then _ else _); [|discriminate R]. cbn [bind] in R.
      destruct (w_getwd w); [|discriminate R]. cbn [bind] in R. now injection R as <-. }
    destruct path as [|x path]; [|exact E]. destruct (strip_flags _ rest); [exact E|apply error_does].
  Qed.
End Whole.
