(** Facts about reading tokens. *)
From Verif Require Import GoStrFacts Format_Spec.

Definition prep (ts : list token) (p : list token * lex_state) : list token * lex_state := (ts ++ fst p, snd p).
Lemma prep_nil p : prep [] p = p.
Proof. now destruct p. Qed.
Lemma prep_prep a b p : prep a (prep b p) = prep (a ++ b) p.
Proof. unfold prep. cbn. now rewrite app_assoc. Qed.
Lemma run_cons st c s : lex_run st (String c s) = prep (fst (lex_step st c)) (lex_run (snd (lex_step st c)) s).
Proof. cbn [lex_run]. destruct (lex_step st c) as [ts st']. cbn [fst snd]. now destruct (lex_run st' s). Qed.
Lemma run_app a : forall st b, lex_run st (a +++ b) = prep (fst (lex_run st a)) (lex_run (snd (lex_run st a)) b).
Proof.
  induction a as [|c a IH]; intros st b; [cbn; now rewrite prep_nil|].
  cbn [String.append]. rewrite !run_cons, IH, prep_prep. reflexivity.
Qed.
Lemma reads_nil : reads_as "" [].
Proof. reflexivity. Qed.
Lemma reads_app a b ta tb : reads_as a ta -> reads_as b tb -> reads_as (a +++ b) (ta ++ tb).
Proof. unfold reads_as. intros Ha Hb. rewrite run_app, Ha. cbn [fst snd]. rewrite Hb. reflexivity. Qed.

(** ** One step *)
Lemma run_space w c r : is_space c = true -> lex_run (InWord w) (String c r) = prep (word_end w) (lex_run (InWord "") r).
Proof. intros H. rewrite run_cons. cbn [lex_step]. unfold step_word. now rewrite H. Qed.
Lemma symbol_class c : is_symbol c = true -> is_space c = false /\ Ascii.eqb c slash = false /\ is_quote c = false.
Proof.
  unfold is_symbol. intros H. apply existsb_exists in H as (d & Hd & E). apply Ascii.eqb_eq in E. subst d.
  cbn in Hd. repeat (destruct Hd as [<-|Hd]; [now repeat split|]). destruct Hd.
Qed.
Lemma quote_class c : is_quote c = true -> is_space c = false /\ Ascii.eqb c slash = false.
Proof.
  unfold is_quote. intros H. apply orb_true_iff in H as [H|H]; apply Ascii.eqb_eq in H; subst c; now split.
Qed.
Lemma run_sym w c r : is_symbol c = true -> lex_run (InWord w) (String c r) = prep (word_end w ++ [Sym c]) (lex_run (InWord "") r).
Proof.
  intros H. rewrite run_cons. cbn [lex_step]. unfold step_word. destruct (symbol_class c H) as (-> & -> & ->). now rewrite H.
Qed.
Lemma run_char w c r : word_char c = true -> lex_run (InWord w) (String c r) = lex_run (InWord (push w c)) r.
Proof.
  intros H. rewrite run_cons. cbn [lex_step]. unfold step_word, word_char in *. apply negb_true_iff in H.
  apply orb_false_iff in H as [H H4]. apply orb_false_iff in H as [H H3]. apply orb_false_iff in H as [H1 H2].
  rewrite H1, H2, H3, H4. cbn [fst snd]. apply prep_nil.
Qed.
Lemma run_word_chars w : forall v r, sforall word_char w = true -> lex_run (InWord v) (w +++ r) = lex_run (InWord (v +++ w)) r.
Proof.
  induction w as [|c w IH]; intros v r H; [now rewrite sapp_nil_r|]. cbn in H. apply andb_true_iff in H as [Hc Hw].
  cbn [String.append]. rewrite run_char, IH by assumption. unfold push. now rewrite sapp_assoc.
Qed.
Lemma run_word w r : a_word w -> lex_run (InWord "") (w +++ r) = lex_run (InWord w) r.
Proof. intros [_ H]. now rewrite run_word_chars. Qed.
Lemma word_end_word w : a_word w -> word_end w = [Word w].
Proof. intros [H _]. unfold word_end. apply seqb_neq in H. now rewrite H. Qed.
Lemma run_string_body q : forall s v e r, is_quote q = true -> quotable q e s = true ->
  lex_run (InString q v e) (s +++ String q r) = prep [Str q (v +++ s)] (lex_run (InWord "") r).
Proof.
  intros s. induction s as [|c s IH]; intros v e r Hq H.
  - cbn in H. destruct e; [discriminate|]. cbn [String.append]. rewrite run_cons. cbn [lex_step].
    assert (Ascii.eqb q backslash = false) as ->.
    { unfold is_quote in Hq. apply orb_true_iff in Hq as [Hq|Hq]; apply Ascii.eqb_eq in Hq; subst q; reflexivity. }
    rewrite Ascii.eqb_refl. cbn [fst snd]. now rewrite sapp_nil_r.
  - cbn [String.append]. rewrite run_cons. cbn [lex_step]. cbn [quotable] in H. destruct e.
    + cbn [fst snd]. rewrite prep_nil, IH by assumption. unfold push. now rewrite sapp_assoc.
    + destruct (Ascii.eqb c backslash) eqn:Eb.
      * cbn [fst snd]. rewrite prep_nil, IH by assumption. unfold push. now rewrite sapp_assoc.
      * apply andb_true_iff in H as [Hc H]. apply negb_true_iff in Hc. rewrite Hc. cbn [fst snd].
        rewrite prep_nil, IH by assumption. unfold push. now rewrite sapp_assoc.
Qed.
Lemma run_string q s w r : a_string q s -> lex_run (InWord w) (String q (s +++ String q r)) = prep (word_end w ++ [Str q s]) (lex_run (InWord "") r).
Proof.
  intros (Hq & _ & H). rewrite run_cons. cbn [lex_step]. unfold step_word. destruct (quote_class q Hq) as (-> & ->). rewrite Hq.
  cbn [fst snd]. rewrite run_string_body by assumption. now rewrite prep_prep.
Qed.
Lemma run_name n : a_name n -> exists ts w, name_tokens n = ts ++ word_end w /\
  forall r, lex_run (InWord "") (n +++ r) = prep ts (lex_run (InWord w) r).
Proof.
  intros (_ & _ & _ & ts & w & E). exists ts, w. unfold name_tokens. rewrite E. split; [reflexivity|].
  intros r. rewrite run_app, E. reflexivity.
Qed.
Lemma run_name_space n c r : a_name n -> is_space c = true ->
  lex_run (InWord "") (n +++ String c r) = prep (name_tokens n) (lex_run (InWord "") r).
Proof.
  intros Hn Hc. destruct (run_name n Hn) as (ts & w & -> & E). rewrite E, run_space by assumption. now rewrite prep_prep.
Qed.
Lemma run_name_sym n c r : a_name n -> is_symbol c = true ->
  lex_run (InWord "") (n +++ String c r) = prep (name_tokens n ++ [Sym c]) (lex_run (InWord "") r).
Proof.
  intros Hn Hc. destruct (run_name n Hn) as (ts & w & -> & E). rewrite E, run_sym by assumption. now rewrite prep_prep, app_assoc.
Qed.
Lemma run_remark_body t : forall v r, one_line t ->
  lex_run (InRemark v) (t +++ String newline r) = prep [Rem (trim_right is_space (v +++ t))] (lex_run (InWord "") r).
Proof.
  induction t as [|c t IH]; intros v r H.
  - cbn [String.append]. rewrite run_cons. cbn [lex_step]. rewrite Ascii.eqb_refl. cbn [fst snd]. now rewrite sapp_nil_r.
  - unfold one_line, no_char in *. cbn [sforall] in H. apply andb_true_iff in H as [Hc H]. apply negb_true_iff in Hc.
    cbn [String.append]. rewrite run_cons. cbn [lex_step]. rewrite Hc. cbn [fst snd].
    rewrite prep_nil, IH by assumption. unfold push. now rewrite sapp_assoc.
Qed.
Lemma run_remark w t r : one_line t ->
  lex_run (InWord w) ("//" +++ t +++ String newline r) = prep (word_end w ++ [Rem (trim_right is_space t)]) (lex_run (InWord "") r).
Proof.
  intros H. change ("//" +++ t +++ String newline r) with (String slash (String slash (t +++ String newline r))).
  rewrite !run_cons. change (lex_step (InWord w) slash) with (@nil token, InSlash w). cbn [fst snd].
  change (lex_step (InSlash w) slash) with (word_end w, InRemark ""). cbn [fst snd].
  rewrite run_remark_body by assumption. now rewrite prep_nil, prep_prep.
Qed.
Lemma run_spaces s : forall r, sforall is_space s = true -> lex_run (InWord "") (s +++ r) = lex_run (InWord "") r.
Proof.
  induction s as [|c s IH]; intros r H; [reflexivity|]. cbn in H. apply andb_true_iff in H as [Hc H].
  cbn [String.append]. rewrite run_space, IH by assumption. apply prep_nil.
Qed.

(** ** White space around a text *)
Definition proper (st : lex_state) : Prop := match st with InString q _ _ => is_quote q = true | _ => True end.
Lemma step_word_proper w c : proper (snd (step_word w c)).
Proof.
  unfold step_word. destruct (is_space c); [exact I|]. destruct (Ascii.eqb c slash); [exact I|].
  destruct (is_quote c) eqn:E; [exact E|]. destruct (is_symbol c); exact I.
Qed.
Lemma step_proper st c : proper st -> proper (snd (lex_step st c)).
Proof.
  intros H. destruct st as [w|w|q v e|v]; cbn [lex_step].
  - apply step_word_proper.
  - destruct (Ascii.eqb c slash); [exact I|apply step_word_proper].
  - destruct e; [exact H|]. destruct (Ascii.eqb c backslash); [exact H|]. destruct (Ascii.eqb c q); [exact I|exact H].
  - destruct (Ascii.eqb c newline); exact I.
Qed.
Lemma run_proper s : forall st, proper st -> proper (snd (lex_run st s)).
Proof.
  induction s as [|c s IH]; intros st H; [assumption|]. rewrite run_cons. unfold prep. cbn [snd]. apply IH. now apply step_proper.
Qed.
Definition in_string (st : lex_state) : bool := match st with InString _ _ _ => true | _ => false end.
Lemma string_stays s : forall st, proper st -> in_string st = true -> sforall is_space s = true -> in_string (snd (lex_run st s)) = true.
Proof.
  induction s as [|c s IH]; intros st Hp Hst H; [assumption|]. cbn in H. apply andb_true_iff in H as [Hc H].
  rewrite run_cons. unfold prep. cbn [snd]. apply IH; [now apply step_proper| |assumption].
  destruct st as [| |q v e|]; try discriminate.
  cbn [lex_step]. destruct e; [reflexivity|]. destruct (Ascii.eqb c backslash); [reflexivity|].
  destruct (Ascii.eqb c q) eqn:E; [|reflexivity]. apply Ascii.eqb_eq in E. subst c. cbn in Hp.
  apply quote_class in Hp as [Hp _]. congruence.
Qed.
Lemma run_all_spaces s : sforall is_space s = true -> lex_run (InWord "") s = ([], InWord "").
Proof. intros H. rewrite <- (sapp_nil_r s), run_spaces by assumption. reflexivity. Qed.
Lemma blank_end st ws ts : proper st -> sforall is_space ws = true -> lex_run st ws = (ts, InWord "") ->
  lex_run st (String newline EmptyString) = (ts, InWord "").
Proof.
  intros Hp Hws E. destruct st as [w|w|q v e|v].
  - rewrite run_space by reflexivity. destruct ws as [|c ws].
    + cbn in E. injection E as <- ->. reflexivity.
    + cbn in Hws. apply andb_true_iff in Hws as [Hc Hws]. rewrite run_space, run_all_spaces in E by assumption.
      unfold prep in *. cbn [fst snd] in *. injection E as <-. reflexivity.
  - destruct ws as [|c ws]; [discriminate|]. cbn in Hws. apply andb_true_iff in Hws as [Hc Hws].
    rewrite run_cons in *. cbn [lex_step] in *. change (Ascii.eqb newline slash) with false. cbv iota.
    destruct (Ascii.eqb c slash) eqn:Es; [apply Ascii.eqb_eq in Es; subst c; discriminate|].
    unfold step_word in *. rewrite Hc in E. change (is_space newline) with true. cbv iota. cbn [fst snd] in *.
    rewrite run_all_spaces in E by assumption. exact E.
  - exfalso. pose proof (string_stays ws _ Hp eq_refl Hws) as H. rewrite E in H. discriminate.
  - rewrite run_cons. cbn [lex_step]. rewrite Ascii.eqb_refl. cbn [fst snd].
    revert v Hp E. induction ws as [|c ws IH]; intros v Hp E; [discriminate|].
    cbn in Hws. apply andb_true_iff in Hws as [Hc Hws]. rewrite run_cons in E. cbn [lex_step] in E.
    destruct (Ascii.eqb c newline) eqn:En.
    + cbn [fst snd] in E. rewrite run_all_spaces in E by assumption. exact E.
    + cbn [fst snd] in E. rewrite prep_nil in E. apply (IH Hws) in E; [|exact I].
      unfold push in E. rewrite trim_right_app in E by (cbn; now rewrite Hc). exact E.
Qed.
Lemma reads_trim s ts : reads_as s ts -> reads_as (trim_space s +++ String newline EmptyString) ts.
Proof.
  unfold reads_as, trim_space. intros H. destruct (trim_left_spec is_space s) as (p & Hs & Hp).
  rewrite Hs, run_spaces in H by assumption. set (t := trim_left is_space s) in *.
  destruct (trim_right_spec is_space t) as (q & Ht & Hq). set (u := trim_right is_space t) in *.
  rewrite Ht, run_app in H. rewrite run_app. set (r := lex_run (InWord "") u) in *.
  assert (proper (snd r)) as Pr by (apply run_proper; exact I).
  unfold prep in *. injection H as H1 H2.
  rewrite (blank_end (snd r) q (fst (lex_run (snd r) q)) Pr Hq).
  - cbn [fst snd]. now rewrite H1.
  - rewrite <- H2. now destruct (lex_run (snd r) q).
Qed.
Lemma reads_trim_empty s ts : reads_as s ts -> trim_space s = "" -> ts = [].
Proof.
  intros H E. apply reads_trim in H. rewrite E in H. injection H as <-. reflexivity.
Qed.
