(** Proofs about formatting: the tokens that are printed. *)
From Coq Require Import Permutation Sorted Lia.
From Verif Require Import GoStrFacts Protostrs_Proofs Text_Proofs Format_Spec Format_Lex Format_Model.

Lemma cat_app a b : cat (a ++ b) = cat a +++ cat b.
Proof. induction a as [|x a IH]; [reflexivity|]. cbn [app cat]. now rewrite IH, sapp_assoc. Qed.
Lemma srepeat_spaces n : sforall is_space (srepeat "  " n) = true.
Proof. induction n as [|n IH]; [reflexivity|]. cbn. exact IH. Qed.

Ltac not_empty := let X := fresh in intros X; repeat first [discriminate X | apply sapp_eq_nil in X as [_ X]].
(** ** Lines *)
(** [t] has something at its end, and before white space it is read as [ts]. *)
Definition line_ok (t : string) (ts : list token) : Prop :=
  (exists c, last_char t = Some c /\ is_space c = false) /\
  forall c r, is_space c = true -> lex_run (InWord "") (t +++ String c r) = prep ts (lex_run (InWord "") r).
Lemma last_char_ne s c : last_char s = Some c -> s <> "".
Proof. intros H ->. discriminate. Qed.
Lemma trim_space_ne s c : last_char s = Some c -> is_space c = false -> trim_space s <> "".
Proof.
  intros H Hc E. unfold trim_space in E. destruct (trim_right_spec is_space (trim_left is_space s)) as (q & Ht & Hq).
  rewrite E in Ht. cbn in Ht. destruct (trim_left_spec is_space s) as (p & Hs & Hp). rewrite Ht in Hs.
  assert (sforall is_space s = true) as F by (rewrite Hs, sforall_app, Hp, Hq; reflexivity).
  clear - F H Hc. rewrite <- (srev_involutive s) in F. unfold last_char in H. destruct (srev s) as [|d r]; [discriminate|].
  injection H as ->. rewrite srev_cons, sforall_app in F. cbn in F. rewrite Hc in F. apply andb_true_iff in F as [_ F]. discriminate.
Qed.
Lemma P_plain n args c : last_char (cat args) = Some c -> is_space c = false -> P n args = srepeat "  " n +++ cat args +++ endl.
Proof.
  intros H Hc. unfold P. destruct args as [|a args]; [discriminate|]. cbv zeta.
  set (t := cat (a :: args)) in *. assert (last_char (srepeat "  " n +++ t) = Some c) as L.
  { rewrite last_char_app_r; [assumption|now apply last_char_ne in H]. }
  rewrite (trim_right_id is_space) by (intros d Hd; congruence).
  apply trim_space_ne in L; [|assumption]. apply is_empty_false in L. rewrite L. now rewrite sapp_assoc.
Qed.
Lemma P_remark n args t : P n (args ++ ["//"; t]) = srepeat "  " n +++ cat args +++ "//" +++ trim_right is_space t +++ endl.
Proof.
  unfold P. destruct (args ++ ["//"; t]) as [|a l] eqn:E; [now destruct args|]. rewrite <- E. clear a l E. cbv zeta.
  rewrite cat_app. cbn [cat]. rewrite sapp_nil_r.
  assert (trim_right is_space (srepeat "  " n +++ cat args +++ "//" +++ t) = srepeat "  " n +++ cat args +++ "//" +++ trim_right is_space t) as ->.
  { destruct (trim_right_spec is_space t) as (p & Ht & Hp). rewrite Ht at 1.
    replace (srepeat "  " n +++ cat args +++ "//" +++ trim_right is_space t +++ p)
      with ((srepeat "  " n +++ cat args +++ "//" +++ trim_right is_space t) +++ p) by (now rewrite !sapp_assoc).
    rewrite trim_right_app by assumption. apply trim_right_id. intros c Hc.
    destruct (trim_right is_space t) as [|d u] eqn:Et.
    - rewrite 2!last_char_app_r in Hc by not_empty. vm_compute in Hc. injection Hc as <-. reflexivity.
    - rewrite !last_char_app_r in Hc by not_empty.
      rewrite <- Et in Hc. now apply trim_right_last in Hc. }
  destruct (is_empty (trim_space _)) eqn:E; [|now rewrite !sapp_assoc].
  exfalso. apply is_empty_true in E. revert E.
  assert (exists c, last_char (srepeat "  " n +++ cat args +++ "//" +++ trim_right is_space t) = Some c /\ is_space c = false) as (c & L & Hc).
  { destruct (trim_right is_space t) as [|d u] eqn:Et.
    - rewrite 2!last_char_app_r by not_empty. now exists slash.
    - rewrite !last_char_app_r by not_empty.
      rewrite <- Et. destruct (last_char (trim_right is_space t)) as [c|] eqn:El.
      + exists c. split; [reflexivity|]. now apply trim_right_last in El.
      + exfalso. unfold last_char in El. destruct (srev (trim_right is_space t)) eqn:Es; [|discriminate].
        apply (f_equal srev) in Es. rewrite srev_involutive, Et in Es. discriminate. }
  now apply trim_space_ne with (c := c).
Qed.
Lemma run_indent n r : lex_run (InWord "") (srepeat "  " n +++ r) = lex_run (InWord "") r.
Proof. apply run_spaces, srepeat_spaces. Qed.
Lemma P_reads n args ts : line_ok (cat args) ts -> reads_as (P n args) ts.
Proof.
  intros ((c & L & Hc) & E). unfold reads_as. rewrite (P_plain n args c L Hc), run_indent. unfold endl.
  rewrite E by reflexivity. unfold prep. cbn [fst snd lex_run]. now rewrite app_nil_r.
Qed.
Lemma P_blank n : reads_as (P n []) [].
Proof. reflexivity. Qed.
Lemma clean_one_line l : one_line l -> one_line (clean_comment_line l).
Proof.
  unfold one_line, clean_comment_line, no_char. intros H. destruct (trim_left_spec (Ascii.eqb slash) l) as (p & E & _).
  rewrite E, sforall_app in H. now apply andb_true_iff in H.
Qed.
Lemma trim_one_line l : one_line l -> one_line (trim_right is_space l).
Proof.
  unfold one_line, no_char. intros H. destruct (trim_right_spec is_space l) as (p & E & _).
  rewrite E, sforall_app in H. now apply andb_true_iff in H.
Qed.
Lemma trim_right_twice l : trim_right is_space (trim_right is_space l) = trim_right is_space l.
Proof. apply trim_right_id, trim_right_last. Qed.
Lemma remark_reads n args l ts : one_line l -> (args = [] /\ ts = [] \/ exists args', args = args' ++ [" "] /\ line_ok (cat args') ts) ->
  reads_as (P n (args ++ ["//"; clean_comment_line l])) (ts ++ [Rem (trim_right is_space (trim_left (Ascii.eqb slash) l))]).
Proof.
  intros Hl H. unfold reads_as. rewrite P_remark, run_indent. unfold endl.
  apply clean_one_line, trim_one_line in Hl. destruct H as [(-> & ->)|(args' & -> & (_ & E))].
  - cbn [cat]. change ("" +++ ?x) with x. rewrite run_remark by assumption. rewrite trim_right_twice. reflexivity.
  - rewrite cat_app. cbn [cat]. rewrite sapp_nil_r, sapp_assoc. change (" " +++ ?x) with (String " " x).
    rewrite E, run_remark by (reflexivity || assumption). rewrite trim_right_twice. unfold prep. cbn. reflexivity.
Qed.
Lemma p_remarks_reads n ls : Forall one_line ls ->
  reads_as (cat (map (fun line => P n ["//"; clean_comment_line line]) ls))
    (map (fun line => Rem (trim_right is_space (trim_left (Ascii.eqb slash) line))) ls).
Proof.
  intros H. induction H as [|l ls Hl H IH]; [exact reads_nil|]. cbn [map cat].
  change (Rem ?x :: ?r) with ([Rem x] ++ r). apply reads_app; [|assumption].
  apply (remark_reads n [] l []); auto.
Qed.
Lemma p_comment_reads n c : comment_ok c -> reads_as (p_comment n c) (comment_tokens c).
Proof. intros H. destruct c as [c|]; [|exact reads_nil]. now apply p_remarks_reads. Qed.
Lemma p_inline_reads n c args ts : comment_ok c -> line_ok (cat args) ts -> reads_as (p_inline n c args) (ts ++ comment_tokens c).
Proof.
  intros Hc H. destruct c as [c|]; cbn [p_inline comment_tokens]; [|rewrite app_nil_r; now apply P_reads].
  cbn in Hc. destruct Hc as [|l ls Hl Hls]; [rewrite app_nil_r; now apply P_reads|].
  cbn [map]. change (Rem ?x :: ?r) with ([Rem x] ++ r). rewrite app_assoc. apply reads_app; [|now apply p_remarks_reads].
  replace (P n (args ++ [" //"; clean_comment_line l])) with (P n ((args ++ [" "]) ++ ["//"; clean_comment_line l])).
  - apply remark_reads; [assumption|]. right. exists args. auto.
  - unfold P. rewrite <- app_assoc. cbn [app].
    destruct (args ++ [" "; "//"; clean_comment_line l]) eqn:E1; [now destruct args|].
    destruct (args ++ [" //"; clean_comment_line l]) eqn:E2; [now destruct args|].
    rewrite <- E1, <- E2, !cat_app. reflexivity.
Qed.

(** ** Numbers *)
Lemma itoa_word z : a_word (itoa z).
Proof.
  split; [apply itoa_nonempty|].
  assert (forall n, sforall word_char (itoa_N n) = true) as H.
  { intros n. pose proof (Decimal_digits _ _ (itoa_N_Decimal n)) as D. revert D. apply sforall_impl.
    intros c. all_ascii c; vm_compute; congruence. }
  destruct z as [|p|p]; [reflexivity|apply H|]. cbn. apply H.
Qed.

(** ** Proving that a line reads as tokens *)
Lemma last_cat_const x : x <> "" -> forall l, last_char (cat (l ++ [x])) = last_char x.
Proof. intros H l. rewrite cat_app. cbn [cat]. rewrite sapp_nil_r. now apply last_char_app_r. Qed.
Ltac line_end := cbn [cat app]; eexists; split; [repeat rewrite last_char_app_r by not_empty; reflexivity | reflexivity].
Ltac lex_one :=
  first [rewrite run_word by (assumption || apply itoa_word)
       | rewrite run_space by (reflexivity || assumption)
       | rewrite run_sym by (reflexivity || assumption)
       | rewrite run_char by reflexivity
       | rewrite run_string by assumption
       | rewrite run_name_space by (reflexivity || assumption)
       | rewrite run_name_sym by (reflexivity || assumption)].
Ltac lex_finish :=
  rewrite ?prep_nil, ?prep_prep;
  repeat match goal with
         | |- context [word_end ?w] =>
             first [rewrite (word_end_word w) by (assumption || apply itoa_word)
                   | let x := eval vm_compute in (word_end w) in change (word_end w) with x]
         end;
  repeat (rewrite <- app_assoc || cbn [app]); try reflexivity.
Ltac lex_all := cbn [cat app String.append]; repeat (rewrite sapp_assoc || (progress cbn [String.append])); repeat lex_one; lex_finish.
Ltac lex_line := split; [line_end | let c := fresh "c" in let r := fresh "r" in let H := fresh "Hc" in intros c r H; lex_all].

(** ** Literals *)
Section LiteralInd.
  Variable Q : literal -> Prop.
  Hypothesis H : forall src b q arr mp, Forall Q arr -> Forall (fun e => Q (snd e)) mp -> Q (mk_literal src b q arr mp).
  Fixpoint literal_ind' (l : literal) : Q l :=
    match l with
    | mk_literal src b q arr mp =>
        H src b q arr mp
          ((fix go (a : list literal) : Forall Q a :=
              match a with [] => Forall_nil _ | x :: r => Forall_cons x (literal_ind' x) (go r) end) arr)
          ((fix go (m : list (string * literal)) : Forall (fun e => Q (snd e)) m :=
              match m with [] => Forall_nil _ | (k, v) :: r => @Forall_cons _ (fun e => Q (snd e)) (k, v) r (literal_ind' v) (go r) end) mp)
    end.
End LiteralInd.
Lemma quote_end q s : is_quote q = true -> exists c, last_char (String q (s +++ String q EmptyString)) = Some c /\ is_space c = false.
Proof.
  intros H. exists q. split; [|now apply quote_class in H].
  change (String q (s +++ String q EmptyString)) with (String q s +++ String q EmptyString). apply last_char_app.
Qed.
Lemma sforall_last f s c : sforall f s = true -> last_char s = Some c -> f c = true.
Proof.
  intros F L. rewrite <- (srev_involutive s) in F. unfold last_char in L. destruct (srev s) as [|d r]; [discriminate|].
  injection L as ->. rewrite srev_cons, sforall_app in F. cbn in F. apply andb_true_iff in F as [_ F].
  now apply andb_true_iff in F.
Qed.
Lemma last_char_some s : s <> "" -> exists c, last_char s = Some c.
Proof.
  intros H. unfold last_char. destruct (srev s) as [|c r] eqn:E; [|eauto].
  exfalso. apply H. apply (f_equal srev) in E. now rewrite srev_involutive in E.
Qed.
Lemma word_last w : a_word w -> exists c, last_char w = Some c /\ is_space c = false.
Proof.
  intros [Hn H]. destruct (last_char_some w Hn) as (c & L). exists c. split; [assumption|].
  apply (sforall_last word_char w c H) in L. unfold word_char in L. apply negb_true_iff in L. now destruct (is_space c).
Qed.
Definition simple (l : literal) : Prop := l_array l = [] /\ l_map l = [].
Lemma simple_iff l : is_single_value l = true <-> simple l.
Proof. unfold is_single_value, simple. destruct (l_array l), (l_map l); split; intuition discriminate. Qed.
Lemma source_last l : literal_ok l -> simple l -> exists c, last_char (source_of l) = Some c /\ is_space c = false.
Proof.
  destruct l as [src b q arr mp]. intros H [E1 E2]. cbn in E1, E2. subst arr mp. unfold source_of. cbn in *.
  destruct b; [|now apply word_last]. destruct H as [H _]. now apply (quote_end (quote_of (mk_literal src true q [] [])) src).
Qed.
Lemma source_space l c r : literal_ok l -> simple l -> is_space c = true ->
  lex_run (InWord "") (source_of l +++ String c r) = prep (literal_tokens l) (lex_run (InWord "") r).
Proof.
  destruct l as [src b q arr mp]. intros H [E1 E2] Hc. cbn in E1, E2. subst arr mp. unfold source_of. cbn in H.
  cbn [l_is_string l_quote l_source literal_tokens]. destruct b.
  - cbn [String.append]. rewrite sapp_assoc. cbn [String.append].
    change (match q with Some c0 => c0 | None => dquote end) with (quote_of (mk_literal src true q [] [])).
    rewrite run_string by assumption. rewrite run_space by assumption. now rewrite prep_nil.
  - lex_all.
Qed.
Lemma source_sym l c r : literal_ok l -> simple l -> is_symbol c = true ->
  lex_run (InWord "") (source_of l +++ String c r) = prep (literal_tokens l ++ [Sym c]) (lex_run (InWord "") r).
Proof.
  destruct l as [src b q arr mp]. intros H [E1 E2] Hc. cbn in E1, E2. subst arr mp. unfold source_of. cbn in H.
  cbn [l_is_string l_quote l_source literal_tokens]. destruct b.
  - cbn [String.append]. rewrite sapp_assoc. cbn [String.append].
    change (match q with Some c0 => c0 | None => dquote end) with (quote_of (mk_literal src true q [] [])).
    rewrite run_string by assumption. rewrite run_sym by assumption. now rewrite prep_prep.
  - lex_all.
Qed.
Lemma source_ne l : literal_ok l -> simple l -> is_empty (source_of l) = false.
Proof. intros H S. destruct (source_last l H S) as (c & L & _). apply is_empty_false. now apply last_char_ne in L. Qed.
Lemma line_source l pre ts suffix sts : literal_ok l -> simple l ->
  (forall r, lex_run (InWord "") (pre +++ r) = prep ts (lex_run (InWord "") r)) ->
  (suffix = "" /\ sts = [] \/ exists c s, suffix = String c s /\ is_symbol c = true /\ line_ok (String c s) (Sym c :: sts)
      /\ forall d r, is_space d = true -> lex_run (InWord "") (s +++ String d r) = prep sts (lex_run (InWord "") r)) ->
  line_ok (pre +++ source_of l +++ suffix)
    (ts ++ literal_tokens l ++ match suffix with EmptyString => [] | String c _ => Sym c :: sts end).
Proof.
  intros H S Hp Hs. destruct Hs as [(-> & ->)|(c & s & -> & Hc & (Hl & _) & Hr)]; split.
  - rewrite sapp_nil_r, last_char_app_r by (apply is_empty_false; now apply source_ne). now apply source_last.
  - intros d r Hd. rewrite sapp_nil_r, sapp_assoc, Hp, source_space by assumption. rewrite prep_prep, app_nil_r. reflexivity.
  - rewrite last_char_app_r by not_empty. rewrite last_char_app_r by not_empty. assumption.
  - intros d r Hd. rewrite !sapp_assoc. cbn [String.append]. rewrite Hp, source_sym, Hr by assumption.
    rewrite !prep_prep. repeat (rewrite <- app_assoc || cbn [app]). reflexivity.
Qed.

Definition prefix_tokens (name : string) : list token := if is_empty name then [] else name_tokens name ++ [Sym ":"].
Definition prefix_of (name : string) : string := if is_empty name then "" else name +++ ": ".
Lemma run_prefix name r : name = "" \/ a_name name ->
  lex_run (InWord "") (prefix_of name +++ r) = prep (prefix_tokens name) (lex_run (InWord "") r).
Proof.
  intros [->|H]; [symmetry; apply prep_nil|]. unfold prefix_of, prefix_tokens. destruct (is_empty name) eqn:E.
  - apply is_empty_true in E as ->. now destruct H as (H & _).
  - rewrite sapp_assoc. cbn [String.append]. rewrite run_name_sym by (assumption || reflexivity). rewrite run_space by reflexivity.
    now rewrite prep_nil.
Qed.
Definition items_text (n : nat) : list literal -> string :=
  fix items a := match a with [] => "" | x :: r => p_inner (S n) "" x (match r with [] => "" | _ => "," end) +++ items r end.
Definition entries_text (n : nat) : list (string * literal) -> string :=
  fix entries m := match m with [] => "" | (k, v) :: r => p_inner (S n) k v "" +++ entries r end.
Definition items_tokens : list literal -> list (list token) :=
  fix items a := match a with [] => [] | x :: r => literal_tokens x :: items r end.
Definition entries_tokens : list (string * literal) -> list token :=
  fix entries m := match m with [] => [] | (k, v) :: r => name_tokens k ++ Sym ":" :: literal_tokens v ++ entries r end.
Lemma reads_eq a ta tb : reads_as a ta -> ta = tb -> reads_as a tb.
Proof. now intros H <-. Qed.
Definition suffix_tokens (s : string) : list token := match s with EmptyString => [] | String c _ => [Sym c] end.
Lemma line_close c suffix : is_symbol c = true -> suffix = "" \/ suffix = "," ->
  line_ok (cat [String c EmptyString; suffix]) (Sym c :: suffix_tokens suffix).
Proof.
  intros H [->| ->]; split.
  - exists c. split; [reflexivity|]. now apply symbol_class in H.
  - intros d r Hd. cbn [cat String.append]. rewrite run_sym, run_space by assumption. reflexivity.
  - exists ","%char. split; reflexivity.
  - intros d r Hd. cbn [cat String.append]. rewrite run_sym by assumption. rewrite run_sym by reflexivity. rewrite run_space by assumption. reflexivity.
Qed.
Lemma line_open c pre ts : is_symbol c = true -> (forall r, lex_run (InWord "") (pre +++ r) = prep ts (lex_run (InWord "") r)) ->
  line_ok (cat [pre; String c EmptyString]) (ts ++ [Sym c]).
Proof.
  intros H Hp. cbn [cat]. rewrite sapp_nil_r. split.
  - exists c. rewrite last_char_app. split; [reflexivity|]. now apply symbol_class in H.
  - intros d r Hd. rewrite sapp_assoc, Hp. cbn [String.append]. rewrite run_sym, run_space by assumption. rewrite !prep_prep, <- !app_assoc. reflexivity.
Qed.
Lemma p_inner_reads l : forall n name suffix, literal_ok l -> name = "" \/ a_name name -> suffix = "" \/ suffix = "," ->
  reads_as (p_inner n name l suffix) (prefix_tokens name ++ literal_tokens l ++ suffix_tokens suffix).
Proof.
  induction l as [src b q arr mp IHa IHm] using literal_ind'. intros n name suffix H Hn Hs.
  destruct (is_single_value (mk_literal src b q arr mp)) eqn:Es.
  - apply simple_iff in Es as S. cbn [p_inner]. rewrite Es, source_ne by assumption.
    apply P_reads. fold (prefix_of name). cbn [cat]. rewrite sapp_nil_r.
    replace (suffix_tokens suffix) with (match suffix with EmptyString => [] | String c _ => Sym c :: [] end) by (destruct Hs as [->| ->]; reflexivity).
    apply line_source; [assumption..|now intros; apply run_prefix|]. destruct Hs as [->| ->]; [auto|right].
    exists ","%char, "". split; [reflexivity|]. split; [reflexivity|]. split; [apply (line_close ","%char ""); auto|].
    intros d r Hd. cbn [String.append]. now rewrite run_space.
  - cbn [p_inner]. rewrite Es. fold (prefix_of name). fold (items_text n) (entries_text n). destruct arr as [|a0 arr0].
    + destruct mp as [|m0 mp0]; [discriminate|]. set (mp := m0 :: mp0) in *.
      assert (literal_tokens (mk_literal src b q [] mp) = Sym "{" :: entries_tokens mp ++ [Sym "}"]) as -> by reflexivity.
      assert (reads_as (entries_text n mp) (entries_tokens mp)) as E.
      { assert ((fix entries (m : list (string * literal)) : Prop :=
             match m with [] => True | (k, v) :: r => (a_name k /\ literal_ok v) /\ entries r end) mp) as H' by exact H.
        clear H. revert H'. clearbody mp. clear Es m0 mp0. induction IHm as [|[k v] r Hv _ IH]; intros H'; [exact reads_nil|].
        destruct H' as ((Hk & Hlv) & H'). cbn [entries_text entries_tokens]. fold (entries_text n). fold entries_tokens.
        eapply reads_eq; [apply reads_app; [apply Hv; [assumption|now right|now left]|apply IH; exact H']|].
        unfold prefix_tokens. destruct (is_empty k) eqn:Ek; [apply is_empty_true in Ek as ->; now destruct Hk as (Hk & _)|].
        cbn [suffix_tokens]. rewrite app_nil_r. repeat (rewrite <- app_assoc || cbn [app]). reflexivity. }
      eapply reads_eq.
      * apply reads_app; [apply P_reads, (line_open "{"%char); [reflexivity|intros r; now apply run_prefix]|].
        apply reads_app; [exact E|]. apply P_reads, (line_close "}"%char); [reflexivity|assumption].
      * repeat (rewrite <- app_assoc || cbn [app]). reflexivity.
    + destruct mp as [|m0 mp0]; [|now destruct H]. set (arr := a0 :: arr0) in *.
      assert (literal_tokens (mk_literal src b q arr []) = Sym "[" :: sep_by [Sym ","] (items_tokens arr) ++ [Sym "]"]) as -> by reflexivity.
      assert (reads_as (items_text n arr) (sep_by [Sym ","] (items_tokens arr))) as E.
      { assert ((fix items (a : list literal) : Prop := match a with [] => True | x :: r => literal_ok x /\ items r end) arr) as H' by exact H.
        clear H. revert H'. clearbody arr. clear Es a0 arr0. induction IHa as [|x r Hx _ IH]; intros H'; [exact reads_nil|].
        destruct H' as (Hlx & H'). specialize (IH H'). cbn [items_text items_tokens]. fold (items_text n). fold items_tokens.
        eapply reads_eq; [apply reads_app; [apply Hx; [assumption|now left|destruct r; auto]|exact IH]|].
        cbn [prefix_tokens is_empty app sep_by]. destruct r as [|y r]; [cbn [suffix_tokens items_tokens sep_by]; now rewrite !app_nil_r|].
        cbn [suffix_tokens items_tokens]. repeat (rewrite <- app_assoc || cbn [app]). reflexivity. }
      eapply reads_eq.
      * apply reads_app; [apply P_reads, (line_open "["%char); [reflexivity|intros r; now apply run_prefix]|].
        apply reads_app; [exact E|]. apply P_reads, (line_close "]"%char); [reflexivity|assumption].
      * repeat (rewrite <- app_assoc || cbn [app]). reflexivity.
Qed.

(** ** Options *)
Definition good (o : out) (ts : list token) : Prop := reads_as (fst o) ts /\ snd o = [].
Lemma good_says s ts : reads_as s ts -> good (says s) ts.
Proof. now split. Qed.
Lemma good_seq a b ta tb : good a ta -> good b tb -> good (seq a b) (ta ++ tb).
Proof. intros [H1 E1] [H2 E2]. split; cbn [seq fst snd]; [now apply reads_app|]. now rewrite E1, E2. Qed.
Lemma good_eq o ta tb : good o ta -> ta = tb -> good o tb.
Proof. now intros H <-. Qed.
Lemma good_nil : good (says "") [].
Proof. apply good_says, reads_nil. Qed.
Lemma good_outs l lt : Forall2 good l lt -> good (outs l) (concat lt).
Proof. induction 1 as [|o ts l lt H _ IH]; [apply good_nil|]. cbn [outs concat]. now apply good_seq. Qed.

Definition a_suffix (s : string) : Prop := s = "" \/ exists c, s = String c EmptyString /\ is_symbol c = true.
Lemma line_suffix l pre ts suffix : literal_ok l -> simple l ->
  (forall r, lex_run (InWord "") (pre +++ r) = prep ts (lex_run (InWord "") r)) -> a_suffix suffix ->
  line_ok (pre +++ source_of l +++ suffix) (ts ++ literal_tokens l ++ suffix_tokens suffix).
Proof.
  intros H S Hp Hs.
  replace (suffix_tokens suffix) with (match suffix with EmptyString => [] | String c _ => Sym c :: [] end) by (destruct suffix; reflexivity).
  apply line_source; [assumption..|]. destruct Hs as [->|(c & -> & Hc)]; [auto|right].
  exists c, "". split; [reflexivity|]. split; [assumption|]. split; [apply (line_close c ""); auto|].
  intros d r Hd. cbn [String.append]. now rewrite run_space.
Qed.
Lemma line_close' c suffix : is_symbol c = true -> a_suffix suffix ->
  line_ok (cat [String c EmptyString; suffix]) (Sym c :: suffix_tokens suffix).
Proof.
  intros H [->|(d & -> & Hd)]; [apply line_close; auto|]. split.
  - exists d. split; [reflexivity|]. now apply symbol_class in Hd.
  - intros e r He. cbn [cat String.append suffix_tokens]. rewrite 2!run_sym, run_space by assumption. reflexivity.
Qed.
Lemma p_option_good n o prefix pts suffix : option_ok o -> (prefix = "" /\ pts = [] \/ prefix = "option " /\ pts = [Word "option"]) ->
  a_suffix suffix -> good (p_option n prefix suffix o) (setting_tokens o pts (suffix_tokens suffix)).
Proof.
  intros (Hn & Hl & Ha & Hc & Hi) Hp Hs. unfold p_option, setting_tokens.
  assert (forall r, lex_run (InWord "") ((prefix +++ o_name o +++ " = ") +++ r) = prep (pts ++ name_tokens (o_name o) ++ [Sym "="]) (lex_run (InWord "") r)) as Hpre.
  { intros r. destruct Hp as [(-> & ->)|(-> & ->)]; lex_all. }
  apply good_seq; [apply good_says, p_comment_reads; assumption|].
  destruct (is_single_value (o_const o)) eqn:Es.
  - apply simple_iff in Es. rewrite source_ne by assumption. apply good_says.
    eapply reads_eq; [apply p_inline_reads; [assumption|]|].
    + replace (cat [prefix; o_name o; " = "; source_of (o_const o); suffix]) with ((prefix +++ o_name o +++ " = ") +++ source_of (o_const o) +++ suffix)
        by (cbn [cat]; rewrite sapp_nil_r, !sapp_assoc; reflexivity).
      apply line_suffix; [assumption..|exact Hpre|assumption].
    + rewrite <- !app_assoc. reflexivity.
  - rewrite Ha. apply good_says. destruct (o_const o) as [src b q arr mp] eqn:Eo. cbn [l_array] in Ha. subst arr.
    destruct mp as [|m0 mp0]; [discriminate|]. set (mp := m0 :: mp0) in *. cbn [l_map].
    assert (literal_tokens (mk_literal src b q [] mp) = Sym "{" :: entries_tokens mp ++ [Sym "}"]) as -> by reflexivity.
    assert (reads_as (cat (map (fun e => p_inner (S n) (fst e) (snd e) "") mp)) (entries_tokens mp)) as E.
    { assert ((fix entries (m : list (string * literal)) : Prop :=
           match m with [] => True | (k, v) :: r => (a_name k /\ literal_ok v) /\ entries r end) mp) as H' by exact Hl.
      clear Hl Eo. revert H'. clearbody mp. clear Es. induction mp as [|[k v] r IH]; intros H'; [exact reads_nil|].
      destruct H' as ((Hk & Hlv) & H'). cbn [map cat fst snd entries_tokens]. fold entries_tokens.
      eapply reads_eq; [apply reads_app; [apply p_inner_reads; [assumption|now right|now left]|apply IH; exact H']|].
      unfold prefix_tokens. destruct (is_empty k) eqn:Ek; [apply is_empty_true in Ek as ->; now destruct Hk|].
      cbn [suffix_tokens]. rewrite app_nil_r. repeat (rewrite <- app_assoc || cbn [app]). reflexivity. }
    eapply reads_eq.
    + apply reads_app; [apply P_reads|apply reads_app; [exact E|apply p_inline_reads; [assumption|apply (line_close' "}"%char); [reflexivity|assumption]]]].
      replace (cat [prefix; o_name o; " = {"]) with (cat [prefix +++ o_name o +++ " = "; "{"]) by (cbn [cat]; rewrite !sapp_assoc; reflexivity).
      apply (line_open "{"%char); [reflexivity|exact Hpre].
    + repeat (rewrite <- app_assoc || cbn [app]). reflexivity.
Qed.
Lemma option_list_good n os : Forall option_ok os -> good (p_option_list n false os) (concat (map option_tokens os)).
Proof.
  induction 1 as [|o os H _ IH]; [apply good_nil|]. cbn [p_option_list map concat]. apply good_seq; [|exact IH].
  apply (p_option_good n o "option " [Word "option"] ";"); [assumption|auto|]. right. now exists ";"%char.
Qed.
Lemma setting_list_good n os : Forall option_ok os -> good (p_option_list n true os) (settings_tokens os).
Proof.
  induction 1 as [|o os H _ IH]; [apply good_nil|]. cbn [p_option_list settings_tokens]. apply good_seq; [|exact IH].
  destruct os as [|o' os].
  - apply (p_option_good n o "" [] ""); [assumption|auto|now left].
  - apply (p_option_good n o "" [] ","); [assumption|auto|]. right. now exists ","%char.
Qed.

Section Sorted.
  Variable sort : list opt -> list opt.
  Hypothesis sort_ok : sorts_by o_name sort.
  Lemma sort_perm l : Permutation l (sort l).
  Proof. apply sort_ok. Qed.
  Lemma sort_nil : sort [] = [].
  Proof. apply Permutation_nil, sort_perm. Qed.
  Lemma sort_one o : sort [o] = [o].
  Proof. apply Permutation_length_1_inv, sort_perm. Qed.
  Lemma sort_cons o l : sort (o :: l) <> [].
  Proof. intros E. pose proof (sort_perm (o :: l)) as H. rewrite E in H. apply Permutation_sym, Permutation_nil in H. discriminate. Qed.
  Lemma sort_Forall Q l : Forall Q l -> Forall Q (sort l).
  Proof. apply Permutation_Forall, sort_perm. Qed.

  Lemma options_good n os : Forall option_ok os -> good (p_options sort n false os) (concat (map option_tokens (sort os))).
  Proof. intros H. apply option_list_good. now apply sort_Forall. Qed.

  (** *** Fields *)
  Lemma line_bracket pre ts t rest : line_ok (pre +++ t) ts -> rest = t -> line_ok (pre +++ rest) ts.
  Proof. now intros H ->. Qed.
  Lemma field_good n prefix ftype name tag c inline os ts : 
    (forall r, lex_run (InWord "") ((prefix +++ (if is_empty ftype then ftype else ftype +++ " ")) +++ r) = prep ts (lex_run (InWord "") r)) ->
    a_word name -> field_options_ok os -> comment_ok c -> comment_ok inline ->
    good (p_message_or_enum_field sort n prefix name ftype tag c inline os) (field_tokens sort ts name tag os c inline).
  Proof.
    intros Hp Hn (Ho & Hone) Hc Hi. unfold p_message_or_enum_field, field_tokens. cbv zeta.
    set (ft := if is_empty ftype then ftype else ftype +++ " ") in *. clearbody ft.
    apply good_seq; [now apply good_says, p_comment_reads|].
    assert (forall r, lex_run (InWord "") ((prefix +++ ft +++ name +++ " = " +++ itoa tag +++ " [") +++ r)
              = prep (ts ++ [Word name; Sym "="; number tag; Sym "["]) (lex_run (InWord "") r)) as Hpre.
    { intros r. rewrite !sapp_assoc. rewrite <- (sapp_assoc prefix ft), Hp. lex_all. }
    assert (os <> [] -> good (outs [says (P n [prefix; ft; name; " = "; itoa tag; " ["]); p_options sort (S n) true os; says (p_inline n inline ["];"])])
        (ts ++ [Word name; Sym "="; number tag] ++ bracket_tokens (sort os) ++ [Sym ";"] ++ comment_tokens inline)) as Hlong.
    { intros Hne. destruct os as [|o0 os0]; [easy|]. set (os := o0 :: os0) in *.
      eapply good_eq.
      - apply good_outs. constructor; [|constructor; [|constructor; [|constructor]]].
        + apply good_says, P_reads.
          replace (cat [prefix; ft; name; " = "; itoa tag; " ["]) with (cat [prefix +++ ft +++ name +++ " = " +++ itoa tag +++ " "; "["])
            by (cbn [cat]; rewrite !sapp_assoc; reflexivity).
          apply (line_open "["%char _ (ts ++ [Word name; Sym "="; number tag])); [reflexivity|].
          intros r. rewrite !sapp_assoc. rewrite <- (sapp_assoc prefix ft), Hp. lex_all.
        + apply setting_list_good, sort_Forall. exact Ho.
        + apply good_says, p_inline_reads; [assumption|].
          apply (line_close' "]"%char ";"); [reflexivity|]. right. now exists ";"%char.
      - unfold bracket_tokens. destruct (sort os) as [|x l] eqn:E; [now apply sort_cons in E|].
        cbn [concat]. repeat (rewrite <- app_assoc || cbn [app]). rewrite app_nil_r. reflexivity. }
    assert (forall o, os = [o] -> is_single_value (o_const o) = true ->
        reads_as (p_inline n inline [prefix; ft; name; " = "; itoa tag; " ["; o_name o; " = "; source_of (o_const o); "];"])
         (ts ++ [Word name; Sym "="; number tag] ++ bracket_tokens (sort os) ++ [Sym ";"] ++ comment_tokens inline)) as Hshort.
    { intros o -> Es. apply simple_iff in Es as S. inversion Ho as [|? ? (Hon & Hol & _ & _) _]; subst.
      destruct (Hone (proj2 S)) as (E1 & E2). rewrite sort_one. unfold bracket_tokens, settings_tokens, setting_tokens. rewrite E1, E2.
      eapply reads_eq; [apply p_inline_reads; [assumption|]|].
      - replace (cat [prefix; ft; name; " = "; itoa tag; " ["; o_name o; " = "; source_of (o_const o); "];"])
          with ((prefix +++ ft +++ name +++ " = " +++ itoa tag +++ " [" +++ o_name o +++ " = ") +++ source_of (o_const o) +++ "];")
          by (cbn [cat]; rewrite !sapp_assoc; reflexivity).
        apply (line_source (o_const o) _ (ts ++ [Word name; Sym "="; number tag; Sym "["] ++ name_tokens (o_name o) ++ [Sym "="]) "];" [Sym ";"]); [assumption..| |].
        + intros r. rewrite !sapp_assoc. rewrite <- (sapp_assoc prefix ft), Hp. lex_all.
        + right. exists "]"%char, ";". split; [reflexivity|]. split; [reflexivity|]. split.
          * apply (line_close' "]"%char ";"); [reflexivity|]. right. now exists ";"%char.
          * intros d r Hd. cbn [String.append]. rewrite run_sym by reflexivity. rewrite run_space by assumption. reflexivity.
      - repeat (rewrite <- app_assoc || cbn [app]). reflexivity. }
    destruct os as [|o os'].
    - rewrite sort_nil. apply good_says. cbn [bracket_tokens].
      eapply reads_eq; [apply (p_inline_reads n inline _ (ts ++ [Word name; Sym "="; number tag; Sym ";"])); [assumption|]|].
      + split; [line_end|]. intros d r Hd. cbn [cat]. rewrite !sapp_assoc. rewrite <- (sapp_assoc prefix ft), Hp. lex_all.
      + repeat (rewrite <- app_assoc || cbn [app]). reflexivity.
    - destruct os' as [|o' os']; [|now apply Hlong].
      destruct (is_single_value (o_const o)) eqn:Es; [|now apply Hlong].
      inversion Ho as [|? ? (_ & Hol & _) _]; subst.
      rewrite source_ne by (try assumption; now apply simple_iff). apply good_says. now apply Hshort.
  Qed.
End Sorted.

(** ** Declarations *)
Section Declarations.
  Variable sort : list opt -> list opt.
  Hypothesis sort_ok : sorts_by o_name sort.

  Lemma run_join {A} (show : A -> string) (ts : A -> list token) (l : list A) :
    (forall x c r, In x l -> is_symbol c = true -> lex_run (InWord "") (show x +++ String c r) = prep (ts x ++ [Sym c]) (lex_run (InWord "") r)) ->
    forall c r, is_symbol c = true ->
    lex_run (InWord "") (join ", " (map show l) +++ String c r) = prep (sep_by [Sym ","] (map ts l) ++ [Sym c]) (lex_run (InWord "") r).
  Proof.
    intros H c r Hc. induction l as [|x l IH]; [cbn [map join sep_by String.append]; now rewrite run_sym|]. destruct l as [|y l].
    - cbn [map join sep_by]. rewrite H by (auto; now left). now rewrite app_nil_r.
    - cbn [map]. rewrite join_cons2. rewrite !sapp_assoc. change (", " +++ ?x) with (String "," (String " " x)).
      rewrite H by (auto; now left). rewrite run_space by reflexivity.
      change (show y :: map show l) with (map show (y :: l)).
      rewrite IH by (intros; apply H; [now right|assumption]).
      rewrite !prep_prep. cbn [sep_by map]. repeat (rewrite <- app_assoc || cbn [app word_end String.eqb]). reflexivity.
  Qed.
  Lemma run_range x c r : is_symbol c = true ->
    lex_run (InWord "") (range_text x +++ String c r) = prep (range_tokens x ++ [Sym c]) (lex_run (InWord "") r).
  Proof.
    intros Hc. unfold range_text, range_tokens, number. destruct (rg_max x); [|destruct (Z.eqb _ _)]; lex_all.
  Qed.
  Lemma run_reserved_name x c r : a_string dquote x -> is_symbol c = true ->
    lex_run (InWord "") (String dquote (x +++ String dquote EmptyString) +++ String c r) = prep ([Str dquote x] ++ [Sym c]) (lex_run (InWord "") r).
  Proof. intros Hx Hc. lex_all. Qed.
  Lemma line_join pre pts j jts : (forall r, lex_run (InWord "") (pre +++ r) = prep pts (lex_run (InWord "") r)) ->
    (forall c r, is_symbol c = true -> lex_run (InWord "") (j +++ String c r) = prep (jts ++ [Sym c]) (lex_run (InWord "") r)) ->
    line_ok (cat [pre; j; ";"]) (pts ++ jts ++ [Sym ";"]).
  Proof.
    intros Hp Hj. split; [line_end|]. intros c r Hc. cbn [cat]. rewrite !sapp_assoc, Hp. cbn [String.append].
    rewrite Hj by reflexivity. rewrite run_space by assumption. rewrite !prep_prep. rewrite app_nil_r. reflexivity.
  Qed.
  Lemma reserved_good n r pl : kept true pl (EReserved r) -> good (visit_reserved n r) (tokens sort (EReserved r)).
  Proof.
    intros (Hor & Hs & Hc & Hi). unfold visit_reserved. cbn [tokens].
    destruct Hor as [(Hr & En)|(Er & Hn)].
    - rewrite En. destruct (rs_ranges r) as [|x l] eqn:E; [easy|]. rewrite <- E in *. cbn [map]. rewrite app_nil_r.
      replace (match rs_ranges r with [] => says (p_comment n (rs_comment r)) | _ :: _ =>
         says (p_comment n (rs_comment r) +++ p_inline n (rs_inline r) ["reserved "; join ", " (map range_text (rs_ranges r)); ";"]) end)
        with (says (p_comment n (rs_comment r) +++ p_inline n (rs_inline r) ["reserved "; join ", " (map range_text (rs_ranges r)); ";"]))
        by (now rewrite E).
      apply good_says. eapply reads_eq.
      + apply reads_app; [now apply p_comment_reads|]. apply p_inline_reads; [assumption|].
        apply (line_join "reserved " [Word "reserved"]); [intros; lex_all|].
        intros. apply run_join; [|assumption]. intros; now apply run_range.
      + rewrite <- !app_assoc. reflexivity.
    - rewrite Er. destruct (rs_names r) as [|x l] eqn:E; [easy|]. rewrite <- E in *. cbn [map app].
      apply good_says. eapply reads_eq.
      + apply reads_app; [now apply p_comment_reads|]. apply p_inline_reads; [assumption|].
        apply (line_join "reserved " [Word "reserved"]); [intros; lex_all|].
        intros. apply run_join; [|assumption]. intros y d s Hy Hd.
        apply run_reserved_name; [|assumption]. rewrite Forall_forall in Hs. now apply Hs.
      + rewrite <- !app_assoc. reflexivity.
  Qed.
  Lemma extensions_good n x : comment_ok (xt_comment x) -> comment_ok (xt_inline x) -> good (visit_extensions n x) (tokens sort (EExtensions x)).
  Proof.
    intros Hc Hi. apply good_says. cbn [tokens]. eapply reads_eq.
    - apply reads_app; [now apply p_comment_reads|]. apply p_inline_reads; [assumption|].
      apply (line_join "extensions " [Word "extensions"]); [intros; lex_all|].
      intros. apply run_join; [|assumption]. intros; now apply run_range.
    - rewrite <- !app_assoc. reflexivity.
  Qed.
  Lemma rpc_good proto2 n pl r es : kept proto2 pl (ERPC r es) -> good (visit_rpc sort n r) (tokens sort (ERPC r es)).
  Proof.
    intros (He & Hr & Ho & Hn & Hq & Hp & Hc & Hi). unfold visit_rpc. cbn [tokens]. rewrite Hr.
    apply good_seq; [now apply good_says, p_comment_reads|].
    set (head := [Word "rpc"; Word (r_name r); Sym "("] ++ stream_tokens (r_streams_request r) ++
       [Word (r_request r); Sym ")"; Word "returns"; Sym "("] ++ stream_tokens (r_streams_returns r) ++ [Word (r_returns r); Sym ")"]).
    destruct (own_options es) as [|o os] eqn:Eo.
    - cbn [map] in He. subst es. apply good_says.
      eapply reads_eq; [apply (p_inline_reads n _ _ (head ++ [Sym ";"])); [assumption|]|].
      + subst head. unfold stream_tokens. destruct (r_streams_request r), (r_streams_returns r); lex_line.
      + subst head. rewrite <- !app_assoc. reflexivity.
    - assert (es <> []) as Hne by (intros ->; discriminate). destruct es as [|e0 es0] eqn:Ees; [easy|].
      eapply good_eq.
      + apply good_outs. constructor; [|constructor; [|constructor; [|constructor]]].
        * apply good_says, (P_reads n _ (head ++ [Sym "{"])).
          subst head. unfold stream_tokens. destruct (r_streams_request r), (r_streams_returns r); lex_line.
        * now apply options_good.
        * apply good_says, p_inline_reads; [assumption|]. apply (line_close "}"%char ""); auto.
      + subst head. cbn [concat suffix_tokens]. repeat (rewrite <- app_assoc || cbn [app]). rewrite app_nil_r. reflexivity.
  Qed.
  Lemma some_field_good proto2 pl n k f : kept proto2 pl (EField k f) -> good (visit_field sort proto2 n k f) (tokens sort (EField k f)).
  Proof.
    intros (Hl & Ht & Hn & Ho & Hc & Hi). unfold visit_field, p_field. cbn [tokens].
    assert (is_empty (fd_type f) = false) as Et by (apply is_empty_false; apply Ht).
    destruct k as [repeated optional required| |key]; (eapply field_good; [assumption| |assumption..]); intros r.
    - rewrite Et. cbn in Hl. unfold label_tokens.
      destruct repeated, proto2; cbn in Hl;
        repeat match type of Hl with
               | _ \/ _ => destruct Hl as [Hl|Hl]
               | False => destruct Hl
               | _ /\ _ => destruct Hl as (-> & ->)
               | (_, _, _) = _ => discriminate Hl || (injection Hl as <- <-)
               end; try discriminate Hl; lex_all.
    - rewrite Et. lex_all.
    - cbn in Hl. cbn [is_empty String.append]. lex_all.
  Qed.
  Lemma block_good n c opening ots none children cts be ba : comment_ok c ->
    (forall x, x = " {" \/ x = " {}" -> line_ok (cat (opening ++ [x])) (ots ++ [Sym "{"] ++ (if String.eqb x " {" then [] else [Sym "}"]))) ->
    (none = true -> cts = []) -> good children cts ->
    good (block n c opening none children be ba) (comment_tokens c ++ ots ++ [Sym "{"] ++ cts ++ [Sym "}"]).
  Proof.
    intros Hc Ho Hnone Hch. unfold block. assert (forall b : bool, reads_as (if b then P n [] else "") []) as Hb by (intros []; reflexivity).
    destruct none.
    - rewrite Hnone by reflexivity. apply good_says. eapply reads_eq.
      + apply reads_app; [now apply p_comment_reads|]. apply reads_app; [apply P_reads, Ho; auto|apply Hb].
      + cbn. rewrite app_nil_r. reflexivity.
    - eapply good_eq.
      + apply good_outs. constructor; [|constructor; [exact Hch|constructor; [|constructor]]].
        * apply good_says, reads_app; [now apply p_comment_reads|]. apply P_reads, Ho; auto.
        * apply good_says, reads_app; [|apply Hb]. apply P_reads, (line_close "}"%char ""); auto.
      + cbn. rewrite ?app_nil_r. repeat (rewrite <- app_assoc || cbn [app]). reflexivity.
  Qed.
  Definition place_of (p : parent) : place := match p with NoParent => Top | InGroup => NestedGroup | _ => Nested end.
  (** Is [e] printed by the main visitor? *)
  Definition visited (p : parent) (hit : bool) (e : element) : bool :=
    match e with
    | ESyntax _ | EPackage _ | EImport _ => false
    | EOption _ => match p with NoParent => false | _ => true end
    | EComment _ => hit
    | _ => true
    end.
  Lemma visit_good proto2 e : forall p n hit, kept proto2 (place_of p) e -> visited p hit e = true ->
    good (visit sort proto2 p n hit e) (tokens sort e).
  Proof.
    assert (forall p n es,
      Forall (fun e => forall p n hit, kept proto2 (place_of p) e -> visited p hit e = true -> good (visit sort proto2 p n hit e) (tokens sort e)) es ->
      p <> NoParent ->
      (fix all (es : list element) : Prop := match es with [] => True | x :: r => kept proto2 (place_of p) x /\ all r end) es ->
      good ((fix go (es : list element) : out :=
         match es with [] => says "" | x :: r => seq (visit sort proto2 p (S n) true x) (go r) end) es)
        ((fix all (es : list element) : list token := match es with [] => [] | x :: r => tokens sort x ++ all r end) es)) as Hkids.
    { intros p n es IH Hp. induction IH as [|x r Hx _ IH]; intros H; [apply good_nil|]. destruct H as [H1 H2].
      apply good_seq; [|now apply IH]. apply Hx; [assumption|]. destruct x; cbn [visited]; try reflexivity.
      - destruct H1 as [E _]; now destruct p.
      - destruct H1 as [E _]; now destruct p.
      - destruct H1 as [E _]; now destruct p.
      - destruct p; easy. }
    assert (forall es : list element, match es with [] => true | _ => false end = true ->
      (fix all (es : list element) : list token := match es with [] => [] | x :: r => tokens sort x ++ all r end) es = []) as Hnone
      by (intros []; easy).
    induction e as [c|s|pk|i|o|k f|r|x|f es IH|h es IH|h x es IH|h es IH|h o g es IH|h es IH|r es IH] using element_ind';
      intros p n hit H Hv; try discriminate Hv.
    - cbn in Hv. subst hit. cbn [visit tokens]. eapply good_eq; [apply good_says, reads_app; [now apply p_comment_reads|apply P_blank]|]. apply app_nil_r.
    - destruct H as [Hg H]. cbn [visit tokens]. unfold visit_option.
      assert (good (p_options sort n false [o]) (option_tokens o)) as G.
      { eapply good_eq; [apply options_good; [assumption|now constructor]|]. rewrite sort_one by assumption. cbn. apply app_nil_r. }
      destruct p; try exact G; [discriminate Hv|now destruct Hg].
    - now apply (some_field_good proto2 (place_of p)).
    - now apply reserved_good with (pl := Nested).
    - destruct H. now apply extensions_good.
    - destruct H as (Hn & He & Ho & Hc & Hi). cbn [visit tokens]. unfold p_enum_field.
      apply (field_good sort sort_ok n "" "" (ef_name f) (ef_integer f) (ef_comment f) (ef_inline f) (own_options es) []);
        [|assumption..]. intros r. symmetry. apply prep_nil.
    - destruct H as (Hc & Hn & Ha). cbn [visit tokens].
      apply (block_good n (h_comment h) _ [Word "enum"; Word (h_name h)]); [assumption| |auto|].
      + intros y [->| ->]; lex_line.
      + apply Hkids; [assumption|discriminate|exact Ha].
    - destruct H as (Hc & Hn & Ha). cbn [visit tokens].
      apply (block_good n (h_comment h) _ [Word (if x then "extend" else "message"); Word (h_name h)]); [assumption| |auto|].
      + intros y [->| ->]; destruct x; lex_line.
      + apply Hkids; [assumption|discriminate|exact Ha].
    - destruct H as (Hc & Hn & Ha). cbn [visit tokens].
      apply (block_good n (h_comment h) _ [Word "oneof"; Word (h_name h)]); [assumption| |auto|].
      + intros y [->| ->]; lex_line.
      + apply Hkids; [assumption|discriminate|exact Ha].
    - destruct H as (Hc & Hn & Ha). cbn [visit tokens].
      apply (block_good n (h_comment h) _ ((if o then [Word "optional"] else []) ++ [Word "group"; Word (h_name h); Sym "="; number g])); [assumption| |auto|].
      + intros y [->| ->]; destruct o; unfold number; lex_line.
      + apply Hkids; [assumption|discriminate|exact Ha].
    - destruct H as (Hc & Hn & Ha). cbn [visit tokens].
      apply (block_good n (h_comment h) _ [Word "service"; Word (h_name h)]); [assumption| |auto|].
      + intros y [->| ->]; lex_line.
      + apply Hkids; [assumption|discriminate|exact Ha].
    - now apply (rpc_good proto2 n (place_of p)).
  Qed.
End Declarations.
