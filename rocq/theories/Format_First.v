(** Proofs about formatting: the first pass and whole files. *)
From Coq Require Import Permutation Sorted Lia.
From Verif Require Import GoStrFacts Protostrs_Proofs Text_Proofs Format_Spec Format_Lex Format_Model Format_Proofs.

Definition comment_only (es : list element) : bool := forallb is_comment es.
Lemma leading_snoc es e : leading (es ++ [e]) = leading es ++ (if comment_only es && is_comment e then [e] else []).
Proof.
  induction es as [|x es IH]; [destruct e; reflexivity|]. cbn [app leading comment_only forallb].
  destruct x; cbn [is_comment andb]; [|reflexivity..]. rewrite IH. reflexivity.
Qed.
Definition first_syntax (es : list element) : option syntax := match syntaxes es with ESyntax s :: _ => Some s | _ => None end.
Definition first_package (es : list element) : option package := match packages es with EPackage p :: _ => Some p | _ => None end.
Lemma own_options_app a b : own_options (a ++ b) = own_options a ++ own_options b.
Proof. unfold own_options. now rewrite map_app, concat_app. Qed.
Lemma own_imports_app a b : own_imports (a ++ b) = own_imports a ++ own_imports b.
Proof. unfold own_imports. now rewrite map_app, concat_app. Qed.
Lemma last_named_snoc n os o : last_named n (os ++ [o]) = if String.eqb (o_name o) n then Some o else last_named n os.
Proof. 
  induction os as [|x os IH]; [reflexivity|]. cbn [app last_named]. rewrite IH. destruct (String.eqb (o_name o) n); reflexivity.
Qed.
Lemma syntaxes_all es x : In x (syntaxes es) -> exists s, x = ESyntax s.
Proof. unfold syntaxes. intros H. apply filter_In in H as [_ H]. destruct x; try discriminate. eauto. Qed.
Lemma packages_all es x : In x (packages es) -> exists p, x = EPackage p.
Proof. unfold packages. intros H. apply filter_In in H as [_ H]. destruct x; try discriminate. eauto. Qed.

Section First.
  Variable fx : fix_kind.
  Variable file_header : string.
  Notation visit1 := (first_visit fx file_header).
  Definition stash (name : string) (os : list opt) : option opt := if fix_none fx then None else last_named name os.
  Definition kept_options (os : list opt) : list opt := if fix_none fx then os else filter (fun o => negb (is_managed o)) os.
  (** The state after the elements [es]. *)
  Definition after (es : list element) (v : first_pass) : Prop :=
    fp_syntax v = first_syntax es /\ fp_package v = first_package es /\ fp_options v = kept_options (own_options es) /\
    fp_imports v = own_imports es /\ fp_hit v = negb (comment_only es) /\
    fp_csharp v = stash "csharp_namespace" (own_options es) /\ fp_go v = stash "go_package" (own_options es) /\
    fp_java_multiple v = stash "java_multiple_files" (own_options es) /\
    fp_java_class v = stash "java_outer_classname" (own_options es) /\ fp_java v = stash "java_package" (own_options es) /\
    fp_objc v = stash "objc_class_prefix" (own_options es) /\ fp_php v = stash "php_namespace" (own_options es) /\
    fp_out v = outs (map (fun e => match e with EComment c => says (p_comment 0 (Some c) +++ P 0 []) | _ => says "" end)
                        (if fix_none fx || is_empty file_header then leading es else [])).
  Lemma outs_snoc l o : outs (l ++ [o]) = seq (outs l) o.
  Proof.
    induction l as [|x l IH]; cbn [app outs].
    - unfold seq. destruct o as [a b]. cbn. now rewrite sapp_nil_r, app_nil_r.
    - rewrite IH. unfold seq. cbn [fst snd]. now rewrite sapp_assoc, app_assoc.
  Qed.
  Lemma after_all es : length (syntaxes es) <= 1 -> length (packages es) <= 1 -> after es (fold_left visit1 es first_pass_0).
  Proof.
    induction es as [|e es IH] using rev_ind; intros Hs Hp.
    - unfold after, stash, kept_options. cbn. destruct (fix_none fx); cbn; destruct (is_empty file_header); repeat split; reflexivity.
    - rewrite fold_left_app. cbn [fold_left]. unfold syntaxes, packages in Hs, Hp. rewrite filter_app, app_length in Hs, Hp.
      fold (syntaxes es) in Hs. fold (packages es) in Hp.
      destruct IH as (I1 & I2 & I3 & I4 & I5 & I6 & I7 & I8 & I9 & I10 & I11 & I12 & I13); [lia..|].
      set (v := fold_left visit1 es first_pass_0) in *. clearbody v.
      assert (comment_only (es ++ [e]) = comment_only es && is_comment e) as Ec
        by (unfold comment_only; rewrite forallb_app; cbn; now rewrite andb_true_r).
      assert (is_comment e = false -> leading (es ++ [e]) = leading es) as El
        by (intros X; rewrite leading_snoc, X, andb_false_r; apply app_nil_r).
      destruct e as [c|s|pk|i|o|k f|r|x|f l|h l|h x l|h l|h o g l|h l|r l]; [| | | | |unfold after; rewrite own_options_app, own_imports_app; cbn [own_options own_imports map concat app]; rewrite !app_nil_r;
        rewrite El by reflexivity; rewrite Ec; cbn [is_comment]; rewrite andb_false_r;
        unfold first_syntax, first_package, syntaxes, packages; rewrite !filter_app; cbn [filter]; rewrite !app_nil_r;
        repeat (split; [assumption || reflexivity|]); assumption..].
      + (* comment *)
        unfold after. rewrite own_options_app, own_imports_app. cbn [own_options own_imports map concat app]. rewrite !app_nil_r.
        unfold first_syntax, first_package, syntaxes, packages. rewrite !filter_app. cbn [filter]. rewrite !app_nil_r.
        fold (syntaxes es) (packages es). fold (first_syntax es) (first_package es).
        rewrite Ec. cbn [is_comment]. rewrite andb_true_r. rewrite leading_snoc. cbn [is_comment]. rewrite andb_true_r.
        cbn [first_visit]. destruct (comment_only es) eqn:E; cbn [negb] in *; rewrite ?I5.
        * destruct (fix_none fx || is_empty file_header) eqn:Ef; cbn [fp_with fp_syntax fp_package fp_options fp_imports fp_hit fp_out fp_csharp fp_go fp_java_multiple fp_java_class fp_java fp_objc fp_php].
          -- rewrite map_app. cbn [map]. rewrite outs_snoc, <- I13. repeat (split; [assumption || reflexivity|]). reflexivity.
          -- repeat (split; [assumption || reflexivity|]). assumption.
        * rewrite app_nil_r. repeat (split; [assumption || reflexivity|]). assumption.
      + (* syntax *)
        cbn [filter length] in Hs. assert (syntaxes es = []) as Es by (destruct (syntaxes es); [reflexivity|cbn in Hs; lia]).
        unfold after. rewrite own_options_app, own_imports_app. cbn [own_options own_imports map concat app]. rewrite !app_nil_r.
        rewrite El by reflexivity. rewrite Ec. cbn [is_comment]. rewrite andb_false_r.
        unfold first_syntax, first_package, syntaxes, packages. rewrite !filter_app. cbn [filter]. rewrite !app_nil_r.
        fold (syntaxes es) (packages es). fold (first_package es). rewrite Es.
        cbn [first_visit]. rewrite I1. unfold first_syntax. rewrite Es.
        cbn [fp_with fp_syntax fp_package fp_options fp_imports fp_hit fp_out fp_csharp fp_go fp_java_multiple fp_java_class fp_java fp_objc fp_php app negb].
        repeat (split; [assumption || reflexivity|]). assumption.
      + (* package *)
        cbn [filter length] in Hp. assert (packages es = []) as Es by (destruct (packages es); [reflexivity|cbn in Hp; lia]).
        unfold after. rewrite own_options_app, own_imports_app. cbn [own_options own_imports map concat app]. rewrite !app_nil_r.
        rewrite El by reflexivity. rewrite Ec. cbn [is_comment]. rewrite andb_false_r.
        unfold first_syntax, first_package, syntaxes, packages. rewrite !filter_app. cbn [filter]. rewrite !app_nil_r.
        fold (syntaxes es) (packages es). fold (first_syntax es). rewrite Es.
        cbn [first_visit]. rewrite I2. unfold first_package. rewrite Es.
        cbn [fp_with fp_syntax fp_package fp_options fp_imports fp_hit fp_out fp_csharp fp_go fp_java_multiple fp_java_class fp_java fp_objc fp_php app negb].
        repeat (split; [assumption || reflexivity|]). assumption.
      + (* import *)
        unfold after. rewrite own_options_app, own_imports_app. cbn [own_options own_imports map concat app]. rewrite !app_nil_r.
        rewrite El by reflexivity. rewrite Ec. cbn [is_comment]. rewrite andb_false_r.
        unfold first_syntax, first_package, syntaxes, packages. rewrite !filter_app. cbn [filter]. rewrite !app_nil_r.
        fold (syntaxes es) (packages es). fold (first_syntax es) (first_package es).
        cbn [first_visit fp_with fp_syntax fp_package fp_options fp_imports fp_hit fp_out fp_csharp fp_go fp_java_multiple fp_java_class fp_java fp_objc fp_php app negb].
        rewrite I4. repeat (split; [assumption || reflexivity|]). assumption.
      + (* option *)
        unfold after. rewrite own_options_app, own_imports_app. cbn [own_options own_imports map concat app]. rewrite ?app_nil_r.
        rewrite El by reflexivity. rewrite Ec. cbn [is_comment]. rewrite andb_false_r.
        unfold first_syntax, first_package, syntaxes, packages. rewrite !filter_app. cbn [filter]. rewrite !app_nil_r.
        fold (syntaxes es) (packages es). fold (first_syntax es) (first_package es).
        cbn [first_visit]. unfold first_option, stash, kept_options in *. cbv zeta.
        destruct (fix_none fx) eqn:Ef.
        * cbn [fp_hits fp_with fp_syntax fp_package fp_options fp_imports fp_hit fp_out fp_csharp fp_go fp_java_multiple fp_java_class fp_java fp_objc fp_php app negb].
          rewrite I3. repeat (split; [assumption || reflexivity|]). assumption.
        * rewrite filter_app, !last_named_snoc. cbn [filter]. unfold is_managed at 2. cbn [managed_names existsb].
          repeat match goal with
          | |- context [String.eqb (o_name o) ?n] =>
              let E := fresh "E" in destruct (String.eqb (o_name o) n) eqn:E;
              [apply String.eqb_eq in E; rewrite ?E|]
          end; cbn [orb negb String.eqb Ascii.eqb Bool.eqb app fp_hits fp_with fp_syntax fp_package fp_options fp_imports fp_hit fp_out fp_csharp fp_go fp_java_multiple fp_java_class fp_java fp_objc fp_php];
          try congruence; rewrite ?app_nil_r, ?I3; repeat (split; [assumption || reflexivity|]); assumption.
  Qed.
End First.

(** ** Whole files *)
Lemma reads_trim_right h ts : reads_as (h +++ String newline EmptyString) ts -> reads_as (trim_right is_space h +++ String newline EmptyString) ts.
Proof.
  unfold reads_as. intros H. destruct (trim_right_spec is_space h) as (q & Ht & Hq). set (u := trim_right is_space h) in *.
  rewrite Ht, sapp_assoc, run_app in H. rewrite run_app. set (r := lex_run (InWord "") u) in *.
  assert (proper (snd r)) as Pr by (apply run_proper; exact I).
  unfold prep in *. injection H as H1 H2. set (w := q +++ String newline EmptyString) in *.
  rewrite (blank_end (snd r) w (fst (lex_run (snd r) w)) Pr).
  - cbn [fst snd]. now rewrite H1.
  - subst w. rewrite sforall_app, Hq. reflexivity.
  - rewrite <- H2. now destruct (lex_run (snd r) w).
Qed.
Lemma header_reads h ts : reads_as (h +++ String newline EmptyString) ts -> reads_as (P 0 [h] +++ P 0 []) ts.
Proof.
  intros H. rewrite <- (app_nil_r ts). apply reads_app; [|apply P_blank].
  unfold P. cbn [srepeat cat]. change ("" +++ ?x) with x. rewrite sapp_nil_r. cbv zeta.
  apply reads_trim_right in H. destruct (is_empty (trim_space (trim_right is_space h))) eqn:E; [|exact H].
  apply is_empty_true in E. destruct (trim_right is_space h) as [|c r] eqn:Et; [exact H|]. exfalso. rewrite <- Et in E.
  destruct (last_char_some (trim_right is_space h)) as (d & Hd); [now rewrite Et|].
  revert E. apply trim_space_ne with (c := d); [assumption|]. now apply trim_right_last in Hd.
Qed.

Section File.
  Variable sort_options : list opt -> list opt.
  Variable sort_imports : list import -> list import.
  Hypothesis sort_o : sorts_by o_name sort_options.
  Hypothesis sort_i : sorts_by im_filename sort_imports.
  Notation tok := (tokens sort_options).
  Definition all_tokens (es : list element) : list token := concat (map tok es).
  Lemma all_tokens_app a b : all_tokens (a ++ b) = all_tokens a ++ all_tokens b.
  Proof. unfold all_tokens. now rewrite map_app, concat_app. Qed.

  Lemma main_good proto2 es : forall hit, Forall (kept proto2 Top) es ->
    good (main_loop sort_options proto2 hit es) (all_tokens (others (if hit then es else after_leading es))).
  Proof.
    induction es as [|e es IH]; intros hit H; [destruct hit; apply good_nil|]. inversion H as [|? ? He Hes]; subst.
    cbn [main_loop].
    destruct (visited NoParent hit e) eqn:Ev.
    - replace (all_tokens (others (if hit then e :: es else after_leading (e :: es)))) with (tok e ++ all_tokens (others es)).
      + apply good_seq; [now apply visit_good|]. specialize (IH true Hes). cbv iota in IH.
        replace (hit || negb (is_comment e)) with true; [exact IH|]. destruct hit; [reflexivity|]. destruct e; try reflexivity; discriminate.
      + destruct hit; destruct e; try discriminate; reflexivity.
    - replace (visit sort_options proto2 NoParent 0 hit e) with (says "")
        by (destruct e; try discriminate Ev; try reflexivity; cbn in Ev; subst; reflexivity).
      change (all_tokens (others (if hit then e :: es else after_leading (e :: es)))) with
        ([] ++ all_tokens (others (if hit then e :: es else after_leading (e :: es)))).
      apply good_seq; [apply good_nil|].
      destruct (is_comment e) eqn:Ec.
      + destruct e; try discriminate Ec. cbn in Ev. subst hit. cbn [orb negb after_leading]. now apply (IH false).
      + rewrite orb_true_r. specialize (IH true Hes). cbv iota in IH.
        replace (all_tokens (others (if hit then e :: es else after_leading (e :: es)))) with (all_tokens (others es)); [exact IH|].
        destruct hit; destruct e; try discriminate; reflexivity.
  Qed.
  Lemma import_good i : kept true Top (EImport i) -> reads_as (p_import i) (tok (EImport i)).
  Proof.
    intros (_ & Hc & Hi & Hk & Hf). unfold p_import. cbn [tokens]. apply reads_app; [now apply p_comment_reads|].
    eapply reads_eq; [apply (p_inline_reads 0 _ _ ([Word "import"] ++ word_end (im_kind i) ++ [Str dquote (im_filename i); Sym ";"])); [assumption|]|].
    - destruct Hk as [->|Hk].
      + cbn [is_empty]. lex_line.
      + assert (is_empty (im_kind i) = false) as -> by (apply is_empty_false, Hk). lex_line.
    - rewrite <- !app_assoc. reflexivity.
  Qed.
  Lemma imports_good is : Forall (fun i => kept true Top (EImport i)) is -> reads_as (cat (map p_import is)) (all_tokens (map EImport is)).
  Proof.
    induction 1 as [|i is H _ IH]; [exact reads_nil|]. cbn [map cat]. unfold all_tokens. cbn [map concat]. apply reads_app; [|exact IH].
    now apply import_good.
  Qed.
  Lemma all_options os : all_tokens (map EOption os) = concat (map option_tokens os).
  Proof. unfold all_tokens. rewrite map_map. reflexivity. Qed.
  Lemma own_options_kept proto2 es : Forall (kept proto2 Top) es -> Forall option_ok (own_options es).
  Proof.
    induction 1 as [|e es H _ IH]; [constructor|]. unfold own_options. cbn [map concat]. apply Forall_app. split; [|exact IH].
    destruct e; try constructor; [|constructor]. apply H.
  Qed.
  Lemma own_imports_kept proto2 es : Forall (kept proto2 Top) es -> Forall (fun i => kept true Top (EImport i)) (own_imports es).
  Proof.
    induction 1 as [|e es H _ IH]; [constructor|]. unfold own_imports. cbn [map concat]. apply Forall_app. split; [|exact IH].
    destruct e; try constructor; [|constructor]. apply H.
  Qed.
  Lemma leading_kept proto2 es : Forall (kept proto2 Top) es -> Forall (kept proto2 Top) (leading es).
  Proof. induction 1 as [|e es H _ IH]; [constructor|]. destruct e; try constructor; assumption. Qed.
  Lemma leading_comments es : Forall (fun e => exists c, e = EComment c) (leading es).
  Proof. induction es as [|e es IH]; [constructor|]. destruct e; try constructor; eauto. Qed.

  Section Fix.
    Variable filename : string.
    Variable fx : fix_kind.
    Variable file_header prefix : string.
    Definition settings (pkg : string) : list (string * literal) :=
      match fx with
      | FixNone => []
      | FixV1 => settings_v1 (go_package pkg) (java_outer_classname filename) (java_package_prefix_override pkg prefix)
      | FixV2 => settings_v2 (go_package_v2 pkg) (java_outer_classname filename) (java_package_prefix_override pkg prefix)
                   (csharp_namespace pkg) (objc_class_prefix pkg) (php_namespace pkg)
      end.
    Definition printed_options (es : list element) : list opt :=
      match fx with
      | FixNone => own_options es
      | _ => match first_package es with
             | None => filter (fun o => negb (is_managed o)) (own_options es)
             | Some p => fixed_options (settings (pk_name p)) (own_options es)
             end
      end.
    Lemma managed_is es v p : fx <> FixNone -> after fx file_header es v ->
      managed filename fx prefix v p = map (reset (own_options es)) (settings p).
    Proof.
      intros Hf (_ & _ & _ & _ & _ & I6 & I7 & I8 & I9 & I10 & I11 & I12 & _). unfold managed, settings.
      rewrite I6, I7, I8, I9, I10, I11, I12. unfold stash.
      assert (forall n l, with_const n (last_named n (own_options es)) l = reset (own_options es) (n, l)) as E.
      { intros n l. unfold reset. cbn [fst snd]. destruct (last_named n (own_options es)) as [o|]; reflexivity. }
      destruct fx; [easy| |]; cbn [fix_none fix_v2]; rewrite !E; reflexivity.
    Qed.
    (** The tokens before the syntax. *)
    Definition top_tokens (es : list element) (hts : list token) : list token :=
      if fix_none fx || is_empty file_header then all_tokens (leading es) else hts.
    Lemma first_good proto2 es hts : length (syntaxes es) <= 1 -> length (packages es) <= 1 -> Forall (kept proto2 Top) es ->
      Forall option_ok (printed_options es) -> reads_as (file_header +++ String newline EmptyString) hts ->
      good (first_do sort_options sort_imports filename fx file_header prefix (fold_left (first_visit fx file_header) es first_pass_0))
        (top_tokens es hts ++ all_tokens (syntaxes es) ++ all_tokens (packages es) ++
         all_tokens (map EOption (sort_options (printed_options es))) ++ all_tokens (map EImport (sort_imports (own_imports es)))).
    Proof.
      intros Hs Hp Hk Ho Hh. pose proof (after_all fx file_header es Hs Hp) as A.
      set (v := fold_left (first_visit fx file_header) es first_pass_0) in *. clearbody v.
      unfold first_do. cbv zeta. pose proof A as A'.
      destruct A as (I1 & I2 & I3 & I4 & I5 & _ & _ & _ & _ & _ & _ & _ & I13). rewrite I13, I1, I2, I3, I4.
      eapply good_eq.
      - apply good_outs.
        constructor; [|constructor; [|constructor; [|constructor; [|constructor; [|constructor; [|constructor]]]]]].
        + (* leading comments *)
          instantiate (1 := if fix_none fx || is_empty file_header then all_tokens (leading es) else []).
          destruct (fix_none fx || is_empty file_header); [|apply good_nil].
          apply leading_kept in Hk. pose proof (leading_comments es) as Hc. clear - Hk Hc.
          induction Hc as [|e l (c & ->) _ IH]; [apply good_nil|]. inversion Hk as [|? ? Hk1 Hk2]; subst.
          cbn [map outs]. unfold all_tokens. cbn [map concat]. apply good_seq; [|now apply IH].
          apply good_says. eapply reads_eq; [apply reads_app; [now apply p_comment_reads|apply P_blank]|]. apply app_nil_r.
        + (* header *)
          instantiate (1 := if fix_none fx || is_empty file_header then [] else hts).
          destruct (fix_none fx || is_empty file_header); [apply good_nil|]. apply good_says. now apply header_reads.
        + (* syntax *)
          instantiate (1 := all_tokens (syntaxes es)). unfold first_syntax.
          destruct (syntaxes es) as [|e l] eqn:Es; [apply good_nil|].
          assert (In e es) as He by (assert (In e (syntaxes es)) as X by (rewrite Es; now left); now apply filter_In in X).
          destruct (syntaxes_all es e) as (s & ->); [rewrite Es; now left|].
          assert (l = []) as -> by (destruct l; [reflexivity|cbn in Hs; lia]).
          rewrite Forall_forall in Hk. destruct (Hk _ He) as (_ & Hc & Hi & Hv). apply good_says.
          unfold all_tokens. cbn [map concat tokens]. rewrite app_nil_r.
          apply reads_app; [now apply p_comment_reads|].
          eapply reads_eq.
          * apply reads_app; [instantiate (1 := []); destruct (sx_comment s); reflexivity|].
            apply reads_app; [|apply P_blank].
            apply (p_inline_reads 0 (sx_inline s) _ [Word "syntax"; Sym "="; Str dquote (sx_value s); Sym ";"]); [assumption|]. lex_line.
          * cbn [app]. now rewrite app_nil_r.
        + (* package *)
          instantiate (1 := all_tokens (packages es)). unfold first_package.
          destruct (packages es) as [|e l] eqn:Es; [apply good_nil|].
          assert (In e es) as He by (assert (In e (packages es)) as X by (rewrite Es; now left); now apply filter_In in X).
          destruct (packages_all es e) as (s & ->); [rewrite Es; now left|].
          assert (l = []) as -> by (destruct l; [reflexivity|cbn in Hp; lia]).
          rewrite Forall_forall in Hk. destruct (Hk _ He) as (_ & Hc & Hi & Hv). apply good_says.
          unfold all_tokens. cbn [map concat tokens]. rewrite app_nil_r.
          apply reads_app; [now apply p_comment_reads|].
          eapply reads_eq.
          * apply reads_app; [|apply P_blank].
            apply (p_inline_reads 0 (pk_inline s) _ [Word "package"; Word (pk_name s); Sym ";"]); [assumption|]. lex_line.
          * now rewrite app_nil_r.
        + (* options *)
          instantiate (1 := all_tokens (map EOption (sort_options (printed_options es)))).
          assert ((if fix_none fx then kept_options fx (own_options es)
                   else match first_package es with None => kept_options fx (own_options es)
                        | Some p => kept_options fx (own_options es) ++ managed filename fx prefix v (pk_name p) end) = printed_options es) as ->.
          { unfold printed_options, kept_options, fixed_options. destruct fx eqn:Ef; cbn [fix_none]; [reflexivity| |];
            destruct (first_package es); try reflexivity; f_equal; rewrite <- Ef in *; apply managed_is; congruence. }
          rewrite all_options. destruct (printed_options es) as [|o l] eqn:Eo.
          * rewrite (sort_nil sort_options sort_o). apply good_nil.
          * eapply good_eq; [apply good_seq; [apply options_good; [assumption|exact Ho]|apply good_says, P_blank]|]. apply app_nil_r.
        + (* imports *)
          instantiate (1 := all_tokens (map EImport (sort_imports (own_imports es)))).
          assert (Forall (fun i => kept true Top (EImport i)) (sort_imports (own_imports es))) as Hi
            by (eapply Permutation_Forall; [apply sort_i|now apply (own_imports_kept proto2)]).
          destruct (own_imports es) as [|i l] eqn:Ei.
          * assert (sort_imports [] = []) as -> by (apply Permutation_nil, sort_i). apply good_nil.
          * apply good_says. eapply reads_eq; [apply reads_app; [apply imports_good; exact Hi|apply P_blank]|]. apply app_nil_r.
      - cbn [concat]. unfold top_tokens. destruct (fix_none fx || is_empty file_header); rewrite ?app_nil_r; reflexivity.
    Qed.

    Definition printed_tokens (es : list element) (hts : list token) : list token :=
      top_tokens es hts ++ all_tokens (canonical_with sort_options sort_imports [] (printed_options es) es).
    Lemma transform_good es hts : kept_file es -> Forall option_ok (printed_options es) ->
      reads_as (file_header +++ String newline EmptyString) hts ->
      exists text, transform_elements sort_options sort_imports filename fx file_header prefix es = Ok (text, []) /\
        reads_as text (printed_tokens es hts).
    Proof.
      intros (Hs & Hp & Hsyn) Ho Hh.
      assert (exists proto2, Forall (kept proto2 Top) es /\
        match first_syntax es with
        | None => Ok true
        | Some s => if String.eqb (sx_value s) "" then Ok true else if String.eqb (sx_value s) "proto2" then Ok true
                    else if String.eqb (sx_value s) "proto3" then Ok false else Err ("unknown syntax: " +++ sx_value s)
        end = Ok proto2) as (proto2 & Hk & E).
      { unfold first_syntax. destruct Hsyn as [(H2 & Hk)|((s & Hin & H3) & Hk)].
        - exists true. split; [assumption|]. destruct (syntaxes es) as [|e l] eqn:Es; [reflexivity|].
          destruct (syntaxes_all es e) as (s & ->); [rewrite Es; now left|].
          assert (In (ESyntax s) es) as He by (assert (In (ESyntax s) (syntaxes es)) as X by (rewrite Es; now left); now apply filter_In in X).
          destruct (H2 s He) as [-> | ->]; reflexivity.
        - exists false. split; [assumption|].
          assert (In (ESyntax s) (syntaxes es)) as X by (apply filter_In; auto).
          destruct (syntaxes es) as [|e l]; [easy|]. destruct l; [|cbn in Hs; lia]. destruct X as [->|[]]. now rewrite H3. }
      pose proof (first_good proto2 es hts Hs Hp Hk Ho Hh) as (R1 & F1). pose proof (main_good proto2 es false Hk) as (R2 & F2).
      unfold transform_elements. cbv zeta.
      destruct (after_all fx file_header es Hs Hp) as (I1 & _).
      rewrite I1, E. cbn [bind]. rewrite F1, F2. eexists. split; [reflexivity|].
      pose proof (reads_app _ _ _ _ R1 R2) as R.
      assert (printed_tokens es hts = (top_tokens es hts ++ all_tokens (syntaxes es) ++ all_tokens (packages es) ++
         all_tokens (map EOption (sort_options (printed_options es))) ++ all_tokens (map EImport (sort_imports (own_imports es)))) ++
         all_tokens (others (after_leading es))) as ->.
      { unfold printed_tokens, canonical_with. cbn [app]. rewrite !all_tokens_app, <- !app_assoc. reflexivity. }
      destruct (is_empty _) eqn:Ee.
      - apply is_empty_true in Ee. apply (reads_trim_empty _ _ R) in Ee. cbv iota in Ee. rewrite Ee. exact reads_nil.
      - apply reads_trim in R. exact R.
    Qed.
  End Fix.
End File.
