(** Proofs about formatting: format --fix, once more. *)
From Coq Require Import Permutation Sorted Lia.
From Verif Require Import GoStrFacts Format_Spec Format_Model Format_Proofs Format_First Format_Same Format_Same2 Format_Fix.

Section Same3.
  Variable sort : list opt -> list opt.
  Variable sort_imports : list import -> list import.
  Hypothesis sort_ok : sorts_by o_name sort.
  Hypothesis sort_i : sorts_by im_filename sort_imports.
  Variable filename : string.
  Variable fx : fix_kind.
  Variable header prefix : string.

  Notation printed := (printed_options filename fx prefix).
  Definition body_text (os : list opt) (es : list element) : string :=
    match first_syntax es with None => "" | Some s => syntax_text s end +++
    match first_package es with None => "" | Some p => package_text p end +++
    match os with [] => "" | _ => fst (p_options sort 0 false os) +++ P 0 [] end +++
    match own_imports es with [] => "" | _ => p_imports sort_imports (own_imports es) +++ P 0 [] end.
  Lemma head_body es : head_text sort sort_imports es = leading_text (leading es) +++ body_text (own_options es) es.
  Proof. reflexivity. Qed.
  Definition top_text (es : list element) : string :=
    if fix_none fx || is_empty header then leading_text (leading es) else P 0 [header] +++ P 0 [].
  Definition whole (proto2 : bool) (head : string) (es : list element) : string :=
    let s := trim_space (head +++ cat (map (fun e => fst (visit sort proto2 NoParent 0 true e)) (others (after_leading es)))) in
    if is_empty s then "" else s +++ endl.
  Definition fine (proto2 : bool) (os : list opt) (es : list element) : Prop :=
    Forall no_array os /\ Forall (fun e => snd (visit sort proto2 NoParent 0 true e) = []) (others (after_leading es)).
  Lemma first_options es v : after fx header es v ->
    (if fix_none fx then fp_options v else match fp_package v with None => fp_options v | Some p => fp_options v ++ managed filename fx prefix v (pk_name p) end) = printed es.
  Proof.
    intros A. pose proof A as (I1 & I2 & I3 & _). unfold printed_options. rewrite I3, I2. unfold kept_options. destruct fx eqn:F; cbn [fix_none]; [reflexivity| |];
      (destruct (first_package es) as [p|]; [|reflexivity]); unfold fixed_options; f_equal; rewrite <- F; apply managed_is with (file_header := header); rewrite F; try discriminate; exact A.
  Qed.
  Lemma fix_text es : length (syntaxes es) <= 1 -> length (packages es) <= 1 ->
    exists fs, transform_elements sort sort_imports filename fx header prefix es =
      (do proto2 <- version_of es; Ok (whole proto2 (top_text es +++ body_text (printed es) es) es, fs proto2)) /\
      forall proto2, fs proto2 = [] <-> fine proto2 (printed es) es.
  Proof.
    intros Hs Hp. unfold transform_elements. cbv zeta. pose proof (after_all fx header es Hs Hp) as A.
    set (v := fold_left _ es _) in *. clearbody v. pose proof (first_options _ _ A) as Eo. destruct A as (I1 & I2 & I3 & I4 & I5 & _ & _ & _ & _ & _ & _ & _ & I13).
    unfold version_of. rewrite I1.
    exists (fun proto2 => snd (first_do sort sort_imports filename fx header prefix v) ++ snd (main_loop sort proto2 false es)).
    split.
    - destruct (match first_syntax es with None => _ | Some s => _ end) as [proto2|m]; [|reflexivity]. cbn [bind]. f_equal. f_equal.
      unfold whole. cbv zeta. rewrite main_text.
      assert (fst (first_do sort sort_imports filename fx header prefix v) = top_text es +++ body_text (printed es) es) as ->; [|reflexivity].
      unfold first_do, body_text, top_text. cbv zeta. rewrite Eo, I1, I2, I4, I13.
      cbn [outs seq fst]. rewrite sapp_nil_r. destruct (fix_none fx || is_empty header); cbn [says fst map outs String.append]; rewrite ?outs_leading, ?sapp_assoc; cbn [String.append].
      + destruct (first_syntax es), (first_package es), (printed es), (own_imports es); reflexivity.
      + destruct (first_syntax es), (first_package es), (printed es), (own_imports es); unfold syntax_text, package_text; cbn [says fst seq outs String.append]; rewrite ?sapp_assoc; reflexivity.
    - intros proto2. rewrite app_nil, main_failures, concat_nil. unfold fine.
      assert (snd (first_do sort sort_imports filename fx header prefix v) = [] <-> Forall no_array (printed es)) as ->; [|reflexivity].
      rewrite <- (p_options_ok sort sort_ok 0 false). unfold first_do. cbv zeta. rewrite Eo, I1, I2, I4, I13.
      cbn [outs seq snd].
      assert (L : forall l, snd (outs (map (fun e => match e with EComment c => says (p_comment 0 (Some c) +++ P 0 []) | _ => says "" end) l)) = []).
      { induction l as [|e l IH]; [reflexivity|]. cbn [map outs seq snd]. rewrite IH. destruct e; reflexivity. }
      rewrite L. destruct (fix_none fx || is_empty header); cbn [app says snd];
      (destruct (printed es) as [|o os] eqn:E;
       [rewrite p_options_ok by assumption; destruct (first_syntax es), (first_package es), (own_imports es); cbn; split; auto; constructor
       |destruct (first_syntax es), (first_package es), (own_imports es); cbn [snd says app seq]; rewrite ?app_nil_r; reflexivity]).
  Qed.

  (** *** Fixing what is fixed *)
  Lemma last_named_unique n os o : NoDup (map o_name os) -> In o os -> o_name o = n -> last_named n os = Some o.
  Proof.
    induction os as [|x os IH]; [easy|]. cbn [map last_named]. intros N [->|I] E; apply NoDup_cons_iff in N as (N1 & N2).
    - destruct (last_named n os) as [y|] eqn:L; [|now rewrite E, String.eqb_refl]. exfalso. apply N1.
      assert (o_name y = n). { revert L. clear. induction os as [|z os IH]; [easy|]. cbn [last_named]. destruct (last_named n os); [intros [= ->]; auto|]. destruct (String.eqb_spec (o_name z) n); [now intros [= <-]|easy]. }
      rewrite E, <- H. apply in_map. eapply last_named_in; eassumption.
    - now rewrite (IH N2 I E).
  Qed.
  Lemma nodup_by {A B} (f : A -> B) l : NoDup (map f l) -> NoDup l.
  Proof. induction l as [|x l IH]; [constructor|]. cbn. intros N. apply NoDup_cons_iff in N as (N1 & N2). constructor; [|auto]. intros I. apply N1. now apply in_map. Qed.
  Lemma nodup_both {A} (a b : list A) : NoDup a -> NoDup b -> (forall x, In x a -> ~ In x b) -> NoDup (a ++ b).
  Proof.
    intros Na Nb D. induction Na as [|x a N _ IH]; [exact Nb|]. cbn [app]. constructor; [rewrite in_app_iff; intros [?|?]; [contradiction|now apply (D x); [left|]]|].
    apply IH. intros y I. apply D. now right.
  Qed.
  Lemma fixed_again S os : NoDup (map fst S) -> incl (map fst S) managed_names -> NoDup (map o_name os) ->
    (forall n v, In (n, v) S -> exists o, In o os /\ o_name o = n /\ o_const o = v) ->
    (forall o, In o os -> is_managed o = true -> In (o_name o) (map fst S)) -> Permutation os (fixed_options S os).
  Proof.
    intros NS Hm No Hs Ho. unfold fixed_options.
    assert (P : forall l : list opt, Permutation l (filter (fun o => negb (is_managed o)) l ++ filter is_managed l)).
    { induction l as [|o l IH]; [reflexivity|]. cbn [filter]. destruct (is_managed o); cbn [negb]; [apply Permutation_cons_app; exact IH|]. cbn [app]. now constructor. }
    eapply Permutation_trans; [apply P|]. apply Permutation_app_head.
    assert (R : forall s, In s S -> In (reset os s) os /\ o_name (reset os s) = fst s).
    { intros [n v] I. destruct (Hs n v I) as (o & Io & En & Ec). unfold reset. cbn [fst snd]. rewrite (last_named_unique n os o No Io En).
      replace (mk_opt (o_pos o) (o_name o) v (o_comment o) (o_inline o)) with o by (destruct o; cbn in *; now subst). auto. }
    apply NoDup_Permutation.
    - apply NoDup_filter. now apply (nodup_by o_name).
    - apply (nodup_by o_name). rewrite map_map. replace (map (fun s => o_name (reset os s)) S) with (map fst S); [exact NS|]. apply map_ext_in. intros s I. symmetry. now apply R.
    - intros o. rewrite filter_In, in_map_iff. split.
      + intros (I & M). destruct (proj1 (in_map_iff _ _ _) (Ho o I M)) as (s & E & Is). exists s. split; [|exact Is]. destruct (R s Is) as (R1 & R2).
        pose proof (last_named_unique (o_name o) os o No I eq_refl) as L1. pose proof (last_named_unique (o_name o) os _ No R1 (eq_trans R2 E)) as L2. congruence.
      + intros (s & <- & Is). destruct (R s Is) as (R1 & R2). split; [exact R1|]. apply managed_iff. rewrite R2. apply Hm. now apply in_map.
  Qed.

  (** *** The file that is printed *)
  Definition with_options (top : list element) (es : list element) : list element := canonical_with sort sort_imports top (printed es) es.
  Definition fixable (es : list element) : Prop := fx = FixNone \/ (exists p, In (EPackage p) es) \/ Forall (fun o => is_managed o = false) (own_options es).
  Definition tail_of (es : list element) : list element :=
    syntaxes es ++ packages es ++ map EOption (sort (printed es)) ++ map EImport (sort_imports (own_imports es)) ++ others (after_leading es).
  Lemma unmanaged_same os : Forall (fun o => is_managed o = false) os -> filter (fun o => negb (is_managed o)) os = os.
  Proof. induction 1 as [|o os H _ IH]; [reflexivity|]. cbn [filter]. now rewrite H, IH. Qed.
  Lemma tail_starts es : fixable es -> starts (tail_of es).
  Proof.
    intros H. unfold tail_of. destruct (first_package es) as [p|] eqn:Ep.
    - destruct (syntaxes es) as [|a l] eqn:Es; [|destruct (syntaxes_all es a) as (x & ->); [rewrite Es; now left|exact I]].
      unfold first_package in Ep. destruct (packages es) as [|a l] eqn:E; [discriminate|]. destruct (packages_all es a) as (x & ->); [rewrite E; now left|exact I].
    - replace (printed es) with (own_options es); [apply rest_starts; assumption|]. unfold printed_options. rewrite Ep. destruct H as [->|[(p & Ip)|H]]; [reflexivity| |].
      + exfalso. assert (Iq : In (EPackage p) (packages es)) by now apply filter_In. unfold first_package in Ep. destruct (packages es) as [|a l] eqn:E; [easy|].
        destruct (packages_all es a) as (x & ->); [rewrite E; now left|discriminate].
      + rewrite (unmanaged_same _ H). now destruct fx.
  Qed.
  Lemma settings_once pkg : NoDup (map fst (settings filename fx prefix pkg)) /\ incl (map fst (settings filename fx prefix pkg)) managed_names.
  Proof. unfold settings. destruct fx; [split; [constructor|easy]|split; [apply v1_once|apply v1_managed]|split; [apply v2_once|apply v2_managed]]. Qed.
  Lemma filter_once (f : opt -> bool) os : NoDup (map o_name os) -> NoDup (map o_name (filter f os)).
  Proof.
    induction os as [|o os IH]; [constructor|]. cbn [map filter]. intros N. apply NoDup_cons_iff in N as (N1 & N2). destruct (f o); [|auto]. cbn [map]. constructor; [|auto].
    intros I. apply N1. apply in_map_iff in I as (x & E & I). rewrite <- E. apply in_map. now apply filter_In in I.
  Qed.
  Lemma printed_once es : NoDup (map o_name (own_options es)) -> NoDup (map o_name (printed es)).
  Proof.
    intros N. unfold printed_options. assert (K : NoDup (map o_name (match first_package es with None => filter (fun o => negb (is_managed o)) (own_options es)
      | Some p => fixed_options (settings filename fx prefix (pk_name p)) (own_options es) end))); [|destruct fx; [exact N|exact K|exact K]].
    destruct (first_package es) as [p|]; [|now apply filter_once]. destruct (settings_once (pk_name p)) as (S1 & S2). unfold fixed_options. rewrite map_app, map_map.
    replace (map (fun s => o_name (reset (own_options es) s)) (settings filename fx prefix (pk_name p))) with (map fst (settings filename fx prefix (pk_name p)))
      by (apply map_ext; intros s; symmetry; apply reset_named).
    apply nodup_both; [now apply filter_once|exact S1|]. intros n I J. apply S2 in J. apply in_map_iff in I as (o & E & I). apply filter_In in I as (_ & I). subst n.
    apply managed_iff in J. now rewrite J in I.
  Qed.
  (** The options of the file that is printed are those that would be printed again. *)
  Lemma printed_again es es' : NoDup (map o_name (own_options es)) -> Forall2 same (packages es) (packages es') -> same_options (sort (printed es)) (own_options es') ->
    same_options (own_options es') (printed es').
  Proof.
    intros N Hp (Ns & l & Pl & Fl). pose proof (printed_once es N) as Np.
    assert (Nm : map o_name l = map o_name (own_options es')) by (clear - Fl; induction Fl as [|a b ? ? (E & _) _ IH]; cbn; congruence).
    assert (N' : NoDup (map o_name (own_options es'))) by (rewrite <- Nm; eapply Permutation_NoDup; [apply Permutation_map; exact Pl|exact Ns]).
    assert (Pp : Permutation (printed es) l) by (eapply Permutation_trans; [apply (sort_ok (printed es))|exact Pl]).
    assert (To : forall o, In o (printed es) -> exists o', In o' (own_options es') /\ o_name o' = o_name o /\ o_const o' = o_const o).
    { intros o I. apply (Permutation_in _ Pp) in I. clear - I Fl. induction Fl as [|a b ? ? (E & Ec & _) _ IH]; [easy|]. destruct I as [->|I]; [exists b; split; [now left|auto]|].
      destruct (IH I) as (x & Ix & Hx). exists x. split; [now right|exact Hx]. }
    assert (From : forall o', In o' (own_options es') -> exists o, In o (printed es) /\ o_name o' = o_name o).
    { intros o I. assert (exists x, In x l /\ o_name o = o_name x) as (x & Ix & Ex). { clear - I Fl. induction Fl as [|a b ? ? (E & _) _ IH]; [easy|]. destruct I as [->|I]; [exists a; split; [now left|auto]|].
      destruct (IH I) as (x & Ix & Hx). exists x. split; [now right|exact Hx]. }
      exists x. split; [|exact Ex]. eapply Permutation_in; [symmetry; exact Pp|exact Ix]. }
    assert (Pk : match first_package es, first_package es' with Some p, Some p' => pk_name p = pk_name p' | None, None => True | _, _ => False end).
    { unfold first_package. pose proof (packages_all es) as A. pose proof (packages_all es') as A'.
      destruct Hp as [|x x' k k' Hx _]; [exact I|]. destruct (A x) as (s & ->); [now left|]. destruct (A' x') as (s' & ->); [now left|]. exact (proj1 Hx). }
    apply same_options_refl; [exact N'|].
    destruct (fix_none fx) eqn:F; [destruct fx; try discriminate F; reflexivity|].
    assert (E1 : forall es, printed es = match first_package es with None => filter (fun o => negb (is_managed o)) (own_options es)
      | Some p => fixed_options (settings filename fx prefix (pk_name p)) (own_options es) end) by (intros e; unfold printed_options; destruct fx; [discriminate F|reflexivity|reflexivity]).
    rewrite E1. rewrite E1 in To, From. destruct (first_package es) as [p|], (first_package es') as [p'|]; try easy.
    - rewrite <- Pk. destruct (settings_once (pk_name p)) as (S1 & S2). apply fixed_again; try assumption.
      + intros n v I. destruct (To (reset (own_options es) (n, v))) as (o & Io & En & Ec); [apply fixed_options_in; right; eauto|]. exists o. destruct (reset_named (own_options es) (n, v)) as (R1 & R2).
        split; [exact Io|]. split; [rewrite En; exact R1|rewrite Ec; exact R2].
      + intros o I M. apply managed_iff in M. destruct (From o I) as (x & Ix & Ex). rewrite Ex in M |- *. apply fixed_options_in in Ix as [(_ & Ix)|(s & Is & ->)]; [contradiction|].
        rewrite (proj1 (reset_named _ s)). now apply in_map.
    - rewrite unmanaged_same; [reflexivity|]. apply Forall_forall. intros o I. destruct (From o I) as (x & Ix & Ex). apply filter_In in Ix as (_ & Ix).
      destruct (is_managed o) eqn:M; [|reflexivity]. exfalso. apply managed_iff in M. rewrite Ex in M. apply managed_iff in M. now rewrite M in Ix.
  Qed.

  (** *** Reading back *)
  Lemma tail_parts es : let R := tail_of es in
    syntaxes R = syntaxes es /\ packages R = packages es /\ own_options R = sort (printed es) /\ own_imports R = sort_imports (own_imports es) /\ others R = others (after_leading es).
  Proof.
    cbv zeta. destruct (packages_none es) as (P1 & P2 & P3 & P4 & P5).
    destruct (options_none (sort (printed es))) as (O1 & O2 & O3 & O4 & O5).
    destruct (imports_none (sort_imports (own_imports es))) as (M1 & M2 & M3 & M4 & M5).
    destruct (still_none _ (others_still (after_leading es))) as (T1 & T2 & T3 & T4 & T5).
    assert (syntaxes (syntaxes es) = syntaxes es /\ packages (syntaxes es) = [] /\ own_options (syntaxes es) = [] /\ own_imports (syntaxes es) = [] /\ others (syntaxes es) = []) as (Y1 & Y2 & Y3 & Y4 & Y5).
    { assert (H : Forall (fun e => exists p, e = ESyntax p) (syntaxes es)) by (apply Forall_forall; apply syntaxes_all).
      induction H as [|e M (p & ->) _ (I1 & I2 & I3 & I4 & I5)]; [easy|].
      unfold syntaxes, packages, own_options, own_imports, others. cbn [filter map concat app].
      fold (syntaxes M) (packages M) (own_options M) (own_imports M) (others M). now rewrite I1, I2, I3, I4, I5. }
    unfold tail_of. rewrite !syntaxes_app, !packages_app, !own_options_app, !own_imports_app, !others_app, P1, P2, P3, P4, P5, O1, O2, O3, O4, O5, M1, M2, M3, M4, M5, T1, T2, T3, T4, T5, Y1, Y2, Y3, Y4, Y5.
    cbn [app]. rewrite !app_nil_r. auto.
  Qed.
  Lemma with_parts top es : fixable es -> Forall (fun e => exists c, e = EComment c) top -> let R := with_options top es in
    leading R = top /\ after_leading R = tail_of es /\
    syntaxes R = syntaxes es /\ packages R = packages es /\ own_options R = sort (printed es) /\ own_imports R = sort_imports (own_imports es) /\ others (after_leading R) = others (after_leading es).
  Proof.
    intros Hf Ht. cbv zeta. change (with_options top es) with (top ++ tail_of es). destruct (leading_of top (tail_of es) Ht (tail_starts es Hf)) as (-> & ->).
    destruct (tail_parts es) as (Y1 & Y2 & Y3 & Y4 & Y5).
    destruct (still_none top) as (L1 & L2 & L3 & L4 & L5); [eapply Forall_impl; [|exact Ht]; now intros e (c & ->)|].
    rewrite syntaxes_app, packages_app, own_options_app, own_imports_app, L1, L2, L3, L4, Y1, Y2, Y3, Y4, Y5. cbn [app]. auto 10.
  Qed.
  Lemma sort_twice {A} (name : A -> string) srt l : sorts_by name srt -> NoDup (map name l) -> srt (srt l) = srt l.
  Proof.
    intros S N. apply (sorted_unique name); [apply S..| |].
    - symmetry. apply S.
    - eapply Permutation_NoDup; [|exact N]. apply Permutation_map. eapply Permutation_trans; apply S.
  Qed.
  Lemma with_canonical top es : fixable es -> Forall (fun e => exists c, e = EComment c) top -> NoDup (map o_name (own_options es)) -> NoDup (map im_filename (own_imports es)) ->
    canonical sort sort_imports (with_options top es) = with_options top es.
  Proof.
    intros Hf Ht No Ni. destruct (with_parts top es Hf Ht) as (E1 & E2 & E3 & E4 & E5 & E6 & E7). unfold canonical. rewrite E1, E3, E4, E5, E6, E7.
    rewrite (sort_twice o_name sort _ sort_ok (printed_once es No)), (sort_twice im_filename sort_imports _ sort_i Ni). reflexivity.
  Qed.
  Lemma same_body os os' es : same_options os os' -> body_text os es = body_text os' es.
  Proof.
    intros H. unfold body_text. rewrite (same_p_options sort sort_ok 0 false _ _ H). pose proof (same_options_length _ _ H) as L. destruct os, os'; try discriminate L; reflexivity.
  Qed.
  Lemma parts_body os es es' : syntaxes es = syntaxes es' -> packages es = packages es' -> p_imports sort_imports (own_imports es) = p_imports sort_imports (own_imports es') ->
    length (own_imports es) = length (own_imports es') -> body_text os es = body_text os es'.
  Proof.
    intros E1 E2 E3 E4. unfold body_text, first_syntax, first_package. rewrite E1, E2, E3. destruct (own_imports es), (own_imports es'); try discriminate E4; reflexivity.
  Qed.
  Lemma printed_self top es : fixable es -> Forall (fun e => exists c, e = EComment c) top -> NoDup (map o_name (own_options es)) -> NoDup (map im_filename (own_imports es)) ->
    body_text (own_options (with_options top es)) (with_options top es) = body_text (printed es) es.
  Proof.
    intros Hf Ht No Ni. destruct (with_parts top es Hf Ht) as (E1 & E2 & E3 & E4 & E5 & E6 & E7). rewrite E5.
    rewrite <- (same_body (printed es) (sort (printed es))) by (apply same_options_refl; [now apply printed_once|apply sort_ok]). apply parts_body; try assumption.
    - rewrite E6. unfold p_imports. now rewrite (sort_twice im_filename sort_imports _ sort_i Ni).
    - rewrite E6. symmetry. apply Permutation_length, sort_i.
  Qed.
  Theorem fix_again es es' text top : length (syntaxes es) <= 1 -> length (packages es) <= 1 ->
    NoDup (map o_name (own_options es)) -> NoDup (map im_filename (own_imports es)) -> fixable es ->
    (if fix_none fx || is_empty header then top = leading es
     else Forall (fun e => exists c, e = EComment c) top /\ forall s, In (ESyntax s) es -> sx_comment s = None) ->
    same_file (detached (with_options top es)) es' ->
    transform_elements sort sort_imports filename fx header prefix es = Ok (text, []) ->
    transform_elements sort sort_imports filename fx header prefix es' = Ok (text, []).
  Proof.
    intros Hs Hp No Ni Hf Ht H E.
    assert (Tc : Forall (fun e => exists c, e = EComment c) top) by (destruct (fix_none fx || is_empty header); [subst top; apply leading_is|apply Ht]).
    destruct (with_parts top es Hf Tc) as (E1 & E2 & E3 & E4 & E5 & E6 & E7).
    destruct (with_parts [] es Hf ltac:(constructor)) as (G1 & G2 & G3 & G4 & G5 & G6 & G7).
    set (K := if fix_none fx || is_empty header then with_options top es else with_options [] es).
    set (es0 := if fix_none fx || is_empty header then es' else after_leading es').
    assert (Kp : syntaxes K = syntaxes es /\ packages K = packages es /\ own_options K = sort (printed es) /\ own_imports K = sort_imports (own_imports es) /\ others (after_leading K) = others (after_leading es)
      /\ canonical sort sort_imports K = K /\ body_text (own_options K) K = body_text (printed es) es).
    { unfold K. destruct (fix_none fx || is_empty header); repeat split; try assumption; first [apply with_canonical|apply printed_self]; solve [assumption|constructor]. }
    destruct Kp as (K1 & K2 & K3 & K4 & K5 & K6 & K7).
    assert (Dp : forall e es, (forall s, In (ESyntax s) es -> sx_comment s = None) -> In e [tt] -> detached es = es).
    { intros _ l Hn _. induction l as [|e l IH]; [reflexivity|]. unfold detached. cbn [map concat]. fold (detached l). rewrite IH by (intros s I; apply Hn; now right).
      destruct e; try reflexivity. rewrite (Hn s) by now left. reflexivity. }
    assert (S0 : same_file (detached (canonical sort sort_imports K)) es0).
    { rewrite K6. unfold K, es0. destruct (fix_none fx || is_empty header) eqn:Fh; [exact H|]. destruct Ht as (_ & Hc).
      assert (Nc : forall top, Forall (fun e => exists c, e = EComment c) top -> forall s, In (ESyntax s) (with_options top es) -> sx_comment s = None).
      { intros t Hc' s I. destruct (with_parts t es Hf Hc') as (_ & _ & W & _). assert (J : In (ESyntax s) (syntaxes (with_options t es))) by now apply filter_In. rewrite W in J.
        apply filter_In in J as (J & _). now apply Hc. }
      rewrite (Dp tt _ (Nc top Tc)) in H by now left. rewrite (Dp tt _ (Nc [] ltac:(constructor))) by now left.
      destruct H as (H1 & H2 & H3 & H4 & H5 & H6). rewrite E3 in H2. rewrite E4 in H3. rewrite E5 in H4. rewrite E6 in H5. rewrite E7 in H6.
      pose proof (split_leading es') as Sp. destruct (still_none _ (leading_still es')) as (L1 & L2 & L3 & L4 & _).
      assert (X : leading (after_leading es') = [] /\ after_leading (after_leading es') = after_leading es').
      { pose proof (after_leading_starts es') as X. destruct (after_leading es') as [|a b]; [easy|]. destruct a; easy. }
      unfold same_file. destruct X as (-> & ->). rewrite G1, G3, G4, G5, G6, G7. split; [constructor|].
      rewrite Sp, syntaxes_app, L1 in H2. rewrite Sp, packages_app, L2 in H3. rewrite Sp, own_options_app, L3 in H4. rewrite Sp, own_imports_app, L4 in H5. auto. }
    assert (Kl : length (syntaxes K) <= 1 /\ length (packages K) <= 1) by now rewrite K1, K2. destruct Kl as (Kl1 & Kl2).
    destruct (reread_parts sort sort_imports sort_ok sort_i K Kl1 Kl2) as (Rl1 & Rl2 & Rv & Rh & Ro).
    { rewrite K3. eapply Permutation_NoDup; [apply Permutation_map, sort_ok|]. now apply printed_once. }
    { rewrite K4. eapply Permutation_NoDup; [apply Permutation_map, sort_i|]. exact Ni. }
    destruct (same_head sort sort_imports sort_ok sort_i _ es0 S0) as (Sv & Sh).
    (* the parts of es' are those of es0 *)
    assert (Q : syntaxes es' = syntaxes es0 /\ packages es' = packages es0 /\ own_options es' = own_options es0 /\ own_imports es' = own_imports es0 /\ others (after_leading es') = others (after_leading es0)).
    { unfold es0. destruct (fix_none fx || is_empty header); [auto|]. destruct (still_none _ (leading_still es')) as (L1 & L2 & L3 & L4 & _). pose proof (split_leading es') as Sp.
      assert (X : after_leading (after_leading es') = after_leading es') by (pose proof (after_leading_starts es') as X; destruct (after_leading es') as [|[]]; easy). rewrite X.
      repeat split; rewrite Sp at 1; [rewrite syntaxes_app, L1|rewrite packages_app, L2|rewrite own_options_app, L3|rewrite own_imports_app, L4]; reflexivity. }
    destruct Q as (Q1 & Q2 & Q3 & Q4 & Q5).
    destruct S0 as (_ & S2 & S3 & S4 & _ & S6). rewrite own_options_detached, K6, K3, <- Q3 in S4.
    assert (Pd : forall l, packages (detached l) = packages l).
    { induction l as [|e l IH]; [reflexivity|]. unfold detached. cbn [map concat]. fold (detached l). rewrite packages_app, IH. change (e :: l) with ([e] ++ l). rewrite (packages_app [e]). f_equal.
      destruct e; try reflexivity. destruct (sx_comment s); reflexivity. }
    rewrite Pd, K6, K2, <- Q2 in S3. rewrite Ro, K5, <- Q5 in S6.
    assert (Hs' : length (syntaxes es') <= 1) by (rewrite Q1; apply Forall2_len in S2; lia). assert (Hp' : length (packages es') <= 1) by (apply Forall2_len in S3; lia).
    pose proof (printed_again es es' No S3 S4) as Pa.
    destruct (fix_text es Hs Hp) as (fs & T & F). destruct (fix_text es' Hs' Hp') as (fs' & T' & F'). rewrite T in E. rewrite T'.
    assert (Ev : version_of es' = version_of es) by (unfold version_of, first_syntax in *; rewrite Q1, <- Sv, Rv, K1; reflexivity). rewrite Ev.
    destruct (version_of es) as [proto2|]; [|discriminate]. cbn [bind] in *. injection E as Et Ef.
    assert (X : fs' proto2 = []).
    { apply F'. apply F in Ef as (F1 & F2). split.
      - apply (same_no_array _ _ Pa). apply (same_no_array _ _ S4). rewrite Forall_forall in *. intros o I. apply F1. eapply Permutation_in; [symmetry; apply sort_ok|exact I].
      - clear - S6 F2 sort_ok. induction S6 as [|e e' l l' H _ IH]; [constructor|]. inversion F2; subst. constructor; [|auto]. now apply (visit_ok sort sort_ok proto2 e e'). }
    rewrite X, <- Et. f_equal. f_equal. unfold whole. cbv zeta. rewrite (same_texts sort sort_ok proto2 _ _ S6).
    assert (top_text es' +++ body_text (printed es') es' = top_text es +++ body_text (printed es) es) as ->; [|reflexivity].
    rewrite <- (same_body _ _ es' Pa), Q3, (parts_body (own_options es0) es' es0 Q1 Q2) by now rewrite Q4.
    rewrite Rh in Sh. rewrite !head_body, K7 in Sh. unfold top_text. unfold K, es0 in Sh. unfold es0. destruct (fix_none fx || is_empty header).
    - rewrite <- Sh, E1. now rewrite Ht.
    - rewrite G1 in Sh. assert (leading (after_leading es') = []) as Z by (pose proof (after_leading_starts es') as Z; destruct (after_leading es') as [|[]]; easy). rewrite Z in Sh. cbn in Sh. now rewrite <- Sh.
  Qed.
End Same3.
