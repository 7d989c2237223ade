(** Proofs about formatting: what is printed depends only on the contents of a file. *)
From Coq Require Import Permutation Sorted Lia.
From Verif Require Import GoStrFacts Format_Spec Format_Model Format_Proofs Format_First.

Lemma Forall2_len {A B} (R : A -> B -> Prop) l l' : Forall2 R l l' -> length l = length l'.
Proof. induction 1; cbn; congruence. Qed.
Definition remark_text (n : nat) (t : token) : string :=
  match t with Rem r => srepeat "  " n +++ "//" +++ r +++ endl | _ => "" end.
Lemma p_remarks n ls :
  cat (map (fun line => P n ["//"; clean_comment_line line]) ls) =
  cat (map (remark_text n) (map (fun line => Rem (trim_right is_space (trim_left (Ascii.eqb slash) line))) ls)).
Proof.
  induction ls as [|l ls IH]; [reflexivity|]. cbn [map cat]. rewrite IH.
  change (P n ["//"; clean_comment_line l]) with (P n ([] ++ ["//"; clean_comment_line l])). rewrite P_remark. reflexivity.
Qed.
Lemma p_comment_text n c : p_comment n c = cat (map (remark_text n) (comment_tokens c)).
Proof. destruct c as [c|]; [|reflexivity]. apply p_remarks. Qed.
Lemma same_p_comment n c c' : same_comment c c' -> p_comment n c = p_comment n c'.
Proof. intros H. rewrite !p_comment_text. unfold same_comment in H. now rewrite H. Qed.
Lemma p_inline_text n c args : p_inline n c args =
  match comment_tokens c with
  | Rem r :: ts => srepeat "  " n +++ cat args +++ " //" +++ r +++ endl +++ cat (map (remark_text n) ts)
  | _ => P n args
  end.
Proof.
  destruct c as [c|]; [|reflexivity]. cbn [p_inline comment_tokens]. destruct (c_lines c) as [|l ls]; [reflexivity|]. cbn [map].
  rewrite p_remarks.
  replace (P n (args ++ [" //"; clean_comment_line l])) with (P n ((args ++ [" "]) ++ ["//"; clean_comment_line l])).
  - rewrite P_remark, cat_app. cbn [cat]. rewrite !sapp_assoc. reflexivity.
  - unfold P. rewrite <- app_assoc. cbn [app].
    destruct (args ++ [" "; "//"; clean_comment_line l]) eqn:E1; [now destruct args|].
    destruct (args ++ [" //"; clean_comment_line l]) eqn:E2; [now destruct args|].
    rewrite <- E1, <- E2, !cat_app. reflexivity.
Qed.
Lemma same_p_inline n c c' args : same_comment c c' -> p_inline n c args = p_inline n c' args.
Proof. intros H. rewrite !p_inline_text. unfold same_comment in H. now rewrite H. Qed.

(** ** Sorting *)
Lemma sorted_unique {A} (name : A -> string) : forall l l' : list A,
  Sorted (fun a b => str_leb (name a) (name b) = true) l -> Sorted (fun a b => str_leb (name a) (name b) = true) l' ->
  Permutation l l' -> NoDup (map name l) -> l = l'.
Proof.
  assert (forall l, Sorted (fun a b => str_leb (name a) (name b) = true) l -> StronglySorted (fun a b => str_leb (name a) (name b) = true) l) as SS
    by (intros l; apply Sorted_StronglySorted; intros x y z; apply str_leb_trans).
  intros l l' H H'. apply SS in H, H'. revert l' H'. induction H as [|x l Hl IH Hx]; intros l' H' P N.
  - apply Permutation_nil in P. now subst.
  - destruct H' as [|y l' Hl' Hy]; [apply Permutation_sym, Permutation_nil in P; discriminate|].
    assert (x = y) as <-.
    { assert (In y (x :: l)) as I1 by (eapply Permutation_in; [symmetry; exact P|now left]).
      assert (In x (y :: l')) as I2 by (eapply Permutation_in; [exact P|now left]).
      destruct I1 as [E|I1]; [assumption|]. destruct I2 as [E|I2]; [now symmetry|]. exfalso.
      rewrite Forall_forall in Hx, Hy. assert (name x = name y) as E by (apply str_leb_antisym; auto).
      inversion N as [|? ? Hn _]; subst. apply Hn. rewrite E. now apply in_map. }
    f_equal. apply IH; [assumption|now apply Permutation_cons_inv in P|now inversion N].
Qed.
Section Sort.
  Context {A : Type} (name : A -> string) (sort : list A -> list A) (same_item : A -> A -> Prop).
  Hypothesis sort_ok : sorts_by name sort.
  Hypothesis same_name : forall a b, same_item a b -> name a = name b.
  Lemma Forall2_names l l' : Forall2 same_item l l' -> map name l = map name l'.
  Proof. induction 1 as [|a b l l' H _ IH]; [reflexivity|]. cbn. now rewrite IH, (same_name a b). Qed.
  Lemma sorted_names l l' : map name l = map name l' -> Sorted (fun a b => str_leb (name a) (name b) = true) l ->
    Sorted (fun a b => str_leb (name a) (name b) = true) l'.
  Proof.
    revert l'. induction l as [|a l IH]; intros [|b l'] E H; try discriminate; [constructor|]. cbn in E. injection E as E1 E2.
    inversion H as [|? ? H1 H2]; subst. constructor; [now apply IH|]. destruct l' as [|b' l']; [constructor|].
    destruct l as [|a' l]; [discriminate|]. cbn in E2. injection E2 as E2 _. inversion H2; subst. constructor. congruence.
  Qed.
  Lemma sort_same os os' : NoDup (map name os) -> (exists l, Permutation os l /\ Forall2 same_item l os') ->
    Forall2 same_item (sort os) (sort os').
  Proof.
    intros N (l & P & F). destruct (sort_ok os) as [Pos Sos]. destruct (sort_ok os') as [Pos' Sos'].
    assert (Permutation l (sort os)) as Pl by (eapply Permutation_trans; [symmetry; exact P|exact Pos]).
    destruct (Permutation_Forall2 Pl F) as (s' & Ps' & Fs').
    assert (s' = sort os') as <-; [|assumption].
    pose proof (Forall2_names _ _ Fs') as En. apply (sorted_unique name).
    - now apply (sorted_names (sort os)).
    - assumption.
    - eapply Permutation_trans; [symmetry; exact Ps'|assumption].
    - rewrite <- En. eapply Permutation_NoDup; [|exact N]. now apply Permutation_map.
  Qed.
End Sort.

Section Same.
  Variable sort : list opt -> list opt.
  Variable sort_imports : list import -> list import.
  Hypothesis sort_ok : sorts_by o_name sort.
  Hypothesis sort_i : sorts_by im_filename sort_imports.
  Lemma same_options_sorted os os' : same_options os os' -> Forall2 same_option (sort os) (sort os').
  Proof. intros (N & H). apply (sort_same o_name); [assumption| |assumption..]. now intros a b (E & _). Qed.
  Lemma same_options_length os os' : same_options os os' -> length os = length os'.
  Proof. intros (_ & l & P & F). rewrite (Permutation_length P). now apply Forall2_len in F. Qed.
  Lemma same_options_one o os' : same_options [o] os' -> exists o', os' = [o'] /\ same_option o o'.
  Proof.
    intros (_ & l & P & F). apply Permutation_length_1_inv in P. subst l. inversion F as [|? o' ? ? H F']; subst. inversion F'; subst. eauto.
  Qed.
  Lemma same_p_option n pre suf o o' : same_option o o' -> fst (p_option n pre suf o) = fst (p_option n pre suf o').
  Proof.
    intros (En & El & Hc & Hi). unfold p_option, seq, says. cbn [fst snd]. rewrite En, El, (same_p_comment n _ _ Hc). f_equal.
    destruct (is_single_value (o_const o')).
    - destruct (is_empty _); [reflexivity|]. cbn [fst]. now apply same_p_inline.
    - destruct (l_array (o_const o')); [|reflexivity]. cbn [fst]. rewrite (same_p_inline n _ _ _ Hi). reflexivity.
  Qed.
  Lemma same_option_list n b os os' : Forall2 same_option os os' -> fst (p_option_list n b os) = fst (p_option_list n b os').
  Proof.
    induction 1 as [|o o' os os' H F IH]; [reflexivity|]. cbn [p_option_list seq fst]. rewrite IH. f_equal.
    rewrite (same_p_option n _ _ o o' H). destruct F; reflexivity.
  Qed.
  Lemma same_p_options n b os os' : same_options os os' -> fst (p_options sort n b os) = fst (p_options sort n b os').
  Proof. intros H. apply same_option_list. now apply same_options_sorted. Qed.
  Lemma same_pf n pre name ft tag c c' i i' os os' : same_comment c c' -> same_comment i i' -> same_options os os' ->
    fst (p_message_or_enum_field sort n pre name ft tag c i os) = fst (p_message_or_enum_field sort n pre name ft tag c' i' os').
  Proof.
    intros Hc Hi Ho. unfold p_message_or_enum_field. cbv zeta. cbn [seq fst says]. rewrite (same_p_comment n _ _ Hc). f_equal.
    set (f := if is_empty ft then ft else ft +++ " "). clearbody f.
    assert (fst (outs [says (P n [pre; f; name; " = "; itoa tag; " ["]); p_options sort (S n) true os; says (p_inline n i ["];"])]) =
            fst (outs [says (P n [pre; f; name; " = "; itoa tag; " ["]); p_options sort (S n) true os'; says (p_inline n i' ["];"])])) as Hlong.
    { cbn [outs seq says fst]. rewrite (same_p_options (S n) true os os' Ho), (same_p_inline n i i' _ Hi). reflexivity. }
    pose proof (same_options_length _ _ Ho) as Hlen.
    destruct os as [|o [|o1 os]].
    - destruct os'; [|discriminate]. cbn [fst says]. now apply same_p_inline.
    - destruct (same_options_one _ _ Ho) as (o' & -> & (En & El & _)). rewrite El.
      destruct (is_single_value (o_const o')); [|exact Hlong]. destruct (is_empty _); [exact Hlong|].
      cbn [fst says]. rewrite En. now apply same_p_inline.
    - destruct os' as [|o' [|o1' os']]; try discriminate. exact Hlong.
  Qed.
  Lemma same_block n c c' opening none ch ch' be ba : same_comment c c' -> fst ch = fst ch' ->
    fst (block n c opening none ch be ba) = fst (block n c' opening none ch' be ba).
  Proof.
    intros Hc H. unfold block. destruct none; cbn [outs seq says fst]; rewrite (same_p_comment n _ _ Hc); [reflexivity|]. now rewrite H.
  Qed.
  Definition all_same : list element -> list element -> Prop :=
    fix all (es es' : list element) : Prop :=
       match es, es' with [], [] => True | x :: r, x' :: r' => same x x' /\ all r r' | _, _ => False end.
  Lemma same_visit proto2 e : forall e' p n hit, same e e' -> fst (visit sort proto2 p n hit e) = fst (visit sort proto2 p n hit e').
  Proof.
    assert (forall p n es es', 
      Forall (fun e => forall e' p n hit, same e e' -> fst (visit sort proto2 p n hit e) = fst (visit sort proto2 p n hit e')) es ->
      all_same es es' ->
      fst ((fix go (es : list element) : out :=
         match es with [] => says "" | x :: r => seq (visit sort proto2 p (S n) true x) (go r) end) es) =
      fst ((fix go (es : list element) : out :=
         match es with [] => says "" | x :: r => seq (visit sort proto2 p (S n) true x) (go r) end) es')) as Hkids.
    { intros p n es es' IH. revert es'. induction IH as [|x r Hx _ IH]; intros [|x' r'] H; try easy. destruct H as [H1 H2].
      cbn [seq fst]. rewrite (Hx x' p (S n) true H1). f_equal. now apply IH. }
    assert (forall es es' : list element, all_same es es' -> match es with [] => true | _ => false end = match es' with [] => true | _ => false end) as Hnone
      by (intros [|] [|]; easy).
    induction e as [c|s|pk|i|o|k f|r|x|f es IH|h es IH|h x es IH|h es IH|h o g es IH|h es IH|r es IH] using element_ind';
      intros e' p n hit H; destruct e' as [c'|s'|pk'|i'|o'|k' f'|r'|x'|f' es'|h' es'|h' x' es'|h' es'|h' o' g' es'|h' es'|r' es'];
      try (now destruct H); try reflexivity; cbn [visit].
    - destruct hit; [|reflexivity]. cbn [says fst]. now rewrite (same_p_comment n _ _ H).
    - unfold visit_option. destruct p; try reflexivity; apply same_p_options;
        (split; [repeat constructor; easy|]; exists [o]; split; [reflexivity|]; constructor; [exact H|constructor]).
    - destruct H as (-> & En & Et & Es & Ho & Hc & Hi). unfold visit_field, p_field.
      destruct k' as [a b d| |key]; rewrite En, Et, Es; now apply same_pf.
    - destruct H as (Er & En & Hc & Hi). unfold visit_reserved. rewrite Er, En.
      destruct (rs_ranges r') as [|? ?], (rs_names r') as [|? ?]; cbn [says fst]; rewrite ?(same_p_comment n _ _ Hc), ?(same_p_inline n _ _ _ Hi); reflexivity.
    - destruct H as (Er & Hc & Hi). unfold visit_extensions. cbn [says fst]. rewrite Er, (same_p_comment n _ _ Hc), (same_p_inline n _ _ _ Hi). reflexivity.
    - destruct H as (En & Ei & Ho & Hc & Hi). unfold p_enum_field. rewrite En, Ei. now apply same_pf.
    - destruct H as ((En & Hc) & Ha). rewrite En, (Hnone es es' Ha). apply same_block; [assumption|]. now apply Hkids.
    - destruct H as ((En & Hc) & -> & Ha). rewrite En, (Hnone es es' Ha). apply same_block; [assumption|]. now apply Hkids.
    - destruct H as ((En & Hc) & Ha). rewrite En, (Hnone es es' Ha). apply same_block; [assumption|]. now apply Hkids.
    - destruct H as ((En & Hc) & -> & -> & Ha). rewrite En, (Hnone es es' Ha). apply same_block; [assumption|]. now apply Hkids.
    - destruct H as ((En & Hc) & Ha). rewrite En, (Hnone es es' Ha). apply same_block; [assumption|]. now apply Hkids.
    - destruct H as (E1 & E2 & E3 & E4 & E5 & Ho & Hc & Hi). unfold visit_rpc. cbv zeta. cbn [seq says fst].
      rewrite E1, E2, E3, E4, E5, (same_p_comment n _ _ Hc). f_equal.
      pose proof (same_options_length _ _ Ho) as Hl. pose proof (same_p_options (S n) false _ _ Ho) as Hp.
      destruct (r_options r) as [|? ?], (r_options r') as [|? ?]; try discriminate; cbn [outs seq says fst].
      + now apply same_p_inline.
      + rewrite Hp, (same_p_inline n _ _ _ Hi). reflexivity.
  Qed.
  (** *** Files *)
  Lemma main_text proto2 es : forall hit,
    fst (main_loop sort proto2 hit es) =
    cat (map (fun e => fst (visit sort proto2 NoParent 0 true e)) (others (if hit then es else after_leading es))).
  Proof.
    induction es as [|e es IH]; intros hit; [destruct hit; reflexivity|]. cbn [main_loop seq fst]. rewrite IH.
    destruct hit; destruct e; reflexivity.
  Qed.
  Lemma same_texts proto2 es es' : Forall2 same es es' ->
    cat (map (fun e => fst (visit sort proto2 NoParent 0 true e)) es) = cat (map (fun e => fst (visit sort proto2 NoParent 0 true e)) es').
  Proof. induction 1 as [|e e' es es' H _ IH]; [reflexivity|]. cbn [map cat]. now rewrite IH, (same_visit proto2 e e' NoParent 0 true H). Qed.
  Definition leading_text (es : list element) : string :=
    cat (map (fun e => match e with EComment c => p_comment 0 (Some c) +++ P 0 [] | _ => "" end) es).
  Lemma outs_leading es : fst (outs (map (fun e => match e with EComment c => says (p_comment 0 (Some c) +++ P 0 []) | _ => says "" end) es)) = leading_text es.
  Proof. induction es as [|e es IH]; [reflexivity|]. unfold leading_text. cbn [map outs seq fst cat]. rewrite IH. destruct e; reflexivity. Qed.
  Lemma same_leading es es' : Forall2 same es es' -> leading_text es = leading_text es'.
  Proof.
    induction 1 as [|e e' es es' H _ IH]; [reflexivity|]. unfold leading_text. cbn [map cat]. fold (leading_text es) (leading_text es'). rewrite IH.
    f_equal. destruct e, e'; try now destruct H. now rewrite (same_p_comment 0 _ _ H).
  Qed.
  Definition syntax_text (s : syntax) : string :=
    p_comment 0 (sx_comment s) +++ (match sx_comment s with None => "" | Some _ => P 0 [] end) +++
    p_inline 0 (sx_inline s) ["syntax = " +++ String dquote EmptyString; sx_value s; String dquote EmptyString +++ ";"] +++ P 0 [].
  Definition package_text (p : package) : string := p_comment 0 (pk_comment p) +++ p_inline 0 (pk_inline p) ["package "; pk_name p; ";"] +++ P 0 [].
  (** What is printed before the declarations. *)
  Definition head_text (es : list element) : string :=
    leading_text (leading es) +++ match first_syntax es with None => "" | Some s => syntax_text s end +++
    match first_package es with None => "" | Some p => package_text p end +++
    match own_options es with [] => "" | _ => fst (p_options sort 0 false (own_options es)) +++ P 0 [] end +++
    match own_imports es with [] => "" | _ => p_imports sort_imports (own_imports es) +++ P 0 [] end.
  Definition version_of (es : list element) : result bool :=
    match first_syntax es with
    | None => Ok true
    | Some s => if String.eqb (sx_value s) "" then Ok true else if String.eqb (sx_value s) "proto2" then Ok true
                else if String.eqb (sx_value s) "proto3" then Ok false else Err ("unknown syntax: " +++ sx_value s)
    end.
  Definition file_text (es : list element) (proto2 : bool) : string :=
    let s := trim_space (head_text es +++ cat (map (fun e => fst (visit sort proto2 NoParent 0 true e)) (others (after_leading es)))) in
    if is_empty s then "" else s +++ endl.
  Lemma transform_text filename header prefix es : length (syntaxes es) <= 1 -> length (packages es) <= 1 ->
    exists fs, transform_elements sort sort_imports filename FixNone header prefix es =
      (do proto2 <- version_of es; Ok (file_text es proto2, fs proto2)).
  Proof.
    intros Hs Hp. unfold transform_elements. cbv zeta. pose proof (after_all FixNone header es Hs Hp) as A.
    set (v := fold_left _ es _) in *. clearbody v. destruct A as (I1 & I2 & I3 & I4 & I5 & _ & _ & _ & _ & _ & _ & _ & I13).
    unfold version_of. rewrite I1.
    exists (fun proto2 => snd (first_do sort sort_imports filename FixNone header prefix v) ++ snd (main_loop sort proto2 false es)).
    destruct (match first_syntax es with None => _ | Some s => _ end) as [proto2|m]; [|reflexivity]. cbn [bind]. f_equal. f_equal.
    unfold file_text. cbv zeta. rewrite main_text.
    assert (fst (first_do sort sort_imports filename FixNone header prefix v) = head_text es) as ->; [|reflexivity].
    unfold first_do, head_text. cbn [fix_none orb]. cbv zeta. rewrite I1, I2, I3, I4, I13. cbn [fix_none orb kept_options].
    cbn [outs seq fst]. rewrite outs_leading. cbn [says fst String.append]. rewrite sapp_nil_r.
    unfold kept_options. cbn [fix_none].
    destruct (first_syntax es), (first_package es), (own_options es), (own_imports es); reflexivity.
  Qed.
  Lemma same_head es es' : same_file es es' -> version_of es = version_of es' /\ head_text es = head_text es'.
  Proof.
    intros (Hl & Hs & Hp & Ho & Hi & _).
    assert (match first_syntax es, first_syntax es' with Some s, Some s' => same (ESyntax s) (ESyntax s') | None, None => True | _, _ => False end) as S1.
    { unfold first_syntax. pose proof (syntaxes_all es) as A. pose proof (syntaxes_all es') as A'.
      destruct Hs as [|x x' l l' Hx _]; [exact I|]. destruct (A x) as (s & ->); [now left|]. destruct (A' x') as (s' & ->); [now left|]. exact Hx. }
    assert (match first_package es, first_package es' with Some s, Some s' => same (EPackage s) (EPackage s') | None, None => True | _, _ => False end) as S2.
    { unfold first_package. pose proof (packages_all es) as A. pose proof (packages_all es') as A'.
      destruct Hp as [|x x' l l' Hx _]; [exact I|]. destruct (A x) as (s & ->); [now left|]. destruct (A' x') as (s' & ->); [now left|]. exact Hx. }
    split.
    - unfold version_of. destruct (first_syntax es), (first_syntax es'); try easy. destruct S1 as (-> & _). reflexivity.
    - unfold head_text. rewrite (same_leading _ _ Hl).
      assert (match first_syntax es with None => "" | Some s => syntax_text s end = match first_syntax es' with None => "" | Some s => syntax_text s end) as ->.
      { destruct (first_syntax es), (first_syntax es'); try easy. destruct S1 as (Ev & Hc & Hn & Hi'). unfold syntax_text.
        rewrite Ev, (same_p_comment 0 _ _ Hc), (same_p_inline 0 _ _ _ Hi').
        destruct (sx_comment s), (sx_comment s0); try reflexivity; exfalso; destruct Hn as [H1 H2]; [now specialize (H2 eq_refl)|now specialize (H1 eq_refl)]. }
      assert (match first_package es with None => "" | Some s => package_text s end = match first_package es' with None => "" | Some s => package_text s end) as ->.
      { destruct (first_package es), (first_package es'); try easy. destruct S2 as (Ev & Hc & Hi'). unfold package_text.
        now rewrite Ev, (same_p_comment 0 _ _ Hc), (same_p_inline 0 _ _ _ Hi'). }
      rewrite (same_p_options 0 false _ _ Ho). pose proof (same_options_length _ _ Ho) as Hol.
      assert (p_imports sort_imports (own_imports es) = p_imports sort_imports (own_imports es')) as ->.
      { unfold p_imports. destruct Hi as (N & Hi). assert (Forall2 same_import (sort_imports (own_imports es)) (sort_imports (own_imports es'))) as F.
        { apply (sort_same im_filename); [assumption| |assumption..]. now intros a b (E & _). }
        induction F as [|a b l l' (E1 & E2 & Hc & Hi') _ IH]; [reflexivity|]. cbn [map cat]. rewrite IH. f_equal. unfold p_import. cbv zeta.
        now rewrite E1, E2, (same_p_comment 0 _ _ Hc), (same_p_inline 0 _ _ _ Hi'). }
      assert (length (own_imports es) = length (own_imports es')) as Hil.
      { destruct Hi as (_ & l & P & F). rewrite (Permutation_length P). now apply Forall2_len in F. }
      destruct (own_options es), (own_options es'); try discriminate; destruct (own_imports es), (own_imports es'); try discriminate; reflexivity.
  Qed.
  (** The text depends only on the contents. *)
  Theorem same_text filename header prefix es es' text fs : length (syntaxes es) <= 1 -> length (packages es) <= 1 ->
    same_file es es' -> transform_elements sort sort_imports filename FixNone header prefix es = Ok (text, fs) ->
    exists fs', transform_elements sort sort_imports filename FixNone header prefix es' = Ok (text, fs').
  Proof.
    intros Hs Hp H E. assert (length (syntaxes es') <= 1 /\ length (packages es') <= 1) as [Hs' Hp'].
    { destruct H as (_ & S & Q & _). apply Forall2_len in S, Q. lia. }
    destruct (transform_text filename header prefix es Hs Hp) as (f & E1). destruct (transform_text filename header prefix es' Hs' Hp') as (f' & E2).
    rewrite E1 in E. rewrite E2. destruct (same_head es es' H) as (Ev & Eh). rewrite <- Ev.
    destruct (version_of es) as [proto2|]; [|discriminate]. cbn [bind] in *.
    assert (file_text es proto2 = file_text es' proto2) as Et
      by (unfold file_text; cbv zeta; rewrite Eh; now rewrite (same_texts proto2 _ _ (proj2 (proj2 (proj2 (proj2 (proj2 H)))))) ).
    exists (f' proto2). rewrite <- Et. congruence.
  Qed.

  (** *** Reading back what was printed *)
  Definition starts (es : list element) : Prop := match es with EComment _ :: _ => False | _ => True end.
  Lemma leading_of L M : Forall (fun e => exists c, e = EComment c) L -> starts M -> leading (L ++ M) = L /\ after_leading (L ++ M) = M.
  Proof.
    intros H HM. induction H as [|e L (c & ->) _ IH]; [destruct M as [|[] M]; easy|]. cbn [app leading after_leading].
    destruct IH as [-> ->]. easy.
  Qed.
  Lemma after_leading_starts es : starts (after_leading es).
  Proof. induction es as [|e es IH]; [exact I|]. destruct e; easy. Qed.
  Lemma split_leading es : es = leading es ++ after_leading es.
  Proof. induction es as [|e es IH]; [reflexivity|]. destruct e; try reflexivity. cbn [leading after_leading app]. now rewrite <- IH. Qed.
  Lemma leading_is es : Forall (fun e => exists c, e = EComment c) (leading es).
  Proof. induction es as [|e es IH]; [constructor|]. destruct e; cbn; constructor; eauto. Qed.
  (** Nothing of the kinds that are moved. *)
  Definition still (e : element) : Prop := match e with ESyntax _ | EPackage _ | EOption _ | EImport _ => False | _ => True end.
  Lemma still_none M : Forall still M -> syntaxes M = [] /\ packages M = [] /\ own_options M = [] /\ own_imports M = [] /\ others M = M.
  Proof.
    induction 1 as [|e M H _ (IH1 & IH2 & IH3 & IH4 & IH5)]; [easy|].
    unfold syntaxes, packages, own_options, own_imports, others. cbn [filter map concat].
    fold (syntaxes M) (packages M) (own_options M) (own_imports M) (others M). rewrite IH1, IH2, IH3, IH4, IH5. destruct e; easy.
  Qed.
  Lemma others_still M : Forall still (others M).
  Proof. apply Forall_forall. intros e H. apply filter_In in H as [_ H]. now destruct e. Qed.
  Lemma leading_still es : Forall still (leading es).
  Proof. eapply Forall_impl; [|apply leading_is]. now intros e (c & ->). Qed.
  Lemma rest_starts es : starts (syntaxes es ++ packages es ++ map EOption (sort (own_options es)) ++
    map EImport (sort_imports (own_imports es)) ++ others (after_leading es)).
  Proof.
    destruct (syntaxes es) as [|a l] eqn:Es.
    2:{ destruct (syntaxes_all es a) as (x & ->); [rewrite Es; now left|exact I]. }
    destruct (packages es) as [|a l] eqn:Ep.
    2:{ destruct (packages_all es a) as (x & ->); [rewrite Ep; now left|exact I]. }
    destruct (own_options es) as [|a l] eqn:Eo.
    2:{ destruct (sort (a :: l)) eqn:E; [|exact I]. destruct (sort_ok (a :: l)) as [P _]. rewrite E in P. now apply Permutation_sym, Permutation_nil in P. }
    destruct (own_imports es) as [|a l] eqn:Ei.
    2:{ assert (sort [] = []) as -> by (apply Permutation_nil, sort_ok). cbn [map app].
        destruct (sort_imports (a :: l)) eqn:E; [|exact I]. destruct (sort_i (a :: l)) as [P _]. rewrite E in P. now apply Permutation_sym, Permutation_nil in P. }
    assert (sort [] = []) as -> by (apply Permutation_nil, sort_ok). assert (sort_imports [] = []) as -> by (apply Permutation_nil, sort_i).
    cbn [map app].
    assert (Forall still es) as Hs.
    { apply Forall_forall. intros e He. destruct e; try exact I; exfalso.
      - assert (In (ESyntax s) (syntaxes es)) as X by now apply filter_In. now rewrite Es in X.
      - assert (In (EPackage p) (packages es)) as X by now apply filter_In. now rewrite Ep in X.
      - assert (In i (own_imports es)) as X by (apply in_concat; exists [i]; split; [|now left]; apply in_map_iff; now exists (EImport i)).
        now rewrite Ei in X.
      - assert (In o (own_options es)) as X by (apply in_concat; exists [o]; split; [|now left]; apply in_map_iff; now exists (EOption o)).
        now rewrite Eo in X. }
    rewrite (split_leading es) in Hs. apply Forall_app in Hs as [_ Hs]. destruct (still_none _ Hs) as (_ & _ & _ & _ & ->).
    apply after_leading_starts.
  Qed.
  Lemma syntaxes_app a b : syntaxes (a ++ b) = syntaxes a ++ syntaxes b. Proof. apply filter_app. Qed.
  Lemma packages_app a b : packages (a ++ b) = packages a ++ packages b. Proof. apply filter_app. Qed.
  Lemma others_app a b : others (a ++ b) = others a ++ others b. Proof. apply filter_app. Qed.
  Lemma detached_app a b : detached (a ++ b) = detached a ++ detached b.
  Proof. unfold detached. now rewrite map_app, concat_app. Qed.
  Lemma detached_none M : syntaxes M = [] -> detached M = M.
  Proof.
    induction M as [|e M IH]; [reflexivity|]. unfold syntaxes, detached. cbn [filter map concat]. fold (syntaxes M) (detached M).
    destruct e; intros H; try discriminate; now rewrite IH.
  Qed.
  Lemma options_none os : syntaxes (map EOption os) = [] /\ packages (map EOption os) = [] /\ own_options (map EOption os) = os /\
    own_imports (map EOption os) = [] /\ others (map EOption os) = [].
  Proof. induction os as [|o os (I1 & I2 & I3 & I4 & I5)]; [easy|]. unfold own_options. cbn. fold (own_options (map EOption os)). now rewrite I3. Qed.
  Lemma imports_none os : syntaxes (map EImport os) = [] /\ packages (map EImport os) = [] /\ own_options (map EImport os) = [] /\
    own_imports (map EImport os) = os /\ others (map EImport os) = [].
  Proof. induction os as [|o os (I1 & I2 & I3 & I4 & I5)]; [easy|]. unfold own_imports. cbn. fold (own_imports (map EImport os)). now rewrite I4. Qed.
  Lemma packages_none es : syntaxes (packages es) = [] /\ packages (packages es) = packages es /\ own_options (packages es) = [] /\
    own_imports (packages es) = [] /\ others (packages es) = [].
  Proof.
    assert (Forall (fun e => exists p, e = EPackage p) (packages es)) as H by (apply Forall_forall; apply packages_all).
    induction H as [|e M (p & ->) _ (I1 & I2 & I3 & I4 & I5)]; [easy|].
    unfold syntaxes, packages, own_options, own_imports, others. cbn [filter map concat app].
    fold (syntaxes M) (packages M) (own_options M) (own_imports M) (others M). now rewrite I1, I2, I3, I4, I5.
  Qed.
  Lemma same_option_refl o : same_option o o.
  Proof. repeat split. Qed.
  Lemma same_options_refl os l : NoDup (map o_name os) -> Permutation os l -> same_options os l.
  Proof. intros N P. split; [assumption|]. exists l. split; [assumption|]. clear. induction l; constructor; auto using same_option_refl. Qed.
  Lemma same_imports_refl os l : NoDup (map im_filename os) -> Permutation os l -> same_imports os l.
  Proof. intros N P. split; [assumption|]. exists l. split; [assumption|]. clear. induction l; constructor; auto. now repeat split. Qed.
  Lemma leading_text_app a b : leading_text (a ++ b) = leading_text a +++ leading_text b.
  Proof. unfold leading_text. rewrite map_app. apply cat_app. Qed.
  (** What is printed, read again, prints the same. *)
  Lemma reread_parts es : length (syntaxes es) <= 1 -> length (packages es) <= 1 ->
    NoDup (map o_name (own_options es)) -> NoDup (map im_filename (own_imports es)) ->
    let es' := detached (canonical sort sort_imports es) in
    length (syntaxes es') <= 1 /\ length (packages es') <= 1 /\ version_of es' = version_of es /\ head_text es' = head_text es /\
    others (after_leading es') = others (after_leading es).
  Proof.
    intros Hs Hp No Ni es'.
    set (R := packages es ++ map EOption (sort (own_options es)) ++ map EImport (sort_imports (own_imports es)) ++ others (after_leading es)).
    assert (canonical sort sort_imports es = leading es ++ syntaxes es ++ R) as Ec by reflexivity.
    assert (starts (syntaxes es ++ R)) as HR by apply rest_starts.
    destruct (packages_none es) as (P1 & P2 & P3 & P4 & P5).
    destruct (options_none (sort (own_options es))) as (O1 & O2 & O3 & O4 & O5).
    destruct (imports_none (sort_imports (own_imports es))) as (M1 & M2 & M3 & M4 & M5).
    destruct (still_none _ (others_still (after_leading es))) as (T1 & T2 & T3 & T4 & T5).
    destruct (still_none _ (leading_still es)) as (L1 & L2 & L3 & L4 & L5).
    assert (syntaxes R = []) as R1 by (unfold R; now rewrite !syntaxes_app, P1, O1, M1, T1).
    assert (packages R = packages es) as R2 by (unfold R; now rewrite !packages_app, P2, O2, M2, T2, !app_nil_r).
    assert (own_options R = sort (own_options es)) as R3 by (unfold R; now rewrite !own_options_app, P3, O3, M3, T3, !app_nil_r).
    assert (own_imports R = sort_imports (own_imports es)) as R4 by (unfold R; now rewrite !own_imports_app, P4, O4, M4, T4, !app_nil_r).
    assert (others R = others (after_leading es)) as R5 by (unfold R; now rewrite !others_app, P5, O5, M5, T5).
    assert (exists top, es' = leading es ++ top ++ R /\ length (syntaxes top) <= 1 /\ packages top = [] /\ own_options top = [] /\ own_imports top = [] /\
      version_of es' = version_of es /\
      others (after_leading es') = others (after_leading es) /\
      leading_text (leading es') +++ match first_syntax es' with None => "" | Some s => syntax_text s end =
      leading_text (leading es) +++ match first_syntax es with None => "" | Some s => syntax_text s end) as (top & Et & H1 & H2 & H3 & H4 & H5 & H6 & H7).
    { unfold es'. rewrite Ec, !detached_app. rewrite (detached_none _ L1), (detached_none _ R1).
      clear es' Ec. unfold version_of, first_syntax. destruct (syntaxes es) as [|e l] eqn:Es.
      - exists []. destruct (leading_of (leading es) R (leading_is es) HR) as [E1 E2].
        cbn [app detached map concat]. rewrite syntaxes_app, L1, R1, E1, E2. repeat split; auto.
      - destruct (syntaxes_all es e) as (s & ->); [rewrite Es; now left|]. assert (l = []) as -> by (destruct l; [reflexivity|cbn in Hs; lia]).
        destruct (sx_comment s) as [c|] eqn:Ecm.
        + set (s' := mk_syntax (sx_pos s) (sx_value s) None (sx_inline s)). exists [EComment c; ESyntax s'].
          assert (detached [ESyntax s] = [EComment c; ESyntax s']) as -> by (unfold detached; cbn [map concat]; now rewrite Ecm).
          assert (leading es ++ [EComment c; ESyntax s'] ++ R = (leading es ++ [EComment c]) ++ ESyntax s' :: R) as -> by now rewrite <- app_assoc.
          destruct (leading_of (leading es ++ [EComment c]) (ESyntax s' :: R)) as [E1 E2].
          { apply Forall_app. split; [apply leading_is|]. repeat constructor. now exists c. }
          { exact I. }
          rewrite E1, E2. rewrite !syntaxes_app, L1. cbn [syntaxes filter app].
          repeat (split; [reflexivity || (cbn; lia) || exact R5 || (unfold others; cbn [filter]; exact R5)|]).
          rewrite leading_text_app. unfold leading_text at 2. cbn [map cat]. unfold syntax_text. cbn [sx_comment sx_inline sx_value s']. rewrite Ecm.
          cbn [p_comment]. rewrite sapp_nil_r. rewrite !sapp_assoc. reflexivity.
        + exists [ESyntax s].
          assert (detached [ESyntax s] = [ESyntax s]) as -> by (unfold detached; cbn [map concat]; now rewrite Ecm).
          destruct (leading_of (leading es) ([ESyntax s] ++ R) (leading_is es) HR) as [E1 E2].
          rewrite E1, E2. rewrite !syntaxes_app, L1. cbn [syntaxes filter app].
          repeat (split; [reflexivity || (cbn; lia) || exact R5 || (unfold others; cbn [filter]; exact R5)|]). reflexivity. }
    assert (packages es' = packages es) as Ep by (rewrite Et, !packages_app, L2, H2, R2; reflexivity).
    split; [rewrite Et, !syntaxes_app, L1, R1, app_nil_r; exact H1|]. split; [now rewrite Ep|]. split; [assumption|]. split; [|assumption].
    assert (own_options es' = sort (own_options es)) as Eo by (rewrite Et, !own_options_app, L3, H3, R3; reflexivity).
    assert (own_imports es' = sort_imports (own_imports es)) as Ei by (rewrite Et, !own_imports_app, L4, H4, R4; reflexivity).
    unfold head_text. rewrite <- (sapp_assoc (leading_text (leading es'))), H7, sapp_assoc. f_equal. f_equal.
    unfold first_package. rewrite Ep. f_equal. rewrite Eo, Ei.
    assert (same_options (own_options es) (sort (own_options es))) as So by (apply same_options_refl; [assumption|apply sort_ok]).
    assert (same_imports (own_imports es) (sort_imports (own_imports es))) as Si by (apply same_imports_refl; [assumption|apply sort_i]).
    rewrite <- (same_p_options 0 false _ _ So).
    assert (p_imports sort_imports (sort_imports (own_imports es)) = p_imports sort_imports (own_imports es)) as ->.
    { unfold p_imports. f_equal. f_equal. apply (sorted_unique im_filename); [apply sort_i..| |].
      - symmetry. apply sort_i.
      - eapply Permutation_NoDup; [|exact Ni]. apply Permutation_map. eapply Permutation_trans; apply sort_i. }
    pose proof (Permutation_length (proj1 (sort_ok (own_options es)))) as Lo. pose proof (Permutation_length (proj1 (sort_i (own_imports es)))) as Li.
    destruct (own_options es), (sort _); try discriminate; destruct (own_imports es), (sort_imports _); try discriminate; reflexivity.
  Qed.
  Theorem reread_text filename header prefix es es' text fs : length (syntaxes es) <= 1 -> length (packages es) <= 1 ->
    NoDup (map o_name (own_options es)) -> NoDup (map im_filename (own_imports es)) ->
    same_file (detached (canonical sort sort_imports es)) es' ->
    transform_elements sort sort_imports filename FixNone header prefix es = Ok (text, fs) ->
    exists fs', transform_elements sort sort_imports filename FixNone header prefix es' = Ok (text, fs').
  Proof.
    intros Hs Hp No Ni H E. destruct (reread_parts es Hs Hp No Ni) as (Hs' & Hp' & Ev & Eh & Er).
    destruct (transform_text filename header prefix es Hs Hp) as (f & E1).
    destruct (transform_text filename header prefix _ Hs' Hp') as (f' & E2).
    set (d := detached (canonical sort sort_imports es)) in *. clearbody d.
    assert (exists fs', transform_elements sort sort_imports filename FixNone header prefix d = Ok (text, fs')) as (fs' & E3).
    { rewrite E1 in E. rewrite E2, Ev. destruct (version_of es) as [proto2|]; [|discriminate]. cbn [bind] in *. exists (f' proto2).
      assert (file_text d proto2 = file_text es proto2) as Ef by (unfold file_text; cbv zeta; now rewrite Eh, Er). rewrite Ef. congruence. }
    now apply (same_text filename header prefix d es' text fs').
  Qed.
  (** Nothing is lost. *)
  Lemma parts_perm es : Permutation es (syntaxes es ++ packages es ++ map EOption (own_options es) ++ map EImport (own_imports es) ++ others es).
  Proof.
    induction es as [|e es IH]; [reflexivity|].
    unfold syntaxes, packages, own_options, own_imports, others. cbn [filter map concat].
    fold (syntaxes es) (packages es) (own_options es) (own_imports es) (others es).
    destruct e; cbn [app map];
      [rewrite !app_assoc; apply Permutation_cons_app; rewrite <- !app_assoc; exact IH
      |apply perm_skip; exact IH
      |apply Permutation_cons_app; exact IH
      |rewrite !app_assoc; apply Permutation_cons_app; rewrite <- !app_assoc; exact IH
      |rewrite (app_assoc (syntaxes es)); apply Permutation_cons_app; rewrite <- app_assoc; exact IH
      |rewrite !app_assoc; apply Permutation_cons_app; rewrite <- !app_assoc; exact IH..].
  Qed.
  Lemma canonical_perm es : Permutation es (canonical sort sort_imports es).
  Proof.
    unfold canonical. rewrite (split_leading es) at 1. apply Permutation_app_head.
    destruct (still_none _ (leading_still es)) as (L1 & L2 & L3 & L4 & L5).
    assert (syntaxes es = syntaxes (after_leading es)) as -> by (rewrite (split_leading es) at 1; now rewrite syntaxes_app, L1).
    assert (packages es = packages (after_leading es)) as -> by (rewrite (split_leading es) at 1; now rewrite packages_app, L2).
    assert (own_options es = own_options (after_leading es)) as -> by (rewrite (split_leading es) at 1; now rewrite own_options_app, L3).
    assert (own_imports es = own_imports (after_leading es)) as -> by (rewrite (split_leading es) at 1; now rewrite own_imports_app, L4).
    eapply Permutation_trans; [apply parts_perm|]. do 2 apply Permutation_app_head.
    apply Permutation_app; [apply Permutation_map, sort_ok|]. apply Permutation_app_tail, Permutation_map, sort_i.
  Qed.
End Same.
