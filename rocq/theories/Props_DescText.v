(** C10, C11: what is said of descriptor sets that cannot be merged, or put in order for a call. *)
From Verif Require Import GoStrFacts GoFmt GoMapFacts Strs_Proofs Desc_Model Desc_Spec Desc_Text_Spec Reflect_Spec Reflect_Proofs Desc_Proofs.
From Coq Require Import Sorting.Sorted Lia Permutation.

Lemma hex_get : forall n, n < 16 -> String.get n "0123456789abcdef" = Some (hex_char n).
Proof. intros n H. do 16 (destruct n as [|n]; [reflexivity|]). lia. Qed.
Lemma hex_in s : in_hex s (hex s).
Proof.
  induction s as [|c s IH]; [constructor|]. cbn [hex].
  apply (Hex_byte c s (hex s) (code c / 16) (code c mod 16)); [apply Nat.div_mod; discriminate| | |exact IH]; apply hex_get.
  - apply Nat.div_lt_upper_bound; [discriminate|]. assert (X := nat_ascii_bounded c). unfold code. lia.
  - apply Nat.mod_upper_bound. discriminate.
Qed.
Lemma get_bound : forall n, 16 <= n -> String.get n "0123456789abcdef" = None.
Proof. intros n H. do 16 (destruct n as [|n]; [lia|]). reflexivity. Qed.
Lemma in_hex_unique s : forall t, in_hex s t -> t = hex s.
Proof.
  induction s as [|c s IH]; intros t H; inversion H as [|c' s' t' i j x y E X Y R]; subst; [reflexivity|]. cbn [hex].
  assert (I : i < 16) by (destruct (Nat.lt_ge_cases i 16) as [|N]; [assumption|]; rewrite (get_bound i N) in X; discriminate).
  assert (J : j < 16) by (destruct (Nat.lt_ge_cases j 16) as [|N]; [assumption|]; rewrite (get_bound j N) in Y; discriminate).
  rewrite (hex_get i I) in X. rewrite (hex_get j J) in Y. injection X as <-. injection Y as <-.
  rewrite <- (IH _ R). f_equal; [|f_equal]; f_equal.
  - apply (Nat.div_unique _ _ _ j); [exact J|exact E].
  - apply (Nat.mod_unique _ _ i); [exact J|exact E].
Qed.

Section MergeText.
  Variable sha256 : string -> string.
  Notation sum := (fun f => sha256 (fl_data f)).
  Notation merged := (merged sha256).
  Definition step (e : entry) (st : list (string * string) * list file_desc) : result (list (string * string) * list file_desc) :=
    match e with
    | Nil_set => Err "nil FileDescriptorSet"
    | Nil_file => merge_files sha256 [None] st
    | File f => merge_files sha256 [Some f] st
    end.
  Fixpoint loop (l : list entry) st :=
    match l with [] => Ok st | e :: l => do st' <- step e st; loop l st' end.
  Lemma loop_app a b st : loop (a ++ b) st = do st' <- loop a st; loop b st'.
  Proof. revert st. induction a as [|e a IH]; intros st; [reflexivity|]. cbn [app loop]. destruct (step e st) as [st'|]; [apply IH|reflexivity]. Qed.
  Lemma merge_files_loop l : forall st, merge_files sha256 l st = loop (map (fun x => match x with None => Nil_file | Some f => File f end) l) st.
  Proof.
    induction l as [|[f|] l IH]; intros st; [reflexivity| |reflexivity]. cbn [map loop step merge_files].
    destruct (is_empty (fl_name f)); [reflexivity|]. destruct (gget (fl_name f) (fst st)) as [s|]; [|apply IH].
    destruct (String.eqb s (sha256 (fl_data f))); [apply IH|reflexivity].
  Qed.
  Lemma merge_sets_loop sets : forall st, merge_sets sha256 sets st = loop (entries sets) st.
  Proof.
    induction sets as [|[l|] sets IH]; intros st; [reflexivity| |reflexivity]. unfold entries. cbn [merge_sets flat_map]. fold (entries sets).
    rewrite loop_app, <- merge_files_loop. destruct (merge_files sha256 l st) as [st'|]; [apply IH|reflexivity].
  Qed.
  Lemma files_loop l : forall st, loop (map File l) st = merge_files sha256 (map Some l) st.
  Proof. intros st. rewrite merge_files_loop, map_map. reflexivity. Qed.
  Lemma merged_fine seen st : merged seen st -> fine_together sum seen.
  Proof.
    intros M. split; [intros f Hf; now apply (mg_complete _ _ _ M)|]. intros f g Hf Hg E.
    destruct (mg_complete _ _ _ M f Hf) as (_ & f' & F1 & F2 & F3). destruct (mg_complete _ _ _ M g Hg) as (_ & g' & G1 & G2 & G3).
    assert (f' = g') as <-; [|now rewrite <- F3].
    eapply (NoDup_map_key fl_name); [exact (mg_names _ _ _ M)|assumption..|congruence].
  Qed.
  Lemma step_wrong seen st e t : merged seen st -> step e st = Err t <-> wrong sum seen e t.
  Proof.
    intros M. destruct e as [| |f]; cbn [step merge_files].
    - split; [intros [= <-]; constructor|]. now inversion 1.
    - split; [intros [= <-]; constructor|]. now inversion 1.
    - destruct (is_empty (fl_name f)) eqn:Ee.
      { apply is_empty_true in Ee. split; [intros [= <-]; now constructor|]. inversion 1; [reflexivity|contradiction]. }
      apply is_empty_false in Ee.
      destruct (gget (fl_name f) (fst st)) as [s|] eqn:Eg.
      + apply (mg_map _ _ _ M) in Eg as (g & G1 & G2 & <-). destruct (String.eqb_spec (sha256 (fl_data g)) (sha256 (fl_data f))) as [Es|Es].
        * split; [discriminate|]. inversion 1 as [| | |f' h x y H1 H2 H3 H4]; subst; [contradiction|]. exfalso. apply H4.
          destruct (mg_complete _ _ _ M h H2) as (_ & h' & I1 & I2 & I3).
          assert (g = h') as <-; [|congruence]. eapply (NoDup_map_key fl_name); [exact (mg_names _ _ _ M)|assumption..|congruence].
        * split.
          -- intros H. assert (E := f_equal (fun r => match r with Err m => m | _ => "" end) H). cbv beta iota in E. rewrite <- E.
             apply (Wrong_sum sum seen f g); auto using hex_in. now apply (mg_sound _ _ _ M).
          -- inversion 1 as [| | |f' h x y H1 H2 H3 H4 X Y]; subst; [contradiction|]. apply in_hex_unique in X, Y. subst x y.
             destruct (mg_complete _ _ _ M h H2) as (_ & h' & I1 & I2 & I3).
             assert (g = h') as <-; [eapply (NoDup_map_key fl_name); [exact (mg_names _ _ _ M)|assumption..|congruence]|].
             now rewrite I3.
      + split; [discriminate|]. inversion 1 as [| | |f' h x y H1 H2 H3 H4]; subst; [contradiction|]. exfalso.
        destruct (mg_complete _ _ _ M h H2) as (_ & h' & I1 & I2 & I3).
        assert (X : gget (fl_name f) (fst st) = Some (sha256 (fl_data h'))); [|congruence]. apply (mg_map _ _ _ M). exists h'. split; [assumption|]. split; [congruence|reflexivity].
  Qed.
  Lemma loop_fails l : forall seen st t, merged seen st -> loop l st = Err t ->
    exists before bad after, l = map File before ++ bad :: after /\ fine_together sum (seen ++ before) /\ wrong sum (seen ++ before) bad t.
  Proof.
    induction l as [|e l IH]; intros seen st t M; [discriminate|]. cbn [loop]. destruct (step e st) as [st'|m] eqn:E; cbn [bind].
    - intros H. destruct e as [| |f]; [discriminate|discriminate|]. cbn [step] in E.
      destruct (merge_files_inv sha256 _ _ _ _ M E) as (l0 & E0 & M'). destruct l0 as [|f' [|? ?]]; try discriminate. injection E0 as <-.
      destruct (IH _ _ _ M' H) as (b & bad & a & -> & F & W). exists (f :: b), bad, a. rewrite <- app_assoc in F, W. auto.
    - intros [= <-]. exists [], e, l. rewrite app_nil_r. split; [reflexivity|]. split; [now apply (merged_fine seen st)|]. now apply (step_wrong seen st).
  Qed.
  (** C10: merging fails exactly when an entry is wrong behind files that are fine together; the first such
      entry is told. *)
  Theorem C10_said : forall sets t, merge_file_descriptor_sets sha256 sets = Err t <-> says_unmergeable sum sets t.
  Proof.
    intros sets t. unfold merge_file_descriptor_sets. rewrite merge_sets_loop. split.
    - destruct (loop (entries sets) ([], [])) as [st|m] eqn:E; [discriminate|]. cbn [bind]. intros [= <-].
      exact (loop_fails _ [] _ _ (merged_nil sha256) E).
    - intros (before & bad & after & E & F & W). rewrite E, loop_app, files_loop.
      destruct (merge_files_ok sha256 before [] _ (merged_nil sha256)) as (st & S); [apply F|apply F|].
      rewrite S. cbn [bind loop]. destruct (merge_files_inv sha256 _ _ _ _ (merged_nil sha256) S) as (l0 & E0 & M).
      assert (l0 = before) as ->.
      { clear - E0. revert l0 E0. induction before as [|x l IH]; intros [|y l1]; simpl; try discriminate; [reflexivity|].
        intros H; injection H as -> H. f_equal. now apply IH. }
      apply (step_wrong _ _ _ t M) in W. now rewrite W.
  Qed.
End MergeText.
Print Assumptions C10_said.

Lemma increasing_strongly l : Increasing l -> StronglySorted (fun a b => str_leb a b = true) l.
Proof. induction 1 as [|x l H1 H2 IH]; constructor; auto. apply Forall_forall. intros y Hy. now apply str_ltb_leb, H1. Qed.
Lemma increasing_isort l : NoDup l -> Increasing (isort str_leb l).
Proof.
  intros N. apply (Permutation_NoDup (isort_perm str_leb l)) in N.
  assert (S : StronglySorted (fun a b => str_leb a b = true) (isort str_leb l)) by (apply isort_sorted; [apply str_leb_total|apply str_leb_trans]).
  induction S as [|x r S IH F]; [constructor|]. inversion N as [|? ? H1 H2]; subst. constructor; [|auto].
  intros y Hy. rewrite Forall_forall in F. apply str_leb_neq_ltb; [now apply F|]. congruence.
Qed.
Lemma collect_fails l : forall names t, collect_names l names = Err t <->
  exists before g after, l = before ++ g :: after /\ ~ In "" (map fl_name before) /\ NoDup (map fl_name before) /\ (forall n, In n (map fl_name before) -> ~ In n names) /\
    (fl_name g = "" /\ t = "no name on FileDescriptorProto" \/
     fl_name g <> "" /\ In (fl_name g) (map fl_name before ++ names) /\ t = "duplicate FileDescriptorProto in FileDescriptorSet: " +++ fl_name g).
Proof.
  induction l as [|f l IH]; intros names t; cbn [collect_names].
  - split; [discriminate|]. intros ([|] & g & a & E & _); discriminate.
  - destruct (is_empty (fl_name f)) eqn:E.
    { apply is_empty_true in E. split.
      - intros [= <-]. exists [], f, l. split; [reflexivity|]. split; [easy|]. split; [constructor|]. split; [easy|]. now left.
      - intros ([|h b] & g & a & X & N & _ & _ & D); injection X as -> ->; [destruct D as [(_ & ->)|(D & _)]; [reflexivity|contradiction]|].
        destruct N. now left. }
    apply is_empty_false in E. destruct (mem (fl_name f) names) eqn:Em.
    { apply mem_In in Em. split.
      - intros H. assert (X := f_equal (fun r => match r with Err m => m | _ => "" end) H). cbv beta iota in X. rewrite <- X.
        exists [], f, l. split; [reflexivity|]. split; [easy|]. split; [constructor|]. split; [easy|]. right. auto.
      - intros ([|h b] & g & a & X & N & _ & O & D); injection X as -> ->; [destruct D as [(D & _)|(_ & _ & ->)]; [contradiction|reflexivity]|].
        exfalso. apply (O (fl_name h)); [now left|assumption]. }
    assert (Hm : ~ In (fl_name f) names) by (rewrite <- mem_In, Em; discriminate).
    rewrite IH. split.
    + intros (b & g & a & -> & N & U & O & D). exists (f :: b), g, a. split; [reflexivity|].
      split; [intros [X|X]; [now apply E|now apply N]|].
      split; [constructor; [intros X; apply (O _ X); now left|assumption]|].
      split; [intros n [<-|X]; [assumption|]; intros Y; apply (O n X); now right|].
      destruct D as [D|(D1 & D2 & D3)]; [now left|right]. split; [assumption|]. split; [|assumption].
      cbn [map app In]. rewrite in_app_iff in *. cbn [In] in D2. tauto.
    + intros ([|h b] & g & a & X & N & U & O & D); injection X as -> ->.
      * exfalso. destruct D as [(D & _)|(_ & D & _)]; [contradiction|]. exact (Hm D).
      * cbn [map] in *. inversion U as [|? ? U1 U2]; subst. exists b, g, a. split; [reflexivity|].
        split; [intros X; apply N; now right|]. split; [assumption|].
        split; [intros n X [Y|Y]; [subst n; contradiction|apply (O n); [now right|assumption]]|].
        destruct D as [D|(D1 & D2 & D3)]; [now left|right]. split; [assumption|]. split; [|assumption].
        rewrite in_app_iff in *. cbn [In] in *. tauto.
Qed.
(** C11: so does putting a file last in its set. *)
Theorem C11_said : forall fs f t, sort_file_descriptor_set fs f = Err t <-> says_unordered fs f t.
Proof.
  intros fs f t. unfold sort_file_descriptor_set. destruct (collect_names fs []) as [names|m] eqn:E; cbn [bind].
  - apply collect_names_spec in E as (-> & F & N & _). rewrite app_nil_r.
    assert (Ne : ~ In "" (map fl_name fs)).
    { intros X. apply in_map_iff in X as (g & X & Hg). rewrite Forall_forall in F. exact (F g Hg X). }
    assert (Bad : forall before g after, fs = before ++ g :: after -> fl_name g = "" \/ In (fl_name g) (map fl_name before) -> False).
    { intros b g a -> [X|X].
      - apply Ne. rewrite <- X. apply in_map, in_app_iff. right. now left.
      - rewrite map_app in N. cbn [map] in N. apply NoDup_remove_2 in N. apply N, in_app_iff. now left. }
    destruct (mem (fl_name f) (rev (map fl_name fs))) eqn:Em.
    + apply mem_In in Em. rewrite <- in_rev in Em. split; [discriminate|].
      inversion 1 as [b g a X _ _ Y|b g a X _ _ Y|names _ _ X]; exfalso; [eapply Bad; eauto|eapply Bad; eauto|contradiction].
    + assert (Hm : ~ In (fl_name f) (map fl_name fs)) by (rewrite in_rev, <- mem_In, Em; discriminate).
      unfold names_map. split.
      * intros H. assert (X := f_equal (fun r => match r with Err m => m | _ => "" end) H). cbv beta iota in X. rewrite <- X.
        exact (Not_there fs f _ Ne N Hm (Permutation_trans (Permutation_sym (isort_perm str_leb _)) (Permutation_sym (Permutation_rev _))) (increasing_isort _ (NoDup_rev N))).
      * inversion 1 as [b g a X _ _ Y|b g a X _ _ Y|names _ _ X P I]; [exfalso; eapply Bad; eauto|exfalso; eapply Bad; eauto|].
        assert (Q : isort str_leb (rev (map fl_name fs)) = names).
        { rewrite <- (isort_id str_leb names (increasing_strongly _ I)).
          apply isort_unique; [apply str_leb_total|apply str_leb_trans|apply str_leb_antisym|]. rewrite P. symmetry. apply Permutation_rev. }
        now rewrite Q.
  - split.
    + intros [= <-]. apply collect_fails in E as (b & g & a & X & N & U & _ & [(D & ->)|(_ & D & ->)]); [now apply (No_name_in fs f b g a)|].
      rewrite app_nil_r in D. now apply (Twice fs f b g a).
    + intros S. assert (Q : collect_names fs [] = Err t); [|rewrite E in Q; now injection Q as ->].
      destruct S as [b g a X N U D|b g a X N U D|names N U X].
      * apply collect_fails. exists b, g, a. repeat (split; [assumption||easy|]). now left.
      * apply collect_fails. exists b, g, a. repeat (split; [assumption||easy|]).
        destruct (string_dec (fl_name g) "") as [Z|Z]; [rewrite Z in D; contradiction|]. right. rewrite app_nil_r. auto.
      * exfalso. assert (Q : collect_names fs [] = Ok (rev (map fl_name fs) ++ [])); [|congruence]. apply collect_names_spec.
        split; [reflexivity|]. split; [|split; [assumption|easy]]. apply Forall_forall. intros h Hh Eh. apply N. rewrite <- Eh. now apply in_map.
Qed.
Print Assumptions C11_said.
Definition dt_a : file_desc := mk_file_desc "a.proto" "p.v1" [] [] [] [] "A".
Definition dt_a' : file_desc := mk_file_desc "a.proto" "p.v1" [] [] [] [] "z".
Definition dt_b : file_desc := mk_file_desc "b.proto" "p.v1" [] [] [] [] "B".
Example C10_said_ex :
  merge_file_descriptor_sets (fun s => s) [Some [Some dt_b; Some dt_a]; Some [Some dt_b; Some dt_a']; None] =
    Err ("mismatched sums 41 7a for file " +++ quote "a.proto") /\
  says_unmergeable (fun f => fl_data f) [Some [Some dt_b; Some dt_a]; Some [Some dt_b; Some dt_a']; None] ("mismatched sums 41 7a for file " +++ quote "a.proto").
Proof. split; [reflexivity|]. apply (C10_said (fun s => s)). reflexivity. Qed.
Example C11_said_ex :
  sort_file_descriptor_set [dt_b; mk_file_desc "a b.proto" "p.v1" [] [] [] [] "C"] dt_a =
    Err "no FileDescriptorProto named a.proto in FileDescriptorSet with names map[a b.proto:{} b.proto:{}]" /\
  sort_file_descriptor_set [dt_b; dt_b] dt_b = Err "duplicate FileDescriptorProto in FileDescriptorSet: b.proto".
Proof. split; reflexivity. Qed.
