(** Lemmas about [GoPath], mostly through the component view of absolute
    cleaned paths. *)
From Verif Require Export GoStrFacts GoPath.

(** A path element: non-empty, no separator, neither "." nor "..". *)
Definition ok_comp (c : string) : bool :=
  negb (is_empty c) && negb (String.eqb c ".") && negb (String.eqb c "..") && no_char slash c.
(** The absolute cleaned path with the given elements. *)
Definition abs_path (cs : list string) : string := "/" +++ join "/" cs.
Definition ok_comps (cs : list string) : Prop := Forall (fun c => ok_comp c = true) cs.
Definition clean_abs (p : string) : Prop := exists cs, ok_comps cs /\ p = abs_path cs.

Lemma ok_comp_inv c : ok_comp c = true ->
  c <> EmptyString /\ c <> "." /\ c <> ".." /\ no_char slash c = true.
Proof.
  unfold ok_comp. rewrite !andb_true_iff, !negb_true_iff. intros [[[H1 H2] H3] H4].
  apply is_empty_false in H1. apply String.eqb_neq in H2, H3. auto.
Qed.
Lemma ok_comp_intro c :
  c <> EmptyString -> c <> "." -> c <> ".." -> no_char slash c = true -> ok_comp c = true.
Proof.
  intros H1 H2 H3 H4. unfold ok_comp. apply is_empty_false in H1. apply String.eqb_neq in H2, H3.
  now rewrite H1, H2, H3, H4.
Qed.
Lemma ok_comps_no_slash cs : ok_comps cs -> Forall (fun x => no_char slash x = true) cs.
Proof. apply Forall_impl. intros c H. now apply ok_comp_inv in H. Qed.

Lemma split_abs cs : ok_comps cs -> cs <> [] -> split_char slash (abs_path cs) = EmptyString :: cs.
Proof.
  intros H Hn. unfold abs_path. change ("/" +++ join "/" cs) with (EmptyString +++ String slash (join "/" cs)).
  rewrite split_char_app by reflexivity. f_equal. apply split_join; auto using ok_comps_no_slash.
Qed.
Lemma is_abs_abs_path cs : is_abs (abs_path cs) = true.
Proof. reflexivity. Qed.

Lemma clean_step_ok r st c : ok_comp c = true -> clean_step r st c = c :: st.
Proof.
  intros H. apply ok_comp_inv in H as (H1 & H2 & H3 & _). unfold clean_step.
  apply is_empty_false in H1. apply String.eqb_neq in H2, H3. now rewrite H1, H2, H3.
Qed.
Lemma clean_fold_ok r cs st : ok_comps cs -> fold_left (clean_step r) cs st = rev cs ++ st.
Proof.
  revert st; induction cs as [|c cs IH]; intros st H; [reflexivity|].
  inversion H as [|? ? Hc Hcs]; subst. cbn [fold_left]. rewrite clean_step_ok by assumption.
  rewrite IH by assumption. simpl. now rewrite <- app_assoc.
Qed.
Lemma clean_abs_path cs : ok_comps cs -> path_clean (abs_path cs) = abs_path cs.
Proof.
  intros H. unfold path_clean. rewrite is_abs_abs_path. destruct cs as [|c cs]; [reflexivity|].
  rewrite split_abs by (assumption || discriminate).
  unfold clean_comps. change (fold_left (clean_step true) (EmptyString :: c :: cs) [])
    with (fold_left (clean_step true) (c :: cs) []).
  rewrite clean_fold_ok by assumption. rewrite app_nil_r, rev_involutive. reflexivity.
Qed.

Lemma clean_step_rooted_ok st c :
  ok_comps st -> no_char slash c = true -> ok_comps (clean_step true st c).
Proof.
  intros Hst Hc. unfold clean_step.
  destruct (is_empty c) eqn:E1; [exact Hst|].
  destruct (String.eqb c ".") eqn:E2; [exact Hst|]. simpl.
  destruct (String.eqb c "..") eqn:E3.
  - destruct st as [|top rest]; [constructor|].
    inversion Hst as [|? ? Ht Hr]; subst. destruct (String.eqb top "..") eqn:E4; [|exact Hr].
    apply String.eqb_eq in E4. apply ok_comp_inv in Ht. tauto.
  - constructor; [|exact Hst]. unfold ok_comp. now rewrite E1, E2, E3, Hc.
Qed.
Lemma clean_fold_rooted_ok cs st :
  ok_comps st -> Forall (fun x => no_char slash x = true) cs ->
  ok_comps (fold_left (clean_step true) cs st).
Proof.
  revert st; induction cs as [|c cs IH]; intros st Hst H; [exact Hst|].
  inversion H; subst. cbn [fold_left]. apply IH; auto using clean_step_rooted_ok.
Qed.
Lemma ok_comps_rev cs : ok_comps cs -> ok_comps (rev cs).
Proof. unfold ok_comps. rewrite !Forall_forall. intros H x Hx. apply H. now apply in_rev. Qed.
Lemma path_clean_clean_abs p : is_abs p = true -> clean_abs (path_clean p).
Proof.
  intros H. unfold path_clean. rewrite H. eexists. split; [|reflexivity].
  unfold clean_comps. apply ok_comps_rev, clean_fold_rooted_ok; [constructor|apply split_char_parts].
Qed.
Lemma path_clean_idem_abs p : is_abs p = true -> path_clean (path_clean p) = path_clean p.
Proof. intros H. destruct (path_clean_clean_abs p H) as (cs & Hcs & ->). now apply clean_abs_path. Qed.
Lemma clean_abs_fix p : clean_abs p -> path_clean p = p.
Proof. intros (cs & Hcs & ->). now apply clean_abs_path. Qed.
Lemma clean_abs_is_abs p : clean_abs p -> is_abs p = true.
Proof. intros (cs & Hcs & ->). reflexivity. Qed.

(** ** Elements *)
Lemma elems_abs cs : ok_comps cs -> elems (abs_path cs) = cs.
Proof.
  intros H. destruct cs as [|c cs]; [reflexivity|]. unfold elems.
  rewrite split_abs by (assumption || discriminate).
  assert (forall l, ok_comps l -> filter (fun c => negb (is_empty c)) l = l) as F.
  { induction l as [|x l IH]; intros Hl; [reflexivity|]. inversion Hl as [|? ? Hx ?]; subst. simpl.
    apply ok_comp_inv in Hx as (Hx & _). apply is_empty_false in Hx. rewrite Hx. simpl. now rewrite IH. }
  exact (F _ H).
Qed.
Lemma abs_path_inj a b : ok_comps a -> ok_comps b -> abs_path a = abs_path b -> a = b.
Proof. intros Ha Hb H. rewrite <- (elems_abs a Ha), <- (elems_abs b Hb). now rewrite H. Qed.

(** ** Dir, Base, Ext *)
Lemma join_snoc sep l x : l <> [] -> join sep (l ++ [x]) = join sep l +++ sep +++ x.
Proof.
  induction l as [|y l IH]; [easy|]. intros _. destruct l as [|z l]; [reflexivity|].
  cbn [app]. rewrite !join_cons2. cbn [app] in IH. rewrite IH by discriminate.
  now rewrite !sapp_assoc.
Qed.
Lemma srev_no_char c s : no_char c s = true -> no_char c (srev s) = true.
Proof.
  induction s as [|a s IH]; [easy|]. intros H. rewrite srev_cons, no_char_app.
  unfold no_char in *; simpl in *. apply andb_true_iff in H as [H1 H2].
  rewrite IH by assumption. now rewrite H1.
Qed.
Lemma upto_last_slash_app a c : no_char slash c = true ->
  upto_last_slash (a +++ String slash c) = a +++ "/".
Proof.
  intros H. unfold upto_last_slash. rewrite srev_sapp, srev_cons, sapp_assoc.
  rewrite trim_left_app by now apply srev_no_char. simpl.
  rewrite srev_cons, srev_involutive. reflexivity.
Qed.
Lemma after_last_slash_app a c : no_char slash c = true ->
  after_last_slash (a +++ String slash c) = c.
Proof.
  intros H. unfold after_last_slash.
  assert (forall a, split_char slash (a +++ String slash c) = split_char slash a ++ [c]) as E.
  { clear a. induction a as [|x a IH]; simpl.
    - now rewrite (split_char_no slash c) by assumption.
    - rewrite IH. destruct (Ascii.eqb x slash); [reflexivity|].
      destruct (split_char slash a) as [|h t] eqn:Es; [now apply split_char_nonnil in Es|reflexivity]. }
  rewrite E. apply last_last.
Qed.
Lemma after_last_slash_no c : no_char slash c = true -> after_last_slash c = c.
Proof. intros H. unfold after_last_slash. now rewrite split_char_no. Qed.

(** The absolute path of [cs ++ [c]] is a prefix, a separator, and [c]. *)
Definition abs_prefix (cs : list string) : string :=
  match cs with [] => EmptyString | _ => abs_path cs end.
Lemma abs_path_snoc cs c : abs_path (cs ++ [c]) = abs_prefix cs +++ String slash c.
Proof.
  destruct cs as [|x cs]; [reflexivity|].
  unfold abs_prefix, abs_path. rewrite join_snoc by discriminate. now rewrite sapp_assoc.
Qed.
Lemma clean_abs_prefix_slash cs : ok_comps cs -> path_clean (abs_prefix cs +++ "/") = abs_path cs.
Proof.
  intros H. destruct cs as [|x cs]; [reflexivity|]. unfold abs_prefix.
  unfold path_clean.
  replace (is_abs (abs_path (x :: cs) +++ "/")) with true by reflexivity.
  unfold abs_path at 1.
  assert (split_char slash (("/" +++ join "/" (x :: cs)) +++ "/") = (EmptyString :: x :: cs) ++ [EmptyString]) as E.
  { rewrite <- (split_join slash ((EmptyString :: x :: cs) ++ [EmptyString])).
    - f_equal. rewrite join_snoc by discriminate. rewrite join_cons2. reflexivity.
    - discriminate.
    - apply Forall_app. split; [|repeat constructor]. constructor; [reflexivity|].
      now apply ok_comps_no_slash. }
  rewrite E. unfold clean_comps. rewrite fold_left_app.
  change (fold_left (clean_step true) (EmptyString :: x :: cs) [])
    with (fold_left (clean_step true) (x :: cs) []).
  rewrite (clean_fold_ok true (x :: cs)) by assumption. cbn [fold_left clean_step is_empty orb].
  rewrite app_nil_r, rev_involutive. reflexivity.
Qed.
Lemma path_dir_abs cs c : ok_comps cs -> ok_comp c = true -> path_dir (abs_path (cs ++ [c])) = abs_path cs.
Proof.
  intros Hcs Hc. unfold path_dir. rewrite abs_path_snoc.
  apply ok_comp_inv in Hc as (_ & _ & _ & Hc).
  rewrite upto_last_slash_app by assumption. now apply clean_abs_prefix_slash.
Qed.
Lemma path_dir_root : path_dir "/" = "/".
Proof. reflexivity. Qed.
Lemma ok_comps_app a b : ok_comps (a ++ b) <-> ok_comps a /\ ok_comps b.
Proof. apply Forall_app. Qed.
Lemma path_dir_clean_abs p : clean_abs p -> clean_abs (path_dir p).
Proof.
  intros (cs & Hcs & ->). destruct cs as [|c cs'] using rev_ind.
  - exists []. split; [constructor|reflexivity].
  - apply ok_comps_app in Hcs as [H1 H2]. inversion H2; subst.
    exists cs'. split; [assumption|]. now apply path_dir_abs.
Qed.
Lemma path_base_abs cs c : ok_comps cs -> ok_comp c = true -> path_base (abs_path (cs ++ [c])) = c.
Proof.
  intros Hcs Hc. apply ok_comp_inv in Hc as (H1 & _ & _ & H4).
  unfold path_base. replace (is_empty (abs_path (cs ++ [c]))) with false by reflexivity.
  rewrite abs_path_snoc. rewrite trim_right_id.
  - rewrite after_last_slash_app by assumption. apply is_empty_false in H1. now rewrite H1.
  - intros a Ha. change (String slash c) with (String slash EmptyString +++ c) in Ha.
    rewrite <- sapp_assoc, last_char_app_r in Ha by assumption.
    clear -H4 Ha. induction c as [|x c IH]; [discriminate|].
    unfold no_char in H4; simpl in H4. apply andb_true_iff in H4 as [Hx Hc].
    destruct c as [|y c].
    + vm_compute in Ha. injection Ha as <-. now apply negb_true_iff in Hx.
    + rewrite last_char_cons in Ha. auto.
Qed.
Lemma path_ext_after p q : after_last_slash p = after_last_slash q -> path_ext p = path_ext q.
Proof. intros H. unfold path_ext. now rewrite H. Qed.
Lemma path_ext_abs cs c : ok_comp c = true -> path_ext (abs_path (cs ++ [c])) = path_ext c.
Proof.
  intros H. apply ok_comp_inv in H as (_ & _ & _ & H). apply path_ext_after.
  rewrite abs_path_snoc, after_last_slash_app by assumption. now rewrite after_last_slash_no.
Qed.

(** ** Joining an absolute cleaned path with a relative one *)
Lemma split_app_slash a b : split_char slash (a +++ String slash b) = split_char slash a ++ split_char slash b.
Proof.
  induction a as [|x a IH]; simpl; [reflexivity|].
  rewrite IH. destruct (Ascii.eqb x slash); [reflexivity|].
  destruct (split_char slash a) as [|h t] eqn:Es; [now apply split_char_nonnil in Es|reflexivity].
Qed.
Lemma path_join_abs cs r : ok_comps cs -> r <> EmptyString ->
  path_join [abs_path cs; r] = abs_path (rev (fold_left (clean_step true) (split_char slash r) (rev cs))).
Proof.
  intros H Hr. unfold path_join. replace (is_empty (abs_path cs)) with false by reflexivity.
  cbn [join]. unfold path_clean.
  replace (is_abs (abs_path cs +++ "/" +++ r)) with true by reflexivity.
  unfold abs_path at 2. f_equal. f_equal. unfold clean_comps. f_equal.
  change ("/" +++ r) with (String slash r). rewrite split_app_slash, fold_left_app. f_equal.
  destruct cs as [|c cs]; [reflexivity|].
  rewrite split_abs by (assumption || discriminate).
  change (fold_left (clean_step true) (EmptyString :: c :: cs) [])
    with (fold_left (clean_step true) (c :: cs) []).
  rewrite clean_fold_ok by assumption. now rewrite app_nil_r.
Qed.
Lemma path_join_abs_empty cs : ok_comps cs -> path_join [abs_path cs; EmptyString] = abs_path cs.
Proof.
  intros H. unfold path_join. replace (is_empty (abs_path cs)) with false by reflexivity.
  cbn [join]. destruct cs as [|c cs]; [reflexivity|].
  change ("/" +++ EmptyString) with "/". now apply (clean_abs_prefix_slash (c :: cs)).
Qed.
Lemma path_join_abs_ok cs rs : ok_comps cs -> ok_comps rs -> rs <> [] ->
  path_join [abs_path cs; join "/" rs] = abs_path (cs ++ rs).
Proof.
  intros H1 H2 H3. rewrite path_join_abs; [|assumption|].
  - rewrite (split_join slash) by auto using ok_comps_no_slash.
    rewrite clean_fold_ok by assumption. rewrite rev_app_distr, !rev_involutive. reflexivity.
  - destruct rs as [|x rs]; [easy|]. inversion H2 as [|? ? Hx ?]; subst.
    apply ok_comp_inv in Hx as (Hx & _). destruct x; [easy|]. now destruct rs.
Qed.
Lemma path_join_abs_clean p r : clean_abs p -> clean_abs (path_join [p; r]).
Proof.
  intros (cs & Hcs & ->). destruct r as [|c r].
  - exists cs. split; [assumption|]. now apply path_join_abs_empty.
  - rewrite path_join_abs by (assumption || discriminate).
    eexists. split; [|reflexivity]. apply ok_comps_rev, clean_fold_rooted_ok.
    + now apply ok_comps_rev.
    + apply split_char_parts.
Qed.

(** ** Rel *)
Lemma strip_common_app c a b : strip_common (c ++ a) (c ++ b) = strip_common a b.
Proof. induction c as [|x c IH]; [reflexivity|]. simpl. now rewrite seqb_refl. Qed.
Lemma strip_common_spec a b : exists c, a = c ++ fst (strip_common a b) /\ b = c ++ snd (strip_common a b).
Proof.
  revert b; induction a as [|x a IH]; intros [|y b]; simpl; try (exists []; easy).
  destruct (String.eqb x y) eqn:E; [|exists []; easy].
  apply String.eqb_eq in E as ->. destruct (IH b) as (c & H1 & H2).
  exists (y :: c). simpl. now rewrite <- H1, <- H2.
Qed.
Lemma strip_common_prefix a b : strip_common a (a ++ b) = ([], b).
Proof. induction a as [|x a IH]; simpl; [now destruct b|now rewrite seqb_refl]. Qed.
Definition dotdots (l : list string) : list string := map (fun _ => "..") l.
Lemma path_rel_abs a b : ok_comps a -> ok_comps b ->
  path_rel (abs_path a) (abs_path b) =
  if list_eq_dec string_dec a b then Ok "."
  else Ok (join "/" (dotdots (fst (strip_common a b)) ++ snd (strip_common a b))).
Proof.
  intros Ha Hb. unfold path_rel. rewrite !clean_abs_path by assumption.
  destruct (list_eq_dec string_dec a b) as [->|Hne].
  - now rewrite seqb_refl.
  - destruct (String.eqb (abs_path b) (abs_path a)) eqn:E.
    + apply String.eqb_eq in E. apply abs_path_inj in E; auto. congruence.
    + replace (String.eqb (abs_path a) ".") with false by reflexivity.
      rewrite !is_abs_abs_path. cbn [Bool.eqb negb].
      rewrite !elems_abs by assumption.
      destruct (strip_common_spec a b) as (c & H1 & H2).
      destruct (strip_common a b) as [rb rt] eqn:Es. simpl in *.
      destruct rb as [|x rb]; [reflexivity|].
      assert (ok_comp x = true) as Hx.
      { rewrite H1 in Ha. apply ok_comps_app in Ha as [_ Ha]. now inversion Ha. }
      apply ok_comp_inv in Hx as (_ & _ & Hx & _). apply String.eqb_neq in Hx. now rewrite Hx.
Qed.
Lemma path_rel_under a r : ok_comps a -> ok_comps r -> r <> [] ->
  path_rel (abs_path a) (abs_path (a ++ r)) = Ok (join "/" r).
Proof.
  intros Ha Hr Hn. rewrite path_rel_abs; [|assumption|now apply ok_comps_app].
  destruct (list_eq_dec string_dec a (a ++ r)) as [E|E].
  - exfalso. rewrite <- (app_nil_r a) in E at 1. apply app_inv_head in E. congruence.
  - now rewrite strip_common_prefix.
Qed.
Lemma fold_dotdots l st rest :
  ok_comps (l ++ st) -> fold_left (clean_step true) (dotdots (rev l) ++ rest) (l ++ st)
  = fold_left (clean_step true) rest st.
Proof.
  revert st rest. intros st rest H. rewrite fold_left_app. f_equal.
  assert (dotdots (rev l) = dotdots l) as ->.
  { unfold dotdots. rewrite map_rev. assert (forall n, rev (repeat ".." n) = repeat ".." n) as R.
    { induction n as [|n IHn]; [reflexivity|]. simpl. rewrite IHn.
      clear. induction n as [|n IHn]; [reflexivity|]. simpl. now rewrite IHn. }
    assert (map (fun _ : string => "..") l = repeat ".." (length l)) as ->.
    { clear. induction l; simpl; congruence. }
    apply R. }
  induction l as [|x l IH]; [reflexivity|].
  inversion H as [|? ? Hx Hl]; subst. cbn [dotdots map fold_left app].
  replace (clean_step true (x :: l ++ st) "..") with (l ++ st).
  - now apply IH.
  - unfold clean_step. simpl. apply ok_comp_inv in Hx as (_ & _ & Hx & _).
    apply String.eqb_neq in Hx. now rewrite Hx.
Qed.
(** Resolving the relative path gives the target back. *)
Lemma path_join_rel a b r : ok_comps a -> ok_comps b ->
  path_rel (abs_path a) (abs_path b) = Ok r -> path_join [abs_path a; r] = abs_path b.
Proof.
  intros Ha Hb. rewrite path_rel_abs by assumption.
  destruct (list_eq_dec string_dec a b) as [->|Hne]; intros H; injection H as <-.
  - rewrite path_join_abs by (assumption || discriminate). 
    change (fold_left (clean_step true) (split_char slash ".") (rev b)) with (rev b).
    now rewrite rev_involutive.
  - destruct (strip_common_spec a b) as (c & H1 & H2).
    destruct (strip_common a b) as [rb rt] eqn:Es. cbn [fst snd] in *.
    assert (dotdots rb ++ rt <> []) as Hnn.
    { intros E. apply app_eq_nil in E as [E1 E2]. apply map_eq_nil in E1. subst.
      rewrite !app_nil_r in *. congruence. }
    assert (Forall (fun x => no_char slash x = true) (dotdots rb ++ rt)) as Hns.
    { apply Forall_app. split.
      - unfold dotdots. clear. induction rb; simpl; constructor; auto.
      - rewrite H2 in Hb. apply ok_comps_app in Hb as [_ Hb]. now apply ok_comps_no_slash. }
    rewrite path_join_abs; [|assumption|].
    + rewrite (split_join slash) by assumption. rewrite H1 at 1. rewrite rev_app_distr.
      rewrite <- (rev_involutive rb) at 1. rewrite fold_dotdots.
      * rewrite clean_fold_ok; [|rewrite H2 in Hb; now apply ok_comps_app in Hb as [_ Hb]].
        rewrite rev_app_distr, !rev_involutive. now rewrite <- H2.
      * rewrite <- rev_app_distr. rewrite <- H1. now apply ok_comps_rev.
    + destruct rb as [|x rb].
      * simpl in *. destruct rt as [|y rt]; [easy|].
        assert (ok_comp y = true) as Hy.
        { rewrite H2 in Hb. apply ok_comps_app in Hb as [_ Hb]. now inversion Hb. }
        apply ok_comp_inv in Hy as (Hy & _). destruct y; [easy|]. now destruct rt.
      * cbn [dotdots map app]. unfold dotdots.
        destruct (map (fun _ => "..") rb ++ rt) as [|z l]; intros Hz; discriminate Hz.
Qed.

(** ** Containment *)
(** [p] lies in directory [d] or below it, or is [d] itself. *)
Definition within (d p : string) : Prop :=
  exists ds rs, ok_comps ds /\ ok_comps rs /\ d = abs_path ds /\ p = abs_path (ds ++ rs).
Lemma within_refl d : clean_abs d -> within d d.
Proof. intros (cs & H & ->). exists cs, []. rewrite app_nil_r. repeat split; auto. constructor. Qed.
Lemma within_trans a b c : within a b -> within b c -> within a c.
Proof.
  intros (da & ra & H1 & H2 & -> & ->) (db & rb & H3 & H4 & E & ->).
  apply abs_path_inj in E; [|now apply ok_comps_app|assumption]. subst db.
  exists da, (ra ++ rb). rewrite app_assoc. repeat split; auto. apply ok_comps_app; auto.
Qed.
Lemma within_antisym a b : within a b -> within b a -> a = b.
Proof.
  intros (da & ra & H1 & H2 & -> & ->) (db & rb & H3 & H4 & E1 & E2).
  apply abs_path_inj in E1; [|now apply ok_comps_app|assumption]. subst db.
  apply abs_path_inj in E2; [|assumption|rewrite <- app_assoc; repeat (apply ok_comps_app; split; auto)].
  rewrite <- app_assoc in E2. rewrite <- (app_nil_r da) in E2 at 1. apply app_inv_head in E2.
  symmetry in E2. apply app_eq_nil in E2 as [-> _]. now rewrite app_nil_r.
Qed.
Lemma within_prefix d p : within d p -> has_prefix p d = true.
Proof.
  intros (ds & rs & _ & _ & -> & ->). apply has_prefix_spec.
  unfold abs_path. destruct rs as [|r rs]; [rewrite app_nil_r; exists EmptyString; now rewrite sapp_nil_r|].
  destruct ds as [|x ds]; [now exists (join "/" (r :: rs))|].
  exists ("/" +++ join "/" (r :: rs)).
  assert (forall l r rs, l <> [] -> join "/" (l ++ r :: rs) = join "/" l +++ "/" +++ join "/" (r :: rs)) as J.
  { clear. induction l as [|x l IH]; intros r rs Hl; [easy|]. destruct l as [|y l].
    - reflexivity.
    - cbn [app]. rewrite !join_cons2. cbn [app] in IH. rewrite IH by discriminate. now rewrite !sapp_assoc. }
  rewrite J by discriminate. now rewrite sapp_assoc.
Qed.
