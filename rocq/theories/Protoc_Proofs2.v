(** The commands: what they consist of; what compiling does. *)
From Verif Require Import Lint_Model Lint_Spec GoMapFacts Protoc_Model Protoc_Spec Protoc_Proofs GoPathFacts GoStrFacts.
From Coq Require Import Lia.

(** ** Relative paths *)
Lemma ok_not_abs x r : ok_comp x = true -> is_abs (x +++ r) = false.
Proof.
  intros H. apply ok_comp_inv in H as (H1 & _ & _ & H2). destruct x as [|c x]; [contradiction|].
  unfold is_abs. cbn [String.append has_prefix]. cbn in H2. rewrite Ascii.eqb_sym. apply andb_true_iff in H2 as [H2 _].
  apply negb_true_iff in H2. fold slash. now rewrite H2.
Qed.
Lemma join_head sep x r : exists t, join sep (x :: r) = x +++ t.
Proof. destruct r; [exists EmptyString; cbn; now rewrite sapp_nil_r|]. eexists. reflexivity. Qed.
Lemma rel_not_abs x r t : ok_comp x = true -> is_abs (join "/" (x :: r) +++ t) = false.
Proof. intros H. destruct (join_head "/" x r) as (u & ->). rewrite sapp_assoc. now apply ok_not_abs. Qed.
(** The components of a relative path. *)
Lemma rel_fold cs st : ok_comps cs -> fold_left (clean_step false) (split_char slash (rel_path cs)) st = rev cs ++ st.
Proof.
  intros H. destruct cs as [|c cs]; [reflexivity|]. unfold rel_path. rewrite (split_join slash) by (discriminate || now apply ok_comps_no_slash).
  now apply clean_fold_ok.
Qed.
Lemma rel_path_nonempty cs : ok_comps cs -> is_empty (rel_path cs) = false.
Proof.
  intros H. destruct cs as [|c cs]; [reflexivity|]. unfold rel_path. destruct (join_head "/" c cs) as (t & ->).
  inversion H as [|? ? Hc]; subst. apply ok_comp_inv in Hc as (Hc & _). now destruct c.
Qed.
Lemma rel_clean cs : ok_comps cs -> path_clean (rel_path cs) = rel_path cs.
Proof.
  intros H. unfold path_clean, clean_comps. destruct cs as [|c cs]; [reflexivity|].
  assert (is_abs (rel_path (c :: cs)) = false) as ->.
  { rewrite <- (sapp_nil_r (rel_path (c :: cs))). inversion H; subst. now apply rel_not_abs. }
  rewrite rel_fold by auto. rewrite app_nil_r, rev_involutive. reflexivity.
Qed.
Lemma rel_join3 a b c : ok_comps a -> ok_comps b -> ok_comps c -> a <> [] ->
  path_clean (path_join [rel_path a; rel_path b; rel_path c]) = rel_path (a ++ b ++ c).
Proof.
  intros Ha Hb Hc Hn. cbn [path_join]. rewrite rel_path_nonempty by auto.
  assert (E : path_clean (join "/" [rel_path a; rel_path b; rel_path c]) = rel_path (a ++ b ++ c)).
  { unfold path_clean, clean_comps. cbn [join].
    destruct a as [|x a]; [contradiction|].
    assert (is_abs (rel_path (x :: a) +++ "/" +++ rel_path b +++ "/" +++ rel_path c) = false) as ->.
    { inversion Ha; subst. now apply rel_not_abs. }
    change ("/" +++ rel_path b +++ "/" +++ rel_path c) with (String slash (rel_path b +++ String slash (rel_path c))).
    rewrite split_app_slash, fold_left_app, rel_fold by auto. rewrite split_app_slash, fold_left_app, !rel_fold by auto.
    rewrite !rev_app_distr, !rev_involutive. cbn [app rev]. rewrite <- ?app_assoc. reflexivity. }
  rewrite E. apply rel_clean. apply ok_comps_app. split; [auto|]. now apply ok_comps_app.
Qed.
Lemma rel_join2 a b : ok_comps a -> ok_comps b -> path_join [rel_path a; rel_path b] = rel_path (a ++ b).
Proof.
  intros Ha Hb. cbn [path_join]. rewrite rel_path_nonempty by auto.
  unfold path_clean, clean_comps. cbn [join].
  assert (is_abs (rel_path a +++ "/" +++ rel_path b) = false) as ->.
  { destruct a as [|x a]; [reflexivity|]. inversion Ha; subst. now apply rel_not_abs. }
  change ("/" +++ rel_path b) with (String slash (rel_path b)).
  rewrite split_app_slash, fold_left_app, !rel_fold by auto.
  rewrite app_nil_r, !rev_app_distr, !rev_involutive. destruct a, b; reflexivity.
Qed.
(** filepath.Dir of a relative path *)
Lemma rel_dir rs x : ok_comps rs -> ok_comp x = true -> path_dir (join "/" (rs ++ [x])) = rel_path rs.
Proof.
  intros Hr Hx. pose proof (ok_comp_inv x Hx) as (_ & _ & _ & Hs). unfold path_dir. destruct rs as [|r rs].
  - cbn [app join]. assert (upto_last_slash x = EmptyString) as ->; [|reflexivity].
    unfold upto_last_slash. assert (H : forall s, no_char slash s = true -> trim_left (fun c => negb (Ascii.eqb c slash)) s = EmptyString).
    { clear. induction s as [|c s IH]; [reflexivity|]. cbn. intros H. apply andb_true_iff in H as [H1 H2].
      apply negb_true_iff in H1. rewrite H1. cbn. auto. }
    rewrite H by now apply srev_no_char. reflexivity.
  - rewrite join_snoc by discriminate. change ("/" +++ x) with (String slash x). rewrite upto_last_slash_app by auto.
    change (join "/" (r :: rs)) with (rel_path (r :: rs)).
    unfold path_clean, clean_comps. inversion Hr; subst.
    match goal with |- context [is_abs ?p] => assert (is_abs p = false) as -> by now apply rel_not_abs end.
    change "/" with (String slash EmptyString). rewrite split_app_slash, fold_left_app, rel_fold by auto.
    cbn [split_char fold_left]. change (clean_step false ?l EmptyString) with l. rewrite app_nil_r, rev_involutive. reflexivity.
Qed.
Lemma no_slash_last c : no_char slash c = true -> forall a, last_char c = Some a -> Ascii.eqb a slash = false.
Proof.
  induction c as [|x c IH]; [discriminate|]. intros H a Ha. unfold no_char in H; simpl in H. apply andb_true_iff in H as [Hx Hc].
  destruct c as [|y c].
  - vm_compute in Ha. injection Ha as <-. now apply negb_true_iff in Hx.
  - rewrite last_char_cons in Ha. auto.
Qed.
Lemma rel_base rs x : ok_comps rs -> ok_comp x = true -> path_base (join "/" (rs ++ [x])) = x.
Proof.
  intros Hr Hx. apply ok_comp_inv in Hx as (H1 & _ & _ & H4). unfold path_base.
  assert (E : exists t, join "/" (rs ++ [x]) = t +++ x /\ after_last_slash (t +++ x) = x).
  { destruct rs as [|r rs]; [exists EmptyString; split; [reflexivity|now apply after_last_slash_no]|].
    exists (join "/" (r :: rs) +++ "/"). rewrite join_snoc, sapp_assoc by discriminate. split; [reflexivity|]. now apply after_last_slash_app. }
  destruct E as (t & -> & E). assert (is_empty (t +++ x) = false) as -> by (destruct t, x; easy).
  rewrite trim_right_id; [rewrite E; apply is_empty_false in H1; now rewrite H1|].
  intros a Ha. rewrite last_char_app_r in Ha by assumption. exact (no_slash_last x H4 a Ha).
Qed.

(** ** Lists and maps *)
Lemma keep_perm {A} (f : A -> bool) l l' : Permutation l l' -> Permutation (filter f l) (filter f l').
Proof.
  induction 1; cbn; auto; try (destruct (f x); auto; fail).
  - destruct (f x), (f y); auto. constructor.
  - etransitivity; eauto.
Qed.
Lemma concat_perm {A B} (f : A -> list B) l l' : Permutation l l' -> Permutation (concat (map f l)) (concat (map f l')).
Proof. intros H. rewrite <- !flat_map_concat_map. now apply Permutation_flat_map. Qed.
Lemma gput_new {V} (k : string) (v : V) m : ~ In k (map fst m) -> gput k v m = m ++ [(k, v)].
Proof.
  induction m as [|[k' v'] m IH]; [reflexivity|]. cbn [map fst In]. intros H. cbn [gput keqb key_string].
  destruct (String.eqb k k') eqn:E; [apply String.eqb_eq in E; subst; tauto|]. cbn. rewrite IH; auto.
Qed.
Lemma build_distinct {V} (l : list (string * V)) : NoDup (map fst l) -> build l = l.
Proof.
  unfold build. enough (H : forall l m : list (string * V), NoDup (map fst (m ++ l)) -> fold_left (fun m kv => gput (fst kv) (snd kv) m) l m = m ++ l) by (intros; now apply (H l [])).
  clear. induction l as [|[k v] l IH]; cbn [fold_left]; intros m H; [now rewrite app_nil_r|].
  rewrite gput_new.
  - cbn [fst snd]. rewrite IH; rewrite <- app_assoc; auto.
  - cbn [fst]. rewrite map_app in H. apply NoDup_remove in H as [_ H]. intros Hi. apply H, in_or_app. now left.
Qed.

(** ** Flags *)
Section Flags.
  Variable ord : order.
  Variable set : proto_set.
  Hypothesis Hord : reorders ord.
  Lemma flag_set_ok dir p flags : get_plugin_flag_set ord set dir p = Ok flags ->
    exists out path, gp_path p = Ok path /\ flags = plugin_flags p (get_proto_flags ord set dir p) out path /\
      (if is_empty (gp_file_suffix p) then out = gp_output_abs p
       else exists rel, get_rel_output_file_path set dir (gp_file_suffix p) = Ok rel /\ out = path_join [gp_output_abs p; rel]).
  Proof.
    unfold get_plugin_flag_set, plugin_flags. intros H.
    destruct (if is_empty (gp_file_suffix p) then Ok (gp_output_abs p) else _) as [out|] eqn:Eo; [|discriminate]. cbn [bind] in H.
    destruct (gp_path p) as [path|]; [|discriminate]. cbn [bind] in H. injection H as <-. exists out, path. split; [reflexivity|].
    split; [now destruct (is_empty (get_proto_flags ord set dir p))|].
    destruct (is_empty (gp_file_suffix p)); [congruence|].
    destruct (get_rel_output_file_path set dir (gp_file_suffix p)) as [rel|]; [|discriminate]. cbn [bind] in Eo. injection Eo as <-. eauto.
  Qed.
  (** The file that a plugin with a file suffix writes for a directory. *)
  Lemma rel_output_below cs rs x suffix : cfg_dir (ps_config set) = abs_path cs -> ok_comps cs -> ok_comps (rs ++ [x]) -> ok_comp (x +++ "." +++ suffix) = true ->
    get_rel_output_file_path set (abs_path (cs ++ rs ++ [x])) suffix = Ok (join "/" ((rs ++ [x]) ++ [x +++ "." +++ suffix])).
  Proof.
    intros Hd Hc Hr Hs. unfold get_rel_output_file_path. rewrite Hd, path_rel_under; [|auto|auto|now destruct rs].
    pose proof Hr as Hr'. apply ok_comps_app in Hr' as [Hr1 Hr2]. inversion Hr2 as [|? ? Hx _]; subst.
    assert (E : join "/" (rs ++ [x]) = rel_path (rs ++ [x])) by now destruct rs.
    rewrite rel_base by auto.
    assert (String.eqb (join "/" (rs ++ [x])) "." = false) as ->.
    { apply String.eqb_neq. intros Heq. pose proof (rel_base rs x Hr1 Hx) as Hb. rewrite Heq in Hb. cbn in Hb. subst x. discriminate. }
    rewrite E, rel_path_nonempty by auto. cbn [orb]. f_equal.
    change (x +++ "." +++ suffix) with (rel_path [x +++ "." +++ suffix]) at 1.
    rewrite rel_join2; [|auto|now constructor]. now destruct rs.
  Qed.
  Lemma rel_output_root cs x suffix : cfg_dir (ps_config set) = abs_path (cs ++ [x]) -> ok_comps (cs ++ [x]) -> ok_comp (x +++ "." +++ suffix) = true ->
    get_rel_output_file_path set (abs_path (cs ++ [x])) suffix = Ok (x +++ "." +++ suffix).
  Proof.
    intros Hd Hc Hs. unfold get_rel_output_file_path. rewrite Hd, path_rel_abs by auto.
    destruct (list_eq_dec string_dec (cs ++ [x]) (cs ++ [x])); [|contradiction].
    change (is_empty "." || String.eqb "." ".") with true. cbv iota.
    apply ok_comps_app in Hc as [Hc1 Hc2]. inversion Hc2 as [|? ? Hx _]; subst.
    assert (String.eqb (abs_path (cs ++ [x])) "/" = false) as ->.
    { apply String.eqb_neq. intros E. pose proof (path_base_abs cs x Hc1 Hx) as Hb. rewrite E in Hb. cbn in Hb. subst x. discriminate. }
    rewrite path_base_abs by auto. f_equal.
    change (path_join [rel_path []; rel_path [x +++ "." +++ suffix]] = rel_path [x +++ "." +++ suffix]).
    rewrite rel_join2; [reflexivity|constructor|now constructor].
  Qed.
  Lemma rel_output_top suffix : cfg_dir (ps_config set) = abs_path [] -> ok_comp ("default" +++ "." +++ suffix) = true ->
    get_rel_output_file_path set (abs_path []) suffix = Ok ("default" +++ "." +++ suffix).
  Proof.
    intros Hd Hs. unfold get_rel_output_file_path. rewrite Hd, path_rel_abs by constructor.
    destruct (list_eq_dec string_dec (@nil string) []) as [_|Ne]; [|contradiction].
    change (is_empty "." || String.eqb "." ".") with true. cbv iota. f_equal.
    change (path_join [rel_path []; rel_path ["default" +++ "." +++ suffix]] = rel_path ["default" +++ "." +++ suffix]).
    rewrite rel_join2; [reflexivity|constructor|now constructor].
  Qed.
End Flags.
