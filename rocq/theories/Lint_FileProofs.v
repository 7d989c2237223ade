(** Rules about whole files: file options, the package, the syntax, the header and the name. *)
From Verif Require Import GoStrFacts GoMapFacts Strs_Proofs Protostrs_Proofs.
From Verif Require Export Lint_RuleProofs.

(** ** Picking some of the elements *)
Section Pick.
  Context {A : Type} (f : element -> list A).
  Hypothesis single : forall e, f e = [] \/ exists x, f e = [x].

  Lemma pick_none l : flat_map f l = [] <-> forall e, In e l -> f e = [].
  Proof.
    induction l as [|e l IH]; simpl.
    - split; [intros _ e []|reflexivity].
    - split.
      + intros H. apply app_eq_nil in H as [H1 H2]. intros e' [<-|He]; [assumption|]. now apply IH.
      + intros H. rewrite (H e (or_introl eq_refl)). apply IH. intros e' He. apply H. now right.
  Qed.
  Lemma pick_first l x r : flat_map f l = x :: r <->
    exists a e b, l = a ++ e :: b /\ (forall e', In e' a -> f e' = []) /\ f e = [x] /\ flat_map f b = r.
  Proof.
    split.
    - induction l as [|e l IH]; [discriminate|]. simpl. destruct (single e) as [E|(y & E)]; rewrite E; simpl.
      + intros H. apply IH in H as (a & e' & b & -> & Ha & He & Hb). exists (e :: a), e', b.
        repeat split; auto. intros e'' [<-|H]; auto.
      + intros H. injection H as -> <-. exists [], e, l. repeat split; auto. intros e' [].
    - intros (a & e & b & -> & Ha & He & Hb). rewrite flat_map_app. apply pick_none in Ha. rewrite Ha.
      simpl. rewrite He, Hb. reflexivity.
  Qed.
  Lemma last_opt_app (l : list A) x : last_opt (l ++ [x]) = Some x.
  Proof. induction l as [|y l IH]; [reflexivity|]. simpl. destruct (l ++ [x]) eqn:E; [|assumption]. now destruct l. Qed.
  Lemma last_opt_none (l : list A) : last_opt l = None <-> l = [].
  Proof. split; [|now intros ->]. induction l as [|x l IH]; [reflexivity|]. simpl. destruct l; [discriminate|]. intros H. now apply IH in H. Qed.
  Lemma pick_last l x : last_opt (flat_map f l) = Some x <->
    exists a e b, l = a ++ e :: b /\ f e = [x] /\ forall e', In e' b -> f e' = [].
  Proof.
    split.
    - induction l as [|e l IH]; [discriminate|]. simpl. intros H.
      destruct (flat_map f l) as [|y r] eqn:El.
      + rewrite app_nil_r in H. destruct (single e) as [E|(y & E)]; rewrite E in H; [discriminate|].
        simpl in H. injection H as ->. exists [], e, l. repeat split; auto. now apply pick_none.
      + assert (H' : last_opt (y :: r) = Some x).
        { destruct (single e) as [E|(z & E)]; rewrite E in H; exact H. }
        apply IH in H' as (a & e' & b & -> & He & Hb). exists (e :: a), e', b. auto.
    - intros (a & e & b & -> & He & Hb). rewrite flat_map_app. simpl. apply pick_none in Hb.
      rewrite He, Hb, app_nil_r. apply last_opt_app.
  Qed.
  Lemma pick_In l x : In x (flat_map f l) <-> exists a e b, l = a ++ e :: b /\ f e = [x].
  Proof.
    rewrite in_flat_map. split.
    - intros (e & He & Hx). apply in_split in He as (a & b & ->). exists a, e, b. split; [reflexivity|].
      destruct (single e) as [E|(y & E)]; rewrite E in *; [contradiction|]. destruct Hx as [->|[]]. reflexivity.
    - intros (a & e & b & -> & E). exists e. rewrite E. split; [apply in_elt|now left].
  Qed.
  Lemma pick_tl l x : In x (tl (flat_map f l)) <->
    exists a e b e' c, l = a ++ e :: b ++ e' :: c /\ f e <> [] /\ f e' = [x].
  Proof.
    split.
    - destruct (flat_map f l) as [|y r] eqn:E; [intros []|]. simpl. intros H.
      apply pick_first in E as (a & e & b & -> & Ha & He & <-).
      apply pick_In in H as (b1 & e' & b2 & -> & He'). exists a, e, b1, e', b2.
      repeat split; auto. rewrite He. discriminate.
    - intros (a & e & b & e' & c & -> & He & He'). rewrite flat_map_app. simpl. rewrite flat_map_app. simpl. rewrite He'.
      destruct (single e) as [E|(y & E)]; rewrite E in *; [congruence|].
      assert (G : forall p (s : list A), In x s -> In x (tl (p ++ [y] ++ s))).
      { intros p s Hs. destruct p as [|z p]; simpl; [assumption|]. apply in_or_app. right. now right. }
      apply G. apply in_or_app. right. now left.
  Qed.
End Pick.

(** ** Packages, syntaxes, file options, services *)
Definition pick_package e := match e with EPackage p => [p] | _ => [] end.
Definition pick_syntax e := match e with ESyntax s => [s] | _ => [] end.
Definition pick_option name e := match e with EOption o => if String.eqb (o_name o) name then [o] else [] | _ => [] end.
Definition pick_service e := match e with EService h _ => [h] | _ => [] end.
Lemma single_package e : pick_package e = [] \/ exists x, pick_package e = [x].
Proof. destruct e; simpl; eauto. Qed.
Lemma single_syntax e : pick_syntax e = [] \/ exists x, pick_syntax e = [x].
Proof. destruct e; simpl; eauto. Qed.
Lemma single_option name e : pick_option name e = [] \/ exists x, pick_option name e = [x].
Proof. destruct e; simpl; eauto. destruct (String.eqb (o_name o) name); eauto. Qed.
Lemma single_service e : pick_service e = [] \/ exists x, pick_service e = [x].
Proof. destruct e; simpl; eauto. Qed.
Lemma pick_package_iff e p : pick_package e = [p] <-> e = EPackage p.
Proof. destruct e; simpl; split; intros H; try discriminate; congruence. Qed.
Lemma pick_package_nil e : pick_package e = [] <-> forall p, e <> EPackage p.
Proof. destruct e; simpl; split; intros H; try congruence. exfalso. now apply (H p). Qed.
Lemma pick_syntax_iff e p : pick_syntax e = [p] <-> e = ESyntax p.
Proof. destruct e; simpl; split; intros H; try discriminate; congruence. Qed.
Lemma pick_syntax_nil e : pick_syntax e = [] <-> forall p, e <> ESyntax p.
Proof. destruct e; simpl; split; intros H; try congruence. exfalso. now apply (H s). Qed.
Lemma pick_option_iff name e o : pick_option name e = [o] <-> e = EOption o /\ o_name o = name.
Proof.
  destruct e; simpl; try (split; [discriminate|intros [? _]; discriminate]).
  destruct (String.eqb (o_name o0) name) eqn:E.
  - apply String.eqb_eq in E. split; [intros H; injection H as ->; auto|intros [H _]; congruence].
  - apply seqb_neq in E. split; [discriminate|]. intros [H ?]. congruence.
Qed.
Lemma pick_option_nil name e : pick_option name e = [] <-> forall o, e = EOption o -> o_name o <> name.
Proof.
  destruct e; simpl; try (split; [discriminate|reflexivity]); try (split; [intros _ ? ?; discriminate|reflexivity]).
  destruct (String.eqb (o_name o) name) eqn:E.
  - apply String.eqb_eq in E. split; [discriminate|]. intros H. exfalso. now apply (H o).
  - apply seqb_neq in E. split; [|reflexivity]. intros _ o' H. injection H as <-. assumption.
Qed.
Lemma pick_service_iff e h : pick_service e = [h] <-> exists es, e = EService h es.
Proof.
  destruct e; simpl; try (split; [discriminate|intros [? ?]; discriminate]).
  split; [intros H; injection H as ->; eauto|intros [es' H]; congruence].
Qed.

Lemma packages_first d p r : packages d = p :: r -> first_package d p.
Proof.
  intros H. apply (pick_first pick_package single_package) in H as (a & e & b & E & Ha & He & _).
  apply pick_package_iff in He as ->. exists a, b. split; [assumption|].
  intros p' Hp. specialize (Ha _ Hp). discriminate.
Qed.
Lemma first_packages d p : first_package d p -> exists r, packages d = p :: r.
Proof.
  intros (a & b & E & Ha). exists (flat_map pick_package b). apply (pick_first pick_package single_package).
  exists a, (EPackage p), b. repeat split; auto. intros e' He. apply pick_package_nil. intros q ->. now apply (Ha q).
Qed.
Lemma packages_nil d : packages d = [] <-> no_package d.
Proof.
  unfold packages, no_package. rewrite (pick_none pick_package). split.
  - intros H p Hp. specialize (H _ Hp). discriminate.
  - intros H e He. apply pick_package_nil. intros p ->. now apply (H p).
Qed.
Lemma packages_tl d p : (exists k, In k (tl (packages d)) /\ p = pk_pos k) <-> extra_package d p.
Proof.
  split.
  - intros (k & Hk & ->). apply (pick_tl pick_package single_package) in Hk as (a & e & b & e' & c & E & He & He').
    apply pick_package_iff in He' as ->. destruct e; try (simpl in He; congruence). exists a, b, c, p, k. auto.
  - intros (a & b & c & k & k' & E & ->). exists k'. split; [|reflexivity].
    apply (pick_tl pick_package single_package). exists a, (EPackage k), b, (EPackage k'), c. repeat split; auto. discriminate.
Qed.
Lemma packages_last d p : last_opt (packages d) = Some p <-> last_package d p.
Proof.
  unfold packages, last_package. rewrite (pick_last pick_package single_package). split.
  - intros (a & e & b & E & He & Hb). apply pick_package_iff in He as ->. exists a, b. split; [assumption|].
    intros p' Hp. specialize (Hb _ Hp). discriminate.
  - intros (a & b & E & Hb). exists a, (EPackage p), b. repeat split; auto.
    intros e' He. apply pick_package_nil. intros q ->. now apply (Hb q).
Qed.
Lemma syntaxes_first d p r : syntaxes d = p :: r -> first_syntax d p.
Proof.
  intros H. apply (pick_first pick_syntax single_syntax) in H as (a & e & b & E & Ha & He & _).
  apply pick_syntax_iff in He as ->. exists a, b. split; [assumption|].
  intros p' Hp. specialize (Ha _ Hp). discriminate.
Qed.
Lemma first_syntaxes d p : first_syntax d p -> exists r, syntaxes d = p :: r.
Proof.
  intros (a & b & E & Ha). exists (flat_map pick_syntax b). apply (pick_first pick_syntax single_syntax).
  exists a, (ESyntax p), b. repeat split; auto. intros e' He. apply pick_syntax_nil. intros q ->. now apply (Ha q).
Qed.
Lemma syntaxes_nil d : syntaxes d = [] <-> no_syntax d.
Proof.
  unfold syntaxes, no_syntax. rewrite (pick_none pick_syntax). split.
  - intros H p Hp. specialize (H _ Hp). discriminate.
  - intros H e He. apply pick_syntax_nil. intros p ->. now apply (H p).
Qed.
Lemma syntaxes_tl d p : (exists k, In k (tl (syntaxes d)) /\ p = sx_pos k) <-> extra_syntax d p.
Proof.
  split.
  - intros (k & Hk & ->). apply (pick_tl pick_syntax single_syntax) in Hk as (a & e & b & e' & c & E & He & He').
    apply pick_syntax_iff in He' as ->. destruct e; try (simpl in He; congruence). exists a, b, c, s, k. auto.
  - intros (a & b & c & k & k' & E & ->). exists k'. split; [|reflexivity].
    apply (pick_tl pick_syntax single_syntax). exists a, (ESyntax k), b, (ESyntax k'), c. repeat split; auto. discriminate.
Qed.
Lemma options_last name d o : last_opt (file_options name d) = Some o <-> last_option d name o.
Proof.
  unfold file_options, last_option. rewrite (pick_last (pick_option name) (single_option name)). split.
  - intros (a & e & b & E & He & Hb). apply pick_option_iff in He as [-> Hn]. exists a, b. repeat split; auto.
    intros o' Ho Hn'. specialize (Hb _ Ho). eapply pick_option_nil in Hb; [|reflexivity]. congruence.
  - intros (a & b & E & Hn & Hb). exists a, (EOption o), b. split; [assumption|]. split; [now apply pick_option_iff|].
    intros e' He. apply pick_option_nil. intros o' ->. now apply Hb.
Qed.
Lemma options_nil name d : file_options name d = [] <-> ~ sets_option d name.
Proof.
  unfold file_options, sets_option. rewrite (pick_none (pick_option name)). split.
  - intros H (o & Ho & Hn). specialize (H _ Ho). eapply pick_option_nil in H; [|reflexivity]. congruence.
  - intros H e He. apply pick_option_nil. intros o -> Hn. apply H. eauto.
Qed.
Lemma last_package_eq d p q : last_package d p -> last_package d q -> p = q.
Proof. rewrite <- !packages_last. congruence. Qed.
Lemma last_option_eq d name p q : last_option d name p -> last_option d name q -> p = q.
Proof. rewrite <- !options_last. congruence. Qed.
Lemma first_package_eq d p q : first_package d p -> first_package d q -> p = q.
Proof. intros H1 H2. apply first_packages in H1 as [r1 E1]. apply first_packages in H2 as [r2 E2]. congruence. Qed.
Lemma first_syntax_eq d p q : first_syntax d p -> first_syntax d q -> p = q.
Proof. intros H1 H2. apply first_syntaxes in H1 as [r1 E1]. apply first_syntaxes in H2 as [r2 E2]. congruence. Qed.

Definition reported (d : descriptor) (rs : list raw) (V : position -> Prop) : Prop :=
  forall l file p, (exists r, In r rs /\ is_suppressed l (raw_set r) (raw_comment r) = false /\ at_place (raw_failure r) file p)
                 <-> d_filename d = file /\ V p.
Lemma reported_one d q m : reported d [add_failure d q m] (fun p => p = q).
Proof.
  intros l file p. split.
  - intros (r & [<-|[]] & _ & H). now apply at_place_failure in H.
  - intros H. eexists. split; [now left|]. split; [reflexivity|]. now apply at_place_failure.
Qed.
Lemma reported_nil d : reported d [] (fun _ => False).
Proof. intros l file p. split; [intros (r & [] & _)|intros [_ []]]. Qed.
Lemma reported_app d a b V W : reported d a V -> reported d b W -> reported d (a ++ b) (fun p => V p \/ W p).
Proof.
  intros H1 H2 l file p. split.
  - intros (r & Hr & H). apply in_app_iff in Hr as [Hr|Hr].
    + destruct (proj1 (H1 l file p)) as [E Hv]; [eauto|]. auto.
    + destruct (proj1 (H2 l file p)) as [E Hv]; [eauto|]. auto.
  - intros [E [Hv|Hv]].
    + destruct (proj2 (H1 l file p) (conj E Hv)) as (r & Hr & H). exists r. rewrite in_app_iff. auto.
    + destruct (proj2 (H2 l file p) (conj E Hv)) as (r & Hr & H). exists r. rewrite in_app_iff. auto.
Qed.
Lemma reported_iff d rs V W : (forall p, V p <-> W p) -> reported d rs V -> reported d rs W.
Proof. intros H H1 l file p. rewrite (H1 l file p), H. reflexivity. Qed.
Lemma reported_map {A} d (l : list A) pos msg : reported d (map (fun x => add_failure d (pos x) (msg x)) l)
  (fun p => exists x, In x l /\ p = pos x).
Proof.
  intros ln file p. split.
  - intros (r & Hr & _ & H). apply in_map_iff in Hr as (x & <- & Hx). apply at_place_failure in H as [E ->]. eauto.
  - intros [E (x & Hx & ->)]. eexists. split; [apply in_map, Hx|]. split; [reflexivity|]. now apply at_place_failure.
Qed.
Lemma reported_flat_map {A} d (l : list A) (f : A -> list raw) (V : A -> position -> Prop) :
  (forall x, In x l -> reported d (f x) (V x)) ->
  reported d (flat_map f l) (fun p => exists x, In x l /\ V x p).
Proof.
  intros H. induction l as [|x l IH]; simpl.
  - eapply reported_iff; [|apply reported_nil]. intros p. split; [intros []|intros (x & [] & _)].
  - eapply reported_iff; [|apply reported_app; [apply H; now left|apply IH; intros; apply H; now right]].
    intros p. simpl. split.
    + intros [Hv|(y & Hy & Hv)]; eauto.
    + intros (y & [<-|Hy] & Hv); eauto.
Qed.
Lemma reported_if d (b : bool) q m : reported d (if_ b [add_failure d q m]) (fun p => b = true /\ p = q).
Proof.
  destruct b; simpl.
  - eapply reported_iff; [|apply reported_one]. tauto.
  - eapply reported_iff; [|apply reported_nil]. intros p. split; [intros []|intros [? _]; discriminate].
Qed.
Lemma reported_if_not d (b : bool) q m : reported d (if_not b [add_failure d q m]) (fun p => b = false /\ p = q).
Proof.
  destruct b; simpl.
  - eapply reported_iff; [|apply reported_nil]. intros p. split; [intros []|intros [? _]; discriminate].
  - eapply reported_iff; [|apply reported_one]. tauto.
Qed.
Lemma not_bool b (P : Prop) : (b = true <-> P) -> (b = false <-> ~ P).
Proof. intros H. destruct b; intuition congruence. Qed.

(** ** File names *)
Lemma path_base_slash p : path_base p = "/" \/ no_char slash (path_base p) = true.
Proof.
  unfold path_base. destruct (is_empty p); [now right|].
  match goal with |- context [after_last_slash ?x] => set (s := x) end.
  destruct (is_empty (after_last_slash s)); [now left|]. right. unfold after_last_slash.
  pose proof (split_char_parts slash s) as H. pose proof (split_char_nonnil slash s) as Hn.
  rewrite Forall_forall in H. apply H.
  destruct (@exists_last _ (split_char slash s)) as (l & x & ->); [assumption|]. rewrite last_last. apply in_or_app. right. now left.
Qed.
Lemma sexists_no_char c s : sexists (fun x => Ascii.eqb x c) s = false <-> no_char c s = true.
Proof.
  unfold no_char. induction s as [|a s IH]; simpl; [tauto|].
  rewrite orb_false_iff, andb_true_iff, negb_true_iff, IH. tauto.
Qed.
Lemma snake_no c s : snake_shape is_lower s -> is_lower c || is_digit c || is_underscore c = false -> no_char c s = true.
Proof.
  intros H Hc. apply is_lower_snake_shape in H. unfold is_lower_snake_case in H. apply andb_true_iff in H as [_ H].
  unfold no_char. revert H. apply sforall_impl. intros x Hx. apply negb_true_iff.
  destruct (Ascii.eqb x c) eqn:E; [|reflexivity]. apply Ascii.eqb_eq in E. subst. congruence.
Qed.
Lemma last_part s : no_char dot s = false -> exists a x, s = a +++ String dot x /\ no_char dot x = true
  /\ last (split_char dot s) EmptyString = x.
Proof.
  intros H. pose proof (join_split dot s) as J. pose proof (split_char_parts dot s) as P.
  destruct (@exists_last _ (split_char dot s)) as (l & x & E); [apply split_char_nonnil|].
  rewrite E in *. apply Forall_app in P as [_ P]. apply Forall_inv in P as Hx.
  destruct l as [|y l].
  - simpl in E. assert (s = x) as -> by (symmetry; exact J). congruence.
  - rewrite join_snoc in J by discriminate. exists (join (String dot EmptyString) (y :: l)), x.
    split; [symmetry; exact J|]. split; [assumption|]. now rewrite last_last.
Qed.
Lemma last_split a x : no_char dot x = true -> last (split_char dot (a +++ String dot x)) EmptyString = x.
Proof.
  intros Hx. revert a. assert (G : forall n a, String.length a <= n -> last (split_char dot (a +++ String dot x)) EmptyString = x).
  { induction n as [|n IH]; intros a Hn.
    - destruct a; [|simpl in Hn; lia].
      rewrite (split_char_app dot EmptyString x eq_refl), split_char_no by assumption. reflexivity.
    - destruct a as [|c a]; [apply IH; simpl; lia|]. simpl in Hn. change (String c a +++ String dot x) with (String c (a +++ String dot x)).
      cbn [split_char]. destruct (Ascii.eqb c dot).
      + destruct (split_char dot (a +++ String dot x)) as [|s l] eqn:E; [now apply split_char_nonnil in E|].
        change (last (EmptyString :: s :: l) EmptyString) with (last (s :: l) EmptyString). rewrite <- E. apply IH. lia.
      + specialize (IH a ltac:(lia)). destruct (split_char dot (a +++ String dot x)) as [|h t] eqn:E; [now apply split_char_nonnil in E|].
        destruct t as [|h' t]; [|exact IH].
        exfalso. pose proof (join_split dot (a +++ String dot x)) as J. rewrite E in J. simpl in J.
        pose proof (split_char_parts dot (a +++ String dot x)) as P. rewrite E in P. apply Forall_inv in P as Hh.
        rewrite J, no_char_app in Hh. apply andb_true_iff in Hh as [_ Hh]. discriminate. }
  intros a. now apply (G (String.length a)).
Qed.
Lemma file_stem b : b = "/" \/ no_char slash b = true ->
  (is_lower_snake_case (trim_suffix b (path_ext b)) = true <->
   exists stem ext, b = stem +++ ext /\ snake_shape is_lower stem /\ (ext = EmptyString \/ exists x, ext = "." +++ x /\ lacks "." x)).
Proof.
  intros Hb. rewrite is_lower_snake_shape. destruct Hb as [->|Hb].
  - split.
    + intros H. exfalso. apply is_lower_snake_shape in H. discriminate.
    + intros (stem & ext & E & H & _). exfalso. destruct stem as [|c stem]; [now destruct H|].
      simpl in E. injection E as <- _. pose proof (snake_no slash _ H eq_refl) as N. discriminate.
  - unfold path_ext. rewrite after_last_slash_no by assumption.
    destruct (sexists (fun c => Ascii.eqb c dot) b) eqn:Ed.
    + assert (Hd : no_char dot b = false).
      { destruct (no_char dot b) eqn:E; [|reflexivity]. apply sexists_no_char in E. congruence. }
      destruct (last_part b Hd) as (a & x & -> & Hx & Hl). rewrite Hl.
      change ("." +++ x) with (String dot x). rewrite trim_suffix_app. split.
      * intros H. exists a, (String dot x). split; [reflexivity|]. split; [assumption|]. right. exists x.
        split; [reflexivity|]. now apply lacks_no_char.
      * intros (stem & ext & E & H & He). destruct He as [->|(y & -> & Hy)].
        -- rewrite sapp_nil_r in E. subst stem. pose proof (snake_no dot _ H eq_refl) as N. congruence.
        -- apply lacks_no_char in Hy. change ("." +++ y) with (String dot y) in E.
           assert (x = y) as <-.
           { rewrite <- (last_split a x Hx), <- (last_split stem y Hy). now rewrite E. }
           rewrite <- (trim_suffix_app a (String dot x)), E, trim_suffix_app. assumption.
    + apply sexists_no_char in Ed. replace (trim_suffix b EmptyString) with b by (rewrite <- (sapp_nil_r b) at 2; now rewrite trim_suffix_app). split.
      * intros H. exists b, EmptyString. rewrite sapp_nil_r. auto.
      * intros (stem & ext & E & H & He). destruct He as [->|(y & -> & Hy)].
        -- rewrite sapp_nil_r in E. now subst stem.
        -- exfalso. subst b. rewrite no_char_app in Ed. apply andb_true_iff in Ed as [_ Ed]. discriminate.
Qed.

Section FileTables.
  Variables (ord : order) (sing : string -> string).

  Lemma file_rule l id (assume : descriptor -> Prop) (check : descriptor -> list raw) (V : descriptor -> position -> Prop) :
    In l (all_linters ord sing) -> ln_id l = id ->
    (forall ds, ln_check l ds = per_file_ok check ds) ->
    (forall d, well_formed (d_elements d) -> assume d -> reported d (check d) (V d)) ->
    Files_reported_exactly ord sing assume id V.
  Proof. intros Hl Hid Hck HV. apply (file_ok_core ord sing l id assume check); auto. intros d HWF Ha file p. now apply HV. Qed.

  Lemma require_exact name d : reported d
    match file_options name d with
    | [] => [add_failure d no_pos ("File option " +++ q name +++ " is required.")]
    | _ => []
    end (lacks_option name d).
  Proof.
    unfold lacks_option. destruct (file_options name d) eqn:E.
    - apply options_nil in E. eapply reported_iff; [|apply reported_one]. intros p. unfold no_pos. tauto.
    - eapply reported_iff; [|apply reported_nil]. intros p. split; [intros []|].
      intros [H _]. apply options_nil in H. congruence.
  Qed.
  Lemma unset_exact name d : reported d
    match last_opt (file_options name d) with
    | Some o => [add_failure d (o_pos o) ("File option " +++ q name +++ " should not be set.")]
    | None => []
    end (option_is_set name d).
  Proof.
    unfold option_is_set. destruct (last_opt (file_options name d)) as [o|] eqn:E.
    - apply options_last in E. eapply reported_iff; [|apply reported_one]. intros p. split; [eauto|].
      intros (o' & Ho & ->). now rewrite (last_option_eq _ _ _ _ E Ho).
    - eapply reported_iff; [|apply reported_nil]. intros p. split; [intros []|].
      intros (o & Ho & _). apply options_last in Ho. congruence.
  Qed.
  Ltac required n := eapply file_rule; [linter n|reflexivity|intros ds; reflexivity|intros d _ _; apply require_exact].
  Ltac unset n := eapply file_rule; [linter n|reflexivity|intros ds; reflexivity|intros d _ _; apply unset_exact].
  Theorem require_rules_exact id V : In (id, V) require_rules -> Files_reported_exactly ord sing anything id V.
  Proof.
    intros H. unfold require_rules in H.
    repeat (destruct H as [E|H]; [injection E as <- <-|]); [..|contradiction].
    1: required 34. 1: required 35. 1: required 36. 1: required 37. 1: required 38. 1: required 39. 1: required 40. 1: required 41.
    1: unset 42. 1: unset 43.
    eapply file_rule; [linter 28|reflexivity|intros ds; reflexivity|]. intros d _ _. cbv beta.
    destruct (last_opt (file_options "go_package" d)) as [o|] eqn:E.
    - apply options_last in E. eapply reported_iff; [|apply reported_if]. intros p. split.
      + intros [H ->]. exists o. apply has_substring_iff in H. auto.
      + intros (o' & Ho & H1 & ->). apply has_substring_iff in H1. now rewrite (last_option_eq _ _ _ _ E Ho).
    - eapply reported_iff; [|apply reported_nil]. intros p. split; [intros []|].
      intros (o & Ho & _). apply options_last in Ho. congruence.
  Qed.

  Lemma equal_exact l id name (expected : descriptor -> string -> string) :
    In l (all_linters ord sing) -> ln_id l = id ->
    ln_check l = check_file_options_equal name (fun d p => expected d (pk_name p)) ->
    Files_reported_exactly ord sing named id (option_differs name expected).
  Proof.
    intros Hl Hid Hck. eapply (file_core ord sing l id); [assumption|assumption|intros ds; rewrite Hck; reflexivity|].
    intros d _ Ha. cbv beta. unfold option_differs.
    destruct (last_opt (packages d)) as [k|] eqn:Ek.
    2:{ exists []. split; [reflexivity|]. intros file p. rewrite (reported_nil d l file p). split; [intros [_ []]|].
        intros (_ & o & k & _ & Hk & _). apply packages_last in Hk. congruence. }
    destruct (last_opt (file_options name d)) as [o|] eqn:Eo.
    2:{ exists []. split; [reflexivity|]. intros file p. rewrite (reported_nil d l file p). split; [intros [_ []]|].
        intros (_ & o & k' & Ho & _). apply options_last in Ho. congruence. }
    apply is_empty_false in Ha. rewrite Ha. eexists. split; [reflexivity|]. intros file p.
    rewrite (reported_if_not _ _ _ _ l file p). apply packages_last in Ek. apply options_last in Eo.
    rewrite seqb_neq. split.
    - intros (Ef & Hn & ->). split; [assumption|]. exists o, k. auto.
    - intros (Ef & o' & k' & Ho & Hk & Hn & ->). split; [assumption|].
      rewrite <- (last_option_eq _ _ _ _ Eo Ho) in *. rewrite <- (last_package_eq _ _ _ Ek Hk) in *. auto.
  Qed.
  Ltac equal n := eapply equal_exact; [linter n|reflexivity|reflexivity].
  Theorem equal_rules_exact id V : In (id, V) equal_rules -> Files_reported_exactly ord sing named id V.
  Proof.
    intros H. unfold equal_rules in H.
    repeat (destruct H as [E|H]; [injection E as <- <-|]); [..|contradiction].
    1: equal 19. 1: equal 21. 1: equal 20. 1: equal 22. 1: equal 23. 1: equal 24. 1: equal 25. 1: equal 26. equal 27.
  Qed.

  Lemma duplicate_packages_exact d : reported d (duplicate_packages d) (extra_package d).
  Proof.
    eapply reported_iff; [|apply reported_map]. intros p. apply packages_tl.
  Qed.
  Lemma package_rule_exact (good : string -> bool) (bad : string -> Prop) msg d :
    (forall n, good n = false <-> bad n) ->
    reported d (duplicate_packages d ++
      match packages d with p :: _ => if_not (good (pk_name p)) [add_failure d (pk_pos p) (msg p)] | [] => [] end)
      (package_breaks bad d).
  Proof.
    intros Hg. apply reported_app; [apply duplicate_packages_exact|].
    destruct (packages d) as [|k r] eqn:E.
    - eapply reported_iff; [|apply reported_nil]. intros p. split; [intros []|].
      intros (k & Hk & _). apply first_packages in Hk as [r Hr]. congruence.
    - apply packages_first in E. eapply reported_iff; [|apply reported_if_not]. intros p. split; [intros [H ->]; apply Hg in H; eauto|].
      intros (k' & Hk & Hb & ->). apply Hg in Hb. now rewrite (first_package_eq _ _ _ E Hk).
  Qed.
  Lemma replace_dots n : replace_char "." "" n = join EmptyString (split_char "." n).
  Proof.
    rewrite <- (join_split "." n) at 1. apply replace_join; [apply split_char_nonnil|apply split_char_parts].
  Qed.
  Lemma lower_case_iff n : is_package_lower_case n = true <-> all_chars (fun c => is_lower c = true \/ is_digit c = true \/ c = "."%char) n.
  Proof.
    apply all_chars_sforall. intros c. rewrite !orb_true_iff, Ascii.eqb_eq. tauto.
  Qed.
  Lemma versioned_iff n : major_beta_version n = None <-> ~ versioned n.
  Proof.
    destruct (major_beta_version n) as [[major beta]|] eqn:E.
    - apply major_beta_version_spec in E as (base & part & H1 & H2). split; [discriminate|]. intros H. exfalso. apply H.
      exists base, part, major, beta. auto.
    - split; [|reflexivity]. intros _ (base & part & major & beta & H1 & H2).
      assert (A : major_beta_version n = Some (major, beta)) by (apply major_beta_version_spec; eauto). congruence.
  Qed.
  Theorem file_rules_exact id V : In (id, V) file_rules -> Files_reported_exactly ord sing anything id V.
  Proof.
    intros H. unfold file_rules in H.
    repeat (destruct H as [E|H]; [injection E as <- <-|]); [..|contradiction].
    - eapply file_rule; [linter 68|reflexivity|intros ds; reflexivity|]. intros d _ _. cbv beta.
      apply reported_app; [apply duplicate_packages_exact|]. destruct (packages d) eqn:E.
      + apply packages_nil in E. eapply reported_iff; [|apply reported_one]. intros p. unfold no_pos. tauto.
      + eapply reported_iff; [|apply reported_nil]. intros q. split; [intros []|]. intros [H _]. apply packages_nil in H. congruence.
    - eapply file_rule; [linter 69|reflexivity|intros ds; reflexivity|]. intros d _ _.
      apply (package_rule_exact is_package_lower_case). intros n. apply not_bool, lower_case_iff.
    - eapply file_rule; [linter 70|reflexivity|intros ds; reflexivity|]. intros d _ _.
      apply (package_rule_exact (fun n => is_lower_snake_case (replace_char "." "" n))).
      intros n. rewrite replace_dots. apply not_bool, is_lower_snake_shape.
    - eapply file_rule; [linter 71|reflexivity|intros ds; reflexivity|]. intros d _ _. cbv beta.
      eapply reported_iff; [|apply reported_app; [apply duplicate_packages_exact|]].
      2:{ instantiate (1 := fun p => (exists k, first_package d k /\ ~ versioned (pk_name k) /\ p = pk_pos k) \/ no_package d /\ p = mk_pos 0 0).
          destruct (packages d) as [|k r] eqn:E.
          - apply packages_nil in E. eapply reported_iff; [|apply reported_one]. intros p. unfold no_pos. split; [auto|].
            intros [(k & Hk & _)|[_ ->]]; [|reflexivity]. apply first_packages in Hk as [r Hr]. apply packages_nil in E. congruence.
          - assert (N : ~ no_package d) by (intros N; apply packages_nil in N; congruence).
            apply packages_first in E. destruct (major_beta_version (pk_name k)) eqn:Ev.
            + eapply reported_iff; [|apply reported_nil]. intros p'. split; [intros []|].
              intros [(k' & Hk & Hv & _)|[Hn _]]; [|contradiction]. rewrite <- (first_package_eq _ _ _ E Hk) in Hv.
              apply versioned_iff in Hv. congruence.
            + apply versioned_iff in Ev. eapply reported_iff; [|apply reported_one]. intros p'. split; [eauto|].
              intros [(k' & Hk & Hv & ->)|[Hn _]]; [|contradiction]. now rewrite (first_package_eq _ _ _ E Hk). }
      intros p. unfold package_breaks. tauto.
    - eapply file_rule; [linter 92|reflexivity|intros ds; reflexivity|]. intros d _ _. cbv beta.
      apply reported_app; [eapply reported_iff; [|apply reported_map]; intros p; apply syntaxes_tl|].
      destruct (syntaxes d) as [|s r] eqn:E.
      + apply syntaxes_nil in E. eapply reported_iff; [|apply reported_one]. intros p. unfold no_pos. split; [auto|].
        intros [[_ ->]|(s & Hs & _)]; [reflexivity|]. apply first_syntaxes in Hs as [r Hr]. apply syntaxes_nil in E. congruence.
      + assert (N : ~ no_syntax d) by (intros N; apply syntaxes_nil in N; congruence).
        apply syntaxes_first in E. eapply reported_iff; [|apply reported_if_not]. intros p. cbv beta. rewrite seqb_neq. split; [eauto|].
        intros [[Hn _]|(s' & Hs & Hv & ->)]; [contradiction|]. now rewrite (first_syntax_eq _ _ _ E Hs).
    - eapply file_rule; [linter 16|reflexivity|intros ds; reflexivity|]. intros d _ _. cbv beta zeta.
      eapply reported_iff; [|apply reported_if]. intros p. cbv beta. rewrite andb_true_iff, !negb_true_iff, is_empty_false.
      rewrite (not_bool _ _ (starts_with_iff _ _)). unfold no_pos. split; [tauto|]. intros [H1 H2]. repeat split; auto.
      intros E. apply H1. rewrite E. now exists (d_data d).
    - eapply file_rule; [linter 90|reflexivity|intros ds; reflexivity|]. intros d _ _. cbv beta.
      assert (S1 : forall h, In h (services_of d) <-> exists es, In (EService h es) (d_elements d)).
      { intros h. unfold services_of. rewrite in_flat_map. split.
        - intros (e & He & Hx). destruct e; try contradiction. destruct Hx as [->|[]]. eauto.
        - intros (es & He). eexists. split; [exact He|now left]. }
      assert (S2 : (exists a b c s1 e1 s2 e2, d_elements d = a ++ EService s1 e1 :: b ++ EService s2 e2 :: c) <->
                   exists x, In x (tl (services_of d))).
      { split.
        - intros (a & b & c & s1 & e1 & s2 & e2 & E). exists s2. apply (pick_tl pick_service single_service).
          exists a, (EService s1 e1), b, (EService s2 e2), c. repeat split; auto. discriminate.
        - intros (x & Hx). apply (pick_tl pick_service single_service) in Hx as (a & e & b & e' & c & E & He & He').
          apply pick_service_iff in He' as (es & ->). destruct e; try (simpl in He; congruence). exists a, b, c, h, es0, x, es. exact E. }
      assert (S3 : forall (h : header) (P : header -> Prop) p, (exists (h : header) es, In (EService h es) (d_elements d) /\ p = h_pos h /\ P h)
                     <-> exists h, In h (services_of d) /\ p = h_pos h /\ P h).
      { intros _ P p. split.
        - intros (h & es & H & H1). exists h. split; [apply S1; eauto|assumption].
        - intros (h & H & H1). apply S1 in H as (es & H). eauto. }
      destruct (services_of d) as [|h [|h' r]] eqn:E.
      + eapply reported_iff; [|apply reported_nil]. intros p. split; [intros []|].
        intros (h & es & H & _). destruct (proj2 (S1 h)). eauto.
      + eapply reported_iff; [|apply reported_if_not]. intros p. cbv beta. rewrite seqb_neq. split.
        * intros [Hn ->]. destruct (proj1 (S1 h) (or_introl eq_refl)) as (es & He). exists h, es. auto.
        * intros (k & es & He & -> & Hk). destruct (proj2 (S1 k) (ex_intro _ es He)) as [->|[]].
          destruct Hk as [H|H]; [apply S2 in H as (x & [])|]. auto.
      + eapply reported_iff; [|apply reported_map]. intros p. split.
        * intros (k & Hk & ->). apply S1 in Hk as (es & He). exists k, es. split; [assumption|]. split; [reflexivity|].
          left. apply S2. exists h'. now left.
        * intros (k & es & He & -> & _). exists k. split; [|reflexivity]. apply S1. eauto.
  Qed.
  Theorem file_name_rule_exact : Files_reported_exactly ord sing anything "FILE_NAMES_LOWER_SNAKE_CASE" file_name_rule.
  Proof.
    eapply file_rule; [linter 17|reflexivity|intros ds; reflexivity|]. intros d _ _. cbv beta zeta.
    eapply reported_iff; [|apply reported_if_not]. intros p. unfold file_name_rule, snake_file_name, no_pos. cbv beta.
    rewrite (not_bool _ _ (file_stem (path_base (d_filename d)) (path_base_slash (d_filename d)))). reflexivity.
  Qed.
End FileTables.
