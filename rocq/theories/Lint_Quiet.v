(** Files that a rule does not report stay unreported when the files it does report are
    taken away and the rest is read under other names. *)
From Verif Require Import LintRun_Spec GoStrFacts GoMapFacts Lint_RuleFacts Lint_MapProofs Lint_Table LintRun_Proofs LintRun_Proofs2.
From Verif Require Export Lint_Rename.
From Coq Require Import Lia Permutation.

Definition unreported (fs : list failure) (d : descriptor) : Prop := forall f, In f fs -> f_filename f <> d_filename d.
(** [ds'] are files of [ds] under other names, none of them reported in [fs]. *)
Definition leftover (ds : list descriptor) (fs : list failure) (ds' : list descriptor) : Prop :=
  forall d', In d' ds' -> exists d, In d ds /\ alike d d' /\ unreported fs d.

Lemma concatM_all_nil {A B} (f : A -> result (list B)) l : (forall x, In x l -> f x = Ok []) -> concatM f l = Ok [].
Proof.
  induction l as [|x l IH]; intros H; [reflexivity|]. rewrite concatM_cons, H by now left. cbn [bind].
  rewrite IH by (intros; apply H; now right). reflexivity.
Qed.
Lemma no_members {A} (l : list A) : (forall x, ~ In x l) -> l = [].
Proof. destruct l as [|x l]; [reflexivity|]. intros H. exfalso. apply (H x). now left. Qed.

Lemma file_quiet l ds fs ds' : file_linter l -> renames l ->
  linter_check l ds = Ok fs -> leftover ds fs ds' -> linter_check l ds' = Ok [].
Proof.
  intros F R E L. rewrite (linter_check_split l) in E |- * by assumption. apply concatM_all_nil. intros d' Hd'.
  destruct (L d' Hd') as (d & Hd & A & U). specialize (R d d' A).
  apply concatM_Ok in E as [E0 E]. destruct (E0 d Hd) as [g Eg].
  assert (g = []) as ->.
  { apply no_members. intros f Hf. apply (U f); [apply E; eauto|].
    unfold linter_check in Eg. destruct (ln_check l [d]) as [rs|] eqn:Er; cbn [bind] in Eg; [|discriminate].
    injection Eg as <-. apply in_flat_map in Hf as (r & Hr & Hf). apply finish_file in Hf as [-> _].
    destruct F as [_ F]. apply F in Er. rewrite Forall_forall in Er. now apply Er. }
  unfold linter_check in *. destruct (ln_check l [d]) as [rs|]; cbn [bind] in Eg; [|discriminate]. injection Eg as Eg.
  destruct (ln_check l [d']) as [rs'|]; cbn [sims] in R; [|contradiction]. cbn [bind].
  rewrite (sims_finish l rs rs'); auto.
Qed.

(** ** The rules that compare the files of a directory *)
Lemma finish_plain id check r : finish (new_linter id check) r <> [].
Proof. unfold finish, is_suppressed. rewrite allow_is. discriminate. Qed.
Lemma flat_nil {A B} (f : A -> list B) l : (forall x, In x l -> f x = []) -> flat_map f l = [].
Proof. induction l as [|x l IH]; intros H; [reflexivity|]. simpl. rewrite H by now left. apply IH. intros. apply H. now right. Qed.
Lemma plain_reported id check ds rs r : In r rs -> check ds = Ok rs ->
  exists fs f, linter_check (new_linter id check) ds = Ok fs /\ In f fs /\ f_filename f = f_filename (raw_failure r).
Proof.
  intros Hr E. unfold linter_check. cbn [ln_check new_linter new_suppressable_linter]. rewrite E. cbn [bind]. eexists.
  destruct (finish (new_linter id check) r) as [|f fs] eqn:Ef; [now apply finish_plain in Ef|].
  exists f. split; [reflexivity|]. split.
  - apply in_flat_map. exists r. split; [assumption|]. rewrite Ef. now left.
  - apply (finish_file (new_linter id check)). rewrite Ef. now left.
Qed.
Lemma plain_quiet id check ds : check ds = Ok [] -> linter_check (new_linter id check) ds = Ok [].
Proof. intros E. unfold linter_check. cbn [ln_check new_linter new_suppressable_linter]. rewrite E. reflexivity. Qed.

Section Directory.
  Variables (id : string) (check : list descriptor -> result (list raw)).
  Variables (dups : descriptor -> list raw) (vals : descriptor -> list (string * unit)).
  Hypothesis shape : forall ds, exists msg, check ds = Ok (flat_map dups ds ++
    if 1 <? length (build (flat_map vals ds)) then map (fun d => add_failure d no_pos msg) ds else []).
  Hypothesis dups_about : forall d, Forall (about d) (dups d).
  Hypothesis dups_alike : forall d d', alike d d' -> dups d = [] -> dups d' = [].
  Hypothesis vals_alike : forall d d', alike d d' -> vals d' = vals d.
  Lemma directory_quiet ds fs ds' :
    linter_check (new_linter id check) ds = Ok fs -> leftover ds fs ds' -> linter_check (new_linter id check) ds' = Ok [].
  Proof.
    intros E L. apply plain_quiet. destruct (shape ds) as [msg S]. destruct (shape ds') as [msg' S']. rewrite S'. f_equal.
    assert (Rep : forall r, In r (flat_map dups ds ++
      if 1 <? length (build (flat_map vals ds)) then map (fun d => add_failure d no_pos msg) ds else []) ->
      exists f, In f fs /\ f_filename f = f_filename (raw_failure r)).
    { intros r Hr. destruct (plain_reported id check ds _ r Hr S) as (fs' & f & E' & Hf & En).
      rewrite E in E'. injection E' as <-. eauto. }
    destruct (1 <? length (build (flat_map vals ds))) eqn:Two.
    - assert (ds' = []) as ->; [|reflexivity]. apply no_members. intros d' Hd'. destruct (L d' Hd') as (d & Hd & _ & U).
      destruct (Rep (add_failure d no_pos msg)) as (f & Hf & Ef).
      { apply in_app_iff. right. apply in_map_iff. eauto. }
      now apply (U f).
    - rewrite (flat_nil dups).
      + destruct (1 <? length (build (flat_map vals ds'))) eqn:Two'; [|reflexivity]. exfalso.
        apply (two_keys (fun s => s)) in Two' as (a & b & Ha & Hb & N).
        enough (1 <? length (build (flat_map vals ds)) = true) by congruence. apply (two_keys (fun s => s)). exists a, b.
        assert (K : forall k, In k (map fst (flat_map vals ds')) -> In k (map fst (flat_map vals ds))).
        { intros k Hk. apply in_map_iff in Hk as (kv & <- & Hk). apply in_map. apply in_flat_map in Hk as (d' & Hd' & Hk).
          destruct (L d' Hd') as (d & Hd & A & _). apply in_flat_map. exists d. split; [assumption|]. now rewrite <- (vals_alike d d' A). }
        auto.
      + intros d' Hd'. destruct (L d' Hd') as (d & Hd & A & U). apply (dups_alike d d' A). apply no_members. intros r Hr.
        destruct (Rep r) as (f & Hf & Ef); [apply in_app_iff; left; apply in_flat_map; eauto|].
        apply (U f Hf). rewrite Ef. pose proof (dups_about d) as F. rewrite Forall_forall in F. now apply F.
  Qed.
End Directory.

Lemma dup_alike {A} (pos : A -> position) msg (pick : list element -> list A) d d' : alike d d' ->
  duplicates pos msg d (pick (d_elements d)) = [] -> duplicates pos msg d' (pick (d_elements d')) = [].
Proof. intros (E & _) H. rewrite E. unfold duplicates in *. apply map_eq_nil in H. now rewrite H. Qed.
Lemma packages_quiet ord ds fs ds' : let l := new_linter "PACKAGES_SAME_IN_DIR" (check_packages_same_in_dir ord) in
  linter_check l ds = Ok fs -> leftover ds fs ds' -> linter_check l ds' = Ok [].
Proof.
  cbv zeta. apply (directory_quiet _ _ duplicate_packages (fun d => match packages d with p :: _ => [(pk_name p, tt)] | [] => [] end)).
  - intros ds0. eexists. reflexivity.
  - intros d. about_tac.
  - intros d d' A. apply (dup_alike pk_pos _ (flat_map (fun e => match e with EPackage p => [p] | _ => [] end)) d d' A).
  - intros d d' (E & _). unfold packages. now rewrite E.
Qed.
Lemma flat_map_one {A B} (f : A -> B) l : map f l = flat_map (fun x => [f x]) l.
Proof. induction l; simpl; congruence. Qed.
Lemma options_quiet ord id name ds fs ds' : let l := new_linter id (check_file_options_same_in_dir ord name) in
  linter_check l ds = Ok fs -> leftover ds fs ds' -> linter_check l ds' = Ok [].
Proof.
  cbv zeta. apply (directory_quiet _ _
    (fun d => duplicates o_pos ("multiple option declarations for " +++ name +++ ", first was ...") d (file_options name d))
    (fun d => [(match file_options name d with [] => EmptyString | o :: _ => l_source (o_const o) end, tt)])).
  - intros ds0. unfold check_file_options_same_in_dir. rewrite <- flat_map_one.
    destruct (1 <? _); [|exists EmptyString; reflexivity]. destruct (has _ _); eexists; reflexivity.
  - intros d. about_tac.
  - intros d d' A. apply (dup_alike o_pos _ (flat_map (fun e => match e with EOption o => if String.eqb (o_name o) name then [o] else [] | _ => [] end)) d d' A).
  - intros d d' (E & _). unfold file_options. now rewrite E.
Qed.

Theorem stays_quiet sing l ds fs ds' : In l (all_linters same_order sing) ->
  linter_check l ds = Ok fs -> leftover ds fs ds' -> linter_check l ds' = Ok [].
Proof.
  intros Hl. destruct (in_dec string_dec (ln_id l) directory_rules) as [D|D].
  - assert (F : Forall (fun l => In (ln_id l) directory_rules ->
      linter_check l ds = Ok fs -> leftover ds fs ds' -> linter_check l ds' = Ok []) (all_linters same_order sing));
      [|rewrite Forall_forall in F; now apply F]. clear l Hl D.
    table ltac:(first
      [ let H := fresh in intros H; exfalso; apply mem_In in H; vm_compute in H; discriminate
      | intros _; exact (packages_quiet same_order ds fs ds') | intros _; exact (options_quiet same_order _ _ ds fs ds')
      | idtac ]).
  - apply file_quiet.
    + pose proof (file_linters same_order sing) as F. rewrite Forall_forall in F. auto.
    + pose proof (all_rename sing) as F. rewrite Forall_forall in F. auto.
Qed.
