(** From what a visitor does at each element to what its linter reports. *)
From Verif Require Import GoStrFacts GoMapFacts Strs_Proofs.
From Verif Require Export Lint_Walk.

Lemma finish_spec l r : is_suppressed l (raw_set r) (raw_comment r) = false ->
  exists f, finish l r = [f] /\ f_lint_id f = ln_id l /\
  forall file p, at_place f file p <-> at_place (raw_failure r) file p.
Proof. intros H. unfold finish. rewrite H. eexists. split; [reflexivity|]. split; [reflexivity|]. intros. reflexivity. Qed.
Lemma finish_suppressed l r : is_suppressed l (raw_set r) (raw_comment r) = true -> finish l r = [].
Proof. intros H. unfold finish. now rewrite H. Qed.

Lemma core l id ds raws (W : string -> position -> Prop) :
  ln_id l = id -> ln_check l ds = Ok raws ->
  (forall file p, (exists r, In r raws /\ is_suppressed l (raw_set r) (raw_comment r) = false
                             /\ at_place (raw_failure r) file p) <-> W file p) ->
  exists fs, linter_check l ds = Ok fs /\ (forall f, In f fs -> f_lint_id f = id) /\
    forall file p, (exists f, In f fs /\ at_place f file p) <-> W file p.
Proof.
  intros Hid Hc HW. exists (flat_map (finish l) raws).
  split; [unfold linter_check; now rewrite Hc|].
  assert (A : forall f, In f (flat_map (finish l) raws) ->
    exists r, In r raws /\ is_suppressed l (raw_set r) (raw_comment r) = false /\ finish l r = [f]).
  { intros f Hf. apply in_flat_map in Hf as (r & Hr & Hf). exists r. split; [assumption|].
    destruct (is_suppressed l (raw_set r) (raw_comment r)) eqn:E.
    - rewrite finish_suppressed in Hf by assumption. contradiction.
    - destruct (finish_spec l r E) as (f' & E' & _). rewrite E' in Hf |- *. destruct Hf as [->|[]]. auto. }
  split.
  - intros f Hf. destruct (A f Hf) as (r & Hr & E & Ef).
    destruct (finish_spec l r E) as (f' & E' & Hi & _). rewrite E' in Ef. injection Ef as <-. congruence.
  - intros file p. rewrite <- HW. split.
    + intros (f & Hf & Hp). destruct (A f Hf) as (r & Hr & E & Ef). exists r. split; [assumption|]. split; [assumption|].
      destruct (finish_spec l r E) as (f' & E' & _ & Hpl). rewrite E' in Ef. injection Ef as <-. now apply Hpl.
    + intros (r & Hr & E & Hp). destruct (finish_spec l r E) as (f' & E' & _ & Hpl).
      exists f'. split; [|now apply Hpl]. apply in_flat_map. exists r. split; [assumption|]. rewrite E'. now left.
Qed.

Lemma at_place_failure d q m file p : at_place (failure_at d q m) file p <-> d_filename d = file /\ p = q.
Proof.
  unfold at_place, failure_at. simpl. destruct p, q; simpl. split.
  - intros (H1 & -> & ->). auto.
  - intros (H1 & E). injection E as -> ->. auto.
Qed.
Lemma not_suppressed_plain l d p m : is_suppressed l (raw_set (add_failure d p m)) (raw_comment (add_failure d p m)) = false.
Proof. reflexivity. Qed.

Section Sel.
  Variables (ord : order) (sing : string -> string).

  (** Linters that visit elements and report them on their own. *)
  Lemma visiting_core l id (assume : descriptor -> Prop) ks (hook : descriptor -> list element -> element -> list raw) V :
    In l (all_linters ord sing) -> ln_id l = id ->
    (forall ds, (forall d, In d ds -> well_formed (d_elements d) /\ assume d) -> ln_check l ds = visiting ks hook ds) ->
    (forall d ctx e file p, well_formed (d_elements d) -> assume d -> located (d_elements d) ctx e ->
       ((Forall (fun x => entered ks x = true) ctx /\
         exists r, In r (hook d ctx e) /\ is_suppressed l (raw_set r) (raw_comment r) = false
                   /\ at_place (raw_failure r) file p)
        <-> d_filename d = file /\ V d ctx e p)) ->
    Reports_exactly ord sing assume id V.
  Proof.
    intros Hl Hid Hck HV. exists l. split; [assumption|]. split; [assumption|].
    intros ds Hds. eapply (core l id ds); [assumption|rewrite Hck by assumption; reflexivity|].
    intros file p. split.
    - intros (r & Hr & Hs & Hp). apply in_flat_map in Hr as (d & Hd & Hr).
      apply in_flat_map in Hr as ([ctx e] & Hv & Hr). apply visited_iff in Hv as [Hloc HF].
      destruct (Hds d Hd) as [HWF Ha].
      destruct (proj1 (HV d ctx e file p HWF Ha Hloc)) as [E HVV]; [split; eauto|].
      exists d, ctx, e. auto.
    - intros (d & ctx & e & Hd & Hf & Hloc & Hv). destruct (Hds d Hd) as [HWF Ha].
      destruct (proj2 (HV d ctx e file p HWF Ha Hloc) (conj Hf Hv)) as (HF & r & Hr & Hs & Hp).
      exists r. split; [|auto]. apply in_flat_map. exists d. split; [assumption|].
      apply in_flat_map. exists (ctx, e). split; [now apply visited_iff|assumption].
  Qed.

  Lemma simple_rule l id (assume : descriptor -> Prop) ks (kindb : element -> bool) (kind : element -> Prop)
    (badb : descriptor -> list element -> element -> bool) (bad : descriptor -> list element -> element -> Prop) hook :
    In l (all_linters ord sing) -> ln_id l = id ->
    (forall ds, (forall d, In d ds -> well_formed (d_elements d) /\ assume d) -> ln_check l ds = visiting ks hook ds) ->
    into ks KGroup = false ->
    (forall d ctx e, exists m, hook d ctx e =
       if kindb e then if badb d ctx e then [add_failure d (position_of e) m] else [] else []) ->
    (forall e, kindb e = true <-> kind e) ->
    (forall d ctx e, well_formed (d_elements d) -> located (d_elements d) ctx e -> outside_groups ctx -> kind e ->
       Forall (fun x => entered ks x = true) ctx) ->
    (forall d ctx e, well_formed (d_elements d) -> assume d -> located (d_elements d) ctx e -> outside_groups ctx -> kind e ->
       (badb d ctx e = true <-> bad d ctx e)) ->
    Reports_exactly ord sing assume id (Breaks kind bad).
  Proof.
    intros Hl Hid Hck HG Hh Hk Hctx Hb. apply (visiting_core l id assume ks hook); auto.
    intros d ctx e file p HWF Ha Hloc. destruct (Hh d ctx e) as (m & ->). unfold Breaks. split.
    - intros (HF & r & Hr & _ & Hp). pose proof (entered_no_group _ _ HG HF) as HO.
      destruct (kindb e) eqn:Ek; [|contradiction]. apply Hk in Ek.
      destruct (badb d ctx e) eqn:Eb; [|contradiction].
      destruct Hr as [<-|[]]. apply at_place_failure in Hp as [E1 E2].
      split; [assumption|]. split; [assumption|]. split; [assumption|].
      split; [|assumption]. now apply Hb.
    - intros (E1 & HO & Ek & Eb & ->). split; [now apply (Hctx d ctx e)|].
      apply (Hb d ctx e HWF Ha Hloc HO Ek) in Eb. apply Hk in Ek. rewrite Ek, Eb.
      eexists. split; [left; reflexivity|]. split; [reflexivity|]. now apply at_place_failure.
  Qed.

  (** Linters about whole files. *)
  Lemma file_core l id (assume : descriptor -> Prop) (check : descriptor -> result (list raw)) V :
    In l (all_linters ord sing) -> ln_id l = id ->
    (forall ds, ln_check l ds = per_file check ds) ->
    (forall d, well_formed (d_elements d) -> assume d -> exists rs, check d = Ok rs /\
       forall file p, (exists r, In r rs /\ is_suppressed l (raw_set r) (raw_comment r) = false
                         /\ at_place (raw_failure r) file p)
                      <-> d_filename d = file /\ V d p) ->
    Files_reported_exactly ord sing assume id V.
  Proof.
    intros Hl Hid Hck HV. exists l. split; [assumption|]. split; [assumption|].
    intros ds Hds.
    assert (A : exists raws, per_file check ds = Ok raws /\
      forall file p, (exists r, In r raws /\ is_suppressed l (raw_set r) (raw_comment r) = false
                         /\ at_place (raw_failure r) file p)
                     <-> exists d, In d ds /\ d_filename d = file /\ V d p).
    { clear Hck. induction ds as [|d ds IH].
      - exists []. split; [reflexivity|]. intros file p. split; [intros (r & [] & _)|intros (d & [] & _)].
      - destruct IH as (raws & E & IH); [intros x Hx; apply Hds; now right|].
        destruct (Hds d (or_introl eq_refl)) as [HWF Ha].
        destruct (HV d HWF Ha) as (rs & E1 & H1).
        exists (rs ++ raws). split.
        + unfold per_file. rewrite concatM_cons, E1. simpl. unfold per_file in E. rewrite E. reflexivity.
        + intros file p. split.
          * intros (r & Hr & H2). apply in_app_iff in Hr as [Hr|Hr].
            -- destruct (proj1 (H1 file p)) as [Ef Hv]; [eauto|]. exists d. simpl. auto.
            -- destruct (proj1 (IH file p)) as (d' & Hd' & H3); [eauto|]. exists d'. simpl. tauto.
          * intros (d' & [<-|Hd'] & Hf & Hv).
            -- destruct (proj2 (H1 file p) (conj Hf Hv)) as (r & Hr & H3). exists r. rewrite in_app_iff. auto.
            -- destruct (proj2 (IH file p)) as (r & Hr & H3); [eauto|]. exists r. rewrite in_app_iff. auto. }
    destruct A as (raws & E & A).
    eapply (core l id ds); [assumption|rewrite Hck; exact E|exact A].
  Qed.
  Lemma per_file_ok_per_file check ds : per_file_ok check ds = per_file (fun d => Ok (check d)) ds.
  Proof.
    unfold per_file_ok, per_file. induction ds; [reflexivity|]. rewrite concatM_cons. simpl.
    rewrite <- IHds. reflexivity.
  Qed.
  Lemma file_ok_core l id (assume : descriptor -> Prop) (check : descriptor -> list raw) V :
    In l (all_linters ord sing) -> ln_id l = id ->
    (forall ds, ln_check l ds = per_file_ok check ds) ->
    (forall d, well_formed (d_elements d) -> assume d ->
       forall file p, (exists r, In r (check d) /\ is_suppressed l (raw_set r) (raw_comment r) = false
                         /\ at_place (raw_failure r) file p)
                      <-> d_filename d = file /\ V d p) ->
    Files_reported_exactly ord sing assume id V.
  Proof.
    intros Hl Hid Hck HV. apply (file_core l id assume (fun d => Ok (check d))); auto.
    - intros ds. rewrite Hck. apply per_file_ok_per_file.
    - intros d HWF Ha. eexists. split; [reflexivity|]. now apply HV.
  Qed.
End Sel.

(** ** Contexts entered by the visitors *)
Lemma ctx_plain ks d ctx e : into ks KMessage = true -> well_formed (d_elements d) -> located (d_elements d) ctx e ->
  outside_groups ctx -> (is_enum e \/ is_message_or_extend e \/ is_oneof e) -> Forall (fun x => entered ks x = true) ctx.
Proof. intros Hk HWF Hl HO He. apply entered_msgs; [assumption|]. eapply plain_ctx; eassumption. Qed.
Lemma ctx_enum_value ks d ctx e : into ks KMessage = true -> into ks KEnum = true -> well_formed (d_elements d) ->
  located (d_elements d) ctx e -> outside_groups ctx -> is_enum_value e -> Forall (fun x => entered ks x = true) ctx.
Proof.
  intros Hk Hk2 HWF Hl HO He. destruct (enum_value_ctx _ HWF _ _ Hl HO He) as (h & es & outer & -> & HF).
  constructor; [exact Hk2|]. now apply entered_msgs.
Qed.
Lemma ctx_field ks d ctx e : into ks KMessage = true -> into ks KOneof = true -> well_formed (d_elements d) ->
  located (d_elements d) ctx e -> outside_groups ctx -> is_field e -> Forall (fun x => entered ks x = true) ctx.
Proof.
  intros Hk Hk2 HWF Hl HO He. destruct (field_ctx _ HWF _ _ Hl HO He) as (outer & HF & [->|(h & es & ->)]).
  - now apply entered_msgs.
  - constructor; [exact Hk2|]. now apply entered_msgs.
Qed.
Lemma ctx_rpc ks d ctx e : into ks KService = true -> well_formed (d_elements d) ->
  located (d_elements d) ctx e -> is_rpc e -> Forall (fun x => entered ks x = true) ctx.
Proof.
  intros Hk HWF Hl He. destruct (rpc_ctx _ HWF _ _ Hl He) as (h & es & ->). constructor; [exact Hk|constructor].
Qed.
Lemma ctx_top ks d ctx e : well_formed (d_elements d) -> located (d_elements d) ctx e -> top_only e = true ->
  Forall (fun x => entered ks x = true) ctx.
Proof. intros HWF Hl He. rewrite (top_ctx _ HWF _ _ Hl He). constructor. Qed.
Lemma ctx_reserved ks d ctx e : into ks KMessage = true -> into ks KEnum = true -> well_formed (d_elements d) ->
  located (d_elements d) ctx e -> outside_groups ctx -> is_reserved e -> Forall (fun x => entered ks x = true) ctx.
Proof.
  intros Hk Hk2 HWF Hl HO He. destruct (reserved_ctx _ HWF _ _ Hl HO He) as (p & outer & -> & Hp & HF).
  constructor; [|now apply entered_msgs]. destruct Hp as [(h & x & es & ->)|(h & es & ->)]; assumption.
Qed.

(** ** Booleans and specifications of names *)
Lemma negb_iff b (P : Prop) : (b = true <-> P) -> (negb b = true <-> ~ P).
Proof. intros H. destruct b; simpl; intuition congruence. Qed.
Lemma starts_upper_iff s : is_capitalized s = true <-> starts_upper s.
Proof.
  unfold is_capitalized, starts_upper. destruct s as [|c r]; simpl.
  - split; [discriminate|]. intros (c & r & H & _). discriminate.
  - split; [eauto|]. intros (c' & r' & E & H). injection E as <- <-. assumption.
Qed.
Lemma starts_with_iff s p : has_prefix s p = true <-> starts_with s p.
Proof. apply has_prefix_spec. Qed.
Lemma ends_with_iff s p : has_suffix s p = true <-> ends_with s p.
Proof. apply has_suffix_spec. Qed.
Lemma has_substring_iff s p : contains s p = true <-> has_substring s p.
Proof. apply contains_spec. Qed.
Lemma smap_fix f s : smap f s = s <-> all_chars (fun c => f c = c) s.
Proof.
  induction s as [|c s IH]; simpl.
  - split; [intros _; apply all_chars_nil|reflexivity].
  - rewrite all_chars_cons. split.
    + intros E. injection E as E1 E2. split; [assumption|now apply IH].
    + intros [E1 E2]. apply IH in E2. congruence.
Qed.
Lemma all_chars_iff P Q s : (forall c, P c <-> Q c) -> (all_chars P s <-> all_chars Q s).
Proof. intros H. unfold all_chars. split; intros H1 a c b E; apply H; eauto. Qed.
Lemma lowercase_iff s : is_lowercase s = true <-> s <> EmptyString /\ no_upper_case s.
Proof.
  unfold is_lowercase, no_upper_case. rewrite andb_true_iff, negb_true_iff, is_empty_false, String.eqb_eq.
  unfold to_lower. rewrite smap_fix.
  rewrite (all_chars_iff (fun c => lower_char c = c) (fun c => is_upper c = false)); [reflexivity|].
  intros c. now rewrite lower_char_fix.
Qed.
Lemma uppercase_iff s : is_uppercase s = true <-> s <> EmptyString /\ no_lower_case s.
Proof.
  unfold is_uppercase, no_lower_case. rewrite andb_true_iff, negb_true_iff, is_empty_false, String.eqb_eq.
  unfold to_upper. rewrite smap_fix.
  rewrite (all_chars_iff (fun c => upper_char c = c) (fun c => is_lower c = false)); [reflexivity|].
  intros c. now rewrite upper_char_fix.
Qed.
Lemma all_chars_app P a b : all_chars P (a +++ b) <-> all_chars P a /\ all_chars P b.
Proof.
  induction a as [|c a IH]; simpl.
  - split; [intros H; split; [apply all_chars_nil|assumption]|tauto].
  - rewrite !all_chars_cons, IH. tauto.
Qed.
Lemma smap_app_inv f a x y : smap f a = x +++ y -> exists a1 a2, a = a1 +++ a2 /\ smap f a1 = x /\ smap f a2 = y.
Proof.
  revert x. induction a as [|c a IH]; simpl; intros x E.
  - symmetry in E. apply sapp_eq_nil in E as [-> ->]. exists EmptyString, EmptyString. auto.
  - destruct x as [|c' x]; simpl in E.
    + subst y. exists EmptyString, (String c a). auto.
    + injection E as E1 E2. apply IH in E2 as (a1 & a2 & -> & E3 & E4).
      exists (String c a1), a2. simpl. subst. auto.
Qed.
Lemma sforall_underscore s : sforall is_underscore s = true <-> all_chars (eq "_"%char) s.
Proof.
  induction s as [|c s IH]; simpl.
  - split; [intros _; apply all_chars_nil|reflexivity].
  - rewrite all_chars_cons, andb_true_iff, IH. unfold is_underscore. rewrite Ascii.eqb_eq.
    split; intros [H1 H2]; (split; [now symmetry|assumption]).
Qed.
Lemma lower_underscore s : all_chars (eq "_"%char) (to_lower s) <-> all_chars (eq "_"%char) s.
Proof.
  induction s as [|c s IH]; [reflexivity|].
  change (to_lower (String c s)) with (String (lower_char c) (to_lower s)).
  rewrite !all_chars_cons, IH. split; intros [H1 H2]; (split; [|assumption]).
  - destruct c as [b0 b1 b2 b3 b4 b5 b6 b7].
    destruct b0, b1, b2, b3, b4, b5, b6, b7; vm_compute in H1 |- *; congruence.
  - subst c. reflexivity.
Qed.
Lemma descriptor_iff n :
  String.eqb (trim_right is_underscore (trim_left is_underscore (to_lower n))) "descriptor" = true
  <-> underscored "descriptor" n.
Proof.
  rewrite String.eqb_eq. unfold underscored. split.
  - intros E. destruct (trim_left_spec is_underscore (to_lower n)) as (p & E1 & H1).
    destruct (trim_right_spec is_underscore (trim_left is_underscore (to_lower n))) as (r & E2 & H2).
    rewrite E in E2. rewrite E2 in E1. unfold to_lower in E1.
    apply smap_app_inv in E1 as (a & b & -> & Ea & Eb). apply smap_app_inv in Eb as (b1 & b2 & -> & Eb1 & Eb2).
    exists a, b1, b2. split; [reflexivity|]. split; [|split; [|assumption]].
    + apply lower_underscore. unfold to_lower. rewrite Ea. now apply sforall_underscore.
    + apply lower_underscore. unfold to_lower. rewrite Eb2. now apply sforall_underscore.
  - intros (a & b & c & -> & Ha & Hc & E).
    unfold to_lower in *. rewrite !smap_app, E.
    apply (proj2 (lower_underscore _)) in Ha, Hc. apply sforall_underscore in Ha, Hc.
    rewrite trim_left_app by exact Ha. rewrite trim_left_id.
    + rewrite trim_right_app by exact Hc. reflexivity.
    + intros x Hx. simpl in Hx. injection Hx as <-. reflexivity.
Qed.

(** ** Comments *)
Lemma golang_iff e : has_golang_style_comment (comment_of e) (name_of e) = true <-> golang_style e.
Proof.
  unfold has_golang_style_comment, golang_style. destruct (comment_of e) as [c|].
  - destruct (c_lines c) as [|l ls] eqn:E.
    + split; [discriminate|]. intros (c' & l & ls & r & Ec & El & _). injection Ec as <-. congruence.
    + rewrite has_prefix_spec. split.
      * intros (r & ->). exists c, (" " +++ name_of e +++ " " +++ r), ls, r. repeat split; auto.
        rewrite E. f_equal. now rewrite !sapp_assoc.
      * intros (c' & l' & ls' & r & Ec & El & ->). injection Ec as <-. rewrite E in El. injection El as -> ->.
        exists r. now rewrite !sapp_assoc.
  - split; [discriminate|]. intros (c' & l & ls & r & Ec & _). discriminate.
Qed.
Lemma ascii_upper x : nat_of_ascii x < 128 -> latin1_is_upper x = is_upper x.
Proof.
  intros H. unfold latin1_is_upper, code.
  replace (192 <=? nat_of_ascii x) with false; [now rewrite andb_false_l, orb_false_r|].
  symmetry. apply Nat.leb_gt. lia.
Qed.
Lemma trim_space_char l x r : trim_space l = String x r ->
  exists blanks r', l = blanks +++ String x r' /\ all_chars (fun c => is_space c = true) blanks /\ is_space x = false.
Proof.
  intros E. pose proof (trim_space_first l x) as F. rewrite E in F. specialize (F eq_refl).
  unfold trim_space in E.
  destruct (trim_left_spec is_space l) as (p & E1 & H1).
  destruct (trim_right_spec is_space (trim_left is_space l)) as (s & E2 & H2).
  rewrite E in E2. rewrite E2 in E1. exists p, (r +++ s). split; [exact E1|]. split; [|assumption].
  apply all_chars_sforall with (f := is_space); [intros; reflexivity|assumption].
Qed.
