(** Lemmas about the string, sorting and map functions of [GoStr]. *)
From Verif Require Export GoStr.
From Coq Require Export Lia Sorted.

Ltac all_ascii c := destruct c as [[|] [|] [|] [|] [|] [|] [|] [|]].

(** ** Append *)
Lemma sapp_nil_r s : s +++ EmptyString = s.
Proof. induction s as [|c s IH]; simpl; [reflexivity|now rewrite IH]. Qed.
Lemma sapp_assoc a b c : (a +++ b) +++ c = a +++ (b +++ c).
Proof. induction a as [|x a IH]; simpl; [reflexivity|now rewrite IH]. Qed.
Lemma slength_app a b : String.length (a +++ b) = String.length a + String.length b.
Proof. induction a as [|x a IH]; simpl; [reflexivity|now rewrite IH]. Qed.
Lemma sapp_inj_l a b c : a +++ b = a +++ c -> b = c.
Proof. induction a as [|x a IH]; simpl; [easy|intros H; injection H; auto]. Qed.
Lemma sapp_inj_r a b c : a +++ c = b +++ c -> a = b.
Proof.
  revert b; induction a as [|x a IH]; intros b H.
  - destruct b as [|y b]; [reflexivity|].
    apply (f_equal String.length) in H. simpl in H. rewrite slength_app in H. lia.
  - destruct b as [|y b].
    + apply (f_equal String.length) in H. simpl in H. rewrite slength_app in H. lia.
    + simpl in H. injection H as -> H. now rewrite (IH _ H).
Qed.
Lemma sapp_eq_len a b c d : a +++ b = c +++ d -> String.length a = String.length c -> a = c /\ b = d.
Proof.
  revert c; induction a as [|x a IH]; intros [|y c]; simpl; intros H L; try discriminate; [easy|].
  injection H as -> H. injection L as L. destruct (IH _ H L) as [-> ->]. easy.
Qed.
Lemma sapp_eq_nil a b : a +++ b = EmptyString -> a = EmptyString /\ b = EmptyString.
Proof. destruct a; simpl; [easy|discriminate]. Qed.
Lemma slength_0 s : String.length s = 0 -> s = EmptyString.
Proof. now destruct s. Qed.
Lemma is_empty_true s : is_empty s = true <-> s = EmptyString.
Proof. destruct s; simpl; split; congruence. Qed.
Lemma is_empty_false s : is_empty s = false <-> s <> EmptyString.
Proof. destruct s; simpl; split; congruence. Qed.

Lemma seqb_refl s : String.eqb s s = true.
Proof. apply String.eqb_refl. Qed.
Lemma seqb_neq a b : String.eqb a b = false <-> a <> b.
Proof. apply String.eqb_neq. Qed.
Lemma string_dec_eqb (a b : string) : {a = b} + {a <> b}.
Proof. apply string_dec. Qed.

(** ** Take, drop *)
Lemma stake_sdrop n s : stake n s +++ sdrop n s = s.
Proof. revert s; induction n as [|n IH]; intros [|c s]; simpl; try reflexivity. now rewrite IH. Qed.
Lemma sdrop_app_exact a b : sdrop (String.length a) (a +++ b) = b.
Proof. induction a; simpl; auto. Qed.
Lemma stake_app_exact a b : stake (String.length a) (a +++ b) = a.
Proof. induction a as [|c a IH]; simpl; [now destruct b|now rewrite IH]. Qed.
Lemma sdrop_length n s : String.length (sdrop n s) = String.length s - n.
Proof. revert s; induction n as [|n IH]; intros [|c s]; simpl; auto. Qed.
Lemma stake_length n s : n <= String.length s -> String.length (stake n s) = n.
Proof. revert s; induction n as [|n IH]; intros [|c s]; simpl; intros; try lia. rewrite IH; lia. Qed.

(** ** Prefix, suffix, substring *)
Lemma has_prefix_spec s p : has_prefix s p = true <-> exists r, s = p +++ r.
Proof.
  revert s; induction p as [|a p IH]; intros s; simpl.
  - split; [intros _; now exists s|reflexivity].
  - destruct s as [|b s]; [split; [easy|intros [r Hr]; discriminate]|].
    rewrite andb_true_iff, Ascii.eqb_eq, IH. split.
    + intros [-> [r ->]]. now exists r.
    + intros [r Hr]. injection Hr as -> ->. split; [reflexivity|now exists r].
Qed.
Lemma has_prefix_app p r : has_prefix (p +++ r) p = true.
Proof. apply has_prefix_spec. now exists r. Qed.
Lemma has_prefix_false s p : has_prefix s p = false <-> forall r, s <> p +++ r.
Proof.
  split.
  - intros H r E. assert (has_prefix s p = true) by (apply has_prefix_spec; now exists r). congruence.
  - intros H. destruct (has_prefix s p) eqn:E; [|reflexivity].
    apply has_prefix_spec in E as [r E]. now apply H in E.
Qed.
Lemma has_suffix_spec s p : has_suffix s p = true <-> exists r, s = r +++ p.
Proof.
  unfold has_suffix. rewrite andb_true_iff, Nat.leb_le, String.eqb_eq. split.
  - intros [L E]. exists (stake (String.length s - String.length p) s).
    rewrite <- E at 2. now rewrite stake_sdrop.
  - intros [r ->]. rewrite slength_app.
    replace (String.length r + String.length p - String.length p) with (String.length r) by lia.
    rewrite sdrop_app_exact. split; [lia|reflexivity].
Qed.
Lemma has_suffix_app r p : has_suffix (r +++ p) p = true.
Proof. apply has_suffix_spec. now exists r. Qed.
Lemma trim_prefix_app p r : trim_prefix (p +++ r) p = r.
Proof. unfold trim_prefix. now rewrite has_prefix_app, sdrop_app_exact. Qed.
Lemma trim_suffix_app r p : trim_suffix (r +++ p) p = r.
Proof.
  unfold trim_suffix. rewrite has_suffix_app, slength_app.
  replace (String.length r + String.length p - String.length p) with (String.length r) by lia.
  apply stake_app_exact.
Qed.
Lemma contains_spec s sub : contains s sub = true <-> exists a b, s = a +++ sub +++ b.
Proof.
  induction s as [|c s IH]; cbn [contains].
  - rewrite orb_false_r, has_prefix_spec. split.
    + intros [r Hr]. exists EmptyString, r. exact Hr.
    + intros (a & b & H). symmetry in H. apply sapp_eq_nil in H as [-> H]. exists b. now symmetry.
  - rewrite orb_true_iff, has_prefix_spec, IH. split.
    + intros [[r Hr]|(a & b & H)].
      * exists EmptyString, r. exact Hr.
      * exists (String c a), b. simpl. now rewrite H.
    + intros (a & b & H). destruct a as [|x a]; simpl in H.
      * left. now exists b.
      * right. injection H as -> H. now exists a, b.
Qed.

(** ** Character-wise predicates *)
Lemma sforall_app f a b : sforall f (a +++ b) = sforall f a && sforall f b.
Proof. induction a as [|c a IH]; simpl; [reflexivity|now rewrite IH, andb_assoc]. Qed.
Lemma sexists_app f a b : sexists f (a +++ b) = sexists f a || sexists f b.
Proof. induction a as [|c a IH]; simpl; [reflexivity|now rewrite IH, orb_assoc]. Qed.
Lemma sforall_impl f g s : (forall c, f c = true -> g c = true) -> sforall f s = true -> sforall g s = true.
Proof.
  intros Hfg. induction s as [|c s IH]; simpl; [easy|].
  rewrite !andb_true_iff. intros [H1 H2]. auto.
Qed.
Lemma smap_app f a b : smap f (a +++ b) = smap f a +++ smap f b.
Proof. induction a as [|c a IH]; simpl; [reflexivity|now rewrite IH]. Qed.
Lemma smap_length f s : String.length (smap f s) = String.length s.
Proof. induction s; simpl; auto. Qed.
Lemma smap_smap f g s : smap f (smap g s) = smap (fun c => f (g c)) s.
Proof. induction s as [|c s IH]; simpl; [reflexivity|now rewrite IH]. Qed.
Lemma smap_ext f g s : (forall c, f c = g c) -> smap f s = smap g s.
Proof. intros H. induction s as [|c s IH]; simpl; [reflexivity|now rewrite H, IH]. Qed.
Lemma sforall_smap f g s : sforall f (smap g s) = sforall (fun c => f (g c)) s.
Proof. induction s as [|c s IH]; simpl; [reflexivity|now rewrite IH]. Qed.
Lemma sexists_false f s : sexists f s = false <-> sforall (fun c => negb (f c)) s = true.
Proof.
  induction s as [|c s IH]; simpl; [easy|].
  rewrite orb_false_iff, andb_true_iff, negb_true_iff, IH. easy.
Qed.

(** ** ASCII case facts, by exhaustive case analysis of the 256 bytes *)
Lemma lower_char_idem c : lower_char (lower_char c) = lower_char c.
Proof. all_ascii c; reflexivity. Qed.
Lemma upper_char_idem c : upper_char (upper_char c) = upper_char c.
Proof. all_ascii c; reflexivity. Qed.
Lemma lower_upper_char c : lower_char (upper_char c) = lower_char c.
Proof. all_ascii c; reflexivity. Qed.
Lemma upper_lower_char c : upper_char (lower_char c) = upper_char c.
Proof. all_ascii c; reflexivity. Qed.
Lemma lower_char_not_upper c : is_upper (lower_char c) = false.
Proof. all_ascii c; reflexivity. Qed.
Lemma upper_char_not_lower c : is_lower (upper_char c) = false.
Proof. all_ascii c; reflexivity. Qed.
Lemma lower_char_fix c : is_upper c = false <-> lower_char c = c.
Proof. all_ascii c; vm_compute; split; congruence. Qed.
Lemma upper_char_fix c : is_lower c = false <-> upper_char c = c.
Proof. all_ascii c; vm_compute; split; congruence. Qed.
Lemma to_lower_idem s : to_lower (to_lower s) = to_lower s.
Proof. unfold to_lower. rewrite smap_smap. apply smap_ext, lower_char_idem. Qed.
Lemma to_upper_idem s : to_upper (to_upper s) = to_upper s.
Proof. unfold to_upper. rewrite smap_smap. apply smap_ext, upper_char_idem. Qed.

(** ** Split and join *)
Lemma split_char_nonnil c s : split_char c s <> [].
Proof.
  destruct s as [|a s]; simpl; [discriminate|].
  destruct (Ascii.eqb a c); [discriminate|]. destruct (split_char c s); discriminate.
Qed.
Definition no_char (c : ascii) (s : string) : bool := sforall (fun a => negb (Ascii.eqb a c)) s.
Lemma split_char_parts c s : Forall (fun x => no_char c x = true) (split_char c s).
Proof.
  induction s as [|a s IH]; simpl; [now constructor|].
  destruct (Ascii.eqb a c) eqn:E.
  - now constructor.
  - destruct (split_char c s) as [|h t] eqn:Es.
    + constructor; [|constructor]. unfold no_char; simpl. now rewrite E.
    + inversion IH as [|? ? Hh Ht]; subst. constructor; [|assumption].
      unfold no_char in *; simpl. now rewrite E, Hh.
Qed.
Lemma join_cons2 sep x y l : join sep (x :: y :: l) = x +++ sep +++ join sep (y :: l).
Proof. reflexivity. Qed.
Lemma join_cons sep x l : l <> [] -> join sep (x :: l) = x +++ sep +++ join sep l.
Proof. now destruct l. Qed.
Lemma join_cons_char sep c h t : join sep (String c h :: t) = String c (join sep (h :: t)).
Proof. destruct t; reflexivity. Qed.
Lemma join_split c s : join (String c EmptyString) (split_char c s) = s.
Proof.
  induction s as [|a s IH]; [reflexivity|]. cbn [split_char].
  destruct (Ascii.eqb a c) eqn:E.
  - apply Ascii.eqb_eq in E as ->.
    rewrite join_cons by apply split_char_nonnil. simpl. now rewrite IH.
  - destruct (split_char c s) as [|h t] eqn:Es; [now apply split_char_nonnil in Es|].
    rewrite join_cons_char. now rewrite IH.
Qed.
Lemma split_char_no c s : no_char c s = true -> split_char c s = [s].
Proof.
  induction s as [|a s IH]; [reflexivity|]. unfold no_char; simpl.
  rewrite andb_true_iff, negb_true_iff. intros [E H]. rewrite E, (IH H). reflexivity.
Qed.
Lemma split_char_app c a b : no_char c a = true ->
  split_char c (a +++ String c b) = a :: split_char c b.
Proof.
  induction a as [|x a IH]; simpl.
  - intros _. now rewrite Ascii.eqb_refl.
  - unfold no_char; simpl. rewrite andb_true_iff, negb_true_iff. intros [E H].
    rewrite E, (IH H). reflexivity.
Qed.
Lemma split_join c l : l <> [] -> Forall (fun x => no_char c x = true) l ->
  split_char c (join (String c EmptyString) l) = l.
Proof.
  induction l as [|x l IH]; [easy|]. intros _ H. inversion H as [|? ? Hx Hl]; subst.
  destruct l as [|y l]; [now apply split_char_no|].
  rewrite join_cons2. change (String c EmptyString +++ join (String c EmptyString) (y :: l))
    with (String c (join (String c EmptyString) (y :: l))).
  rewrite split_char_app by assumption.
  f_equal. now apply IH.
Qed.
Lemma no_char_app c a b : no_char c (a +++ b) = no_char c a && no_char c b.
Proof. apply sforall_app. Qed.

(** ** Trimming *)
Lemma trim_left_spec f s : exists p, s = p +++ trim_left f s /\ sforall f p = true.
Proof.
  induction s as [|c s [p [Hp Hf]]]; simpl; [now exists EmptyString|].
  destruct (f c) eqn:E.
  - exists (String c p). simpl. rewrite E, <- Hp. easy.
  - now exists EmptyString.
Qed.
Lemma trim_right_spec f s : exists p, s = trim_right f s +++ p /\ sforall f p = true.
Proof.
  induction s as [|c s [p [Hp Hf]]]; simpl; [now exists EmptyString|].
  destruct (trim_right f s) as [|d r] eqn:Er.
  - simpl in Hp. destruct (f c) eqn:E.
    + exists (String c p). simpl. rewrite E, Hp. easy.
    + exists p. simpl. rewrite Hp. easy.
  - exists p. simpl in *. rewrite Hp. easy.
Qed.
Definition last_char (s : string) : option ascii :=
  match srev s with EmptyString => None | String c _ => Some c end.
Definition first_char (s : string) : option ascii :=
  match s with EmptyString => None | String c _ => Some c end.
Lemma srev_app_spec s acc : srev_app s acc = srev s +++ acc.
Proof.
  unfold srev. revert acc; induction s as [|c s IH]; intros acc; simpl; [reflexivity|].
  rewrite IH, (IH (String c EmptyString)), sapp_assoc. reflexivity.
Qed.
Lemma srev_cons c s : srev (String c s) = srev s +++ String c EmptyString.
Proof. unfold srev at 1. simpl. apply srev_app_spec. Qed.
Lemma srev_sapp a b : srev (a +++ b) = srev b +++ srev a.
Proof.
  induction a as [|c a IH]; simpl; [now rewrite sapp_nil_r|].
  now rewrite !srev_cons, IH, sapp_assoc.
Qed.
Lemma srev_involutive s : srev (srev s) = s.
Proof. induction s as [|c s IH]; [reflexivity|]. now rewrite srev_cons, srev_sapp, IH. Qed.
Lemma last_char_app a c : last_char (a +++ String c EmptyString) = Some c.
Proof. unfold last_char. now rewrite srev_sapp. Qed.
Lemma last_char_cons c d s : last_char (String c (String d s)) = last_char (String d s).
Proof.
  unfold last_char. rewrite (srev_cons c). destruct (srev (String d s)) eqn:E; [|reflexivity].
  apply (f_equal srev) in E. rewrite srev_involutive in E. discriminate.
Qed.
Lemma last_char_app_r a b : b <> EmptyString -> last_char (a +++ b) = last_char b.
Proof.
  intros Hb. unfold last_char. rewrite srev_sapp.
  destruct (srev b) eqn:E; [|reflexivity].
  apply (f_equal srev) in E. rewrite srev_involutive in E. now subst.
Qed.
Lemma first_char_app a b : a <> EmptyString -> first_char (a +++ b) = first_char a.
Proof. now destruct a. Qed.
Lemma trim_right_last f s c : last_char (trim_right f s) = Some c -> f c = false.
Proof.
  revert c; induction s as [|a s IH]; intros c; simpl; [discriminate|].
  destruct (trim_right f s) as [|d r] eqn:Er.
  - destruct (f a) eqn:E; [discriminate|]. intros H. vm_compute in H. congruence.
  - rewrite last_char_cons. auto.
Qed.
Lemma trim_left_first f s c : first_char (trim_left f s) = Some c -> f c = false.
Proof.
  induction s as [|a s IH]; simpl; [discriminate|].
  destruct (f a) eqn:E; [auto|]. simpl. congruence.
Qed.
Lemma trim_right_first f s c : first_char (trim_right f s) = Some c -> first_char s = Some c.
Proof.
  destruct s as [|a s]; simpl; [discriminate|].
  destruct (trim_right f s); [destruct (f a); simpl; congruence|simpl; congruence].
Qed.
Lemma trim_right_all f s : sforall f s = true -> trim_right f s = EmptyString.
Proof.
  induction s as [|c s IH]; simpl; [easy|]. rewrite andb_true_iff. intros [Hc Hs].
  now rewrite (IH Hs), Hc.
Qed.
Lemma trim_left_all f s : sforall f s = true -> trim_left f s = EmptyString.
Proof.
  induction s as [|c s IH]; simpl; [easy|]. rewrite andb_true_iff. intros [Hc Hs].
  rewrite Hc. auto.
Qed.
Lemma trim_right_app f a b : sforall f b = true -> trim_right f (a +++ b) = trim_right f a.
Proof.
  intros Hb. induction a as [|c a IH]; simpl; [now apply trim_right_all|now rewrite IH].
Qed.
Lemma trim_right_app_keep f a c :
  f c = false -> trim_right f (a +++ String c EmptyString) = a +++ String c EmptyString.
Proof.
  intros Hc. induction a as [|x a IH]; simpl; [now rewrite Hc|].
  rewrite IH. destruct (a +++ String c EmptyString) eqn:E; [|reflexivity].
  apply sapp_eq_nil in E. easy.
Qed.
Lemma trim_right_id f s : (forall c, last_char s = Some c -> f c = false) -> trim_right f s = s.
Proof.
  intros H. rewrite <- (srev_involutive s). unfold last_char in H.
  destruct (srev s) as [|c r]; [reflexivity|].
  rewrite srev_cons. apply trim_right_app_keep. now apply H.
Qed.
Lemma trim_left_id f s : (forall c, first_char s = Some c -> f c = false) -> trim_left f s = s.
Proof. destruct s as [|c s]; simpl; [reflexivity|]. intros H. now rewrite (H c eq_refl). Qed.
Lemma trim_left_app f a b : sforall f a = true -> trim_left f (a +++ b) = trim_left f b.
Proof.
  induction a as [|c a IH]; simpl; [easy|]. rewrite andb_true_iff. intros [Hc Ha].
  now rewrite Hc, IH.
Qed.
Lemma trim_space_first s c : first_char (trim_space s) = Some c -> is_space c = false.
Proof. unfold trim_space. intros H. apply trim_right_first in H. now apply trim_left_first in H. Qed.
Lemma trim_space_last s c : last_char (trim_space s) = Some c -> is_space c = false.
Proof. apply trim_right_last. Qed.
Lemma trim_space_nil s : sforall is_space s = true -> trim_space s = EmptyString.
Proof. intros H. unfold trim_space. now rewrite trim_left_all. Qed.
Lemma trim_space_idem s : trim_space (trim_space s) = trim_space s.
Proof.
  unfold trim_space at 1. rewrite trim_left_id; [apply trim_right_id, trim_space_last|apply trim_space_first].
Qed.

(** ** The bytewise order *)
Lemma code_inj a b : code a = code b -> a = b.
Proof.
  unfold code. intros H. apply (f_equal ascii_of_nat) in H. now rewrite !ascii_nat_embedding in H.
Qed.
Lemma str_leb_refl a : str_leb a a = true.
Proof. induction a as [|x a IH]; simpl; [easy|]. now rewrite Nat.ltb_irrefl. Qed.
Lemma str_leb_total a b : str_leb a b = true \/ str_leb b a = true.
Proof.
  revert b; induction a as [|x a IH]; intros [|y b]; simpl; auto.
  destruct (code x <? code y) eqn:E1; [auto|].
  destruct (code y <? code x) eqn:E2; auto.
Qed.
Lemma str_leb_trans a b c : str_leb a b = true -> str_leb b c = true -> str_leb a c = true.
Proof.
  revert b c; induction a as [|x a IH]; intros [|y b] [|z c]; simpl; try easy.
  destruct (code x <? code y) eqn:E1; destruct (code y <? code x) eqn:E2;
  destruct (code y <? code z) eqn:E3; destruct (code z <? code y) eqn:E4;
  destruct (code x <? code z) eqn:E5; destruct (code z <? code x) eqn:E6;
  rewrite ?Nat.ltb_lt, ?Nat.ltb_ge in *; try easy; try lia.
  apply IH.
Qed.
Lemma str_leb_antisym a b : str_leb a b = true -> str_leb b a = true -> a = b.
Proof.
  revert b; induction a as [|x a IH]; intros [|y b]; simpl; try easy.
  destruct (code x <? code y) eqn:E1; destruct (code y <? code x) eqn:E2;
  rewrite ?Nat.ltb_lt, ?Nat.ltb_ge in *; try easy; try lia.
  intros H1 H2. rewrite (IH _ H1 H2). f_equal. apply code_inj. lia.
Qed.
Lemma str_ltb_irrefl a : str_ltb a a = false.
Proof. unfold str_ltb. now rewrite str_leb_refl. Qed.
Lemma str_ltb_leb a b : str_ltb a b = true -> str_leb a b = true.
Proof.
  unfold str_ltb. rewrite negb_true_iff. intros H. destruct (str_leb_total a b); congruence.
Qed.
Lemma str_ltb_trans a b c : str_ltb a b = true -> str_ltb b c = true -> str_ltb a c = true.
Proof.
  unfold str_ltb. rewrite !negb_true_iff. intros H1 H2.
  destruct (str_leb c a) eqn:E; [|reflexivity].
  destruct (str_leb_total a b) as [Hab|Hab]; [|congruence].
  rewrite (str_leb_trans c a b E Hab) in H2. discriminate.
Qed.
Lemma str_ltb_neq a b : str_ltb a b = true -> a <> b.
Proof. intros H ->. now rewrite str_ltb_irrefl in H. Qed.

(** ** Insertion sort *)
Section SortFacts.
  Context {A : Type} (leb : A -> A -> bool).
  Notation le := (fun a b => leb a b = true).
  Hypothesis Htotal : forall a b, leb a b = true \/ leb b a = true.
  Hypothesis Htrans : forall a b c, leb a b = true -> leb b c = true -> leb a c = true.

  Lemma insert_perm x l : Permutation (x :: l) (insert leb x l).
  Proof using.
    induction l as [|y l IH]; simpl; [reflexivity|].
    destruct (leb x y); [reflexivity|].
    rewrite perm_swap. now constructor.
  Qed.
  Lemma isort_perm l : Permutation l (isort leb l).
  Proof using.
    induction l as [|x l IH]; simpl; [constructor|].
    rewrite <- insert_perm. now constructor.
  Qed.
  Lemma insert_sorted x l : StronglySorted le l -> StronglySorted le (insert leb x l).
  Proof using Htotal Htrans.
    induction l as [|y l IH]; simpl; intros Hs; [repeat constructor|].
    inversion Hs as [|? ? Hl Hy]; subst.
    destruct (leb x y) eqn:E.
    - constructor; [assumption|]. constructor; [assumption|].
      eapply Forall_impl; [|exact Hy]. intros a Ha. eauto.
    - constructor; [auto|].
      apply (Permutation_Forall (insert_perm x l)). constructor; [|assumption].
      destruct (Htotal y x) as [H|H]; [exact H|congruence].
  Qed.
  Lemma isort_sorted l : StronglySorted le (isort leb l).
  Proof using Htotal Htrans.
    induction l as [|x l IH]; simpl; [constructor|]. now apply insert_sorted.
  Qed.
  (** With an antisymmetric order, a sorted permutation is unique: the result of
      sorting depends on the multiset of elements only. *)
  Lemma sorted_perm_unique :
    (forall a b, leb a b = true -> leb b a = true -> a = b) ->
    forall l1 l2, StronglySorted le l1 -> StronglySorted le l2 -> Permutation l1 l2 -> l1 = l2.
  Proof using.
    intros Hanti. induction l1 as [|x l1 IH]; intros l2 S1 S2 P.
    - now apply Permutation_nil in P.
    - destruct l2 as [|y l2]; [symmetry in P; now apply Permutation_nil in P|].
      inversion S1 as [|? ? S1' F1]; subst. inversion S2 as [|? ? S2' F2]; subst.
      assert (x = y) as ->.
      { assert (In x (y :: l2)) as Hx by (rewrite <- P; now left).
        assert (In y (x :: l1)) as Hy by (rewrite P; now left).
        destruct Hx as [->|Hx]; [reflexivity|]. destruct Hy as [->|Hy]; [reflexivity|].
        rewrite Forall_forall in F1, F2. apply Hanti; auto. }
      f_equal. apply IH; auto. now apply Permutation_cons_inv in P.
  Qed.
  Lemma isort_unique :
    (forall a b, leb a b = true -> leb b a = true -> a = b) ->
    forall l1 l2, Permutation l1 l2 -> isort leb l1 = isort leb l2.
  Proof using Htotal Htrans.
    intros Hanti l1 l2 P. apply sorted_perm_unique; auto using isort_sorted.
    rewrite <- (isort_perm l1), <- (isort_perm l2). exact P.
  Qed.
  Lemma isort_id l : StronglySorted le l -> isort leb l = l.
  Proof using.
    induction l as [|x l IH]; intros S; [reflexivity|].
    inversion S as [|? ? S' F]; subst. simpl. rewrite (IH S').
    destruct l as [|y l]; [reflexivity|]. simpl.
    inversion F as [|? ? Hxy ?]; subst. now rewrite Hxy.
  Qed.
End SortFacts.

Lemma sort_strings_perm l : Permutation l (sort_strings l).
Proof. apply isort_perm. Qed.
Lemma sort_strings_sorted l : StronglySorted (fun a b => str_leb a b = true) (sort_strings l).
Proof. apply isort_sorted; [apply str_leb_total|apply str_leb_trans]. Qed.
Lemma sort_strings_unique l1 l2 : Permutation l1 l2 -> sort_strings l1 = sort_strings l2.
Proof. apply isort_unique; [apply str_leb_total|apply str_leb_trans|apply str_leb_antisym]. Qed.
Lemma sort_strings_In x l : In x (sort_strings l) <-> In x l.
Proof. split; apply Permutation_in; [symmetry|]; apply sort_strings_perm. Qed.

(** ** Membership, deduplication *)
Lemma mem_In s l : mem s l = true <-> In s l.
Proof.
  unfold mem. rewrite existsb_exists. split.
  - intros (x & Hx & E). apply String.eqb_eq in E. now subst.
  - intros H. exists s. split; [assumption|apply String.eqb_refl].
Qed.
Lemma mem_false s l : mem s l = false <-> ~ In s l.
Proof. rewrite <- mem_In. destruct (mem s l); split; congruence. Qed.
Lemma dedup_In x l : In x (dedup l) <-> In x l.
Proof.
  induction l as [|y l IH]; simpl; [easy|].
  destruct (mem y l) eqn:E.
  - rewrite IH. split; [auto|]. intros [->|H]; [now apply mem_In|assumption].
  - simpl. now rewrite IH.
Qed.
Lemma dedup_NoDup l : NoDup (dedup l).
Proof.
  induction l as [|y l IH]; simpl; [constructor|].
  destruct (mem y l) eqn:E; [assumption|]. constructor; [|assumption].
  rewrite dedup_In. now apply mem_false.
Qed.
Lemma dedup_id l : NoDup l -> dedup l = l.
Proof.
  induction l as [|x l IH]; intros H; [reflexivity|]. inversion H as [|? ? Hx Hl]; subst. simpl.
  apply mem_false in Hx. now rewrite Hx, IH.
Qed.
(** ** Maps *)
Section MapFacts.
  Context {V : Type}.
  Implicit Type m : list (string * V).
  Lemma mget_mset_eq k v m : mget k (mset k v m) = Some v.
  Proof.
    induction m as [|[k' v'] m IH]; simpl; [now rewrite seqb_refl|].
    destruct (String.eqb k k') eqn:E; simpl; [now rewrite seqb_refl|now rewrite E].
  Qed.
  Lemma mget_mset_neq k k' v m : k <> k' -> mget k (mset k' v m) = mget k m.
  Proof.
    intros Hk. apply String.eqb_neq in Hk.
    induction m as [|[k2 v2] m IH]; simpl; [now rewrite Hk|].
    destruct (String.eqb k' k2) eqn:E; simpl.
    - apply String.eqb_eq in E as <-. now rewrite Hk.
    - destruct (String.eqb k k2); auto.
  Qed.
  Lemma mget_In k v m : mget k m = Some v -> In (k, v) m.
  Proof.
    induction m as [|[k' v'] m IH]; simpl; [discriminate|].
    destruct (String.eqb k k') eqn:E; [|auto].
    apply String.eqb_eq in E as <-. intros H; injection H as <-. now left.
  Qed.
  Lemma In_mget k v m : NoDup (mkeys m) -> In (k, v) m -> mget k m = Some v.
  Proof.
    induction m as [|[k' v'] m IH]; simpl; [easy|]. intros Hn Hin.
    inversion Hn as [|? ? Hk Hn']; subst. destruct Hin as [E|Hin].
    - injection E as -> ->. now rewrite seqb_refl.
    - destruct (String.eqb k k') eqn:E; [|auto].
      apply String.eqb_eq in E as <-. exfalso. apply Hk. now apply (in_map fst) in Hin.
  Qed.
  Lemma mget_None k m : mget k m = None <-> ~ In k (mkeys m).
  Proof.
    induction m as [|[k' v'] m IH]; simpl; [easy|].
    destruct (String.eqb k k') eqn:E.
    - apply String.eqb_eq in E as <-. split; [discriminate|]. intros H. exfalso. apply H. now left.
    - apply String.eqb_neq in E. rewrite IH. split; [intros H [->|H']; tauto|tauto].
  Qed.
  Lemma mget_Some_key k v m : mget k m = Some v -> In k (mkeys m).
  Proof. intros H. apply mget_In in H. now apply (in_map fst) in H. Qed.
  Lemma mkeys_mget k m : In k (mkeys m) -> exists v, mget k m = Some v.
  Proof.
    intros H. destruct (mget k m) eqn:E; [eauto|]. now apply mget_None in E.
  Qed.
  Lemma mset_keys k v m x : In x (mkeys (mset k v m)) <-> x = k \/ In x (mkeys m).
  Proof.
    induction m as [|[k' v'] m IH]; simpl; [intuition|].
    destruct (String.eqb k k') eqn:E; simpl.
    - apply String.eqb_eq in E as <-. intuition.
    - rewrite IH. intuition.
  Qed.
  Lemma mset_NoDup k v m : NoDup (mkeys m) -> NoDup (mkeys (mset k v m)).
  Proof.
    induction m as [|[k' v'] m IH]; simpl; intros H; [repeat constructor; easy|].
    inversion H as [|? ? Hk Hn]; subst.
    destruct (String.eqb k k') eqn:E; simpl.
    - apply String.eqb_eq in E as <-. now constructor.
    - constructor; [|auto]. rewrite mset_keys. intros [->|H']; [|auto].
      now rewrite seqb_refl in E.
  Qed.
  Lemma mget_perm k m1 m2 : NoDup (mkeys m1) -> Permutation m1 m2 -> mget k m1 = mget k m2.
  Proof.
    intros Hn P. assert (NoDup (mkeys m2)) as Hn2.
    { eapply Permutation_NoDup; [|exact Hn]. unfold mkeys. now apply Permutation_map. }
    destruct (mget k m1) as [v|] eqn:E1.
    - symmetry. apply In_mget; [assumption|]. rewrite <- P. now apply mget_In.
    - symmetry. apply mget_None. apply mget_None in E1. intros H. apply E1.
      unfold mkeys in *. now rewrite P.
  Qed.
End MapFacts.
