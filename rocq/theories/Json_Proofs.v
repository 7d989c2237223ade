(** Proofs about Json_Model against Json_Spec. *)
From Verif Require Export GoStrFacts Json_Model Json_Spec Strs_Spec Protostrs_Proofs.
From Coq Require Import Lia ZifyN ZifyNat ZifyBool.
Open Scope N_scope.

(** ** Bytes *)
Lemma byte_small c : byte c < 256. Proof. apply N_ascii_bounded. Qed.
Lemma octet_byte c : octet (byte c) = c. Proof. apply ascii_N_embedding. Qed.
Lemma byte_octet n : n < 256 -> byte (octet n) = n. Proof. apply N_ascii_embedding. Qed.
Lemma octet_eq c n : byte c = n -> c = octet n. Proof. intros <-. symmetry. apply octet_byte. Qed.
Lemma eqb_byte a b : Ascii.eqb a b = (byte a =? byte b).
Proof.
  destruct (Ascii.eqb_spec a b) as [->|H]; [now rewrite N.eqb_refl|]. symmetry. apply N.eqb_neq.
  intros E. apply H. rewrite <- (octet_byte a), E. apply octet_byte.
Qed.
Lemma code_byte c : code c = N.to_nat (byte c). Proof. reflexivity. Qed.

(** ** UTF-8 *)
Ltac divs := rewrite ?andb_true_iff, ?N.leb_le; zify; Z.to_euclidean_division_equations; lia.
Lemma utf8_one a : byte a < 128 -> String a "" = utf8 (byte a).
Proof. intros H. unfold utf8. destruct (N.ltb_spec (byte a) 128); [now rewrite octet_byte|lia]. Qed.
Lemma utf8_two a b : two_bytes a b = true -> exists n, character n /\ 128 <= n < 2048 /\ String a (String b "") = utf8 n.
Proof.
  unfold two_bytes, more, in_bytes. intros H. exists ((byte a - 192) * 64 + (byte b - 128)).
  assert (B : 194 <= byte a <= 223 /\ 128 <= byte b <= 191) by lia.
  set (n := (byte a - 192) * 64 + (byte b - 128)).
  assert (Hn : 128 <= n < 2048) by (unfold n; lia).
  split; [unfold character; lia|]. split; [exact Hn|]. unfold utf8.
  destruct (N.ltb_spec n 128); [lia|]. destruct (N.ltb_spec n 2048); [|lia].
  rewrite <- (octet_eq a (192 + n / 64)), <- (octet_eq b (128 + n mod 64)); [reflexivity| |]; unfold n; divs.
Qed.
Lemma utf8_three a b c : three_bytes a b c = true -> exists n, character n /\ 2048 <= n < 65536 /\ String a (String b (String c "")) = utf8 n
  /\ n = (byte a - 224) * 4096 + (byte b - 128) * 64 + (byte c - 128).
Proof.
  unfold three_bytes, more, in_bytes. intros H. exists ((byte a - 224) * 4096 + (byte b - 128) * 64 + (byte c - 128)).
  assert (B : 224 <= byte a <= 239 /\ 128 <= byte b <= 191 /\ 128 <= byte c <= 191 /\ (byte a = 224 -> 160 <= byte b) /\ (byte a = 237 -> byte b <= 159)).
  { destruct (N.eqb_spec (byte a) 224); [lia|]. destruct (N.eqb_spec (byte a) 237); lia. }
  clear H. set (n := (byte a - 224) * 4096 + (byte b - 128) * 64 + (byte c - 128)).
  assert (Hn : 2048 <= n < 65536) by (unfold n; lia).
  split; [unfold character, n; lia|]. split; [exact Hn|]. split; [|reflexivity]. unfold utf8.
  destruct (N.ltb_spec n 128); [lia|]. destruct (N.ltb_spec n 2048); [lia|]. destruct (N.ltb_spec n 65536); [|lia].
  rewrite <- (octet_eq a (224 + n / 4096)), <- (octet_eq b (128 + (n / 64) mod 64)), <- (octet_eq c (128 + n mod 64)); [reflexivity| | |]; unfold n; divs.
Qed.
Lemma utf8_four a b c d : four_bytes a b c d = true -> exists n, character n /\ 65536 <= n /\ String a (String b (String c (String d ""))) = utf8 n.
Proof.
  unfold four_bytes, more, in_bytes. intros H.
  assert (B : 240 <= byte a <= 244 /\ 128 <= byte b <= 191 /\ 128 <= byte c <= 191 /\ 128 <= byte d <= 191 /\ (byte a = 240 -> 144 <= byte b) /\ (byte a = 244 -> byte b <= 143)).
  { destruct (N.eqb_spec (byte a) 240); [lia|]. destruct (N.eqb_spec (byte a) 244); lia. }
  clear H. set (n := (byte a - 240) * 262144 + (byte b - 128) * 4096 + (byte c - 128) * 64 + (byte d - 128)).
  assert (Hn : 65536 <= n < 1114112) by (unfold n; lia). exists n.
  split; [unfold character; lia|]. split; [lia|]. unfold utf8.
  destruct (N.ltb_spec n 128); [lia|]. destruct (N.ltb_spec n 2048); [lia|]. destruct (N.ltb_spec n 65536); [lia|].
  rewrite <- (octet_eq a (240 + n / 262144)), <- (octet_eq b (128 + (n / 4096) mod 64)), <- (octet_eq c (128 + (n / 64) mod 64)), <- (octet_eq d (128 + n mod 64)); [reflexivity| | | |]; unfold n; divs.
Qed.
Ltac heads E := cbn [append] in E; match type of E with String ?a ?s = String ?x ?t =>
  let H1 := fresh in let H2 := fresh in assert (H1 : a = x) by congruence; assert (H2 : s = t) by congruence; rewrite H1, H2; clear E H1 H2 end.
Lemma utf8_starts n a s r : character n -> String a s = utf8 n +++ r ->
  (byte a < 128 /\ s = r) \/ (exists b, two_bytes a b = true /\ s = String b r) \/
  (exists b c, three_bytes a b c = true /\ s = String b (String c r)) \/ (exists b c d, four_bytes a b c d = true /\ s = String b (String c (String d r))).
Proof.
  unfold character, utf8. intros Hn E. destruct (N.ltb_spec n 128) as [L|L]; [|destruct (N.ltb_spec n 2048) as [L2|L2]; [|destruct (N.ltb_spec n 65536) as [L3|L3]]].
  - left. heads E. split; [rewrite byte_octet; lia|reflexivity].
  - right; left. heads E. eexists. split; [|reflexivity]. unfold two_bytes, more, in_bytes. rewrite !byte_octet by divs. divs.
  - right; right; left. heads E. eexists _, _. split; [|reflexivity]. unfold three_bytes, more, in_bytes. rewrite !byte_octet by divs.
    destruct (N.eqb_spec (224 + n / 4096) 224); [divs|]. destruct (N.eqb_spec (224 + n / 4096) 237); divs.
  - right; right; right. heads E. eexists _, _, _. split; [|reflexivity]. unfold four_bytes, more, in_bytes. rewrite !byte_octet by divs.
    destruct (N.eqb_spec (240 + n / 262144) 240); [divs|]. destruct (N.eqb_spec (240 + n / 262144) 244); divs.
Qed.
(** What a text starts with, and what becomes of it. *)
Definition kept_or_escaped (x y : string) (n : N) : Prop := y = x \/ (n = 8232 /\ y = String backslash "u2028") \/ (n = 8233 /\ y = String backslash "u2029").
Inductive step : string -> Prop :=
| step_ascii a s : byte a < 128 -> json_chars (String a s) = json_char a +++ json_chars s -> step (String a s)
| step_char n s y : character n -> 128 <= n -> (exists a x, utf8 n = String a x /\ 128 <= byte a) -> kept_or_escaped (utf8 n) y n -> json_chars (utf8 n +++ s) = y +++ json_chars s -> step (utf8 n +++ s)
| step_byte a s : (forall n r, character n -> String a s <> utf8 n +++ r) -> json_chars (String a s) = String backslash ("ufffd" +++ json_chars s) -> step (String a s).
Lemma one_step a s : step (String a s).
Proof.
  destruct (byte a <? 128) eqn:A; [apply step_ascii; [lia|cbn [json_chars]; now rewrite A]|].
  assert (Two : forall b, two_bytes a b = true -> 194 <= byte a <= 223) by (unfold two_bytes, more, in_bytes; lia).
  assert (Three : forall b c, three_bytes a b c = true -> 224 <= byte a <= 239).
  { unfold three_bytes, more, in_bytes. intros b c. destruct (N.eqb_spec (byte a) 224); [lia|]. destruct (N.eqb_spec (byte a) 237); lia. }
  assert (Four : forall b c d, four_bytes a b c d = true -> 240 <= byte a <= 244).
  { unfold four_bytes, more, in_bytes. intros b c d. destruct (N.eqb_spec (byte a) 240); [lia|]. destruct (N.eqb_spec (byte a) 244); lia. }
  assert (Bad : (forall b s2, s = String b s2 -> two_bytes a b = false) -> (forall b c s3, s = String b (String c s3) -> three_bytes a b c = false) ->
    (forall b c d s4, s = String b (String c (String d s4)) -> four_bytes a b c d = false) -> step (String a s)).
  { intros B2 B3 B4. apply step_byte.
    - intros n r Hn E. destruct (utf8_starts n a s r Hn E) as [(H & _)|[(b & H & Es)|[(b & c & H & Es)|(b & c & d & H & Es)]]]; [lia| | |].
      + rewrite (B2 _ _ Es) in H. discriminate H.
      + rewrite (B3 _ _ _ Es) in H. discriminate H.
      + rewrite (B4 _ _ _ _ Es) in H. discriminate H.
    - cbn [json_chars]. rewrite A. destruct s as [|b [|c [|d s4]]]; [reflexivity| | |]; rewrite (B2 _ _ eq_refl); try reflexivity; rewrite (B3 _ _ _ eq_refl); try reflexivity. now rewrite (B4 _ _ _ _ eq_refl). }
  destruct s as [|b s2]; [apply Bad; intros; discriminate|].
  destruct (two_bytes a b) eqn:T2.
  { destruct (utf8_two a b T2) as (n & Hn & Rn & U). change (String a (String b s2)) with (String a (String b "") +++ s2). rewrite U.
    apply (step_char n s2 (utf8 n)); [exact Hn|lia|exists a, (String b ""); split; [now rewrite U|lia]|now left|]. rewrite <- U. cbn [append json_chars]. now rewrite A, T2. }
  destruct s2 as [|c s3].
  { apply Bad; intros; try discriminate. injection H as <- <-. exact T2. }
  destruct (three_bytes a b c) eqn:T3.
  { destruct (utf8_three a b c T3) as (n & Hn & Rn & U & V). change (String a (String b (String c s3))) with (String a (String b (String c "")) +++ s3). rewrite U.
    assert (W : exists a0 x, utf8 n = String a0 x /\ 128 <= byte a0) by (exists a, (String b (String c "")); split; [now rewrite U|lia]).
    destruct (separator a b c) eqn:Sp.
    - assert (B : byte a = 226 /\ byte b = 128 /\ (byte c = 168 \/ byte c = 169)) by (unfold separator, in_bytes in Sp; lia).
      destruct B as (B1 & B2 & [B3|B3]).
      + apply (step_char n s3 (String backslash "u2028")); [exact Hn|lia|exact W|right; left; split; [lia|reflexivity]|]. rewrite <- U. cbn [append json_chars]. rewrite A, T2, T3, Sp, code_byte, B3. reflexivity.
      + apply (step_char n s3 (String backslash "u2029")); [exact Hn|lia|exact W|right; right; split; [lia|reflexivity]|]. rewrite <- U. cbn [append json_chars]. rewrite A, T2, T3, Sp, code_byte, B3. reflexivity.
    - apply (step_char n s3 (utf8 n)); [exact Hn|lia|exact W|now left|]. rewrite <- U. cbn [append json_chars]. now rewrite A, T2, T3, Sp. }
  destruct s3 as [|d s4].
  { apply Bad; intros; try discriminate; [injection H as <- <-; exact T2|injection H as <- <- <-; exact T3]. }
  destruct (four_bytes a b c d) eqn:T4.
  { destruct (utf8_four a b c d T4) as (n & Hn & Rn & U). change (String a (String b (String c (String d s4)))) with (String a (String b (String c (String d ""))) +++ s4). rewrite U.
    apply (step_char n s4 (utf8 n)); [exact Hn|lia|exists a, (String b (String c (String d ""))); split; [now rewrite U|specialize (Four b c d T4); lia]|now left|]. rewrite <- U. cbn [append json_chars]. now rewrite A, T2, T3, T4. }
  apply Bad; intros; [injection H as <- <-; exact T2|injection H as <- <- <-; exact T3|injection H as <- <- <- <-; exact T4].
Qed.

(** ** Reading strings *)
Lemma read_ascii a rest : byte a < 128 -> read_chars (json_char a +++ rest) = put (String a "") (read_chars rest).
Proof. destruct a as [[] [] [] [] [] [] [] []]; intros H; try discriminate H; reflexivity. Qed.
Lemma put_put x y r : put x (put y r) = put (x +++ y) r.
Proof. destruct r as [(t, rest)|]; cbn [put]; [now rewrite sapp_assoc|reflexivity]. Qed.
Fixpoint high (s : string) : Prop := match s with EmptyString => True | String c s => 128 <= byte c /\ high s end.
Lemma put_none r : put "" r = r. Proof. now destruct r as [(t, rest)|]. Qed.
Lemma read_high x rest : high x -> read_chars (x +++ rest) = put x (read_chars rest).
Proof.
  induction x as [|c x IH]; intros H; [now rewrite put_none|]. destruct H as (Hc & Hx). cbn [append read_chars]. rewrite !eqb_byte.
  change (byte quotation) with 34. change (byte reverse_solidus) with 92. change (N_of_ascii c) with (byte c).
  destruct (N.eqb_spec (byte c) 34); [lia|]. destruct (N.eqb_spec (byte c) 92); [lia|]. destruct (N.ltb_spec (byte c) 32); [lia|].
  rewrite (IH Hx), put_put. reflexivity.
Qed.
Lemma utf8_high n : character n -> 128 <= n -> high (utf8 n).
Proof.
  unfold character, utf8. intros Hc Hn. destruct (N.ltb_spec n 128); [lia|].
  destruct (N.ltb_spec n 2048); [|destruct (N.ltb_spec n 65536)]; cbn [high]; repeat split; rewrite byte_octet; divs.
Qed.
Lemma read_step n y rest : character n -> 128 <= n -> kept_or_escaped (utf8 n) y n -> read_chars (y +++ rest) = put (utf8 n) (read_chars rest).
Proof.
  intros Hc Hn [->|[(-> & ->)|(-> & ->)]]; [apply read_high, utf8_high; assumption|reflexivity|reflexivity].
Qed.
Lemma shorter_ind (P : string -> Prop) : (forall s, (forall t, (String.length t < String.length s)%nat -> P t) -> P s) -> forall s, P s.
Proof. intros H s. apply (well_founded_ind (Wf_nat.well_founded_ltof _ String.length)). intros x IH. apply H. exact IH. Qed.
Lemma utf8_nonempty n : (0 < String.length (utf8 n))%nat.
Proof. unfold utf8. destruct (n <? 128); [cbn; lia|]. destruct (n <? 2048); [cbn; lia|]. destruct (n <? 65536); cbn; lia. Qed.
Lemma json_chars_read s : exists t, legible s t /\ forall rest, read_chars (json_chars s +++ String dquote rest) = Some (t, rest).
Proof.
  induction s as [s IH] using shorter_ind. destruct s as [|a s]; [exists ""; split; [constructor|reflexivity]|].
  pose proof (one_step a s) as St. revert IH St. generalize (String a s). clear a s. intros x IH St. destruct St as [a s A E|n s y Hc Hn _ K E|a s B E].
  - destruct (IH s ltac:(cbn; lia)) as (t & L & R). exists (String a "" +++ t). split.
    + change (String a s) with (String a "" +++ s). rewrite (utf8_one a A). constructor; [unfold character; lia|exact L].
    + intros rest. rewrite E, sapp_assoc, (read_ascii a _ A), R. reflexivity.
  - destruct (IH s) as (t & L & R). { rewrite slength_app. pose proof (utf8_nonempty n). lia. }
    exists (utf8 n +++ t). split; [now constructor|]. intros rest. rewrite E, sapp_assoc, (read_step n y _ Hc Hn K), R. reflexivity.
  - destruct (IH s ltac:(cbn; lia)) as (t & L & R). exists (utf8 65533 +++ t). split; [now constructor|].
    intros rest. rewrite E. change (String backslash ("ufffd" +++ json_chars s) +++ String dquote rest) with (String backslash "ufffd" +++ (json_chars s +++ String dquote rest)).
    change (String backslash "ufffd" +++ (json_chars s +++ String dquote rest)) with (String reverse_solidus (String "u" (String "f" (String "f" (String "f" (String "d" (json_chars s +++ String dquote rest))))))).
    cbn [read_chars]. cbv [Ascii.eqb reverse_solidus quotation Bool.eqb orb hex_four]. rewrite R. reflexivity.
Qed.
(** The legible text is the text, if that is in UTF-8, and only one. *)
Lemma utf8_inj n m r r' : character n -> character m -> utf8 n +++ r = utf8 m +++ r' -> n = m /\ r = r'.
Proof.
  unfold character, utf8. intros Hn Hm E.
  assert (Inj : forall x y, x < 256 -> y < 256 -> octet x = octet y -> x = y) by (intros x y Hx Hy H; rewrite <- (byte_octet x Hx), <- (byte_octet y Hy); now rewrite H).
  destruct (N.ltb_spec n 128) as [L|L]; [|destruct (N.ltb_spec n 2048) as [L2|L2]; [|destruct (N.ltb_spec n 65536) as [L3|L3]]];
  (destruct (N.ltb_spec m 128) as [M|M]; [|destruct (N.ltb_spec m 2048) as [M2|M2]; [|destruct (N.ltb_spec m 65536) as [M3|M3]]]); cbn [append] in E;
  match type of E with String ?a ?s = String ?x ?t => assert (H1 : a = x) by congruence; assert (E1 : s = t) by congruence end;
  apply Inj in H1; try divs.
  - split; [lia|assumption].
  - match type of E1 with String ?a ?s = String ?x ?t => assert (H2 : a = x) by congruence; assert (E2 : s = t) by congruence end.
    apply Inj in H2; try divs. split; [divs|assumption].
  - match type of E1 with String ?a ?s = String ?x ?t => assert (H2 : a = x) by congruence; assert (E2 : s = t) by congruence end.
    match type of E2 with String ?a ?s = String ?x ?t => assert (H3 : a = x) by congruence; assert (E3 : s = t) by congruence end.
    apply Inj in H2; try divs. apply Inj in H3; try divs. split; [divs|assumption].
  - match type of E1 with String ?a ?s = String ?x ?t => assert (H2 : a = x) by congruence; assert (E2 : s = t) by congruence end.
    match type of E2 with String ?a ?s = String ?x ?t => assert (H3 : a = x) by congruence; assert (E3 : s = t) by congruence end.
    match type of E3 with String ?a ?s = String ?x ?t => assert (H4 : a = x) by congruence; assert (E4 : s = t) by congruence end.
    apply Inj in H2; try divs. apply Inj in H3; try divs. apply Inj in H4; try divs. split; [divs|assumption].
Qed.
Lemma legible_utf8 s t : in_utf8 s -> legible s t -> t = s.
Proof.
  intros H. revert t. induction H as [|n s Hn H IH]; intros t L.
  - inversion L; [reflexivity|]. exfalso. pose proof (utf8_nonempty n) as Q. destruct (utf8 n); [cbn in Q; lia|discriminate].
  - remember (utf8 n +++ s) as x eqn:E. destruct L as [|m s' t Hm L|c s' t B L].
    + exfalso. pose proof (utf8_nonempty n) as Q. destruct (utf8 n); [cbn in Q; lia|discriminate E].
    + apply utf8_inj in E as (-> & ->); [|assumption|assumption]. now rewrite (IH t L).
    + exfalso. exact (B n s Hn E).
Qed.
Lemma legible_in_utf8 s t : legible s t -> in_utf8 t.
Proof. intros L. induction L; constructor; auto. unfold character. lia. Qed.
Lemma legible_empty s t : legible s t -> (s = "" <-> t = "").
Proof.
  intros L. destruct L as [|n s t Hn L|c s t B L]; [tauto| |split; discriminate].
  pose proof (utf8_nonempty n) as Q. destruct (utf8 n); [cbn in Q; lia|]. split; discriminate.
Qed.

(** ** Reading numbers *)
Definition stops (rest : string) : Prop := match rest with EmptyString => True | String c _ => digit c = None end.
Lemma digit_is c : is_digit c = true -> digit c = Some (digit_value c).
Proof. destruct c as [[] [] [] [] [] [] [] []]; intros H; try discriminate H; reflexivity. Qed.
Lemma read_digits_app s acc rest : sforall is_digit s = true -> read_digits acc (s +++ rest) = read_digits (fst (read_digits acc s)) rest.
Proof.
  revert acc. induction s as [|c s IH]; intros acc H; [reflexivity|]. cbn [sforall] in H. apply andb_true_iff in H as (Hc & H).
  cbn [append read_digits]. rewrite (digit_is c Hc). now apply IH.
Qed.
Lemma read_digits_Decimal s n : Decimal s n -> fst (read_digits 0 s) = n.
Proof.
  intros H. induction H as [c Hc|s n c H IH Hc].
  - cbn [read_digits]. now rewrite (digit_is c Hc).
  - rewrite (read_digits_app s 0 _ (Decimal_digits s n H)), IH. cbn [read_digits]. now rewrite (digit_is c Hc).
Qed.
Lemma read_digits_stops n rest : stops rest -> read_digits n rest = (n, rest).
Proof. destruct rest as [|c r]; [reflexivity|]. cbn [stops read_digits]. now intros ->. Qed.
Lemma front_digit f : forall n acc, 0 < n -> n < 2 ^ N.of_nat f -> exists d r, digits_fuel f n acc = String (digit_char d) r /\ 1 <= d <= 9.
Proof.
  induction f as [|f IH]; intros n acc Hn Hf; [cbn in Hf; lia|]. cbn [digits_fuel]. destruct (N.ltb_spec n 10).
  - exists n, acc. rewrite N.mod_small by lia. split; [reflexivity|lia].
  - apply IH; [divs|]. rewrite Nat2N.inj_succ, N.pow_succ_r' in Hf. divs.
Qed.
Lemma read_itoa_N n rest : stops rest -> read_natural (itoa_N n +++ rest) = Some (n, rest).
Proof.
  intros St. pose proof (itoa_N_Decimal n) as D. destruct (N.eq_0_gt_0_cases n) as [->|Hn]; [reflexivity|].
  destruct (front_digit (S (N.to_nat (N.size n))) n "" Hn) as (d & r & E & Hd).
  { rewrite Nat2N.inj_succ, N2Nat.id. pose proof (N.size_gt n). rewrite N.pow_succ_r'. lia. }
  change (digits_fuel (S (N.to_nat (N.size n))) n "") with (itoa_N n) in E. rewrite E in D |- *.
  assert (F : digit (digit_char d) = Some d).
  { unfold digit, digit_char. change (N_of_ascii (ascii_of_N (48 + d))) with (byte (octet (48 + d))). rewrite byte_octet by lia.
    destruct (N.leb_spec 48 (48 + d)); [|lia]. destruct (N.leb_spec (48 + d) 57); [|lia]. cbn [andb]. f_equal. lia. }
  pose proof (read_digits_Decimal _ _ D) as R. pose proof (Decimal_digits _ _ D) as A. cbn [sforall] in A. apply andb_true_iff in A as (_ & A).
  cbn [read_digits] in R. rewrite F in R. cbn [append read_natural]. rewrite F. destruct (N.eqb_spec d 0); [lia|].
  rewrite (read_digits_app r d rest A). rewrite N.mul_0_r, N.add_0_l in R. rewrite R. now rewrite read_digits_stops.
Qed.
Definition reads (v : string) (x : value) : Prop := forall rest, stops rest -> read_value (v +++ rest) = Some (x, rest).
Definition solid (v : string) : Prop := match v with EmptyString => False | String c _ => white c = false end.
Lemma reads_number z : reads (itoa z) (JNumber z) /\ solid (itoa z).
Proof.
  assert (P : forall n, exists c r, itoa_N n = String c r /\ is_digit c = true).
  { intros n. pose proof (Decimal_nonempty _ _ (itoa_N_Decimal n)). pose proof (Decimal_digits _ _ (itoa_N_Decimal n)) as A.
    destruct (itoa_N n) as [|c r]; [congruence|]. exists c, r. cbn [sforall] in A. apply andb_true_iff in A as (A & _). now split. }
  assert (Q : forall n, reads (itoa_N n) (JNumber (Z.of_N n)) /\ solid (itoa_N n)).
  { intros n. destruct (P n) as (c & r & E & Hc). split.
    - intros rest St. pose proof (read_itoa_N n rest St) as R. rewrite E in R |- *. cbn [append] in R |- *. cbn [read_value].
      replace (Ascii.eqb c quotation) with false by (destruct c as [[] [] [] [] [] [] [] []]; try discriminate Hc; reflexivity).
      replace (Ascii.eqb c "-") with false by (destruct c as [[] [] [] [] [] [] [] []]; try discriminate Hc; reflexivity). now rewrite R.
    - rewrite E. destruct c as [[] [] [] [] [] [] [] []]; try discriminate Hc; reflexivity. }
  destruct z as [|p|p]; cbn [itoa]; [exact (Q 0)|exact (Q (Npos p))|]. split; [|reflexivity].
  intros rest St. pose proof (read_itoa_N (Npos p) rest St) as R. cbn [append read_value]. cbv [Ascii.eqb quotation Bool.eqb]. now rewrite R.
Qed.
Lemma reads_text s : exists t, legible s t /\ reads (json_string s) (JText t) /\ solid (json_string s).
Proof.
  destruct (json_chars_read s) as (t & L & R). exists t. split; [exact L|]. split; [|reflexivity]. intros rest _. unfold json_string. cbn [append].
  rewrite sapp_assoc. cbn [append read_value]. change (Ascii.eqb dquote quotation) with true. cbn iota. now rewrite R.
Qed.

(** ** Reading objects *)
Fixpoint blank (s : string) : Prop := match s with EmptyString => True | String c r => white c = true /\ blank r end.
Lemma skip_blank s r : blank s -> skip (s +++ r) = skip r.
Proof. induction s as [|c s IH]; [reflexivity|]. intros (Hc & H). cbn [append skip]. rewrite Hc. now apply IH. Qed.
Lemma skip_solid v r : solid v -> skip (v +++ r) = v +++ r.
Proof. destruct v as [|c v]; [intros []|]. cbn [solid append skip]. now intros ->. Qed.
(** A member: its name, the text of its value, the value. *)
Definition good (m : string * string * value) : Prop := in_utf8 (fst (fst m)) /\ reads (snd (fst m)) (snd m) /\ solid (snd (fst m)).
Definition item (pre mid : string) (m : string * string * value) : string := pre +++ json_string (fst (fst m)) +++ ":" +++ mid +++ snd (fst m).
Definition meant (m : string * string * value) : string * value := (fst (fst m), snd m).
Lemma read_item pre mid m most rest : blank pre -> blank mid -> good m -> stops rest ->
  read_members (S most) (item pre mid m +++ rest) =
    match skip rest with
    | String c r => if Ascii.eqb c "," then match read_members most r with Some (l, r) => Some (meant m :: l, r) | None => None end
                    else if Ascii.eqb c "}" then Some ([meant m], r) else None
    | EmptyString => None
    end.
Proof.
  intros Bp Bm (K & V & Sv) St. destruct m as ((k, v), x). cbn [fst snd] in *. unfold item, meant. cbn [fst snd]. cbn [read_members].
  rewrite !sapp_assoc, (skip_blank _ _ Bp). unfold json_string. cbn [append skip]. change (white dquote) with false. cbn iota. change (Ascii.eqb dquote quotation) with true. cbn iota.
  destruct (json_chars_read k) as (t & L & R). apply (legible_utf8 k t K) in L as ->. rewrite !sapp_assoc. cbn [append]. rewrite R.
  cbn [skip]. change (white ":") with false. cbn iota. change (Ascii.eqb ":" ":") with true. cbn iota. rewrite (skip_blank _ _ Bm), (skip_solid _ _ Sv), (V rest St). reflexivity.
Qed.
Lemma read_items pre mid gap gap' l : blank pre -> blank mid -> blank gap -> blank gap' -> Forall good l -> l <> [] -> forall most rest, (List.length l <= most)%nat ->
  read_members most (join ("," +++ gap) (map (item pre mid) l) +++ gap' +++ String "}" rest) = Some (map meant l, rest).
Proof.
  intros Bp Bm Bg Bg' G Ne. induction G as [|m l Gm G IH]; [congruence|]. intros most rest Hl. destruct most as [|most]; [cbn in Hl; lia|].
  assert (W : forall g r, blank g -> forall c, white c = false -> skip (g +++ String c r) = String c r) by (intros g r Hg c Hc; rewrite (skip_blank g _ Hg); cbn [skip]; now rewrite Hc).
  assert (Sg : stops (gap' +++ String "}" rest)).
  { destruct gap' as [|c g]; [reflexivity|]. destruct Bg' as (Hc & _). cbn [append stops]. destruct c as [[] [] [] [] [] [] [] []]; try discriminate Hc; reflexivity. }
  destruct l as [|m' l].
  - cbn [map join]. rewrite (read_item pre mid m most _ Bp Bm Gm Sg), (W gap' rest Bg' "}"%char eq_refl). reflexivity.
  - change (join ("," +++ gap) (map (item pre mid) (m :: m' :: l))) with (item pre mid m +++ ("," +++ gap) +++ join ("," +++ gap) (map (item pre mid) (m' :: l))).
    specialize (IH ltac:(congruence) most rest ltac:(cbn in *; lia)). revert IH. generalize (join ("," +++ gap) (map (item pre mid) (m' :: l))). intros J IH.
    rewrite !sapp_assoc. rewrite (read_item pre mid m most); [|assumption..|reflexivity]. cbn [append skip]. change (white ",") with false. cbn iota.
    change (Ascii.eqb "," ",") with true. cbn iota.
    assert (Eq : read_members most (gap +++ J +++ gap' +++ String "}" rest) = read_members most (J +++ gap' +++ String "}" rest)).
    { destruct most; [reflexivity|]. cbn [read_members]. now rewrite (skip_blank gap _ Bg). }
    rewrite Eq, IH. reflexivity.
Qed.
Lemma items_length pre mid sep l : (List.length l <= String.length (join sep (map (item pre mid) l)))%nat.
Proof.
  assert (P : forall m, (1 <= String.length (item pre mid m))%nat).
  { intros m. unfold item, json_string. rewrite !slength_app. cbn. lia. }
  induction l as [|m [|m' l] IH]; [cbn; lia|cbn [map join List.length]; apply P|].
  change (join sep (map (item pre mid) (m :: m' :: l))) with (item pre mid m +++ sep +++ join sep (map (item pre mid) (m' :: l))). rewrite !slength_app. specialize (P m). cbn [List.length] in *. lia.
Qed.
Lemma read_object_items pre mid gap gap' after l : blank pre -> blank mid -> blank gap -> blank gap' -> blank after -> Forall good l ->
  read_object ("{" +++ gap' +++ join ("," +++ gap) (map (item pre mid) l) +++ gap' +++ "}" +++ after) = Some (map meant l).
Proof.
  intros Bp Bm Bg Bg' Ba G. remember (join ("," +++ gap) (map (item pre mid) l)) as J eqn:EJ. unfold read_object. cbn [append skip]. change (white "{") with false. cbn iota. change (Ascii.eqb "{" "{") with true. cbn iota.
  assert (Sa : skip after = "") by (rewrite <- (sapp_nil_r after), (skip_blank after _ Ba); reflexivity).
  destruct l as [|m l].
  - cbn [map join] in EJ. rewrite EJ. cbn [append]. rewrite (skip_blank _ _ Bg'). cbn [append]. rewrite (skip_blank _ _ Bg'). cbn [append skip]. change (white "}") with false. cbn iota. change (Ascii.eqb "}" "}") with true. cbn iota. now rewrite Sa.
  - assert (Hd : exists r, skip (gap' +++ J +++ gap' +++ String "}" after) = String dquote r).
    { assert (I : exists r, J = pre +++ String dquote r).
      { rewrite EJ. destruct l as [|m' l]; [cbn [map join]; unfold item, json_string; cbn [append]; eauto|].
        change (join ("," +++ gap) (map (item pre mid) (m :: m' :: l))) with (item pre mid m +++ ("," +++ gap) +++ join ("," +++ gap) (map (item pre mid) (m' :: l))).
        unfold item at 1, json_string. rewrite sapp_assoc. cbn [append]. eauto. }
      destruct I as (r & I). rewrite (skip_blank _ _ Bg'), I, sapp_assoc, (skip_blank _ _ Bp). cbn [append skip]. change (white dquote) with false. cbn iota. eauto. }
    destruct Hd as (r & Hd). rewrite Hd. change (Ascii.eqb dquote "}") with false. cbn iota.
    assert (Eq : forall most, read_members most (gap' +++ J +++ gap' +++ String "}" after) = read_members most (J +++ gap' +++ String "}" after)).
    { intros [|most]; [reflexivity|]. cbn [read_members]. now rewrite (skip_blank gap' _ Bg'). }
    rewrite Eq, EJ, read_items; [now rewrite Sa|assumption..|congruence|]. rewrite ?slength_app. pose proof (items_length pre mid ("," +++ gap) (m :: l)). lia.
Qed.
