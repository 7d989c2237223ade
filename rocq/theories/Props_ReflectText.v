(** C09: which files no package set can be made of, and what is said of them. *)
From Verif Require Import GoStrFacts GoMapFacts Strs_Proofs Reflect_Model Reflect_Spec Reflect_Text_Spec Reflect_Proofs.
From Coq Require Import Lia.

Lemma mapM_err {A B} (f : A -> result B) l t : mapM f l = Err t -> exists x, In x l /\ f x = Err t.
Proof.
  induction l as [|x l IH]; cbn [mapM]; [discriminate|]. destruct (f x) as [y|m] eqn:E; cbn [bind].
  - destruct (mapM f l) as [ys|m]; cbn [bind]; [discriminate|]. intros H. destruct IH as (z & Hz & Z); [now injection H as ->|]. exists z. split; [now right|exact Z].
  - intros H. exists x. split; [now left|]. injection H as ->. exact E.
Qed.
Lemma mapM_okay {A B} (f : A -> result B) l r : mapM f l = Ok r -> forall x, In x l -> exists y, f x = Ok y.
Proof.
  revert r. induction l as [|x l IH]; intros r; cbn [mapM]; [intros _ y []|]. destruct (f x) as [y|m] eqn:E; cbn [bind]; [|discriminate].
  destruct (mapM f l) as [ys|m]; cbn [bind]; [|discriminate]. intros _ z [<-|Hz]; eauto.
Qed.
Lemma concatM_err {A B} (f : A -> result (list B)) l t : concatM f l = Err t -> exists x, In x l /\ f x = Err t.
Proof.
  induction l as [|x l IH]; [discriminate|]. rewrite concatM_cons. destruct (f x) as [y|m] eqn:E; cbn [bind].
  - destruct (concatM f l) as [ys|m]; cbn [bind]; [discriminate|]. intros H. destruct IH as (z & Hz & Z); [now injection H as ->|]. exists z. split; [now right|exact Z].
  - intros H. exists x. split; [now left|]. injection H as ->. exact E.
Qed.

Lemma strip_err s t : verify_fully_qualified_name_and_strip s = Err t <-> incomplete s t.
Proof.
  destruct s as [|c s]; cbn [verify_fully_qualified_name_and_strip].
  - split; [intros [= <-]; constructor|]. inversion 1; [reflexivity|contradiction].
  - assert (P : has_prefix (String c s) "." = Ascii.eqb c ".").
    { cbn [has_prefix]. destruct (Ascii.eqb_spec "." c) as [E0|N]; destruct (Ascii.eqb_spec c "."); try reflexivity; congruence. }
    destruct (Ascii.eqb c ".") eqn:E.
    + split; [discriminate|]. inversion 1 as [|s' N H1]. rewrite P in H1. discriminate.
    + split.
      * intros H. apply (f_equal (fun r => match r with Err m => m | _ => "" end)) in H. cbv beta iota in H. rewrite <- H. apply No_dot; [discriminate|exact P].
      * inversion 1. reflexivity.
Qed.
Lemma strip_not s t : incomplete s t -> forall r, verify_fully_qualified_name_and_strip s <> Ok r.
Proof. intros H r. apply strip_err in H. congruence. Qed.
Lemma new_field_err f t : new_field f = Err t <-> fdd_type_name f <> "" /\ incomplete (fdd_type_name f) t.
Proof.
  unfold new_field. destruct (is_empty (fdd_type_name f)) eqn:E.
  - apply is_empty_true in E. split; [discriminate|]. intros (N & _). contradiction.
  - apply is_empty_false in E. rewrite <- strip_err. destruct (verify_fully_qualified_name_and_strip (fdd_type_name f)) as [x|m]; cbn [bind].
    + split; [discriminate|]. intros (_ & H). discriminate H.
    + split; [intros H; split; [exact E|]; now injection H as ->|intros (_ & H); now injection H as ->].
Qed.
Lemma oneof_err oneofs i t : oneof_at oneofs i = Err t <-> t = "index out of range" /\ ~ (0 <= i < Z.of_nat (length oneofs))%Z.
Proof.
  unfold oneof_at. destruct (i <? 0)%Z eqn:E.
  - apply Z.ltb_lt in E. split; [intros [= <-]; split; [reflexivity|lia]|]. now intros (-> & _).
  - apply Z.ltb_ge in E. destruct (nth_error oneofs (Z.to_nat i)) as [n|] eqn:N.
    + assert (Z.to_nat i < length oneofs) by (apply nth_error_Some; congruence). split; [discriminate|]. intros (_ & H'). lia.
    + apply nth_error_None in N. split; [intros [= <-]; split; [reflexivity|lia]|]. now intros (-> & _).
Qed.
Lemma add_fields_err oneofs l : forall m, (forall n, In n oneofs -> exists v, gget n m = Some v) ->
  (forall t, add_fields oneofs l m = Err t -> exists f, In f l /\ bad_field oneofs f t) /\
  (forall r f t, add_fields oneofs l m = Ok r -> In f l -> ~ bad_field oneofs f t).
Proof.
  induction l as [|f l IH]; intros m Hm; cbn [add_fields].
  - split; [discriminate|]. intros r f t _ [].
  - destruct (new_field f) as [f'|e] eqn:F; cbn [bind].
    2: { split; [|discriminate]. intros t H. apply new_field_err in F as (F1 & F2). injection H as <-. exists f. split; [now left|]. now apply Bad_type. }
    destruct (match fdd_oneof f with None => Ok m | Some i => _ end) as [m'|e] eqn:O; cbn [bind].
    + assert (Hm' : forall n, In n oneofs -> exists v, gget n m' = Some v).
      { destruct (fdd_oneof f) as [i|]; [|now injection O as <-]. destruct (oneof_at oneofs i) as [k|]; [|discriminate]. cbn [bind] in O.
        destruct (gget k m) as [ns|]; [|discriminate]. injection O as <-. intros n Hn. destruct (string_dec n k) as [->|N]; [rewrite gget_gput_eq; eauto|rewrite gget_gput_neq by exact N; auto]. }
      assert (Good : forall t, ~ bad_field oneofs f t).
      { intros t [t' T1 T2|i I1 I2].
        - assert (X : new_field f = Err t') by (apply new_field_err; auto). congruence.
        - rewrite I1 in O. rewrite (proj2 (oneof_err oneofs i _) (conj eq_refl I2)) in O. discriminate. }
      destruct (IH m' Hm') as (IH1 & IH2). destruct (add_fields oneofs l m') as [r|e] eqn:R; cbn [bind].
      * split; [discriminate|]. intros r' g t _ [<-|Hg]; [apply Good|]. now apply (IH2 r).
      * split; [|discriminate]. intros t H. destruct (IH1 e eq_refl) as (g & G1 & G2). injection H as <-. exists g. split; [now right|exact G2].
    + split; [|discriminate]. intros t H. injection H as <-. destruct (fdd_oneof f) as [i|] eqn:I; [|discriminate].
      destruct (oneof_at oneofs i) as [k|e'] eqn:K; cbn [bind] in O.
      * exfalso. apply oneof_at_spec in K as (K1 & K2). apply nth_error_In in K2. destruct (Hm k K2) as (v & V). rewrite V in O. discriminate.
      * injection O as <-. apply oneof_err in K as (-> & K). exists f. split; [now left|]. now apply (Bad_oneof oneofs f i).
Qed.
Lemma new_message_err d : (forall t, new_message d = Err t -> bad_message d t) /\ (forall m t, new_message d = Ok m -> ~ bad_message d t).
Proof.
  induction d as [name fields oneofs nested enums IH] using message_desc_ind'. rewrite Forall_forall in IH. rewrite new_message_eq.
  assert (Hb : forall n, In n oneofs -> exists v, gget n (base_oneofs oneofs) = Some v) by (intros n Hn; exists []; now apply base_oneofs_spec).
  destruct (add_fields_err oneofs fields _ Hb) as (F1 & F2).
  destruct (mapM new_message nested) as [nested'|e] eqn:N; cbn [bind].
  - destruct (add_fields oneofs fields (base_oneofs oneofs)) as [r|e] eqn:R; cbn [bind].
    + split; [discriminate|]. intros m t _ B. inversion B as [? ? ? ? ? x t' X1 X2|? ? ? ? ? f t' X1 X2]; subst.
      * destruct (mapM_okay _ _ _ N x X1) as (y & Y). exact (proj2 (IH x X1) y t Y X2).
      * exact (F2 r f t eq_refl X1 X2).
    + split; [|discriminate]. intros t H. destruct (F1 e eq_refl) as (f & X1 & X2). injection H as <-. exact (Bad_own _ _ _ _ _ f e X1 X2).
  - split; [|discriminate]. intros t H. injection H as <-. apply mapM_err in N as (x & X1 & X2). apply (Bad_inner _ _ _ _ _ x e X1). now apply IH.
Qed.
Lemma new_service_err s : (forall t, new_service s = Err t -> exists m n, In m (sv_methods s) /\ (n = mt_request m \/ n = mt_response m) /\ incomplete n t) /\
  (forall r m n t, new_service s = Ok r -> In m (sv_methods s) -> n = mt_request m \/ n = mt_response m -> ~ incomplete n t).
Proof.
  unfold new_service. destruct (mapM new_service_method (sv_methods s)) as [ms|e] eqn:M; cbn [bind].
  - split; [discriminate|]. intros r m n t _ Hm Hn B. destruct (mapM_okay _ _ _ M m Hm) as (y & Y). apply strip_err in B. unfold new_service_method in Y.
    destruct (verify_fully_qualified_name_and_strip (mt_request m)) eqn:R1; cbn [bind] in Y; [|discriminate].
    destruct (verify_fully_qualified_name_and_strip (mt_response m)) eqn:R2; cbn [bind] in Y; [|discriminate].
    destruct Hn as [->| ->]; congruence.
  - split; [|discriminate]. intros t H. injection H as <-. apply mapM_err in M as (m & M1 & M2). unfold new_service_method in M2.
    destruct (verify_fully_qualified_name_and_strip (mt_request m)) eqn:R1; cbn [bind] in M2.
    + destruct (verify_fully_qualified_name_and_strip (mt_response m)) eqn:R2; cbn [bind] in M2; [discriminate|]. injection M2 as <-.
      exists m, (mt_response m). split; [exact M1|]. split; [now right|]. now apply strip_err.
    + injection M2 as <-. exists m, (mt_request m). split; [exact M1|]. split; [now left|]. now apply strip_err.
Qed.
Lemma add_files_err l : forall seen pm t, grouped seen pm -> add_files pm l = Err t ->
  (exists f, In f l /\ fl_package f = "" /\ t = "no package on FileDescriptorProto") \/
  (exists f r, In f l /\ fl_package f = "." +++ r /\ t = "malformed package fully-qualified name " +++ fl_package f) \/
  (exists f g, In f l /\ In g (seen ++ l) /\ fl_package f = fl_package g /\ fl_name f = fl_name g /\ fl_data f <> fl_data g /\ t = "unequal FileDescriptorProtos for " +++ fl_name f).
Proof.
  induction l as [|f l IH]; intros seen pm t G; cbn [add_files]; [discriminate|].
  destruct (add_file pm f) as [pm'|e] eqn:E; cbn [bind].
  - intros H. destruct (IH _ _ _ (add_file_grouped _ _ _ _ G E) H) as [(g & A)|[(g & r & A)|(g & h & A1 & A2 & A3)]].
    + left. exists g. destruct A as (A & B). split; [now right|exact B].
    + right; left. exists g, r. destruct A as (A & B). split; [now right|exact B].
    + right; right. exists g, h. split; [now right|]. rewrite <- app_assoc in A2. auto.
  - intros H. injection H as <-. unfold add_file in E. destruct (fl_package f) as [|c r] eqn:P.
    + left. exists f. injection E as <-. split; [now left|auto].
    + destruct (Ascii.eqb_spec c ".") as [->|N].
      * right; left. exists f, r. apply (f_equal (fun x => match x with Err m => m | _ => "" end)) in E. cbv beta iota in E. rewrite P. split; [now left|]. split; [reflexivity|now symmetry].
      * rewrite <- P in E. right; right. set (fm := match gget (fl_package f) pm with Some fm => fm | None => [] end) in E.
        destruct (gget (fl_name f) fm) as [g|] eqn:K; [|discriminate]. destruct (String.eqb_spec (fl_data f) (fl_data g)) as [|D]; [discriminate|].
        apply (f_equal (fun x => match x with Err m => m | _ => "" end)) in E. cbv beta iota in E.
        subst fm. destruct (gget (fl_package f) pm) as [fm|] eqn:Q; [|discriminate]. apply gget_In in Q, K.
        destruct (gr_sound _ _ G _ _ _ _ Q K) as (S1 & S2 & S3). exists f, g. split; [now left|]. split; [apply in_app_iff; now left|]. repeat (split; [congruence|]). now symmetry.
Qed.
Lemma names_err l : forall m t, get_file_name_to_package_name l m = Err t ->
  exists file p q, In (file, q) l /\ (gget file m = Some p \/ In (file, p) l) /\ p <> q /\ t = "mismatched packages names " +++ p +++ " and " +++ q +++ " for file " +++ file.
Proof.
  induction l as [|[file pkg] l IH]; intros m t; cbn [get_file_name_to_package_name]; [discriminate|].
  destruct (gget file m) as [p|] eqn:E.
  - destruct (String.eqb_spec p pkg) as [->|N].
    + intros H. destruct (IH _ _ H) as (n & p & q & A & B & C). exists n, p, q. split; [now right|]. split; [destruct B; [now left|right; now right]|exact C].
    + intros H. apply (f_equal (fun r => match r with Err m => m | _ => "" end)) in H. cbv beta iota in H. exists file, p, pkg. split; [now left|]. split; [now left|]. split; [exact N|now symmetry].
  - intros H. destruct (IH _ _ H) as (n & p & q & A & B & C). exists n, p, q. split; [now right|]. split; [|exact C].
    destruct B as [B|B]; [|right; now right]. destruct (string_dec n file) as [->|Ne]; [rewrite gget_gput_eq in B; injection B as <-; right; now left|rewrite gget_gput_neq in B by exact Ne; now left].
Qed.

(** What is said names something that is wrong with the files, ... *)
Theorem C09_said : forall sets t, new_package_set_of sets = Err t -> unusable (concat sets) t.
Proof.
  intros sets t. unfold new_package_set_of. destruct (add_files [] (concat sets)) as [pm|e] eqn:E1; cbn [bind].
  2: { intros H. injection H as <-. destruct (add_files_err _ _ _ _ grouped_nil E1) as [(f & A & B & ->)|[(f & r & A & B & ->)|(f & g & A & B & C & D & F & ->)]].
       - now apply (No_package _ f).
       - now apply (Dotted _ f r).
       - now apply (Unequal _ f g). }
  pose proof (add_files_grouped _ [] [] pm grouped_nil E1) as G. cbn [app] in G.
  destruct (get_file_name_to_package_name (file_packages pm) []) as [ftp|e] eqn:E2; cbn [bind].
  2: { intros H. injection H as <-. destruct (names_err _ _ _ E2) as (n & p & q & A & [B|B] & N & ->); [discriminate|].
       apply file_packages_In in A as (fm & f & A1 & A2). apply file_packages_In in B as (fm' & g & B1 & B2).
       destruct (gr_sound _ _ G _ _ _ _ A1 A2) as (S1 & <- & <-). destruct (gr_sound _ _ G _ _ _ _ B1 B2) as (T1 & <- & T2).
       rewrite <- T2. now apply (Two_packages _ g f). }
  destruct (file_name_map_spec _ _ _ E2) as (_ & K2 & _).
  destruct (mapM (new_package ftp) pm) as [l|e] eqn:E3; cbn [bind]; [discriminate|]. intros H. injection H as <-.
  apply mapM_err in E3 as ((pkg & fm) & Hp & E). cbn [new_package] in E. unfold get_deps in E.
  match type of E with context [concatM ?f fm] => destruct (concatM f fm) as [ds|e'] eqn:D end; cbn [bind] in E.
  2: { injection E as <-. apply concatM_err in D as ((n & f) & F1 & F2). cbn [snd] in F2. apply concatM_err in F2 as (d & D1 & D2).
       destruct (gr_sound _ _ G _ _ _ _ Hp F1) as (S1 & _). destruct (gget d ftp) as [x|] eqn:X; [discriminate|]. 
       apply (f_equal (fun r => match r with Err m => m | _ => "" end)) in D2. cbv beta iota in D2. rewrite <- D2. apply (No_import _ f d S1 D1).
       intros g Hg <-. destruct (gr_complete _ _ G g Hg) as (fm' & h & H1 & H2 & _).
       rewrite (K2 (fl_name g) (fl_package g)) in X; [discriminate|]. apply file_packages_In. eauto. }
  match type of E with context [concatM ?f fm] => destruct (concatM f fm) as [ms|e'] eqn:M end; cbn [bind] in E.
  2: { injection E as <-. apply concatM_err in M as ((n & f) & F1 & F2). cbn [snd] in F2. unfold get_messages in F2.
       destruct (mapM new_message (fl_messages f)) as [x|x] eqn:X; [discriminate|]. injection F2 as <-. apply mapM_err in X as (m & X1 & X2).
       apply (Bad_message _ f m x); [apply (gr_sound _ _ G _ _ _ _ Hp F1)|exact X1|]. now apply new_message_err. }
  match type of E with context [concatM ?f fm] => destruct (concatM f fm) as [ss|e'] eqn:S end; cbn [bind] in E; [discriminate|].
  injection E as <-. apply concatM_err in S as ((n & f) & F1 & F2). cbn [snd] in F2. unfold get_services in F2.
  destruct (mapM new_service (fl_services f)) as [x|x] eqn:X; [discriminate|]. injection F2 as <-. apply mapM_err in X as (s & X1 & X2).
  destruct (proj1 (new_service_err s) x X2) as (m & k & A & B & C). apply (Bad_method _ f s m k x); [apply (gr_sound _ _ G _ _ _ _ Hp F1)|assumption..].
Qed.
(** ... and if something is wrong, something is said. *)
Theorem C09_refuses : forall sets t, faithful (concat sets) -> unusable (concat sets) t -> exists t', new_package_set_of sets = Err t'.
Proof.
  intros sets t Fa U. destruct (new_package_set_of sets) as [ps|e] eqn:E; [exfalso|eauto].
  destruct (new_package_set_of_inv _ _ E) as (pm & ftp & l & E1 & E2 & E3 & _). clear E.
  pose proof (add_files_grouped _ [] [] pm grouped_nil E1) as G. cbn [app] in G. destruct (file_name_map_spec _ _ _ E2) as (_ & K2 & K3).
  assert (There : forall f, In f (concat sets) -> exists fm, In (fl_package f, fm) pm /\ In (fl_name f, f) fm).
  { intros f Hf. destruct (gr_complete _ _ G f Hf) as (fm & g & A & B & C). exists fm. split; [exact A|].
    destruct (gr_sound _ _ G _ _ _ _ A B) as (S1 & _). now rewrite (Fa g f S1 Hf C) in B. }
  assert (Made : forall f, In f (concat sets) -> exists fm p, In (fl_name f, f) fm /\ new_package ftp (fl_package f, fm) = Ok p).
  { intros f Hf. destruct (There f Hf) as (fm & A & B). destruct (Forall2_In_l _ _ _ _ E3 A) as (p & _ & P). eauto. }
  destruct U as [f A B|f r A B|f g A B C D F|f g A B C D|f d A B C|f m t' A B C|f s m n t' A B C D F].
  - destruct (gr_good _ _ G f A) as (c & r & X & _). congruence.
  - destruct (gr_good _ _ G f A) as (c & r' & X & Y). rewrite B in X. injection X as <- _. now apply Y.
  - apply F. destruct (gr_complete _ _ G f A) as (fm & h & A1 & A2 & A3). destruct (gr_complete _ _ G g B) as (fm' & k & B1 & B2 & B3).
    rewrite <- C in B1. rewrite <- D in B2. apply (In_gget _ _ _ (gr_keys _ _ G)) in A1 as A1', B1 as B1'. assert (fm' = fm) as -> by congruence.
    apply (In_gget _ _ _ (gr_inner _ _ G _ _ A1)) in A2, B2. congruence.
  - apply D. destruct (There f A) as (fm & A1 & A2). destruct (There g B) as (fm' & B1 & B2).
    assert (X : gget (fl_name f) ftp = Some (fl_package f)) by (apply K2, file_packages_In; eauto).
    assert (Y : gget (fl_name g) ftp = Some (fl_package g)) by (apply K2, file_packages_In; eauto). congruence.
  - destruct (Made f A) as (fm & p & F1 & F2). cbn [new_package] in F2. unfold get_deps in F2.
    match type of F2 with context [concatM ?f fm] => destruct (concatM f fm) as [ds|e'] eqn:X end; cbn [bind] in F2; [|discriminate].
    apply concatM_Ok in X as (X & _). destruct (X _ F1) as (xx & X'). cbn [snd] in X'. apply concatM_Ok in X' as (X' & _). destruct (X' d B) as (b & X'').
    destruct (gget d ftp) as [q|] eqn:Q; [|discriminate]. destruct (K3 _ _ Q) as [Z|Z]; [discriminate|]. apply file_packages_In in Z as (fm' & g & Z1 & Z2).
    destruct (gr_sound _ _ G _ _ _ _ Z1 Z2) as (S1 & _ & S3). exact (C g S1 S3).
  - destruct (Made f A) as (fm & p & F1 & F2). cbn [new_package] in F2. destruct (get_deps ftp (fl_package f) fm); cbn [bind] in F2; [|discriminate].
    match type of F2 with context [concatM ?f fm] => destruct (concatM f fm) as [ms|e'] eqn:X end; cbn [bind] in F2; [|discriminate].
    apply concatM_Ok in X as (X & _). destruct (X _ F1) as (xx & X'). cbn [snd] in X'. unfold get_messages in X'.
    destruct (mapM new_message (fl_messages f)) as [xs|] eqn:Y; [|discriminate]. destruct (mapM_okay _ _ _ Y m B) as (y & Y'). exact (proj2 (new_message_err m) y t' Y' C).
  - destruct (Made f A) as (fm & p & F1 & F2). cbn [new_package] in F2. destruct (get_deps ftp (fl_package f) fm); cbn [bind] in F2; [|discriminate].
    match type of F2 with context [concatM ?f fm] => destruct (concatM f fm) as [ms|e'] end; cbn [bind] in F2; [|discriminate].
    match type of F2 with context [concatM ?f fm] => destruct (concatM f fm) as [ss|e'] eqn:X end; cbn [bind] in F2; [|discriminate].
    apply concatM_Ok in X as (X & _). destruct (X _ F1) as (xx & X'). cbn [snd] in X'. unfold get_services in X'.
    destruct (mapM new_service (fl_services f)) as [xs|] eqn:Y; [|discriminate]. destruct (mapM_okay _ _ _ Y s B) as (y & Y').
    exact (proj2 (new_service_err s) y m n t' Y' C D F).
Qed.
Print Assumptions C09_said.
Print Assumptions C09_refuses.
Definition rt_file (n p : string) (deps : list string) (ms : list message_desc) : file_desc := mk_file_desc n p deps ms [] [] (n +++ p).
Example C09_said_ex :
  new_package_set_of [[rt_file "a.proto" "p" [] []]; [rt_file "a.proto" "q" [] []]] = Err "mismatched packages names p and q for file a.proto" /\
  new_package_set_of [[rt_file "a.proto" "p" ["b.proto"] []]] = Err "no package for dep b.proto" /\
  new_package_set_of [[rt_file "a.proto" "p" [] [mk_message_desc "M" [mk_field_desc "f" 1 1 11 "p.N" None] [] [] []]]] = Err "p.N does not start with '.'" /\
  unusable [rt_file "a.proto" "p" ["b.proto"] []] "no package for dep b.proto".
Proof. split; [reflexivity|]. split; [reflexivity|]. split; [reflexivity|]. exact (C09_said [[rt_file "a.proto" "p" ["b.proto"] []]] _ eq_refl). Qed.
