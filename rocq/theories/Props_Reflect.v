(** Properties C09-C11: package sets from files, and descriptor set helpers. *)
From Verif Require Import Breaking_Model Breaking_Spec BreakRun_Proofs.
From Verif Require Import Reflect_Model Reflect_Spec Reflect_Proofs ReflectValid_Proofs.
From Verif Require Import Desc_Model Desc_Spec Desc_Proofs.
From Coq Require Import Lia.

(** ** Witnesses *)
Definition rx_color := mk_enum "Color" [mk_enum_value "BLUE" 1; mk_enum_value "RED" 0].
Definition rx_outer := mk_message_desc "Outer"
  [mk_field_desc "b" 3 1 9 "" (Some 0%Z); mk_field_desc "inner" 1 1 11 ".foo.v1.Outer.Inner" None;
   mk_field_desc "a" 2 1 5 "" (Some 0%Z)]
  ["choice"] [mk_message_desc "Inner" [mk_field_desc "id" 1 1 9 "" None] [] [] [rx_color]] [].
Definition rx_req := mk_message_desc "Req" [] [] [] [].
Definition rx_api := mk_service "API" [mk_method "Put" ".foo.v1.Req" ".bar.v1.Res" false false;
                                       mk_method "Get" ".foo.v1.Outer" ".bar.v1.Res" false true].
Definition rx_bar := mk_file_desc "bar/v1/bar.proto" "bar.v1" [] [mk_message_desc "Res" [] [] [] []] [] [] "bar".
(** foo.v1 in two files ... *)
Definition rx_foo1 := mk_file_desc "foo/v1/foo.proto" "foo.v1" ["bar/v1/bar.proto"] [rx_outer] [] [] "foo1".
Definition rx_foo2 := mk_file_desc "foo/v1/api.proto" "foo.v1" ["foo/v1/foo.proto"; "bar/v1/bar.proto"] [rx_req] [rx_color] [rx_api] "foo2".
(** ... and in one. *)
Definition rx_foo := mk_file_desc "foo/v1/all.proto" "foo.v1" ["bar/v1/bar.proto"] [rx_req; rx_outer] [rx_color] [rx_api] "foo".
Definition rx_two := [rx_bar; rx_foo1; rx_foo2].
Definition rx_one := [rx_foo; rx_bar].
Lemma rx_distinct2 : distinct_files [[rx_foo2; rx_bar]; [rx_bar; rx_foo1]] rx_two.
Proof.
  split; [repeat constructor; simpl; intuition discriminate|]. intros f. simpl. split.
  - intros [<-|[<-|[<-|[]]]]; [exists [rx_foo2; rx_bar]|exists [rx_bar; rx_foo1]|exists [rx_foo2; rx_bar]]; simpl; auto.
  - intros (s & [<-|[<-|[]]] & Hf); simpl in Hf; intuition.
Qed.
Lemma rx_distinct1 : distinct_files [rx_one] rx_one.
Proof.
  split; [repeat constructor; simpl; intuition discriminate|]. intros f. split; [intros H; exists rx_one; simpl; auto|].
  intros (s & [<-|[]] & Hf). exact Hf.
Qed.
Ltac members := repeat match goal with
  | H : In _ (_ :: _) |- _ => destruct H as [<-|H]
  | H : In _ [] |- _ => destruct H
  | H : _ = _ \/ _ |- _ => destruct H as [<-|H]
  | H : False |- _ => destruct H
  end.
Lemma rx_faithful2 : faithful rx_two.
Proof. intros f g Hf Hg. unfold rx_two in *. members; try reflexivity; discriminate. Qed.
Lemma rx_faithful1 : faithful rx_one.
Proof. intros f g Hf Hg. unfold rx_one in *. members; try reflexivity; discriminate. Qed.
Lemma rx_valid_outer : valid_message_desc rx_outer.
Proof.
  assert (S : forall os n k t i, (1 <= t <= 9)%Z -> (i = None \/ (i = Some 0%Z /\ os <> [])) ->
            valid_field_desc os (mk_field_desc n k 1 t "" i)).
  { intros os n k t i Ht Hi. repeat split; simpl; try lia.
    - left. repeat split; lia.
    - destruct Hi as [->|[-> _]]; [discriminate|injection H as <-; lia].
    - destruct Hi as [->|[-> Hi]]; [discriminate|injection H as <-]. destruct os; [easy|simpl; lia]. }
  constructor.
  - constructor; [apply S; [lia|right; now split]|]. constructor; [|constructor; [apply S; [lia|right; now split]|constructor]].
    repeat split; simpl; try lia; try discriminate. right. exists "foo.v1.Outer.Inner". now split.
  - repeat constructor; simpl; intuition discriminate.
  - repeat constructor; simpl; intuition discriminate.
  - constructor; [|constructor]. constructor; try (repeat constructor; simpl; easy).
Qed.
Lemma rx_valid2 : valid_files rx_two.
Proof.
  split; [|split].
  - pose proof rx_valid_outer as VO.
    assert (VE : forall n, valid_message_desc (mk_message_desc n [] [] [] [])) by (intros; repeat constructor).
    assert (VS : Forall (fun s => Forall valid_method_desc (sv_methods s)) [rx_api]).
    { repeat constructor; eexists; reflexivity. }
    repeat (apply Forall_cons || apply Forall_nil);
      (split; [eexists; eexists; split; [reflexivity|discriminate]|]);
      (split; [repeat (apply Forall_cons || apply Forall_nil); solve [exact VO | apply VE]|]);
      solve [exact VS | constructor].
  - intros f d Hf Hd. unfold rx_two in *. members; simpl in Hd; members;
      first [exists rx_bar; split; [simpl; tauto|reflexivity] | exists rx_foo1; split; [simpl; tauto|reflexivity]].
  - intros f g Hf Hg. unfold rx_two in *. members; try reflexivity; discriminate.
Qed.
Lemma rx_valid1 : valid_files rx_one.
Proof.
  split; [|split].
  - pose proof rx_valid_outer as VO.
    assert (VE : forall n, valid_message_desc (mk_message_desc n [] [] [] [])) by (intros; repeat constructor).
    assert (VS : Forall (fun s => Forall valid_method_desc (sv_methods s)) [rx_api]).
    { repeat constructor; eexists; reflexivity. }
    repeat (apply Forall_cons || apply Forall_nil);
      (split; [eexists; eexists; split; [reflexivity|discriminate]|]);
      (split; [repeat (apply Forall_cons || apply Forall_nil); solve [exact VO | apply VE]|]);
      solve [exact VS | constructor].
  - intros f d Hf Hd. unfold rx_one in *. members; simpl in Hd; members. exists rx_bar; split; [simpl; tauto|reflexivity].
  - intros f g Hf Hg. unfold rx_one in *. members; try reflexivity; discriminate.
Qed.
Lemma rx_pkgs (fs : list file_desc) pkg : Forall (fun f => fl_package f <> pkg) fs -> files_of pkg fs = [].
Proof.
  unfold files_of. induction 1 as [|f fs H F IH]; simpl; [reflexivity|].
  destruct (String.eqb (fl_package f) pkg) eqn:E; [now apply String.eqb_eq in E|assumption].
Qed.
Lemma rx_unique : unique_definitions rx_two.
Proof.
  intros pkg. unfold messages_of, enums_of, services_of.
  destruct (string_dec pkg "foo.v1") as [->|H1]; [|destruct (string_dec pkg "bar.v1") as [->|H2]].
  - simpl. repeat split; repeat constructor; simpl; intuition discriminate.
  - simpl. repeat split; repeat constructor; simpl; intuition discriminate.
  - rewrite rx_pkgs; [repeat split; constructor|]. repeat constructor; simpl; congruence.
Qed.
Lemma rx_same : same_declarations rx_two rx_one.
Proof.
  intros pkg. unfold messages_of, enums_of, services_of.
  assert (D : forall dep, depends rx_two pkg dep <-> depends rx_one pkg dep).
  { intros dep. split.
    - intros (f & g & Hf & Hg & Hd & <- & <- & Hn). unfold rx_two in Hf, Hg. members; simpl in *; try congruence; intuition try discriminate.
      + exists rx_foo, rx_bar. simpl. intuition discriminate.
      + exists rx_foo, rx_bar. simpl. intuition discriminate.
    - intros (f & g & Hf & Hg & Hd & <- & <- & Hn). unfold rx_one in Hf, Hg. members; simpl in *; try congruence; intuition try discriminate.
      exists rx_foo1, rx_bar. simpl. intuition discriminate. }
  destruct (string_dec pkg "foo.v1") as [->|H1]; [|destruct (string_dec pkg "bar.v1") as [->|H2]].
  - split; [split; intros _; [exists rx_foo|exists rx_foo1]; simpl; auto|]. simpl.
    repeat split; try apply D; try reflexivity. apply perm_swap.
  - split; [split; intros _; exists rx_bar; simpl; auto|]. simpl.
    repeat split; try apply D; reflexivity.
  - split.
    + split; intros (f & Hf & <-); unfold rx_one, rx_two in Hf; members; simpl in *; congruence.
    + rewrite !rx_pkgs by (repeat constructor; simpl; congruence). repeat split; try apply D; reflexivity.
Qed.

(** ** C09 *)
(** The extracted package set has, for each package, exactly what the files of
    the package declare together. *)
Theorem C09_contents : forall sets fs ps,
  distinct_files sets fs -> faithful fs -> new_package_set_of sets = Ok ps -> describes fs ps.
Proof. exact new_package_set_describes. Qed.
Print Assumptions C09_contents.
(** Moving definitions between the files of their package, renaming, splitting
    or joining those files, permuting or repeating files: the same package set. *)
Theorem C09_moves : forall sets fs ps sets' gs,
  distinct_files sets fs -> faithful fs -> distinct_files sets' gs -> faithful gs ->
  unique_definitions fs -> same_declarations fs gs -> imports_resolve gs -> names_unique gs ->
  new_package_set_of sets = Ok ps -> new_package_set_of sets' = Ok ps.
Proof. exact new_package_set_moves. Qed.
Print Assumptions C09_moves.
(** So the break check finds nothing, apart from beta dependencies. *)
Theorem C09_moves_not_breaking : forall cfg sets fs sets' gs,
  distinct_files sets fs -> faithful fs -> distinct_files sets' gs -> faithful gs ->
  valid_files fs -> valid_files gs -> unique_definitions fs -> same_declarations fs gs ->
  exists from to fails, new_package_set_of sets = Ok from /\ new_package_set_of sets' = Ok to /\
    run_break cfg from to = Ok fails /\
    forall f, In f fails -> include_beta cfg = false /\ allow_beta_deps cfg = false /\
      exists msg, f = mk_failure "" 0 0 "PACKAGES_NO_BETA_DEPS" msg.
Proof.
  exact (fun cfg sets fs sets' gs D F D' F' V V' U S =>
    match new_package_set_valid sets fs D F V with
    | ex_intro _ ps (conj H (conj VS _)) =>
        match run_break_extends cfg ps ps VS VS (set_extends_refl ps) with
        | ex_intro _ fails (conj HR HF) =>
            ex_intro _ ps (ex_intro _ ps (ex_intro _ fails
              (conj H (conj (new_package_set_moves sets fs ps sets' gs D F D' F' U S (proj1 (proj2 V')) (proj2 (proj2 V')) H)
                (conj HR (fun f Hf => match HF f Hf with
                  | conj A (conj B (ex_intro _ msg (conj C _))) => conj A (conj B (ex_intro _ msg C))
                  end)))))) 
        end
    end).
Qed.
Print Assumptions C09_moves_not_breaking.
(** Files as protoc makes them are accepted, and the result satisfies the
    hypotheses of C01-C08. *)
Theorem C09_valid : forall sets fs,
  distinct_files sets fs -> faithful fs -> valid_files fs ->
  exists ps, new_package_set_of sets = Ok ps /\ valid_set ps /\ oneofs_disjoint (packages_of true ps).
Proof. exact new_package_set_valid. Qed.
Print Assumptions C09_valid.
Theorem C09_named : forall sets fs ps,
  distinct_files sets fs -> faithful fs -> new_package_set_of sets = Ok ps -> packages_named ps.
Proof. exact new_package_set_named. Qed.
Print Assumptions C09_named.
Example C09_ex : exists ps,
  new_package_set_of [[rx_foo2; rx_bar]; [rx_bar; rx_foo1]] = Ok ps /\
  new_package_set_of [rx_one] = Ok ps /\ map pk_name ps = ["bar.v1"; "foo.v1"] /\
  run_break (mk_break_config false false) ps ps = Ok [].
Proof.
  exists (match new_package_set_of [rx_one] with Ok ps => ps | Err _ => [] end).
  repeat split; vm_compute; reflexivity.
Qed.
Example C09_ex_hypotheses :
  distinct_files [[rx_foo2; rx_bar]; [rx_bar; rx_foo1]] rx_two /\ distinct_files [rx_one] rx_one /\
  faithful rx_two /\ faithful rx_one /\ valid_files rx_two /\ valid_files rx_one /\
  unique_definitions rx_two /\ same_declarations rx_two rx_one.
Proof.
  exact (conj rx_distinct2 (conj rx_distinct1 (conj rx_faithful2 (conj rx_faithful1
    (conj rx_valid2 (conj rx_valid1 (conj rx_unique rx_same))))))).
Qed.

(** ** C10: the hash is any function without a collision on the given files. *)
Theorem C10_merge : forall sha256 sets r,
  no_collision sha256 sets -> faithful_sets sets -> merge_file_descriptor_sets sha256 sets = Ok r ->
  Increasing (map fl_name r) /\ (forall f, In f r <-> file_in sets f) /\
  no_nil sets /\ (forall f, file_in sets f -> fl_name f <> "") /\
  (forall f g, file_in sets f -> file_in sets g -> fl_name f = fl_name g -> f = g).
Proof. exact merge_spec. Qed.
Print Assumptions C10_merge.
Theorem C10_merge_succeeds : forall sha256 sets,
  no_nil sets -> (forall f, file_in sets f -> fl_name f <> "") ->
  (forall f g, file_in sets f -> file_in sets g -> fl_name f = fl_name g -> f = g) ->
  exists r, merge_file_descriptor_sets sha256 sets = Ok r.
Proof. exact merge_ok. Qed.
Print Assumptions C10_merge_succeeds.
(** Order, grouping and repetition of the files do not matter. *)
Theorem C10_merge_order : forall sha256 sets sets' r,
  no_collision sha256 sets -> faithful_sets sets -> no_nil sets' ->
  (forall f, file_in sets f <-> file_in sets' f) ->
  merge_file_descriptor_sets sha256 sets = Ok r -> merge_file_descriptor_sets sha256 sets' = Ok r.
Proof. exact merge_order. Qed.
Print Assumptions C10_merge_order.
Definition rx_sets := [Some [Some rx_foo2; Some rx_bar]; Some []; Some [Some rx_bar; Some rx_foo1]].
Definition rx_bar' := mk_file_desc "bar/v1/bar.proto" "bar.v1" [] [] [] [] "other".
Example C10_ex : merge_file_descriptor_sets (fun s => s) rx_sets = Ok [rx_bar; rx_foo2; rx_foo1] /\
  no_collision (fun s => s) rx_sets /\ faithful_sets rx_sets /\
  exists e, merge_file_descriptor_sets (fun s => s) (Some [Some rx_bar'] :: rx_sets) = Err e.
Proof.
  split; [reflexivity|]. split; [now intros f g|]. split; [|eexists; reflexivity].
  intros f g (l & Hl & Hf) (l' & Hl' & Hg). unfold rx_sets in *.
  repeat match goal with
  | H : In _ (_ :: _) |- _ => destruct H as [H|H]; [injection H as <-|]
  | H : In _ [] |- _ => destruct H
  end; try reflexivity; discriminate.
Qed.

(** ** C11 *)
Theorem C11_sort : forall fs f r,
  sort_file_descriptor_set fs f = Ok r <->
  Forall (fun g => fl_name g <> "") fs /\ NoDup (map fl_name fs) /\
  exists before g after, fs = before ++ g :: after /\ fl_name g = fl_name f /\ r = before ++ after ++ [f].
Proof. exact sort_file_descriptor_set_spec. Qed.
Print Assumptions C11_sort.
Example C11_ex : sort_file_descriptor_set [rx_bar; rx_foo1; rx_foo2] rx_foo1 = Ok [rx_bar; rx_foo2; rx_foo1] /\
  (exists e, sort_file_descriptor_set [rx_bar; rx_foo1; rx_bar] rx_foo1 = Err e) /\
  (exists e, sort_file_descriptor_set [rx_bar; rx_foo1] rx_foo = Err e).
Proof. split; [reflexivity|]. split; eexists; reflexivity. Qed.
