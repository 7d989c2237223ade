(** Properties C01-C08: the break check and the package graph. *)
From Verif Require Import GoMapFacts Extract_Model Breaking_Model Breaking_Spec Extract_Proofs Breaking_Proofs BreakRun_Proofs BreakCheckers.

(** ** Two versions of a small API used as witnesses below *)
Definition ex_color := mk_enum "Color" [mk_enum_value "RED" 0; mk_enum_value "BLUE" 1].
Definition ex_inner := mk_message "Inner" [mk_field "id" 1 1 9 ""] [] [] [ex_color].
Definition ex_outer := mk_message "Outer"
  [mk_field "inner" 1 1 11 "foo.v1.Outer.Inner"; mk_field "a" 2 1 5 ""; mk_field "b" 3 1 9 ""]
  [mk_oneof "choice" [2; 3]%Z] [ex_inner] [].
Definition ex_api := mk_service "API" [mk_method "Get" "foo.v1.Outer" "bar.v1beta1.Res" false true].
Definition ex_foo := mk_package "foo.v1" ["bar.v1beta1"; "baz.v1"] [] [ex_outer] [ex_api].
Definition ex_bar := mk_package "bar.v1beta1" [] [] [mk_message "Res" [] [] [] []] [].
Definition ex_baz := mk_package "baz.v1" [] [ex_color] [] [].
Definition ex_old := [ex_bar; ex_baz; ex_foo].
(** Everything ex_old has, and more. *)
Definition ex_inner2 := mk_message "Inner" [mk_field "id" 1 1 9 ""; mk_field "extra" 2 1 9 ""] [] [] [ex_color].
Definition ex_outer2 := mk_message "Outer" (msg_fields ex_outer ++ [mk_field "c" 4 1 9 ""])
  [mk_oneof "choice" [2; 3; 4]%Z] [ex_inner2; mk_message "More" [] [] [] []] [].
Definition ex_foo2 := mk_package "foo.v1" ["bar.v1beta1"; "baz.v1"] [ex_color] [ex_outer2; ex_inner] [ex_api].
Definition ex_new := [ex_bar; ex_baz; ex_foo2; mk_package "qux.v1" [] [] [] []].
(** ex_old with deletions and changes at several depths. *)
Definition ex_inner3 := mk_message "Inner" [mk_field "extra" 2 1 9 ""] [] []
  [mk_enum "Color" [mk_enum_value "CRIMSON" 0]].
Definition ex_outer3 := mk_message "Outer"
  [mk_field "inner" 1 1 11 "foo.v1.Inner"; mk_field "a" 2 3 5 ""; mk_field "b" 3 1 9 ""]
  [mk_oneof "choice" [2]%Z] [ex_inner3] [].
Definition ex_bad := [ex_bar; mk_package "foo.v1" ["bar.v1beta1"] [] [ex_outer3]
  [mk_service "API" [mk_method "Get" "foo.v1.Outer" "bar.v1beta1.Res" true true]]].
Definition default_break := mk_break_config false false.
Example ex_old_valid : valid_set ex_old.
Proof. now apply valid_setb_ok. Qed.
Example ex_new_valid : valid_set ex_new.
Proof. now apply valid_setb_ok. Qed.
Example ex_bad_valid : valid_set ex_bad.
Proof. now apply valid_setb_ok. Qed.

(** On package sets meeting protoc's guarantees the check always runs. *)
Theorem C04_runs : forall cfg from to, valid_set from -> valid_set to -> exists fs, run_break cfg from to = Ok fs.
Proof. exact run_break_valid. Qed.
Print Assumptions C04_runs.

(** ** C01 *)
Theorem C01_reflexive : forall cfg ps, valid_set ps ->
  include_beta cfg = true \/ allow_beta_deps cfg = true \/
    (forall n p d, packages_of false ps n p -> In d (pk_deps p) -> ~ beta_name d) ->
  run_break cfg ps ps = Ok [].
Proof. exact (fun cfg ps V => run_break_extends_clean cfg ps ps V V (set_extends_refl ps)). Qed.
Print Assumptions C01_reflexive.
(** Otherwise only the beta dependencies are reported. *)
Theorem C01_reflexive_up_to_beta_deps : forall cfg ps, valid_set ps ->
  exists fs, run_break cfg ps ps = Ok fs /\
    forall f, In f fs -> include_beta cfg = false /\ allow_beta_deps cfg = false /\
      exists msg, f = mk_failure "" 0 0 "PACKAGES_NO_BETA_DEPS" msg /\
        beta_dependency (packages_of false ps) "PACKAGES_NO_BETA_DEPS" msg.
Proof. exact (fun cfg ps V => run_break_extends cfg ps ps V V (set_extends_refl ps)). Qed.
Print Assumptions C01_reflexive_up_to_beta_deps.
Example C01_ex : run_break (mk_break_config false true) ex_old ex_old = Ok [] /\
  exists f, run_break default_break ex_old ex_old = Ok [f].
Proof. split; [reflexivity|]. eexists. reflexivity. Qed.

(** ** C02 *)
Theorem C02_transitive : forall cfg a b c, packages_named a -> packages_named b ->
  run_break cfg a b = Ok [] -> run_break cfg b c = Ok [] -> run_break cfg a c = Ok [].
Proof. exact run_break_trans. Qed.
Print Assumptions C02_transitive.
Definition ex_newest : package_set := ex_new ++ [mk_package "quux.v1" [] [ex_color] [] []].
Example C02_ex : packages_named ex_old /\ packages_named ex_new /\
  run_break (mk_break_config true false) ex_old ex_new = Ok [] /\
  run_break (mk_break_config true false) ex_new ex_newest = Ok [].
Proof. repeat split; repeat constructor; discriminate. Qed.

(** ** C03 *)
Theorem C03_additions : forall cfg from to, valid_set from -> valid_set to -> set_extends from to ->
  include_beta cfg = true \/ allow_beta_deps cfg = true \/
    (forall n p d, packages_of false to n p -> In d (pk_deps p) -> ~ beta_name d) ->
  run_break cfg from to = Ok [].
Proof. exact run_break_extends_clean. Qed.
Print Assumptions C03_additions.
(** With beta dependencies nothing but those is reported. *)
Theorem C03_additions_up_to_beta_deps : forall cfg from to, valid_set from -> valid_set to -> set_extends from to ->
  exists fs, run_break cfg from to = Ok fs /\
    forall f, In f fs -> include_beta cfg = false /\ allow_beta_deps cfg = false /\
      exists msg, f = mk_failure "" 0 0 "PACKAGES_NO_BETA_DEPS" msg /\
        beta_dependency (packages_of false to) "PACKAGES_NO_BETA_DEPS" msg.
Proof. exact run_break_extends. Qed.
Print Assumptions C03_additions_up_to_beta_deps.
Example C03_ex : set_extends ex_old ex_new /\ ~ set_extends ex_new ex_old.
Proof.
  split; [now apply set_extendsb_ok|]. intros H.
  destruct (H "qux.v1" (mk_package "qux.v1" [] [] [] [])) as (y & D & _).
  - exists [ex_bar; ex_baz; ex_foo2], []. repeat constructor.
  - apply declares_In in D as [[<-|[<-|[<-|[]]]] E]; discriminate.
Qed.

(** ** C04 *)
Theorem C04_deletions : forall cfg from to fs, packages_named from -> run_break cfg from to = Ok fs ->
  forall id msg, In id deletion_rules ->
  (In (mk_failure "" 0 0 id msg) fs <->
   deleted (packages_of (include_beta cfg) from) (packages_of (include_beta cfg) to) id msg).
Proof. exact run_break_deleted. Qed.
Print Assumptions C04_deletions.
(** ** C05 *)
Theorem C05_changes_only : forall cfg from to fs, packages_named from -> run_break cfg from to = Ok fs ->
  forall id msg, In id change_rules -> In (mk_failure "" 0 0 id msg) fs ->
  changed (packages_of (include_beta cfg) from) (packages_of (include_beta cfg) to) id msg.
Proof. exact (fun cfg from to fs N H id msg Hi => proj1 (run_break_changed cfg from to fs N H id msg Hi)). Qed.
Print Assumptions C05_changes_only.
(** Every change is reported, with exactly this message; were a field in several
    oneofs, which protoc rules out, the oneof named could be another of those. *)
Theorem C05_changes_reported : forall cfg from to fs, packages_named from -> run_break cfg from to = Ok fs ->
  forall id msg, In id change_rules ->
  changed (packages_of (include_beta cfg) from) (packages_of (include_beta cfg) to) id msg ->
  exists msg', In (mk_failure "" 0 0 id msg') fs /\
    (oneofs_disjoint (packages_of (include_beta cfg) to) \/ id <> "MESSAGE_FIELDS_SAME_ONEOF" -> msg' = msg).
Proof. exact (fun cfg from to fs N H id msg Hi => proj2 (run_break_changed cfg from to fs N H id msg Hi)). Qed.
Print Assumptions C05_changes_reported.
(** Nothing else is ever reported. *)
Theorem C05_complete_list : forall cfg from to fs, packages_named from ->
  oneofs_disjoint (packages_of (include_beta cfg) to) -> run_break cfg from to = Ok fs ->
  forall f, In f fs <-> exists id msg, f = mk_failure "" 0 0 id msg /\ reported cfg from to id msg.
Proof. exact run_break_spec. Qed.
Print Assumptions C05_complete_list.
Example C04_C05_ex :
  match run_break (mk_break_config false true) ex_old ex_bad with
  | Ok fs => map (fun f => (f_lint_id f, f_message f)) fs
  | Err _ => []
  end = [
  ("ENUM_VALUES_NOT_DELETED", "Enum value ""1"" on enum ""foo.v1.Outer.Inner.Color"" was deleted.");
  ("ENUM_VALUES_SAME_NAME", "Enum value ""0"" on enum ""foo.v1.Outer.Inner.Color"" changed from ""RED"" to ""CRIMSON"".");
  ("MESSAGE_FIELDS_NOT_DELETED", "Message field ""1"" on message ""foo.v1.Outer.Inner"" was deleted.");
  ("MESSAGE_FIELDS_SAME_LABEL", "Message field ""2"" on message ""foo.v1.Outer"" changed from ""optional"" to ""repeated"".");
  ("MESSAGE_FIELDS_SAME_TYPE", "Message field ""1"" on message ""foo.v1.Outer"" changed type from ""foo.v1.Outer.Inner"" to ""foo.v1.Inner"".");
  ("MESSAGE_ONEOFS_FIELDS_NOT_REMOVED", "Message oneof ""choice"" on message ""foo.v1.Outer"" had field ""3"" removed.");
  ("PACKAGES_NOT_DELETED", "Package ""baz.v1"" was deleted.");
  ("SERVICE_METHODS_SAME_CLIENT_STREAMING", "Service method ""Get"" on service ""foo.v1.API"" changed from not client streaming to client streaming.")
  ].
Proof. reflexivity. Qed.

(** ** C06 *)
Theorem C06_beta_ignored : forall cfg from from' to to', include_beta cfg = false ->
  valid_set from -> valid_set from' -> valid_set to -> valid_set to' ->
  same_but_beta from from' -> same_but_beta to to' -> run_break cfg from to = run_break cfg from' to'.
Proof. exact run_break_ignores_beta. Qed.
Print Assumptions C06_beta_ignored.
Theorem C06_beta_deps : forall cfg from to fs, packages_named from -> run_break cfg from to = Ok fs -> forall msg,
  In (mk_failure "" 0 0 "PACKAGES_NO_BETA_DEPS" msg) fs <->
  include_beta cfg = false /\ allow_beta_deps cfg = false /\
  exists n p d, packages_of false to n p /\ In d (pk_deps p) /\ beta_name d /\
    msg = "Package " +++ quote n +++ " depends on beta package " +++ quote d +++ " which is not allowed.".
Proof. exact run_break_beta_deps. Qed.
Print Assumptions C06_beta_deps.
Definition ex_bar_gone := mk_package "bar.v1beta1" [] [] [] [].
Lemma bar_is_beta : beta_name "bar.v1beta1".
Proof. apply (proj2 (proj1 (ignore_package_spec true "bar.v1beta1") eq_refl)). Qed.
(** A message of the beta package disappears: by default nothing changes, with
    include_beta it does. *)
Example C06_ex :
  same_but_beta ex_old [ex_baz; ex_bar_gone; ex_foo] /\ valid_set [ex_baz; ex_bar_gone; ex_foo] /\
  run_break default_break ex_old [ex_baz; ex_bar_gone; ex_foo] =
    Ok [mk_failure "" 0 0 "PACKAGES_NO_BETA_DEPS"
          "Package ""foo.v1"" depends on beta package ""bar.v1beta1"" which is not allowed."] /\
  run_break (mk_break_config true false) ex_old [ex_baz; ex_bar_gone; ex_foo] =
    Ok [mk_failure "" 0 0 "MESSAGES_NOT_DELETED" "Message ""bar.v1beta1.Res"" was deleted."].
Proof.
  split; [|split; [now apply valid_setb_ok|split; reflexivity]].
  apply sbb_left; [exact bar_is_beta|]. apply sbb_keep. apply sbb_right; [exact bar_is_beta|]. apply sbb_keep. constructor.
Qed.

(** ** C07 *)
Theorem C07_rename_reported_partial : forall cfg from to fs pkg path n e t v w,
  packages_named from -> run_break cfg from to = Ok fs ->
  enum_at (packages_of (include_beta cfg) from) pkg path n e ->
  enum_at (packages_of (include_beta cfg) to) pkg path n t ->
  (** missing for the full claim: without these two, see the refutation below *)
  NoDup (map ev_number (en_values e)) -> NoDup (map ev_number (en_values t)) ->
  In v (en_values e) -> In w (en_values t) -> ev_number v = ev_number w -> ev_name v <> ev_name w ->
  In (mk_failure "" 0 0 "ENUM_VALUES_SAME_NAME"
        ("Enum value " +++ number_text (ev_number v) +++ " on enum " +++ quote (full_name pkg path n)
         +++ " changed from " +++ quote (ev_name v) +++ " to " +++ quote (ev_name w) +++ ".")) fs.
Proof. exact run_break_rename. Qed.
Print Assumptions C07_rename_reported_partial.
(** With aliases, renaming a value that is not the last of its number is missed. *)
Definition alias_enum (names : list string) : package_set :=
  [mk_package "foo.v1" [] [mk_enum "E" (map (fun n => mk_enum_value n 0) names)] [] []].
Theorem C07_alias_rename_refuted : exists from to e t,
  valid_set from /\ valid_set to /\
  enum_at (packages_of true from) "foo.v1" [] "E" e /\ enum_at (packages_of true to) "foo.v1" [] "E" t /\
  In (mk_enum_value "OLD" 0) (en_values e) /\
  ~ In "OLD" (map ev_name (en_values t)) /\
  run_break (mk_break_config true false) from to = Ok [].
Proof.
  exists (alias_enum ["OLD"; "B"]), (alias_enum ["NEW"; "B"]),
    (mk_enum "E" [mk_enum_value "OLD" 0; mk_enum_value "B" 0]), (mk_enum "E" [mk_enum_value "NEW" 0; mk_enum_value "B" 0]).
  assert (EA : forall names, enum_at (packages_of true (alias_enum names)) "foo.v1" [] "E"
                 (mk_enum "E" (map (fun n => mk_enum_value n 0) names))).
  { intros names. exists [], [mk_enum "E" (map (fun n => mk_enum_value n 0) names)]. split.
    - exists (mk_package "foo.v1" [] [mk_enum "E" (map (fun n => mk_enum_value n 0) names)] [] []).
      split; [|constructor]. split; [|now left]. exists [], []. repeat constructor.
    - exists [], []. repeat constructor. }
  split; [now apply valid_setb_ok|]. split; [now apply valid_setb_ok|].
  split; [apply (EA ["OLD"; "B"])|]. split; [apply (EA ["NEW"; "B"])|].
  split; [now left|]. split; [cbn; intuition discriminate|]. reflexivity.
Qed.
Print Assumptions C07_alias_rename_refuted.
(** And merely reordering aliases is reported as a rename. *)
Theorem C07_alias_reorder_reported_refuted :
  run_break (mk_break_config true false) (alias_enum ["A"; "B"]) (alias_enum ["B"; "A"]) =
  Ok [mk_failure "" 0 0 "ENUM_VALUES_SAME_NAME" "Enum value ""0"" on enum ""foo.v1.E"" changed from ""B"" to ""A""."].
Proof. exact eq_refl. Qed.
Print Assumptions C07_alias_reorder_reported_refuted.

(** ** C08 *)
Theorem C08_inverse : forall ps without_beta xs, new_package_set ps without_beta = Ok xs -> forall a b,
  ((exists p, gget a xs = Some p /\ gget b (xp_deps p) = Some tt) <->
   (exists p, gget b xs = Some p /\ gget a (xp_importers p) = Some tt)) /\
  ((exists p, gget a xs = Some p /\ gget b (xp_deps p) = Some tt) <->
   exists p, packages_of (negb without_beta) ps a p /\ In b (pk_deps p) /\
             exists p', packages_of (negb without_beta) ps b p').
Proof. exact new_package_set_inverse. Qed.
Print Assumptions C08_inverse.
Theorem C08_all_listed_exist : forall ps without_beta xs, new_package_set ps without_beta = Ok xs -> forall a p b,
  gget a xs = Some p -> (gget b (xp_deps p) = Some tt \/ gget b (xp_importers p) = Some tt) -> exists p', gget b xs = Some p'.
Proof. exact new_package_set_closed. Qed.
Print Assumptions C08_all_listed_exist.
Example C08_ex : exists xs, new_package_set ex_old false = Ok xs /\
  option_map (fun p => map fst (xp_deps p)) (gget "foo.v1" xs) = Some ["bar.v1beta1"; "baz.v1"] /\
  option_map (fun p => map fst (xp_importers p)) (gget "baz.v1" xs) = Some ["foo.v1"].
Proof. eexists. split; [reflexivity|]. split; reflexivity. Qed.
