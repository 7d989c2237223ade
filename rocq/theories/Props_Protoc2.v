(** C102: what protoc says is told. *)
From Coq Require Import Lia.
From Verif Require Import Protoc_Model Protoc_Spec Protoc_Spec2 Protoc_Proofs5 Protoc_Proofs6 Protoc_Proofs7 Protoc_Proofs8 GoStrFacts Props_Protoc.

Lemma absent_contains s sub : (forall a b, s <> a +++ sub +++ b) -> contains s sub = false.
Proof. intros H. destruct (contains s sub) eqn:E; [|reflexivity]. apply contains_spec in E as (a & b & E). now apply H in E. Qed.
Theorem C102_said files allow line shown l c message : said files line shown l c message ->
  parse_line files allow line = Some (mk_failure shown l c "" message).
Proof.
  assert (P : forall file shown, plain_name file -> stands_for files file shown -> best_file_path files file = shown).
  { intros file s Hf Hs. now apply stands_unique. }
  assert (Q : forall file shown m, plain_name file -> stands_for files file shown -> plain files file m = mk_failure shown 0 0 "" m).
  { intros file s m Hf Hs. unfold plain. now rewrite (P _ _ Hf Hs). }
  assert (Eq : forall s r, in_quotes s +++ r = quote +++ s +++ quote +++ r) by (intros s r; unfold in_quotes, quote; cbn; now rewrite sapp_assoc).
  intros S. destruct S as [file shown l nl c nc message Hf Hs Hl Hc Hm Ht|file shown l nl c nc chain Hf Hs Hl Hc Hm|file shown chain Hf Hs Hm|file shown Hf Hs|file shown Hf Hs|file shown rest Hf Hs Hr He|file shown name Hf Hs Hn
    |file shown x y z told Hf Hs Hx Hy Hz ->|file shown rest Hf Hs Hr He|file shown n nn rest Hf Hs Hn ->|file Hf|dir Hf|name Hn|x name n nn Hx Hm Hn|x message Hx H1 H2|text x name n nn Ne Hx Hm Hn H1 H2 H3].
  - now apply C48_standard.
  - rewrite (recursive_placed files allow file l c chain nl nc); auto. now rewrite (P _ _ Hf Hs).
  - rewrite recursive_old by auto. now rewrite (Q _ _ _ Hf Hs).
  - rewrite explicit_default by auto. now rewrite (Q _ _ _ Hf Hs).
  - rewrite first_enum by auto. now rewrite (Q _ _ _ Hf Hs).
  - rewrite json_camel by auto. now rewrite (Q _ _ _ Hf Hs).
  - pose proof (not_defined files allow file name Hf Hn) as E. rewrite (Q _ _ _ Hf Hs) in E.
    replace (in_quotes name +++ " is not defined.") with (quote +++ name +++ quote +++ " is not defined.") by (unfold in_quotes, quote; cbn; now rewrite sapp_assoc). exact E.
  - pose proof (seems_defined files allow file x y z Hf Hx Hy Hz) as E. cbv zeta in E. rewrite (Q _ _ _ Hf Hs) in E.
    rewrite !Eq. exact E.
  - rewrite option_value by auto. now rewrite (Q _ _ _ Hf Hs).
  - pose proof (no_syntax files allow n nn file Hn Hf) as E. rewrite (Q _ _ _ Hf Hs) in E. exact E.
  - rewrite Eq. exact (C48_not_found files allow file Hf).
  - rewrite Eq. exact (no_directory files allow dir Hf).
  - exact (program_not_found files allow name Hn).
  - exact (plugin_failed files allow x name n nn Hx Hm Hn).
  - apply (plugin_says files allow x message Hx); [now apply absent_contains|]. destruct (has_prefix message "protoc-gen-") eqn:E; [|reflexivity]. apply has_prefix_spec in E as (b & E). now apply H2 in E.
  - apply (plugin_output_failed files allow text x name n nn); auto using absent_contains.
    destruct (has_prefix text "--") eqn:E; [|reflexivity]. apply has_prefix_spec in E as (b & ->). exfalso. apply (H1 "" (b +++ "-")). reflexivity.
Qed.
Print Assumptions C102_said.
(** A whole output: the failures are those of its lines, in order. *)
Theorem C102_output files allow output fs : Forall2 (fun line f => said files line (f_filename f) (f_line f) (f_column f) (f_message f) /\ f_lint_id f = "") (lines_in output) fs ->
  parse_output files allow output = fs.
Proof.
  rewrite C48_lines. generalize (lines_in output). intros ls H. induction H as [|line f ls fs (S & I) H IH]; [reflexivity|]. cbn [map concat].
  rewrite (C102_said _ _ _ _ _ _ _ S), IH. destruct f. cbn in *. now subst.
Qed.
Print Assumptions C102_output.
(** False: that an error in the value of an option is always told with its file: not if there are
    two more colons. *)
Theorem C102_colons_refuted :
  ~ (forall files allow file shown rest, plain_name file -> stands_for files file shown ->
       exists f, parse_line files allow (file +++ ": Error while parsing option value for " +++ rest) = Some f /\ f_filename f = shown).
Proof.
  intros H. destruct (H [] true "a.proto" "a.proto" """x"": Expected ""{"": found ""}"".") as (f & E & F).
  - repeat split; discriminate.
  - right. split; [discriminate|reflexivity].
  - vm_compute in E. injection E as <-. discriminate F.
Qed.
Print Assumptions C102_colons_refuted.

(** ** Examples *)
Definition px_more : string :=
  "[libprotobuf WARNING google/protobuf/compiler/parser.cc:562] No syntax specified for the proto file: x.proto. Please use 'syntax = ""proto2"";' or 'syntax = ""proto3"";' to specify a syntax version. (Defaulted to proto2 syntax.)" +++ String newline (
  "x.proto:5:1: File recursively imports itself: a/x.proto -> b.proto -> a/x.proto" +++ String newline (
  "a/y.proto: ""foo.Bar"" is not defined." +++ String newline (
  "2020/01/01 12:00:00 cannot go on--go_out: protoc-gen-go: Plugin failed with status code 1." +++ String newline
  "--grpc-gateway_out: a/x.proto: no such file"))).
Lemma px_x : plain_name "x.proto" /\ stands_for [px_file "a/x.proto"; px_file "a/y.proto"] "x.proto" "a/x.proto".
Proof. split; [repeat split; discriminate|]. left. exists (px_file "a/x.proto"). split; reflexivity. Qed.
Lemma px_y : plain_name "a/y.proto" /\ stands_for [px_file "a/x.proto"; px_file "a/y.proto"] "a/y.proto" "a/y.proto".
Proof. split; [repeat split; discriminate|]. left. exists (px_file "a/y.proto"). split; reflexivity. Qed.
Lemma px_not s sub : contains s sub = false -> forall a b, s <> a +++ sub +++ b.
Proof. intros H a b E. assert (X : contains s sub = true) by (apply contains_spec; eauto). congruence. Qed.
Example C102_ex : Forall2 (fun line f => said [px_file "a/x.proto"; px_file "a/y.proto"] line (f_filename f) (f_line f) (f_column f) (f_message f) /\ f_lint_id f = "") (lines_in px_more)
  [mk_failure "a/x.proto" 0 0 "" "No syntax specified. Please use 'syntax = ""proto2"";' or 'syntax = ""proto3"";' to specify a syntax version.";
   mk_failure "a/x.proto" 5 1 "" "File recursively imports itself a/x.proto -> b.proto -> a/x.proto.";
   mk_failure "a/y.proto" 0 0 "" """foo.Bar"" is not defined.";
   mk_failure "" 0 0 "" "protoc-gen-go failed with status code 1: 2020/01/01 12:00:00 cannot go on";
   mk_failure "" 0 0 "" "protoc-gen-grpc-gateway: a/x.proto: no such file"].
Proof.
  vm_compute lines_in. repeat constructor.
  - apply (SaidSyntax _ "x.proto" "a/x.proto" "562" 562 "Please use 'syntax = ""proto2"";' or 'syntax = ""proto3"";' to specify a syntax version."); [apply px_x|apply px_x|split; [reflexivity|lia]|reflexivity].
  - apply (SaidRecursivePlaced _ "x.proto" "a/x.proto" "5" 5 "1" 1 "a/x.proto -> b.proto -> a/x.proto"); [apply px_x|apply px_x|split; [reflexivity|lia]|split; [reflexivity|lia]|reflexivity].
  - apply (SaidUndefined _ "a/y.proto" "a/y.proto" "foo.Bar"); [apply px_y|apply px_y|reflexivity].
  - apply (SaidOutput _ "2020/01/01 12:00:00 cannot go on" "go" "go" "1" 1); [discriminate|reflexivity|reflexivity|split; [reflexivity|lia]|now apply px_not..].
  - apply (SaidPlugin _ "grpc-gateway" "a/x.proto: no such file"); [reflexivity|now apply px_not|discriminate].
Qed.
