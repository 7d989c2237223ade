(** Properties C31-C34: string helpers and package-derived values. *)
From Verif Require Import GoStrFacts GoPathFacts Strs_Model Strs_Spec Strs_Proofs Protostrs_Proofs.

(** ** C32: version parsing.
    A package is versioned exactly when it is something, a dot, and a last
    component vN or vNbetaM whose numbers are decimal, at least 1 and fit in 64
    bits; the numbers returned are those written. *)
Theorem C32_version_parsing : forall pkg major beta,
  major_beta_version pkg = Some (major, beta) <->
  exists base part, last_component pkg base part /\ VersionPart part major beta.
Proof. exact major_beta_version_spec. Qed.
Print Assumptions C32_version_parsing.
Theorem C32_version_roundtrip : forall base n m,
  version_number n -> version_number m ->
  major_beta_version (base +++ ".v" +++ itoa_N n) = Some (n, 0%N) /\
  major_beta_version (base +++ ".v" +++ itoa_N n +++ "beta" +++ itoa_N m) = Some (n, m).
Proof. exact major_beta_version_roundtrip. Qed.
Print Assumptions C32_version_roundtrip.
Example C32_ex : major_beta_version "uber.trip.v12beta3" = Some (12, 3)%N
  /\ major_beta_version "uber.trip.v0" = None /\ major_beta_version "v1" = None
  /\ major_beta_version "a.v18446744073709551616" = None
  /\ major_beta_version "a.v18446744073709551615" = Some (18446744073709551615, 0)%N.
Proof. repeat split; vm_compute; reflexivity. Qed.
Example C32_version_number_ex : version_number 12%N /\ version_number 3%N.
Proof. unfold version_number. split; split; vm_compute; discriminate. Qed.

(** ** C33: case conversion agrees with the case checks *)
Theorem C33_checks_are_shapes : forall s,
  (is_lower_snake_case s = true <-> snake_shape is_lower s) /\
  (is_upper_snake_case s = true <-> snake_shape is_upper s) /\
  (is_camel_case s = true <-> camel_shape s).
Proof. exact (fun s => conj (is_lower_snake_shape s) (conj (is_upper_snake_shape s) (is_camel_shape s))). Qed.
Print Assumptions C33_checks_are_shapes.
Theorem C33_snake_of_camel : forall s, camel_shape s ->
  is_lower_snake_case (to_lower_snake_case s) = true /\
  is_upper_snake_case (to_upper_snake_case s) = true /\
  without_underscores (to_lower_snake_case s) = to_lower s /\
  without_underscores (to_upper_snake_case s) = to_upper s.
Proof.
  exact (fun s H =>
    conj (proj2 (is_lower_snake_shape _) (lower_snake_of_camel s H))
    (conj (proj2 (is_upper_snake_shape _) (upper_snake_of_camel s H))
    (conj (lower_snake_letters s H) (upper_snake_letters s H)))).
Qed.
Print Assumptions C33_snake_of_camel.
(** The underscores are exactly between the words. *)
Theorem C33_snake_words : forall s, camel_shape s ->
  exists ws, words_of s ws
    /\ to_lower_snake_case s = join "_" (map to_lower ws) /\ to_upper_snake_case s = join "_" (map to_upper ws).
Proof. exact snake_words. Qed.
Print Assumptions C33_snake_words.
Theorem C33_upper_camel_words : forall s, snake_shape is_lower s ->
  to_upper_camel_case s = join EmptyString (map capitalize (split_char "_" s)).
Proof. exact upper_camel_words. Qed.
Print Assumptions C33_upper_camel_words.
Theorem C33_lower_snake_idempotent : forall s,
  to_lower_snake_case (to_lower_snake_case s) = to_lower_snake_case s.
Proof. exact to_lower_snake_case_idem. Qed.
Print Assumptions C33_lower_snake_idempotent.
(** Upper snake casing is not idempotent: an upper snake case name is changed,
    so an enum named in upper snake case is asked for a mangled value prefix. *)
Theorem C33_upper_snake_idempotent_refuted :
  exists s, snake_shape is_upper s /\ to_upper_snake_case s <> s /\
  to_upper_snake_case (to_upper_snake_case s) <> to_upper_snake_case s.
Proof.
  exists "FOO_BAR". split; [apply is_upper_snake_shape; reflexivity|].
  split; vm_compute; discriminate.
Qed.
Print Assumptions C33_upper_snake_idempotent_refuted.
Theorem C33_upper_camel_of_snake : forall s, snake_shape is_lower s ->
  is_camel_case (to_upper_camel_case s) = true.
Proof. exact (fun s H => proj2 (is_camel_shape _) (upper_camel_of_snake s H)). Qed.
Print Assumptions C33_upper_camel_of_snake.
Theorem C33_split_camel_words : forall s, camel_shape s ->
  join EmptyString (split_camel_case_word s) = s /\
  Forall (fun w => w <> EmptyString /\ lacks "_" w) (split_camel_case_word s).
Proof. exact split_camel_words. Qed.
Print Assumptions C33_split_camel_words.
Example C33_ex : camel_shape "FooBarURL2" /\ snake_shape is_lower "foo_bar2"
  /\ to_lower_snake_case "FooBarURLs" = "foo_bar_ur_ls"
  /\ to_upper_camel_case "foo_bar2" = "FooBar2" /\ split_camel_case_word "FooBarURL" = ["Foo"; "Bar"; "URL"].
Proof.
  split; [apply is_camel_shape; reflexivity|]. split; [apply is_lower_snake_shape; reflexivity|].
  repeat split; reflexivity.
Qed.

(** ** C34: sort/uniq helpers *)
Theorem C34_sort_uniq : forall l,
  Increasing (sort_uniq l) /\
  forall x, In x (sort_uniq l) <-> x <> EmptyString /\ exists y, In y l /\ x = y.
Proof. exact (sort_uniq_modify_spec (fun x => x)). Qed.
Print Assumptions C34_sort_uniq.
Theorem C34_sort_uniq_modify : forall f l,
  Increasing (sort_uniq_modify f l) /\
  forall x, In x (sort_uniq_modify f l) <-> x <> EmptyString /\ exists y, In y l /\ x = f y.
Proof. exact sort_uniq_modify_spec. Qed.
Print Assumptions C34_sort_uniq_modify.
Theorem C34_intersection : forall a b,
  Increasing (intersection a b) /\
  forall x, In x (intersection a b) <-> x <> EmptyString /\ In x a /\ In x b.
Proof. exact intersection_spec. Qed.
Print Assumptions C34_intersection.
Theorem C34_map_order : forall m1 m2, Permutation m1 m2 -> map_to_sorted_slice m1 = map_to_sorted_slice m2.
Proof. exact map_to_sorted_slice_perm. Qed.
Print Assumptions C34_map_order.
Example C34_ex : sort_uniq ["b"; ""; "a"; "b"] = ["a"; "b"]
  /\ intersection ["c"; ""; "a"; "b"] ["b"; ""; "c"; "d"; "b"] = ["b"; "c"].
Proof. split; reflexivity. Qed.

(** ** C31: package-derived option values *)
Theorem C31_csharp_plain : forall comps,
  comps <> [] -> Forall ident comps ->
  (forall n m, VersionPart (last comps EmptyString) n m -> m = 0%N) ->
  csharp_namespace (join "." comps) = join "." (map capitalize comps).
Proof. exact csharp_namespace_plain. Qed.
Print Assumptions C31_csharp_plain.
Theorem C31_csharp_beta : forall comps part n m,
  comps <> [] -> Forall ident comps -> ident part ->
  VersionPart part n m -> m <> 0%N -> (n < 9223372036854775808)%N -> (m < 9223372036854775808)%N ->
  csharp_namespace (join "." (comps ++ [part])) =
  join "." (map capitalize comps ++ ["V" +++ itoa_N n +++ "Beta" +++ itoa_N m]).
Proof. exact csharp_namespace_beta. Qed.
Print Assumptions C31_csharp_beta.
(** Without the bound the number printed is negative. *)
Theorem C31_csharp_beta_large_refuted :
  exists n, version_number n /\
  csharp_namespace ("foo.v" +++ itoa_N n +++ "beta1") <> "Foo.V" +++ itoa_N n +++ "Beta1".
Proof.
  exists 9223372036854775808%N. split; [unfold version_number; split; vm_compute; discriminate|].
  vm_compute. discriminate.
Qed.
Print Assumptions C31_csharp_beta_large_refuted.
Theorem C31_php_agrees_with_csharp : forall pkg,
  php_namespace pkg = join two_backslashes (split_char "." (csharp_namespace pkg)).
Proof. exact php_namespace_spec. Qed.
Print Assumptions C31_php_agrees_with_csharp.
Theorem C31_go_package : forall comps c, Forall ident comps -> ident c ->
  go_package (join "." (comps ++ [c])) = c +++ "pb".
Proof. exact go_package_spec. Qed.
Print Assumptions C31_go_package.
Theorem C31_go_package_v2 : forall comps c v n m, Forall ident comps -> ident c -> ident v ->
  VersionPart v n m -> go_package_v2 (join "." (comps ++ [c; v])) = c +++ v.
Proof. exact go_package_v2_versioned. Qed.
Print Assumptions C31_go_package_v2.
Theorem C31_go_package_v2_unversioned : forall pkg,
  (forall base part n m, last_component pkg base part -> ~ VersionPart part n m) ->
  go_package_v2 pkg = go_package pkg.
Proof. exact go_package_v2_unversioned. Qed.
Print Assumptions C31_go_package_v2_unversioned.
(** [parts] are the package parts before the version part, if there is one. *)
Theorem C31_objc_prefix : forall pkg parts,
  parts <> [] -> Forall (fun p => exists c r, p = String c r /\ is_letter c = true /\ ident p) parts ->
  (pkg = join "." parts /\ (forall base part n m, last_component pkg base part -> ~ VersionPart part n m)
   \/ exists v n m, VersionPart v n m /\ ident v /\ pkg = join "." (parts ++ [v])) ->
  let initials := join EmptyString (map initial parts) in
  String.length initials = length parts /\
  objc_class_prefix pkg =
    (if String.eqb initials "GPB" then "GPX" else initials +++ srepeat "X" (3 - length parts)) /\
  3 <= String.length (objc_class_prefix pkg) /\
  all_chars (fun c => is_upper c = true) (objc_class_prefix pkg) /\
  objc_class_prefix pkg <> "GPB".
Proof. exact objc_class_prefix_spec. Qed.
Print Assumptions C31_objc_prefix.
Theorem C31_java_outer_classname : forall dirs name,
  ok_comps dirs -> snake_shape is_lower name ->
  java_outer_classname (abs_path (dirs ++ [name +++ ".proto"])) = to_upper_camel_case name +++ "Proto" /\
  camel_shape (java_outer_classname (abs_path (dirs ++ [name +++ ".proto"]))).
Proof. exact java_outer_classname_spec. Qed.
Print Assumptions C31_java_outer_classname.
Theorem C31_java_package : forall pkg prefix, pkg <> EmptyString -> prefix <> EmptyString ->
  java_package pkg = "com." +++ pkg /\
  java_package_prefix_override pkg EmptyString = "com." +++ pkg /\
  java_package_prefix_override pkg prefix = prefix +++ "." +++ pkg.
Proof. intros [|c p] [|d q] H1 H2; try easy. Qed.
Print Assumptions C31_java_package.

(** The hypotheses are met by "google.pro.buf" and its version v1beta2. *)
Example C31_hyps_ex :
  Forall (fun p => exists c r, p = String c r /\ is_letter c = true /\ ident p) ["google"; "pro"; "buf"]
  /\ ident "v1beta2" /\ VersionPart "v1beta2" 1 2
  /\ (forall n m, VersionPart "buf" n m -> m = 0%N).
Proof.
  split; [|split; [|split]].
  - repeat constructor; eexists; eexists; (split; [reflexivity|split; [reflexivity|apply identb_ident; reflexivity]]).
  - apply identb_ident; reflexivity.
  - apply (Beta "1" 1 "2" 2); try (apply (Decimal_one "1"); reflexivity);
    try (apply (Decimal_one "2"); reflexivity); unfold version_number; split; vm_compute; discriminate.
  - intros n m H. inversion H.
Qed.
Example C31_ex : csharp_namespace "uber.trip_a.v1beta02" = "Uber.Trip_a.V1Beta2"
  /\ php_namespace "foo.bar" = "Foo" +++ two_backslashes +++ "Bar"
  /\ go_package_v2 "uber.trip.v1" = "tripv1" /\ go_package "uber.trip" = "trippb"
  /\ objc_class_prefix "google.pro.buf.v1" = "GPX" /\ objc_class_prefix "foo.v1" = "FXX"
  /\ java_outer_classname "/a/foo_bar.proto" = "FooBarProto".
Proof. repeat split; vm_compute; reflexivity. Qed.
