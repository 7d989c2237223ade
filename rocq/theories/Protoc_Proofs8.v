(** What protoc prints: the other kinds of lines. *)
From Verif Require Import Protoc_Model Protoc_Spec GoRegexpFacts GoPathFacts GoStrFacts Protostrs_Proofs Text_Proofs Protoc_Proofs5 Protoc_Proofs6.
From Coq Require Import Lia.

Ltac none := match goal with |- ?x = None => destruct x eqn:?Q; [exfalso|reflexivity] end.
Ltac absent := match goal with |- context [try ?re ?line ?f ?next] =>
      let E := fresh in assert (E : re_find re line = None); [|unfold try at 1; rewrite E; clear E] end.
Ltac gone Hp N := absent; [none; match goal with Q : re_find _ _ = Some _ |- False => apply N in Q as (?h & Q); rewrite Hp in Q; simpl in Q; repeat (destruct Q as [Q|Q]; [discriminate Q|]); exact Q end|].
Ltac unnumbered Hp N := absent; [none; match goal with Q : re_find _ _ = Some _ |- False => apply N in Q as (?h & Q & ?D & ?Hn); rewrite Hp in Q; simpl in Q; repeat (destruct Q as [Q|Q]; [rewrite <- Q in *; discriminate|]); exact Q end|].

(** Between two colons. *)
Lemma between' s a w b : s = a +++ String colon (w +++ String colon b) -> no_char colon w = true -> In w (removelast (tl (pieces s))).
Proof.
  intros -> Hw. unfold pieces. rewrite split_app_sep, split_char_app by auto.
  destruct (split_char colon a) as [|x l] eqn:E; [now apply split_char_nonnil in E|]. cbn [app tl].
  rewrite removelast_app by discriminate. apply in_or_app. right. destruct (split_char colon b) as [|y r] eqn:E'; [now apply split_char_nonnil in E'|]. now left.
Qed.
Section Needs2.
  Variable line : string.
  Variable g : list string.
  Lemma needs_is_not_defined : re_find is_not_defined_re line = Some g -> exists c, has_suffix line (" is not defined" +++ String c "") = true.
  Proof.
    intros H. found H. exists c. replace (t +++ ": " +++ t0 +++ " is not defined" +++ String c "") with ((t +++ ": " +++ t0) +++ " is not defined" +++ String c "") by now rewrite !sapp_assoc.
    apply has_suffix_spec. exists (t +++ ": " +++ t0). rewrite !sapp_assoc. reflexivity.
  Qed.
  Lemma needs_seems : re_find seems_to_be_defined_re line = Some g -> exists h, In (" " +++ quote +++ h) (tl (pieces line)).
  Proof. intros H. found H. cbn [String.append] in *. match goal with |- exists h, In _ (tl (pieces (?t +++ _))) => eapply (piece _ t (" " +++ quote)) end; [cbn; reflexivity|reflexivity]. Qed.
  Lemma needs_option : re_find option_value_re line = Some g -> exists h, In (" Error while" +++ h) (tl (pieces line)).
  Proof. intros H. found H. one t " Error while" (" parsing option value for " +++ t0 +++ ""). Qed.
  Lemma needs_program : re_find program_not_found_re line = Some g -> exists h, In (" program not found" +++ h) (tl (pieces line)).
  Proof. intros H. found H. one (x +++ "protoc-gen-" +++ t) " program not found" (" or is not executable"). Qed.
  Lemma needs_first_enum : re_find first_enum_value_re line = Some g -> exists h, In (" The first enum" +++ h) (tl (pieces line)).
  Proof. intros H. found H. one t " The first enum" (" value must be zero in proto3" +++ String c ""). Qed.
  Lemma needs_no_syntax' : re_find no_syntax_specified_re line = Some g -> exists h, In (h +++ "No syntax specified for the proto file") (removelast (pieces line)).
  Proof.
    intros H. found H. match goal with |- exists h, In _ (removelast (pieces ?y)) => change y with (x +++ "No syntax specified for the proto file" +++ String colon (" " +++ t +++ ". Please use" +++ s)) end.
    generalize (" " +++ t +++ ". Please use" +++ s). intros b. unfold pieces. rewrite <- sapp_assoc, split_app_sep.
    rewrite removelast_app by apply split_char_nonnil.
    enough (K : exists h, In (h +++ "No syntax specified for the proto file") (split_char colon (x +++ "No syntax specified for the proto file"))) by (destruct K as (h & K); exists h; apply in_or_app; now left).
    clear. induction x as [|a x IH]; [exists ""; now left|]. destruct IH as (h & Hh). cbn [String.append split_char].
    destruct (Ascii.eqb a colon); [exists h; now right|]. destruct (split_char colon (x +++ "No syntax specified for the proto file")) as [|y l]; [destruct Hh|].
    destruct Hh as [->|Hh]; [exists (String a h); now left|exists h; now right].
  Qed.
  Lemma needs_extra' : re_find extra_import_re line = Some g -> In " warning" (removelast (tl (pieces line))).
  Proof. intros H. found H. apply (between' _ t " warning" (" Import " +++ t0 +++ " but not used" +++ String c "")); reflexivity. Qed.
  Lemma needs_3110' : re_find extra_import_3110_re line = Some g -> In " warning" (removelast (tl (pieces line))).
  Proof. intros H. found H. apply (between' _ (t +++ ":" +++ t0 +++ ":" +++ t1) " warning" (" Import " +++ t2 +++ " is unused" +++ String c "")); [now rewrite !sapp_assoc|reflexivity]. Qed.
  Lemma needs_380' : re_find extra_import_380_re line = Some g -> In " warning" (removelast (tl (pieces line))).
  Proof. intros H. found H. apply (between' _ (t +++ ":" +++ t0 +++ ":" +++ t1) " warning" (" Import " +++ t2 +++ " but not used" +++ String c "")); [now rewrite !sapp_assoc|reflexivity]. Qed.
End Needs2.

(** ** Cuts *)
Lemma one_cut e line gs : cut (grp [Dots] ++ [Lit e; Dot; End]) line None gs -> exists t c, line = t +++ e +++ String c "" /\ gs = [t].
Proof. intros H. groups H. eauto. Qed.
Lemma one_find e file : re_find (mk_regexp true (grp [Dots] ++ [Lit e; Dot; End])) (file +++ e +++ ".") = Some [file].
Proof.
  apply find_cut.
  - unfold grp. cbn [app]. apply CutOpen, (CutDots file), CutClose, (CutLit e), CutDot, CutEnd, CutNil.
  - intros gs H. apply one_cut in H as (t & c & Ht & ->). symmetry in Ht. now apply (same_end t e c file ".") in Ht as [-> _].
Qed.
(** After the first colon. *)
Lemma after_colon t r f r' : no_char colon f = true -> length (pieces r') = 1 -> t +++ String colon r = f +++ String colon r' -> t = f /\ r = r'.
Proof. intros Hf Hl H. apply (same_cut _ _ _ _ H Hf). rewrite Hl. apply len_some. Qed.
Lemma pieces_one m : no_char colon m = true -> length (pieces m) = 1.
Proof. intros H. unfold pieces. now rewrite split_char_no. Qed.

Lemma recursive_cut line gs : cut (re_items recursive_import_380_re) line None gs ->
  exists file l c chain, line = file +++ String colon (l +++ String colon (c +++ String colon (" File recursively imports itself: " +++ chain))) /\ sforall is_digit l = true /\ l <> "" /\ gs = [file; l; c; chain].
Proof. intros H. unfold recursive_import_380_re in H. cbn [re_items] in H. groups H. exists t, t0, t1, t2. rewrite sapp_nil_r. auto. Qed.
Section Lines2.
  Variable files : list proto_file.
  Variable allow_unused : bool.
  Notation parse_line := (parse_line files allow_unused).
  (** A line of a file that has no position. *)
  Lemma file_line file rest : plain_name file -> length (pieces rest) <> 3 ->
    (forall p, In p (removelast (pieces rest)) -> has_suffix p "No syntax specified for the proto file" = false) ->
    (forall h l r, pieces rest = l ++ (" protoc-gen-" +++ h) :: r -> r <> [] -> False) ->
    let line := file +++ String colon rest in
    pieces line = file :: pieces rest /\ re_find no_syntax_specified_re line = None /\
    parse_line line = match parse_known files allow_unused line with Some a => a | None => Some (uninterpreted line) end.
  Proof.
    intros Hf Hl Hs Hg line. pose proof Hf as (Nf & Cf & Sf & _).
    assert (Hp : pieces line = file :: pieces rest) by (unfold pieces, line; now rewrite split_char_app).
    split; [auto|]. split.
    - none. apply needs_no_syntax' in Q as (h & Q). rewrite Hp in Q. cbn [removelast] in Q. pose proof (len_some rest) as Ln. destruct (pieces rest) as [|y ps]; [cbn in Ln; lia|].
      destruct Q as [Q|Q].
      + pose proof (no_space_suffix file "No syntax specified for the proto file" Sf eq_refl) as X. rewrite Q, has_suffix_app in X. discriminate X.
      + apply Hs in Q. now rewrite has_suffix_app in Q.
    - rewrite plugin_absent.
      + fold (pieces line). rewrite Hp. destruct (pieces rest) as [|a [|b [|c [|d l]]]]; try reflexivity. cbn in Hl. lia.
      + now apply plain_not_flag.
      + rewrite Hp. intros h x b E Hx Hb. destruct x as [|? x]; [contradiction|]. cbn [app] in E. injection E as _ E. exact (Hg h x b E Hb).
  Qed.
  Lemma explicit_default file : plain_name file -> parse_line (file +++ ": Explicit default values are not allowed in proto3.") = Some (plain files file "Explicit default values are not allowed in proto3.").
  Proof.
    intros Hf. destruct (two_pieces files allow_unused file " Explicit default values are not allowed in proto3." Hf eq_refl) as (Hp & Hs & E); [now exists " Explicit default values are not allowed in proto3"|].
    etransitivity; [exact E|]. unfold parse_known. unfold try at 1. rewrite Hs.
    unnumbered Hp needs_3110. unnumbered Hp needs_380. gone Hp needs_extra. unnumbered Hp needs_recursive_380. gone Hp needs_recursive.
    gone Hp needs_directory. gone Hp needs_not_found. unfold try at 1.
    pose proof (one_find ": Explicit default values are not allowed in proto3" file) as Q. change (file +++ ": Explicit default values are not allowed in proto3" +++ ".") with (file +++ String colon " Explicit default values are not allowed in proto3.") in Q.
    unfold explicit_default_re. rewrite Q. reflexivity.
  Qed.
  Lemma first_enum file : plain_name file -> parse_line (file +++ ": The first enum value must be zero in proto3.") = Some (plain files file "The first enum value must be zero in proto3.").
  Proof.
    intros Hf. destruct (two_pieces files allow_unused file " The first enum value must be zero in proto3." Hf eq_refl) as (Hp & Hs & E); [now exists " The first enum value must be zero in proto3"|].
    etransitivity; [exact E|]. unfold parse_known. unfold try at 1. rewrite Hs.
    unnumbered Hp needs_3110. unnumbered Hp needs_380. gone Hp needs_extra. unnumbered Hp needs_recursive_380. gone Hp needs_recursive.
    gone Hp needs_directory. gone Hp needs_not_found. gone Hp needs_explicit. gone Hp needs_import. unnumbered Hp needs_json_380. gone Hp needs_json.
    absent. { none. apply needs_is_not_defined in Q as (c & Q). apply has_suffix_spec in Q as (r & Q). apply (f_equal srev) in Q. rewrite !srev_sapp in Q. cbn in Q. discriminate Q. }
    gone Hp needs_seems. gone Hp needs_option. gone Hp needs_program. unfold try at 1.
    pose proof (one_find ": The first enum value must be zero in proto3" file) as Q. change (file +++ ": The first enum value must be zero in proto3" +++ ".") with (file +++ String colon " The first enum value must be zero in proto3.") in Q.
    unfold first_enum_value_re. rewrite Q. reflexivity.
  Qed.
  (** The line ends with a full stop after a word that is none of the known ones. *)
  Lemma json_camel file rest : plain_name file -> no_char colon rest = true -> (exists a, rest = a +++ ".") ->
    parse_line (file +++ ": The JSON camel-case name of field" +++ rest) = Some (plain files file ("The JSON camel-case name of field" +++ rest)).
  Proof.
    intros Hf Hr (a & ->). pose proof Hf as (_ & Cf & _). set (m := " The JSON camel-case name of field" +++ a +++ ".").
    assert (Hm : no_char colon m = true) by exact Hr.
    destruct (two_pieces files allow_unused file m Hf Hm) as (Hp & Hs & E); [now exists (" The JSON camel-case name of field" +++ a)|].
    etransitivity; [exact E|]. unfold parse_known. unfold try at 1. rewrite Hs. unfold m in Hp. unfold m.
    unnumbered Hp needs_3110. unnumbered Hp needs_380. gone Hp needs_extra. unnumbered Hp needs_recursive_380. gone Hp needs_recursive.
    gone Hp needs_directory. gone Hp needs_not_found. gone Hp needs_explicit. gone Hp needs_import. unnumbered Hp needs_json_380.
    unfold try at 1.
    assert (Q : re_find json_camel_case_re (file +++ String colon m) = Some [file; "The JSON camel-case name of field" +++ a +++ "."]).
    { apply find_cut.
      - unfold grp. cbn [app]. apply CutOpen, (CutDots file), CutClose, (CutLit ": "), CutOpen, (CutLit "The JSON camel-case name of field"). cbn [took String.append].
        replace (a +++ ".") with ((a +++ ".") +++ "") at 1 by apply sapp_nil_r. apply (CutDots (a +++ ".")), CutClose, CutEnd, CutNil.
      - intros gs H. assert (H' : forall line, cut (grp [Dots] ++ [Lit ": "] ++ grp [Lit "The JSON camel-case name of field"; Dots] ++ [End]) line None gs -> exists t u, line = t +++ String colon (" The JSON camel-case name of field" +++ u) /\ gs = [t; "The JSON camel-case name of field" +++ u]).
        { clear H. intros line H. groups H. exists t, t0. rewrite sapp_nil_r. split; reflexivity. }
        apply H' in H as (t & u & Ht & ->). symmetry in Ht. apply after_colon in Ht as (-> & Eu); [|exact Cf|now apply pieces_one].
        unfold m in Eu. apply (sapp_inj_l " The JSON camel-case name of field") in Eu. now rewrite Eu. }
    fold m. rewrite Q. reflexivity.
  Qed.
  Lemma quoted_not a w : no_char dquote w = true -> String dquote a = w -> False.
  Proof. intros H <-. discriminate H. Qed.
  Lemma not_defined file name : plain_name file -> no_char colon name = true ->
    parse_line (file +++ ": " +++ quote +++ name +++ quote +++ " is not defined.") = Some (plain files file (quote +++ name +++ quote +++ " is not defined.")).
  Proof.
    intros Hf Hn. pose proof Hf as (_ & Cf & _). set (m := " " +++ quote +++ name +++ quote +++ " is not defined.").
    assert (Hm : no_char colon m = true) by (unfold m, no_char in *; now rewrite !sforall_app, Hn).
    destruct (two_pieces files allow_unused file m Hf Hm) as (Hp & Hs & E); [exists (" " +++ quote +++ name +++ quote +++ " is not defined"); unfold m; now rewrite !sapp_assoc|].
    etransitivity; [exact E|]. unfold parse_known. unfold try at 1. rewrite Hs. unfold m in Hp. unfold m.
    unnumbered Hp needs_3110. unnumbered Hp needs_380. gone Hp needs_extra. unnumbered Hp needs_recursive_380. gone Hp needs_recursive.
    gone Hp needs_directory. gone Hp needs_not_found. gone Hp needs_explicit. gone Hp needs_import. unnumbered Hp needs_json_380. gone Hp needs_json.
    unfold try at 1.
    assert (Q : re_find is_not_defined_re (file +++ String colon m) = Some [file; quote +++ name +++ quote]).
    { apply find_cut.
      - unfold grp. cbn [app]. apply CutOpen, (CutDots file), CutClose, (CutLit ": "), CutOpen.
        change (cut (Dots :: Close :: [Lit " is not defined"; Dot; End]) (quote +++ name +++ quote +++ " is not defined.") (Some "") [quote +++ name +++ quote]).
        replace (quote +++ name +++ quote +++ " is not defined.") with ((quote +++ name +++ quote) +++ " is not defined.") by now rewrite !sapp_assoc.
        apply CutDots, CutClose, (CutLit " is not defined"), CutDot, CutEnd, CutNil.
      - intros gs H. assert (H' : forall line, cut (grp [Dots] ++ [Lit ": "] ++ grp [Dots] ++ [Lit " is not defined"; Dot; End]) line None gs -> exists t u c, line = t +++ String colon (" " +++ u +++ " is not defined" +++ String c "") /\ gs = [t; u]).
        { clear H. intros line H. groups H. exists t, t0, c. split; reflexivity. }
        apply H' in H as (t & u & c & Ht & ->). symmetry in Ht. apply after_colon in Ht as (-> & Eu); [|exact Cf|now apply pieces_one].
        unfold m in Eu. apply (sapp_inj_l " ") in Eu. replace (quote +++ name +++ quote +++ " is not defined.") with ((quote +++ name +++ quote) +++ " is not defined" +++ ".") in Eu by now rewrite !sapp_assoc.
        apply same_end in Eu as (-> & _). reflexivity. }
    fold m. rewrite Q. unfold at_0, at_1. cbn [nth]. now rewrite !sapp_assoc.
  Qed.
  Ltac plainly file m Hf Hm Hp Hs E :=
    destruct (two_pieces files allow_unused file m Hf Hm) as (Hp & Hs & E).
  Lemma not_defined_cut gs line : cut (re_items is_not_defined_re) line None gs -> exists t u c, line = t +++ String colon (" " +++ u +++ " is not defined" +++ String c "") /\ gs = [t; u].
  Proof. intros H. unfold is_not_defined_re in H. cbn [re_items] in H. groups H. exists t, t0, c. split; reflexivity. Qed.
  Lemma seems_defined file x y z : plain_name file -> no_char colon x = true -> no_char colon y = true -> no_char colon z = true ->
    let told := quote +++ x +++ quote +++ " seems to be defined in " +++ quote +++ y +++ quote +++ ", which is not imported by " +++ quote +++ z +++ quote +++ ". To use it here, please add the necessary import." in
    parse_line (file +++ ": " +++ told) = Some (plain files file told).
  Proof.
    intros Hf Hx Hy Hz told. pose proof Hf as (_ & Cf & _). set (m := " " +++ told).
    assert (Hm : no_char colon m = true) by (unfold m, told, no_char in *; now rewrite !sforall_app, Hx, Hy, Hz).
    destruct (two_pieces files allow_unused file m Hf Hm) as (Hp & Hs & E).
    { exists (" " +++ quote +++ x +++ quote +++ " seems to be defined in " +++ quote +++ y +++ quote +++ ", which is not imported by " +++ quote +++ z +++ quote +++ ". To use it here, please add the necessary import"). unfold m, told. now rewrite !sapp_assoc. }
    etransitivity; [exact E|]. unfold parse_known. unfold try at 1. rewrite Hs. unfold m, told in Hp. unfold m, told.
    unnumbered Hp needs_3110. unnumbered Hp needs_380. gone Hp needs_extra. unnumbered Hp needs_recursive_380. gone Hp needs_recursive.
    gone Hp needs_directory. gone Hp needs_not_found. gone Hp needs_explicit. gone Hp needs_import. unnumbered Hp needs_json_380. gone Hp needs_json.
    absent. { none. apply needs_is_not_defined in Q as (c & Q). apply has_suffix_spec in Q as (r & Q). apply (f_equal srev) in Q. cbn [String.append] in Q.
      change (srev (file +++ String colon m) = srev (r +++ " is not defined" +++ String c "")) in Q. unfold m, told in Q. rewrite (srev_sapp r) in Q.
      change (file +++ String ":" (" " +++ quote +++ x +++ quote +++ " seems to be defined in " +++ quote +++ y +++ quote +++ ", which is not imported by " +++ quote +++ z +++ quote +++ ". To use it here, please add the necessary import."))
        with (file +++ ": " +++ quote +++ x +++ quote +++ " seems to be defined in " +++ quote +++ y +++ quote +++ ", which is not imported by " +++ quote +++ z +++ quote +++ ". To use it here, please add the necessary import.") in Q.
      rewrite <- !sapp_assoc in Q. rewrite (srev_sapp _ ". To use it here, please add the necessary import.") in Q. cbn in Q. discriminate Q. }
    unfold try at 1.
    assert (Q : re_find seems_to_be_defined_re (file +++ String colon m) = Some [file; told]).
    { apply find_cut.
      - unfold grp. cbn [app]. apply CutOpen, (CutDots file), CutClose, (CutLit ": "), CutOpen, (CutLit quote).
        replace (x +++ quote +++ " seems to be defined in " +++ quote +++ y +++ quote +++ ", which is not imported by " +++ quote +++ z +++ quote +++ ". To use it here, please add the necessary import.")
          with (x +++ (quote +++ " seems to be defined in " +++ quote) +++ y +++ (quote +++ ", which is not imported by " +++ quote) +++ z +++ quote +++ String "." (" To use it here, please add the necessary import" +++ ".")) by now rewrite !sapp_assoc.
        replace told with (((((((((quote +++ x) +++ (quote +++ " seems to be defined in " +++ quote)) +++ y) +++ (quote +++ ", which is not imported by " +++ quote)) +++ z) +++ quote) +++ ".") +++ " To use it here, please add the necessary import") +++ ".") by (unfold told; now rewrite !sapp_assoc).
        apply (CutDots x), CutLit, (CutDots y), CutLit, (CutDots z), CutLit, CutDot, CutLit, CutDot, CutClose, CutEnd, CutNil.
      - intros gs H. assert (H' : forall line, cut (re_items seems_to_be_defined_re) line None gs -> exists t u, line = t +++ String colon (" " +++ u) /\ gs = [t; u]).
        { clear H. intros line H. unfold seems_to_be_defined_re in H. cbn [re_items] in H. groups H. eexists t, _. split; [|reflexivity]. cbn [String.append]. now rewrite !sapp_assoc. }
        apply H' in H as (t & u & Ht & ->). symmetry in Ht. apply after_colon in Ht as (-> & Eu); [|exact Cf|now apply pieces_one].
        unfold m in Eu. apply (sapp_inj_l " ") in Eu. now rewrite Eu. }
    unfold m, told in Q. rewrite Q. reflexivity.
  Qed.
  Lemma option_value file rest : plain_name file -> no_char colon rest = true -> (exists a, rest = a +++ ".") ->
    parse_line (file +++ ": Error while parsing option value for " +++ rest) = Some (plain files file ("Error while parsing option value for " +++ rest)).
  Proof.
    intros Hf Hr (a & ->). pose proof Hf as (_ & Cf & _). set (m := " Error while parsing option value for " +++ a +++ ".").
    assert (Hm : no_char colon m = true) by exact Hr.
    destruct (two_pieces files allow_unused file m Hf Hm) as (Hp & Hs & E); [now exists (" Error while parsing option value for " +++ a)|].
    etransitivity; [exact E|]. unfold parse_known. unfold try at 1. rewrite Hs. unfold m in Hp. unfold m.
    unnumbered Hp needs_3110. unnumbered Hp needs_380. gone Hp needs_extra. unnumbered Hp needs_recursive_380. gone Hp needs_recursive.
    gone Hp needs_directory. gone Hp needs_not_found. gone Hp needs_explicit. gone Hp needs_import. unnumbered Hp needs_json_380. gone Hp needs_json.
    fold m in Hp |- *. unfold try at 1. destruct (re_find is_not_defined_re (file +++ String colon m)) as [g|] eqn:Q.
    { apply found in Q as (x & b & Eb & Hx & Q). rewrite (Hx eq_refl) in Eb. cbn [String.append] in Eb. subst b. apply not_defined_cut in Q as (t & u & c & Ht & ->). symmetry in Ht.
      apply after_colon in Ht as (-> & Eu); [|exact Cf|now apply pieces_one]. unfold at_0, at_1. cbn [nth]. unfold m in Eu.
      change (" Error while parsing option value for " +++ a +++ ".") with (" " +++ "Error while parsing option value for " +++ a +++ ".") in Eu. apply (sapp_inj_l " ") in Eu. rewrite <- Eu.
      apply (f_equal srev) in Eu. rewrite <- (sapp_assoc u), srev_sapp in Eu. change ("Error while parsing option value for " +++ a +++ ".") with (("Error while parsing option value for " +++ a) +++ ".") in Eu. rewrite (srev_sapp _ ".") in Eu. cbn in Eu. injection Eu as -> _. reflexivity. }
    unfold m in Hp |- *. gone Hp needs_seems. unfold try at 1.
    assert (Q' : re_find option_value_re (file +++ String colon m) = Some [file; a +++ "."]).
    { apply find_cut.
      - unfold grp. cbn [app]. apply CutOpen, (CutDots file), CutClose, (CutLit ": Error while parsing option value for "), CutOpen. cbn [took String.append].
        replace (a +++ ".") with ((a +++ ".") +++ "") at 1 by apply sapp_nil_r. apply (CutDots (a +++ ".")), CutClose, CutEnd, CutNil.
      - intros gs H. assert (H' : forall line, cut (re_items option_value_re) line None gs -> exists t u, line = t +++ String colon (" Error while parsing option value for " +++ u) /\ gs = [t; u]).
        { clear H. intros line H. unfold option_value_re in H. cbn [re_items] in H. groups H. exists t, t0. rewrite sapp_nil_r. split; reflexivity. }
        apply H' in H as (t & u & Ht & ->). symmetry in Ht. apply after_colon in Ht as (-> & Eu); [|exact Cf|now apply pieces_one].
        unfold m in Eu. apply (sapp_inj_l " Error while parsing option value for ") in Eu. now rewrite Eu. }
    unfold m in Q'. rewrite Q'. reflexivity.
  Qed.
  Lemma program_not_found name : plain_name name ->
    parse_line ("protoc-gen-" +++ name +++ ": program not found or is not executable") = Some (unplaced ("protoc-gen-" +++ name +++ " not found or is not executable.")).
  Proof.
    intros Hn. pose proof Hn as (Nn & Cn & Sn & _). set (file := "protoc-gen-" +++ name). set (m := " program not found or is not executable").
    assert (Hf : plain_name file) by (unfold file; repeat split; auto; discriminate). pose proof Hf as (_ & Cf & _).
    destruct (file_line file m Hf) as (Hp & Hs & E); [discriminate|now intros p []| |].
    { intros h [|? [|? l]] r X; discriminate X. }
    etransitivity; [exact E|]. unfold parse_known. unfold try at 1. rewrite Hs. subst m.
    unnumbered Hp needs_3110. unnumbered Hp needs_380. gone Hp needs_extra. unnumbered Hp needs_recursive_380. gone Hp needs_recursive.
    gone Hp needs_directory. gone Hp needs_not_found. gone Hp needs_explicit. gone Hp needs_import. unnumbered Hp needs_json_380. gone Hp needs_json.
    absent. { none. apply needs_is_not_defined in Q as (c & Q). apply has_suffix_spec in Q as (r & Q). apply (f_equal srev) in Q. rewrite !srev_sapp in Q. cbn in Q. discriminate Q. }
    gone Hp needs_seems. gone Hp needs_option. unfold try at 1.
    assert (Q : re_find program_not_found_re (file +++ String colon " program not found or is not executable") = Some [name]).
    { assert (M : match_at (re_items program_not_found_re) (file +++ String colon " program not found or is not executable") None = Some [name]).
      { destruct (match_complete (re_items program_not_found_re) (file +++ String colon " program not found or is not executable") None [name]) as (gs & M).
        - unfold program_not_found_re, grp, file. cbn [re_items app]. rewrite sapp_assoc. apply CutLit, CutOpen, (CutDots name), CutClose, (CutLit ": program not found or is not executable"), CutEnd, CutNil.
        - rewrite M. f_equal. apply match_sound in M. unfold program_not_found_re in M. cbn [re_items] in M.
          assert (H' : forall line, cut ([Lit "protoc-gen-"] ++ grp [Dots] ++ [Lit ": program not found or is not executable"; End]) line None gs -> exists t, line = "protoc-gen-" +++ t +++ ": program not found or is not executable" /\ gs = [t]).
          { clear. intros line H. groups H. exists t. split; reflexivity. }
          apply H' in M as (t & Ht & ->). unfold file in Ht. rewrite sapp_assoc in Ht. apply (sapp_inj_l "protoc-gen-") in Ht. apply (sapp_inj_r _ _ ": program not found or is not executable") in Ht. now rewrite Ht. }
      unfold re_find. cbn [re_anchored program_not_found_re]. fold program_not_found_re. revert M. generalize (file +++ String colon " program not found or is not executable"). intros ln M. destruct ln; cbn [search]; unfold program_not_found_re in *; cbn [re_items] in *; now rewrite M. }
    rewrite Q. reflexivity.
  Qed.
  Lemma no_directory dir : plain_name dir -> parse_line (dir +++ ": warning: directory does not exist.") = Some (unplaced ("Directory " +++ quote +++ dir +++ quote +++ " does not exist.")).
  Proof.
    intros Hf. pose proof Hf as (_ & Cf & _). set (m := " warning: directory does not exist.").
    destruct (file_line dir m Hf) as (Hp & Hs & E); [discriminate|intros p [<-|[]]; reflexivity| |].
    { intros h [|? [|? [|? l]]] r X; discriminate X. }
    etransitivity; [exact E|]. unfold parse_known. unfold try at 1. rewrite Hs. subst m.
    unnumbered Hp needs_3110. unnumbered Hp needs_380.
    absent. { none. apply found in Q as (x & b & Eb & Hx & Q). rewrite (Hx eq_refl) in Eb. cbn [String.append] in Eb. subst b. apply extra_cut in Q as (t & n & c & Q & _).
      apply (f_equal srev) in Q. replace (t +++ ": warning: Import " +++ n +++ " but not used" +++ String c "") with ((t +++ ": warning: Import " +++ n) +++ " but not used" +++ String c "") in Q by now rewrite !sapp_assoc.
      rewrite !srev_sapp in Q. cbn in Q. discriminate Q. }
    unnumbered Hp needs_recursive_380. gone Hp needs_recursive. unfold try at 1.
    pose proof (one_find ": warning: directory does not exist" dir) as Q. change (dir +++ ": warning: directory does not exist" +++ ".") with (dir +++ String colon " warning: directory does not exist.") in Q.
    unfold directory_does_not_exist_re. rewrite Q. reflexivity.
  Qed.
  Lemma recursive_old file chain : plain_name file -> no_char colon chain = true ->
    parse_line (file +++ ": File recursively imports itself: " +++ chain) = Some (plain files file ("File recursively imports itself " +++ chain +++ ".")).
  Proof.
    intros Hf Hc. pose proof Hf as (_ & Cf & _). set (m := " File recursively imports itself: " +++ chain).
    assert (Hm : pieces m = [" File recursively imports itself"; " " +++ chain]).
    { unfold pieces, m. etransitivity; [exact (split_char_app colon " File recursively imports itself" (" " +++ chain) eq_refl)|]. f_equal. now apply split_char_no. }
    destruct (file_line file m Hf) as (Hp & Hs & E); rewrite ?Hm; [discriminate|intros p [<-|[]]; reflexivity| |].
    { intros h [|? [|? [|? l]]] r X; cbn in X; try discriminate X. intros Hr. injection X as _ _ X. congruence. }
    etransitivity; [exact E|]. unfold parse_known. unfold try at 1. rewrite Hs. rewrite Hm in Hp.
    
    assert (Nw : ~ In " warning" (removelast (tl (pieces (file +++ String colon m))))) by (rewrite Hp; intros [X|[]]; discriminate X).
    absent. { none. now apply needs_3110' in Q. } absent. { none. now apply needs_380' in Q. } absent. { none. now apply needs_extra' in Q. }
    absent. { none. unfold re_find, recursive_import_380_re in Q. cbn [re_anchored re_items] in Q. apply match_sound, recursive_cut in Q as (f' & l' & c' & n' & Q & D & N & _).
      assert (I : In l' (removelast (tl (pieces (file +++ String colon m))))) by (rewrite Q; apply (between' _ f' l' (c' +++ String colon (" File recursively imports itself: " +++ n'))); [reflexivity|now apply digits_no_colon]).
      rewrite Hp in I. destruct I as [<-|[]]. discriminate D. } unfold try at 1.
    assert (Q : re_find recursive_import_re (file +++ String colon m) = Some [file; chain]).
    { apply find_cut.
      - unfold grp. cbn [app]. apply CutOpen, (CutDots file), CutClose, (CutLit ": File recursively imports itself: "), CutOpen. cbn [took String.append].
        replace chain with (chain +++ "") at 1 by apply sapp_nil_r. apply (CutDots chain), CutClose, CutEnd, CutNil.
      - intros gs H. assert (H' : forall line, cut (re_items recursive_import_re) line None gs -> exists t u, line = t +++ String colon (" File recursively imports itself: " +++ u) /\ gs = [t; u]).
        { clear. intros line H. unfold recursive_import_re in H. cbn [re_items] in H. groups H. exists t, t0. rewrite sapp_nil_r. split; reflexivity. }
        apply H' in H as (t & u & Ht & ->). symmetry in Ht. apply same_cut in Ht as (-> & Eu); [|exact Cf|].
        + unfold m in Eu. apply (sapp_inj_l " File recursively imports itself: ") in Eu. now rewrite Eu.
        + rewrite Hm. cbn [length]. etransitivity; [|apply (len_colon " File recursively imports itself" (" " +++ u))]. apply le_n_S, len_some. }
    rewrite Q. reflexivity.
  Qed.
  Lemma recursive_placed file l c chain nl nc : plain_name file -> number l nl -> number c nc -> no_char colon chain = true ->
    parse_line (file +++ ":" +++ l +++ ":" +++ c +++ ": File recursively imports itself: " +++ chain) = Some (mk_failure (best_file_path files file) nl nc "" ("File recursively imports itself " +++ chain +++ ".")).
  Proof.
    intros Hf Hl Hc Hn. destruct (number_spec _ _ Hl) as (Dl & Nl & Al). destruct (number_spec _ _ Hc) as (Dc & Nc & Ac).
    pose proof (digits_no_colon _ Dl) as Cl. pose proof (digits_no_colon _ Dc) as Cc. pose proof Hf as (Nf & Cf & Sf & _).
    set (r := " File recursively imports itself: " +++ chain). set (m := l +++ String colon (c +++ String colon r)).
    assert (Hr : pieces r = [" File recursively imports itself"; " " +++ chain]).
    { unfold pieces, r. etransitivity; [exact (split_char_app colon " File recursively imports itself" (" " +++ chain) eq_refl)|]. f_equal. now apply split_char_no. }
    assert (Hm : pieces m = [l; c; " File recursively imports itself"; " " +++ chain]).
    { unfold pieces, m in *. rewrite !split_char_app by auto. now rewrite Hr. }
    assert (Hd : forall d, sforall is_digit d = true -> has_suffix d "No syntax specified for the proto file" = false).
    { intros d Hd. apply no_space_suffix; [|reflexivity]. revert Hd. apply sforall_impl. intros a Ha. apply negb_true_iff, Ascii.eqb_neq. intros ->. discriminate. }
    assert (Hg : forall h, " protoc-gen-" +++ h <> l /\ " protoc-gen-" +++ h <> c) by (intros h; split; intros <-; discriminate).
    destruct (file_line file m Hf) as (Hp & Hs & E); rewrite ?Hm; [discriminate|intros p [<-|[<-|[<-|[]]]]; auto| |].
    { intros h x y X Hy. destruct (Hg h) as (G1 & G2). destruct x as [|a x]; [cbn [app] in X; injection X as X _; exact (G1 (eq_sym X))|]. cbn [app] in X. injection X as _ X.
      destruct x as [|b x]; [cbn [app] in X; injection X as X _; exact (G2 (eq_sym X))|]. cbn [app] in X. injection X as _ X.
      destruct x as [|d x]; [discriminate X|]. cbn [app] in X. injection X as _ X. destruct x as [|e x]; [cbn [app] in X; injection X as _ X; congruence|]. now destruct x. }
    etransitivity; [exact E|]. unfold parse_known. unfold try at 1. rewrite Hs. rewrite Hm in Hp.
    assert (Nw : ~ In " warning" (removelast (tl (pieces (file +++ String colon m))))).
    { rewrite Hp. intros [X|[X|[X|[]]]]; [rewrite X in Dl; discriminate Dl|rewrite X in Dc; discriminate Dc|discriminate X]. }
    absent. { none. now apply needs_3110' in Q. } absent. { none. now apply needs_380' in Q. } absent. { none. now apply needs_extra' in Q. }
    unfold try at 1.
    assert (Q : re_find recursive_import_380_re (file +++ String colon m) = Some [file; l; c; chain]).
    { apply find_cut.
      - unfold position_items, grp, m, r. cbn [app]. apply CutOpen, (CutDots file), CutClose, (CutLit ":"), CutOpen, (CutNums l); [auto|auto|].
        apply CutClose, (CutLit ":"), CutOpen, (CutNums c); [auto|auto|].
        apply CutClose, (CutLit ": "), (CutLit "File recursively imports itself: "), CutOpen. cbn [took String.append]. replace chain with (chain +++ "") at 1 by apply sapp_nil_r. apply (CutDots chain), CutClose, CutEnd, CutNil.
      - intros gs H. apply recursive_cut in H as (f' & l' & c' & n' & Ht & _ & _ & ->). symmetry in Ht. set (r' := " File recursively imports itself: " +++ n') in *.
        assert (M0 : 2 <= length (pieces r')) by (etransitivity; [|apply (len_colon " File recursively imports itself" (" " +++ n'))]; apply le_n_S, len_some).
        assert (M1 : 3 <= length (pieces (c' +++ String colon r'))) by (etransitivity; [|apply len_colon]; now apply le_n_S).
        assert (M2 : 4 <= length (pieces (l' +++ String colon (c' +++ String colon r')))) by (etransitivity; [|apply len_colon]; now apply le_n_S).
        apply same_cut in Ht as (F1 & E1); [|auto|rewrite Hm; exact M2]. unfold m in E1.
        assert (L1 : length (pieces (c +++ String colon r)) = 3) by (unfold pieces in *; rewrite split_char_app by auto; now rewrite Hr).
        apply same_cut in E1 as (F2 & E2); [|auto|lia]. apply same_cut in E2 as (F3 & E3); [|auto|rewrite Hr; exact M0].
        unfold r, r' in E3. apply (sapp_inj_l " File recursively imports itself: ") in E3. congruence. }
    rewrite Q. unfold at_0, at_1, at_2, at_3, placed. cbn [nth]. now rewrite Al, Ac.
  Qed.
End Lines2.

(** ** Texts that occur once *)
Lemma not_contained s sub : contains s sub = false -> forall a b, s <> a +++ sub +++ b.
Proof. intros H a b E. assert (X : contains s sub = true) by (apply contains_spec; eauto). congruence. Qed.
Lemma stop_once t s file post : no_char " " file = true -> contains (sdrop 1 (". Please use" +++ post)) ". Please use" = false ->
  t +++ ". Please use" +++ s = file +++ ". Please use" +++ post -> t = file.
Proof.
  intros Hf Hc. revert t Hf. induction file as [|x file IH]; intros t Hf E.
  - destruct t as [|y t]; [reflexivity|]. exfalso. injection E as _ E. apply (not_contained _ _ Hc t s). symmetry. exact E.
  - unfold no_char in Hf. cbn [sforall] in Hf. apply andb_true_iff in Hf as [H1 H2]. destruct t as [|y t].
    + exfalso. injection E as _ E. destruct file as [|z file]; [discriminate E|]. injection E as <- _. discriminate H2.
    + injection E as -> E. f_equal. now apply IH.
Qed.
Lemma dashes_once t u text v : contains (text +++ "-") "--" = false -> contains ("-" +++ v) "--" = false ->
  t +++ "--" +++ u = text +++ "--" +++ v -> t = text /\ u = v.
Proof.
  intros Ht Hv. revert t Ht. induction text as [|x text IH]; intros t Ht E.
  - destruct t as [|y t]; [split; [reflexivity|]; now injection E|]. exfalso. injection E as _ E. apply (not_contained _ _ Hv t u). symmetry. exact E.
  - destruct t as [|y t].
    + exfalso. injection E as <- E. apply (not_contained _ _ Ht "" (match text with String _ r => r +++ "-" | EmptyString => "" end)). destruct text as [|z r]; [reflexivity|]. injection E as <- _. reflexivity.
    + injection E as -> E. assert (Ht' : contains (text +++ "-") "--" = false).
      { destruct (contains (text +++ "-") "--") eqn:K; [|reflexivity]. apply contains_spec in K as (a & b & K). exfalso. apply (not_contained _ _ Ht (String x a) b). cbn [String.append]. now rewrite K. }
      apply IH in E as (-> & ->); auto.
Qed.
Lemma contains_sep a c b : Ascii.eqb c "-" = false -> contains a "--" = false -> contains b "--" = false -> contains (a +++ String c b) "--" = false.
Proof.
  intros Hc Ha Hb. destruct (contains (a +++ String c b) "--") eqn:K; [|reflexivity]. exfalso. apply contains_spec in K as (x & y & K).
  revert x K. induction a as [|d a IH]; intros x K.
  - destruct x as [|e x]; [injection K as -> _; discriminate Hc|]. injection K as _ K. exact (not_contained _ _ Hb _ _ K).
  - destruct x as [|e x].
    + cbn in K. injection K as -> K. destruct a as [|f a]; [injection K as -> _; discriminate Hc|]. injection K as -> _. apply (not_contained _ _ Ha "" a). reflexivity.
    + injection K as _ K. apply (IH) with (x := x); [|exact K]. destruct (contains a "--") eqn:Q; [|reflexivity]. apply contains_spec in Q as (p & q & Q). exfalso. apply (not_contained _ _ Ha (String d p) q). cbn [String.append]. now rewrite Q.
Qed.
Lemma digits_dashes n : sforall is_digit n = true -> contains n "--" = false.
Proof.
  intros H. destruct (contains n "--") eqn:K; [|reflexivity]. apply contains_spec in K as (a & b & ->). rewrite !sforall_app in H. apply andb_true_iff in H as [_ H]. discriminate H.
Qed.
(** Cut at a colon: the first one, or a later one. *)
Lemma colon_cut f : forall a r r', no_char colon f = true -> a +++ String colon r = f +++ String colon r' ->
  a = f /\ r = r' \/ exists v, a = f +++ String colon v /\ r' = v +++ String colon r.
Proof.
  induction f as [|x f IH]; intros a r r' Hf E.
  - destruct a as [|y a]; [left; split; [reflexivity|]; now injection E|]. right. cbn in E. injection E as -> E. exists a. auto.
  - unfold no_char in Hf. cbn [sforall] in Hf. apply andb_true_iff in Hf as [H1 H2]. destruct a as [|y a]; [cbn in E; injection E as <- _; discriminate H1|].
    cbn in E. injection E as -> E. apply (IH a r r' H2) in E as [(-> & ->)|(v & -> & ->)]; [now left|]. right. now exists v.
Qed.
Lemma sapp_levi a : forall b c d, a +++ b = c +++ d -> (exists e, a = c +++ e /\ d = e +++ b) \/ (exists e, c = a +++ e /\ b = e +++ d).
Proof.
  induction a as [|x a IH]; intros b c d E; [right; exists c; auto|]. destruct c as [|y c]; [left; exists (String x a); auto|].
  cbn in E. injection E as -> E. apply IH in E as [(e & -> & ->)|(e & -> & ->)]; [left|right]; exists e; auto.
Qed.
Lemma out_once t u x msg : no_char colon x = true -> contains msg "_out: " = false -> t +++ "_out: " +++ u = x +++ "_out: " +++ msg -> t = x /\ u = msg.
Proof.
  intros Hx Hm E. assert (E' : (t +++ "_out") +++ String colon (" " +++ u) = (x +++ "_out") +++ String colon (" " +++ msg)) by (rewrite !sapp_assoc; exact E).
  apply colon_cut in E' as [(E1 & E2)|(v & E1 & E2)].
  - apply sapp_inj_r in E1. injection E2 as ->. auto.
  - exfalso. destruct v as [|a v]; [discriminate E2|]. cbn in E2. injection E2 as <- E2.
    assert (V : exists w, v = w +++ "_out").
    { replace ((x +++ "_out") +++ String colon (String " " v)) with ((x +++ "_out:") +++ String " " v) in E1 by (now rewrite !sapp_assoc).
      apply sapp_levi in E1 as [(e & _ & Q)|(e & _ & Q)].
      - destruct e as [|e1 e]; [discriminate Q|]. cbn in Q. injection Q as _ ->. eauto.
      - exfalso. destruct e as [|e1 [|e2 [|e3 [|e4 e]]]]; cbn in Q; try discriminate Q. injection Q as _ _ _ _ Q. destruct e; discriminate Q. }
    destruct V as (w & ->). apply (not_contained _ _ Hm w u). rewrite E2, sapp_assoc. reflexivity.
  - unfold no_char in *. now rewrite sforall_app, Hx.
Qed.

Section Lines3.
  Variable files : list proto_file.
  Variable allow_unused : bool.
  Notation parse_line := (parse_line files allow_unused).
  Definition please_use : string := ". Please use 'syntax = " +++ quote +++ "proto2" +++ quote +++ ";' or 'syntax = " +++ quote +++ "proto3" +++ quote +++ ";' to specify a syntax version. (Defaulted to proto2 syntax.)".
  Lemma search_complete is a : forall b gs, cut is b None gs -> exists gs', search is (a +++ b) = Some gs'.
  Proof.
    induction a as [|c a IH]; intros b gs H.
    - apply match_complete in H as (gs' & M). exists gs'. cbn [String.append]. destruct b; cbn [search]; now rewrite M.
    - cbn [String.append search]. destruct (match_at is (String c (a +++ b)) None); [eauto|]. eapply IH; eauto.
  Qed.
  Lemma no_syntax_find a file post : no_char " " file = true -> contains (sdrop 1 (". Please use" +++ post)) ". Please use" = false ->
    (forall x y, a +++ "No syntax specified for the proto file: " +++ file +++ ". Please use" +++ post = x +++ "No syntax specified for the proto file: " +++ y -> y = file +++ ". Please use" +++ post) ->
    re_find no_syntax_specified_re (a +++ "No syntax specified for the proto file: " +++ file +++ ". Please use" +++ post) = Some [file].
  Proof.
    intros Hf Hc Hu. unfold re_find. cbn [re_anchored no_syntax_specified_re]. fold no_syntax_specified_re.
    destruct (search_complete (re_items no_syntax_specified_re) a ("No syntax specified for the proto file: " +++ file +++ ". Please use" +++ post) [file]) as (gs & E).
    { unfold no_syntax_specified_re, grp. cbn [re_items app]. apply CutLit, CutOpen, (CutDots file), CutClose, (CutLit ". Please use"), CutNil. }
    change (search (re_items no_syntax_specified_re) (a +++ "No syntax specified for the proto file: " +++ file +++ ". Please use" +++ post) = Some [file]). rewrite E. f_equal.
    apply search_sound in E as (x & b & E & Q). unfold no_syntax_specified_re in Q. cbn [re_items] in Q. groups Q. apply Hu in E. apply stop_once in E; auto. now rewrite E.
  Qed.
  Lemma no_syntax n nn file : number n nn -> plain_name file ->
    parse_line ("[libprotobuf WARNING google/protobuf/compiler/parser.cc:" +++ n +++ "] No syntax specified for the proto file: " +++ file +++ please_use) =
    Some (plain files file ("No syntax specified. Please use 'syntax = " +++ quote +++ "proto2" +++ quote +++ ";' or 'syntax = " +++ quote +++ "proto3" +++ quote +++ ";' to specify a syntax version.")).
  Proof.
    intros Hn Hf. destruct (number_spec _ _ Hn) as (Dn & Nn & _). pose proof (digits_no_colon _ Dn) as Cn. pose proof Hf as (Nf & Cf & Sf & _).
    set (a := "[libprotobuf WARNING google/protobuf/compiler/parser.cc:" +++ n +++ "] ").
    set (post := " 'syntax = " +++ quote +++ "proto2" +++ quote +++ ";' or 'syntax = " +++ quote +++ "proto3" +++ quote +++ ";' to specify a syntax version. (Defaulted to proto2 syntax.)").
    set (line := a +++ "No syntax specified for the proto file: " +++ file +++ ". Please use" +++ post).
    replace ("[libprotobuf WARNING google/protobuf/compiler/parser.cc:" +++ n +++ "] No syntax specified for the proto file: " +++ file +++ please_use) with line by (unfold line, a; now rewrite !sapp_assoc).
    assert (Hp : pieces line = ["[libprotobuf WARNING google/protobuf/compiler/parser.cc"; n +++ "] No syntax specified for the proto file"; " " +++ file +++ ". Please use" +++ post]).
    { unfold pieces, line, a. rewrite !sapp_assoc.
      etransitivity; [exact (split_char_app colon "[libprotobuf WARNING google/protobuf/compiler/parser.cc" (n +++ "] No syntax specified for the proto file: " +++ file +++ ". Please use" +++ post) eq_refl)|]. f_equal.
      replace (n +++ "] No syntax specified for the proto file: " +++ file +++ ". Please use" +++ post) with ((n +++ "] No syntax specified for the proto file") +++ String colon (" " +++ file +++ ". Please use" +++ post)) by now rewrite !sapp_assoc.
      rewrite split_char_app by (unfold no_char in *; now rewrite sforall_app, Cn). f_equal. apply split_char_no. unfold no_char in *. now rewrite !sforall_app, Cf. }
    rewrite plugin_absent.
    - fold (pieces line). rewrite Hp. unfold parse_known. unfold try at 1. unfold line. rewrite no_syntax_find; [reflexivity|exact Sf|reflexivity|].
      intros x y E. fold line in E.
      assert (E' : line = (x +++ "No syntax specified for the proto file") +++ String colon (" " +++ y)) by (rewrite E; now rewrite !sapp_assoc).
      clear E. assert (E2 : pieces (x +++ "No syntax specified for the proto file") ++ pieces (" " +++ y) = pieces line) by (rewrite E'; unfold pieces; now rewrite split_app_sep).
      clear E'. remember (" " +++ y) as z eqn:Ez. rewrite Hp in E2. pose proof (len_some z) as Ly.
      destruct (pieces (x +++ "No syntax specified for the proto file")) as [|p1 [|p2 l]] eqn:Ex.
      + pose proof (len_some (x +++ "No syntax specified for the proto file")) as L. rewrite Ex in L. cbn in L. lia.
      + exfalso. injection E2 as E2 _. assert (X : x +++ "No syntax specified for the proto file" = p1) by (rewrite <- (join_split colon (x +++ "No syntax specified for the proto file")); unfold pieces in Ex; rewrite Ex; reflexivity).
        rewrite E2 in X. apply (f_equal srev) in X. rewrite srev_sapp in X. cbn in X. discriminate X.
      + cbn [app] in E2. injection E2 as _ _ E2. destruct l as [|p3 l]; [|exfalso; apply (f_equal (@length _)) in E2; cbn [app length] in E2; rewrite app_length in E2; lia].
        cbn [app] in E2. assert (Ey : z = " " +++ file +++ ". Please use" +++ post) by (rewrite <- (join_split colon z); unfold pieces in E2; rewrite E2; reflexivity). rewrite Ez in Ey. now injection Ey.
    - reflexivity.
    - rewrite Hp. intros h [|? [|? [|? l]]] r X Hx Hr; try contradiction; cbn in X.
      + injection X as _ X _. destruct n as [|d n]; [contradiction|]. cbn in X. injection X as -> _. discriminate Dn.
      + injection X as _ _ _ X. congruence.
      + now destruct l.
  Qed.
  (** The lines about plugins. *)
  Lemma failed_cut a line gs : cut ([Lit "--"; Dots; Lit "_out: protoc-gen-"] ++ grp [Dots] ++ [Lit ": Plugin failed with status code "] ++ grp [Dots] ++ [Dot; End]) line a gs -> a = None ->
    exists t u v c, line = "--" +++ (t +++ "_out") +++ String colon ((" protoc-gen-" +++ u) +++ String colon (" Plugin failed with status code " +++ v +++ String c "")) /\ gs = [u; v].
  Proof. intros H ->. groups H. exists t, t0, t1, c. rewrite !sapp_assoc. split; reflexivity. Qed.
  Lemma failed_same t u v c x name n : no_char colon x = true -> no_char colon name = true -> no_char colon n = true ->
    (t +++ "_out") +++ String colon ((" protoc-gen-" +++ u) +++ String colon (" Plugin failed with status code " +++ v +++ String c "")) =
    (x +++ "_out") +++ String colon ((" protoc-gen-" +++ name) +++ String colon (" Plugin failed with status code " +++ n +++ ".")) -> t = x /\ u = name /\ v = n.
  Proof.
    intros Hx Hn Hd E.
    assert (L1 : length (pieces (" Plugin failed with status code " +++ n +++ ".")) = 1) by (apply pieces_one; unfold no_char in *; now rewrite !sforall_app, Hd).
    assert (L2 : length (pieces ((" protoc-gen-" +++ name) +++ String colon (" Plugin failed with status code " +++ n +++ "."))) = 2).
    { unfold pieces in *. rewrite split_char_app by (unfold no_char in *; now rewrite sforall_app, Hn). cbn [length]. now rewrite L1. }
    apply same_cut in E as (E1 & E); [|unfold no_char in *; now rewrite sforall_app, Hx|].
    - apply same_cut in E as (E2 & E3); [|unfold no_char in *; now rewrite sforall_app, Hn|rewrite L1; apply len_some].
      apply sapp_inj_r in E1. apply (sapp_inj_l " protoc-gen-") in E2. apply (sapp_inj_l " Plugin failed with status code ") in E3. apply (same_end v "" c n ".") in E3 as (-> & _). auto.
    - rewrite L2. etransitivity; [|apply len_colon]. apply le_n_S, len_some.
  Qed.
  Lemma plugin_failed x name n nn : no_char colon x = true -> no_char colon name = true -> number n nn ->
    parse_line ("--" +++ x +++ "_out: protoc-gen-" +++ name +++ ": Plugin failed with status code " +++ n +++ ".") = Some (unplaced ("protoc-gen-" +++ name +++ " failed with status code " +++ n +++ ".")).
  Proof.
    intros Hx Hn Hd. destruct (number_spec _ _ Hd) as (Dn & _). pose proof (digits_no_colon _ Dn) as Cn. unfold Protoc_Model.parse_line. unfold try at 1.
    assert (Q : re_find plugin_failed_re ("--" +++ x +++ "_out: protoc-gen-" +++ name +++ ": Plugin failed with status code " +++ n +++ ".") = Some [name; n]).
    { apply find_cut.
      - unfold grp. cbn [app]. apply CutLit, (CutDots x), CutLit, CutOpen, (CutDots name), CutClose, CutLit, CutOpen, (CutDots n), CutClose, CutDot, CutEnd, CutNil.
      - intros gs H. apply failed_cut in H as (t & u & v & c & E & ->); [|reflexivity]. apply (sapp_inj_l "--") in E. symmetry in E.
        replace (x +++ "_out: protoc-gen-" +++ name +++ ": Plugin failed with status code " +++ n +++ ".") with ((x +++ "_out") +++ String colon ((" protoc-gen-" +++ name) +++ String colon (" Plugin failed with status code " +++ n +++ "."))) in E by now rewrite !sapp_assoc.
        apply failed_same in E as (_ & -> & ->); auto. }
    rewrite Q. reflexivity.
  Qed.
  Lemma plugin_says x msg : no_char colon x = true -> contains msg "_out: " = false -> has_prefix msg "protoc-gen-" = false ->
    parse_line ("--" +++ x +++ "_out: " +++ msg) = Some (unplaced ("protoc-gen-" +++ x +++ ": " +++ msg)).
  Proof.
    intros Hx Hm Hp. unfold Protoc_Model.parse_line.
    absent. { none. unfold re_find, plugin_failed_re in Q. cbn [re_anchored re_items] in Q. apply match_sound in Q. apply failed_cut in Q as (t & u & v & c & E & _); [|reflexivity].
      apply (sapp_inj_l "--") in E. symmetry in E. rewrite !sapp_assoc in E. apply (out_once t ("protoc-gen-" +++ u +++ String colon (" Plugin failed with status code " +++ v +++ String c ""))) in E as (_ & <-); auto. discriminate Hp. }
    unfold try at 1.
    assert (Q : re_find other_plugin_failure_re ("--" +++ x +++ "_out: " +++ msg) = Some [x; msg]).
    { apply find_cut.
      - unfold grp. cbn [app]. apply CutLit, CutOpen, (CutDots x), CutClose, CutLit, CutOpen. cbn [took String.append]. replace msg with (msg +++ "") at 1 by apply sapp_nil_r. apply (CutDots msg), CutClose, CutEnd, CutNil.
      - intros gs H. assert (H' : forall line, cut (re_items other_plugin_failure_re) line None gs -> exists t u, line = "--" +++ t +++ "_out: " +++ u /\ gs = [t; u]).
        { clear. intros line H. unfold other_plugin_failure_re in H. cbn [re_items] in H. groups H. exists t, t0. rewrite sapp_nil_r. split; reflexivity. }
        apply H' in H as (t & u & E & ->). apply (sapp_inj_l "--") in E. symmetry in E. apply out_once in E as (-> & ->); auto. }
    rewrite Q. reflexivity.
  Qed.
  Lemma plugin_output_failed text x name n nn : text <> "" -> has_prefix text "--" = false -> contains (text +++ "-") "--" = false -> contains ("-" +++ x) "--" = false -> contains ("-" +++ name) "--" = false ->
    no_char colon x = true -> no_char colon name = true -> number n nn ->
    parse_line (text +++ "--" +++ x +++ "_out: protoc-gen-" +++ name +++ ": Plugin failed with status code " +++ n +++ ".") = Some (unplaced ("protoc-gen-" +++ name +++ " failed with status code " +++ n +++ ": " +++ text)).
  Proof.
    intros Nt Pt Ht Dx Dm Hx Hm Hd. destruct (number_spec _ _ Hd) as (Dn & _). pose proof (digits_no_colon _ Dn) as Cn.
    set (line := text +++ "--" +++ x +++ "_out: protoc-gen-" +++ name +++ ": Plugin failed with status code " +++ n +++ ".").
    assert (Hl : has_prefix line "--" = false).
    { unfold line. destruct text as [|a [|b text]]; [contradiction| |exact Pt]. match goal with |- ?h = false => destruct h eqn:Ea; [|reflexivity] end. exfalso. apply has_prefix_spec in Ea as (z & Ea). injection Ea as -> _. discriminate Ht. }
    unfold Protoc_Model.parse_line.
    absent. { none. apply needs_plugin_failed in Q. congruence. }
    absent. { none. apply needs_other_plugin in Q. congruence. }
    unfold try at 1.
    set (v := x +++ "_out: protoc-gen-" +++ name +++ ": Plugin failed with status code " +++ n +++ ".").
    assert (Hv : contains ("-" +++ v) "--" = false).
    { unfold v. change ("-" +++ x +++ "_out: protoc-gen-" +++ name +++ ": Plugin failed with status code " +++ n +++ ".")
        with (("-" +++ x) +++ String "_" ("out: protoc-ge" +++ String "n" (("-" +++ name) +++ String ":" (" Plugin failed with status code" +++ String " " (n +++ String "." ""))))).
      repeat (apply contains_sep; [reflexivity|try assumption; try reflexivity; try now apply digits_dashes|]). reflexivity. }
    assert (M : match_at (re_items full_plugin_failed_re) line None = Some [text; name; n]).
    { destruct (match_complete (re_items full_plugin_failed_re) line None [text; name; n]) as (gs & M).
      - unfold full_plugin_failed_re, grp. cbn [re_items app]. apply CutOpen, (CutDots text), CutClose, (CutLit "--"), (CutDots x), (CutLit "_out: protoc-gen-"), CutOpen, (CutDots name), CutClose, (CutLit ": Plugin failed with status code "), CutOpen, (CutDots n), CutClose, CutDot, CutEnd, CutNil.
      - rewrite M. f_equal. apply match_sound in M. unfold full_plugin_failed_re in M. cbn [re_items] in M. 
        assert (H' : forall line, cut (re_items full_plugin_failed_re) line None gs -> exists t t0 u w c, line = t +++ "--" +++ (t0 +++ "_out") +++ String colon ((" protoc-gen-" +++ u) +++ String colon (" Plugin failed with status code " +++ w +++ String c "")) /\ gs = [t; u; w]).
        { clear. intros line H. unfold full_plugin_failed_re in H. cbn [re_items] in H. groups H. exists t, t0, t1, t2, c. rewrite !sapp_assoc. split; reflexivity. }
        apply H' in M as (t & t0 & u & w & c & E & ->). symmetry in E. apply dashes_once in E as (-> & E); [|exact Ht|exact Hv].
        replace (x +++ "_out: protoc-gen-" +++ name +++ ": Plugin failed with status code " +++ n +++ ".") with ((x +++ "_out") +++ String colon ((" protoc-gen-" +++ name) +++ String colon (" Plugin failed with status code " +++ n +++ "."))) in E by now rewrite !sapp_assoc.
        apply failed_same in E as (_ & -> & ->); auto. }
    assert (Q : re_find full_plugin_failed_re line = Some [text; name; n]).
    { unfold re_find. cbn [re_anchored full_plugin_failed_re]. fold full_plugin_failed_re. revert M. generalize line. intros ln M. destruct ln; cbn [search]; unfold full_plugin_failed_re in *; cbn [re_items] in *; now rewrite M. }
    rewrite Q. reflexivity.
  Qed.
End Lines3.
