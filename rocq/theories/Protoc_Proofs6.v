(** What protoc prints: the lines that are understood. *)
From Verif Require Import Protoc_Model Protoc_Spec GoRegexpFacts GoPathFacts GoStrFacts Protostrs_Proofs Text_Proofs Protoc_Proofs5.
From Coq Require Import Lia.

Notation colon := ":"%char.
Definition pieces (s : string) : list string := split_char colon s.
Lemma split_prefix c w b : no_char c w = true -> exists h t, split_char c b = h :: t /\ split_char c (w +++ b) = (w +++ h) :: t.
Proof.
  induction w as [|x w IH]; intros H.
  - destruct (split_char c b) as [|h t] eqn:E; [now apply split_char_nonnil in E|]. now exists h, t.
  - unfold no_char in H. simpl in H. apply andb_true_iff in H as [H1 H2]. apply negb_true_iff in H1. destruct (IH H2) as (h & t & E1 & E2).
    exists h, t. split; [auto|]. simpl. now rewrite H1, E2.
Qed.
(** After a colon. *)
Lemma piece s a w b : s = a +++ String colon (w +++ b) -> no_char colon w = true -> exists h, In (w +++ h) (tl (pieces s)).
Proof.
  intros -> Hw. unfold pieces. rewrite split_app_sep. destruct (split_prefix colon w b Hw) as (h & t & _ & ->). exists h.
  destruct (split_char colon a) as [|x l] eqn:E; [now apply split_char_nonnil in E|]. cbn. apply in_or_app. right. now left.
Qed.
(** Between two colons. *)
Lemma between s a w b : s = a +++ String colon (w +++ String colon b) -> no_char colon w = true -> In w (tl (pieces s)).
Proof.
  intros -> Hw. unfold pieces. rewrite split_app_sep, split_char_app by auto.
  destruct (split_char colon a) as [|x l] eqn:E; [now apply split_char_nonnil in E|]. cbn. apply in_or_app. right. now left.
Qed.
(** Before a colon. *)
Lemma before s a w b : s = a +++ w +++ String colon b -> exists h, In (h +++ w) (pieces s) \/ no_char colon w = false.
Proof.
  intros ->. destruct (no_char colon w) eqn:Hw; [|exists ""; now right]. unfold pieces. rewrite <- sapp_assoc, split_app_sep.
  enough (exists h, In (h +++ w) (split_char colon (a +++ w))) as (h & Hh) by (exists h; left; apply in_or_app; now left).
  induction a as [|x a IH]; [exists ""; rewrite split_char_no by auto; now left|]. destruct IH as (h & Hh). simpl.
  destruct (Ascii.eqb x colon); [exists h; now right|]. destruct (split_char colon (a +++ w)) as [|y l]; [destruct Hh|].
  destruct Hh as [->|Hh]; [exists (String x h); now left|exists h; now right].
Qed.
Ltac one A W B := eapply (piece _ A W B); [now rewrite ?sapp_nil_r, ?sapp_assoc|reflexivity].
Definition numbered (line : string) : Prop := exists d, In d (tl (pieces line)) /\ sforall is_digit d = true /\ d <> "".
Section Needs.
  Variable line : string.
  Variable g : list string.
  Lemma needs_plugin_failed : re_find plugin_failed_re line = Some g -> has_prefix line "--" = true.
  Proof. intros H. found H. reflexivity. Qed.
  Lemma needs_other_plugin : re_find other_plugin_failure_re line = Some g -> has_prefix line "--" = true.
  Proof. intros H. found H. reflexivity. Qed.
  Lemma needs_full_plugin : re_find full_plugin_failed_re line = Some g -> exists h l r, pieces line = l ++ (" protoc-gen-" +++ h) :: r /\ l <> [] /\ r <> [].
  Proof.
    intros H. found H.
    replace (x +++ _) with ((x +++ t +++ "--" +++ t0 +++ "_out") +++ String colon (" protoc-gen-" +++ (t1 +++ String colon (" Plugin failed with status code " +++ t2 +++ String c "")))) by now rewrite ?sapp_assoc.
    generalize (" Plugin failed with status code " +++ t2 +++ String c ""). intros z.
    unfold pieces. rewrite split_app_sep.
    destruct (split_prefix colon " protoc-gen-" (t1 +++ String colon z) eq_refl) as (h & t' & E & ->).
    exists h, (split_char colon (x +++ t +++ "--" +++ t0 +++ "_out")), t'. split; [reflexivity|]. split; [apply split_char_nonnil|].
    rewrite split_app_sep in E. destruct (split_char colon t1) as [|y l] eqn:E1; [now apply split_char_nonnil in E1|].
    cbn [app] in E. injection E as _ <-. intros E. apply app_eq_nil in E as [_ E]. now apply split_char_nonnil in E.
  Qed.
  Lemma needs_no_syntax : re_find no_syntax_specified_re line = Some g -> exists h, In (h +++ "No syntax specified for the proto file") (pieces line).
  Proof.
    intros H. found H. match goal with |- exists h, In _ (pieces ?y) => destruct (before y x "No syntax specified for the proto file" (" " +++ t +++ ". Please use" +++ s) eq_refl) as (h & [Hh|Hh]) end.
    - now exists h.
    - discriminate.
  Qed.
  Lemma digits_no_colon d : sforall is_digit d = true -> no_char colon d = true.
  Proof.
    induction d as [|c d IH]; [reflexivity|]. unfold no_char in *. simpl. intros H. apply andb_true_iff in H as [H1 H2]. rewrite IH by auto.
    destruct (Ascii.eqb c colon) eqn:E; [|reflexivity]. apply Ascii.eqb_eq in E. subst c. discriminate.
  Qed.
  Ltac two T D B := exists D; split; [apply (between _ T D B); [now rewrite ?sapp_nil_r, ?sapp_assoc|now apply digits_no_colon]|split; assumption].
  Lemma needs_3110 : re_find extra_import_3110_re line = Some g -> numbered line.
  Proof. intros H. found H. two t t0 (t1 +++ ": " +++ "warning: Import " +++ t2 +++ " is unused" +++ String c ""). Qed.
  Lemma needs_380 : re_find extra_import_380_re line = Some g -> numbered line.
  Proof. intros H. found H. two t t0 (t1 +++ ": " +++ "warning: Import " +++ t2 +++ " but not used" +++ String c ""). Qed.
  Lemma needs_recursive_380 : re_find recursive_import_380_re line = Some g -> numbered line.
  Proof. intros H. found H. two t t0 (t1 +++ ": " +++ "File recursively imports itself: " +++ t2 +++ ""). Qed.
  Lemma needs_json_380 : re_find json_camel_case_380_re line = Some g -> numbered line.
  Proof. intros H. found H. two t t0 (t1 +++ ": " +++ "The JSON camel-case name of field" +++ t2 +++ ""). Qed.
  Lemma needs_extra : re_find extra_import_re line = Some g -> exists h, In (" warning" +++ h) (tl (pieces line)).
  Proof. intros H. found H. one t " warning" (": Import " +++ t0 +++ " but not used" +++ String c ""). Qed.
  Lemma needs_recursive : re_find recursive_import_re line = Some g -> exists h, In (" File recursively" +++ h) (tl (pieces line)).
  Proof. intros H. found H. one t " File recursively" (" imports itself: " +++ t0 +++ ""). Qed.
  Lemma needs_directory : re_find directory_does_not_exist_re line = Some g -> exists h, In (" warning" +++ h) (tl (pieces line)).
  Proof. intros H. found H. one t " warning" (": directory does not exist" +++ String c ""). Qed.
  Lemma needs_not_found : re_find file_not_found_re line = Some g -> exists h, In (" File not found" +++ h) (tl (pieces line)).
  Proof. intros H. found H. one t " File not found" (String c ""). Qed.
  Lemma needs_explicit : re_find explicit_default_re line = Some g -> exists h, In (" Explicit" +++ h) (tl (pieces line)).
  Proof. intros H. found H. one t " Explicit" (" default values are not allowed in proto3" +++ String c ""). Qed.
  Lemma needs_import : re_find import_not_found_re line = Some g -> exists h, In (" Import " +++ h) (tl (pieces line)).
  Proof. intros H. found H. one t " Import " (t0 +++ " was not found or had errors" +++ String c ""). Qed.
  Lemma needs_json : re_find json_camel_case_re line = Some g -> exists h, In (" The JSON camel" +++ h) (tl (pieces line)).
  Proof. intros H. found H. one t " The JSON camel" ("-case name of field" +++ t0 +++ ""). Qed.
End Needs.

(** ** Cutting lines up *)
Lemma len_colon a b : S (length (pieces b)) <= length (pieces (a +++ String colon b)).
Proof.
  unfold pieces. rewrite split_app_sep, app_length. destruct (split_char colon a) eqn:E; [now apply split_char_nonnil in E|]. cbn. lia.
Qed.
Lemma len_some a : 1 <= length (pieces a).
Proof. unfold pieces. destruct (split_char colon a) eqn:E; [now apply split_char_nonnil in E|]. cbn. lia. Qed.
Lemma same_cut t r f r' : t +++ String colon r = f +++ String colon r' -> no_char colon f = true -> length (pieces r') <= length (pieces r) -> t = f /\ r = r'.
Proof.
  intros H Hf Hl. assert (E : split_char colon t ++ split_char colon r = f :: split_char colon r').
  { rewrite <- split_app_sep, H. now apply split_char_app. }
  unfold pieces in Hl. apply (f_equal (@length _)) in E as El. rewrite app_length in El. cbn [length] in El.
  destruct (split_char colon t) as [|x [|y l]] eqn:Et; [now apply split_char_nonnil in Et| |cbn in El; lia].
  cbn [app] in E. injection E as -> _. assert (t = f) as ->.
  { rewrite <- (join_split colon t), Et. reflexivity. }
  split; [reflexivity|]. apply sapp_inj_l in H. now injection H.
Qed.
Lemma same_end a s c b d : a +++ s +++ String c "" = b +++ s +++ String d "" -> a = b /\ c = d.
Proof.
  intros H. assert (E : String.length a = String.length b).
  { apply (f_equal String.length) in H. rewrite !slength_app in H. cbn in H. lia. }
  apply sapp_eq_len in H as [-> H]; [|exact E]. split; [reflexivity|]. apply sapp_inj_l in H. now injection H.
Qed.
Lemma plain_not_flag f r : plain_name f -> has_prefix (f +++ String colon r) "--" = false.
Proof.
  intros (Hn & _ & _ & Hp). destruct f as [|a f]; [contradiction|]. destruct f as [|b f].
  - simpl. now destruct (Ascii.eqb "-" a).
  - simpl in *. exact Hp.
Qed.
Lemma no_space_app x w : no_char " " (x +++ w) = true -> no_char " " w = true.
Proof. unfold no_char. rewrite sforall_app. intros H. now apply andb_true_iff in H. Qed.
Lemma number_spec s n : number s n -> sforall is_digit s = true /\ s <> "" /\ atoi s = Some n.
Proof.
  intros (-> & Hn). pose proof (itoa_nonempty n) as Hne.
  assert (E : itoa n = itoa_N (Z.to_N n)) by (destruct n; [reflexivity|reflexivity|lia]).
  pose proof (itoa_N_Decimal (Z.to_N n)) as Hd. rewrite E in *. split; [now apply Decimal_digits in Hd|]. split; [exact Hne|].
  unfold atoi. pose proof (Decimal_digits _ _ Hd) as Hdig.
  assert (Hpu : parse_uint (itoa_N (Z.to_N n)) = Some (Z.to_N n)).
  { apply parse_uint_spec. split; [exact Hd|]. unfold two_64. lia. }
  destruct (itoa_N (Z.to_N n)) as [|c r] eqn:Er; [contradiction|].
  assert (Ascii.eqb c "-" = false /\ Ascii.eqb c "+" = false) as [-> ->].
  { simpl in Hdig. apply andb_true_iff in Hdig as [Hc _]. split; apply Ascii.eqb_neq; intros ->; discriminate. }
  rewrite Hpu. rewrite Z2N.id by lia. unfold max_int. destruct (Z.leb_spec n 9223372036854775807); [reflexivity|lia].
Qed.

Lemma split_lit a b : no_char colon a = true -> split_char colon (a +++ ":" +++ b) = a :: split_char colon b.
Proof. apply split_char_app. Qed.
(** A match from a cut, if all cuts have the same groups. *)
Lemma find_cut is line gs : cut is line None gs -> (forall gs', cut is line None gs' -> gs' = gs) -> re_find (mk_regexp true is) line = Some gs.
Proof.
  intros H U. unfold re_find. cbn [re_anchored re_items]. destruct (match_complete _ _ _ _ H) as (gs' & E). rewrite E. f_equal. apply U. now apply match_sound.
Qed.
Ltac groups H := unfold position_items, grp in H; cbn [app] in H; cuts; cbn [took String.append].
Lemma extra_cut line gs : cut (re_items extra_import_re) line None gs ->
  exists file name c, line = file +++ ": warning: Import " +++ name +++ " but not used" +++ String c "" /\ gs = [file; name].
Proof. intros H. unfold extra_import_re in H. cbn [re_items] in H. groups H. exists t, t0, c. auto. Qed.
Lemma placed_cut w e line gs : cut (position_items ++ [Lit w] ++ grp [Dots] ++ [Lit e; Dot; End]) line None gs ->
  exists file l c name x, line = file +++ ":" +++ l +++ ":" +++ c +++ ": " +++ w +++ name +++ e +++ String x "" /\ gs = [file; l; c; name].
Proof. intros H. groups H. exists t, t0, t1, t2, c. auto. Qed.
Lemma extra_find file name : no_char colon file = true -> no_char colon name = true ->
  re_find extra_import_re (file +++ ": warning: Import " +++ name +++ " but not used.") = Some [file; name].
Proof.
  intros Hf Hn. apply find_cut.
  - unfold grp. cbn [app]. apply CutOpen, (CutDots file), CutClose, (CutLit ": warning: Import "), CutOpen, (CutDots name), CutClose, (CutLit " but not used"), CutDot, CutEnd, CutNil.
  - intros gs H. apply extra_cut in H as (file' & name' & c & E & ->). symmetry in E.
    apply (same_cut file' (" warning: Import " +++ name' +++ " but not used" +++ String c "") file (" warning: Import " +++ name +++ " but not used.")) in E as [-> E]; [|auto|].
    + apply (sapp_inj_l " warning: Import ") in E. now apply (same_end name' " but not used" c name ".") in E as [-> _].
    + assert (Hl : length (pieces (" warning: Import " +++ name +++ " but not used.")) = 2).
      { change (" warning: Import " +++ name +++ " but not used.") with (" warning" +++ String colon (" Import " +++ name +++ " but not used.")).
        unfold pieces. rewrite (split_char_app colon " warning") by auto. cbn [length]. f_equal. rewrite split_char_no; [reflexivity|]. unfold no_char in *. now rewrite !sforall_app, Hn. }
      rewrite Hl. etransitivity; [|apply (len_colon " warning")]. apply le_n_S, len_some.
Qed.
Lemma placed_find e file l c name : no_char colon e = true -> no_char colon file = true -> no_char colon name = true -> sforall is_digit l = true -> l <> "" -> sforall is_digit c = true -> c <> "" ->
  re_find (mk_regexp true (position_items ++ [Lit "warning: Import "] ++ grp [Dots] ++ [Lit e; Dot; End])) (file +++ ":" +++ l +++ ":" +++ c +++ ": warning: Import " +++ name +++ e +++ ".") = Some [file; l; c; name].
Proof.
  intros He Hf Hn Dl Nl Dc Nc. pose proof (digits_no_colon _ Dl) as Cl. pose proof (digits_no_colon _ Dc) as Cc. apply find_cut.
  - unfold position_items, grp. cbn [app]. apply CutOpen, (CutDots file), CutClose, (CutLit ":"), CutOpen, (CutNums l); [auto|auto|].
    apply CutClose, (CutLit ":"), CutOpen, (CutNums c); [auto|auto|].
    apply CutClose, (CutLit ": "), (CutLit "warning: Import "), CutOpen, (CutDots name), CutClose, (CutLit e), CutDot, CutEnd, CutNil.
  - intros gs H. apply placed_cut in H as (file' & l' & c' & name' & x & E & ->). symmetry in E.
    set (r := " Import " +++ name +++ e +++ ".") in *. set (r' := " Import " +++ name' +++ e +++ String x "") in *.
    assert (Hr : pieces r = [r]). { apply split_char_no. unfold r, no_char in *. now rewrite !sforall_app, Hn, He. }
    assert (L1 : length (pieces (" warning" +++ String colon r)) = 2).
    { unfold pieces in *. rewrite split_char_app by auto. now rewrite Hr. }
    assert (M1 : 2 <= length (pieces (" warning" +++ String colon r'))). { etransitivity; [|apply len_colon]. apply le_n_S, len_some. }
    assert (L2 : length (pieces (c +++ String colon (" warning" +++ String colon r))) = 3).
    { unfold pieces in *. rewrite split_char_app by auto. cbn [length]. now rewrite L1. }
    assert (M2 : 3 <= length (pieces (c' +++ String colon (" warning" +++ String colon r')))). { etransitivity; [|apply len_colon]. now apply le_n_S. }
    assert (L3 : length (pieces (l +++ String colon (c +++ String colon (" warning" +++ String colon r)))) = 4).
    { unfold pieces in *. rewrite split_char_app by auto. cbn [length]. now rewrite L2. }
    assert (M3 : 4 <= length (pieces (l' +++ String colon (c' +++ String colon (" warning" +++ String colon r'))))). { etransitivity; [|apply len_colon]. now apply le_n_S. }
    assert (E0 := E). clear E. apply (same_cut file' (l' +++ String colon (c' +++ String colon (" warning" +++ String colon r'))) file (l +++ String colon (c +++ String colon (" warning" +++ String colon r)))) in E0 as [F1 E1]; [|auto|lia].
    apply same_cut in E1 as [F2 E2]; [|auto|lia]. apply same_cut in E2 as [F3 E3]; [|auto|lia]. apply (sapp_inj_l " warning:") in E3.
    unfold r, r' in E3. apply (sapp_inj_l " Import ") in E3. apply (same_end name' e x name ".") in E3 as [F4 _]. congruence.
Qed.
Section Lines.
  Variable files : list proto_file.
  Variable allow_unused : bool.
  Notation parse_line := (parse_line files allow_unused).
  Lemma display_one fs name m : name <> "" -> m <> "" ->
    display_loop m fs name = match filter (fun f => has_suffix (pf_display f) name) fs with [] => Ok m | _ => Err ("duplicate matching file: " +++ m) end.
  Proof.
    intros Hn Hm. induction fs as [|f fs IH]; cbn [display_loop filter]; [destruct m; [contradiction|reflexivity]|].
    destruct (has_suffix (pf_display f) name); [destruct m; [contradiction|reflexivity]|exact IH].
  Qed.
  Lemma best_stands name : name <> "" -> stands_for files name (best_file_path files name).
  Proof.
    intros Hn. unfold stands_for, best_file_path, get_display_file_path.
    assert (Hd : display_loop "" files name = match filter (fun f => has_suffix (pf_display f) name) files with
      | [] => Err ("no matching file for " +++ name) | f :: r => match r with [] => Ok (pf_display f) | _ => Err ("duplicate matching file: " +++ pf_display f) end end).
    { induction files as [|f fs IH]; cbn [display_loop filter is_empty]; [reflexivity|].
      destruct (has_suffix (pf_display f) name) eqn:E; [|exact IH]. rewrite display_one; [reflexivity|auto|]. intros Ed. rewrite Ed in E.
      apply has_suffix_spec in E as (r & E). symmetry in E. apply sapp_eq_nil in E as [_ E]. contradiction. }
    rewrite Hd. destruct (filter _ files) as [|f [|? ?]]; [right; split; [discriminate|reflexivity]|left; eauto|right; split; [discriminate|reflexivity]].
  Qed.

  Ltac absent := match goal with |- context [try ?re ?line ?f ?next] =>
      let E := fresh in assert (E : re_find re line = None); [|unfold try at 1; rewrite E; clear E] end.
  Ltac none := match goal with |- ?x = None => destruct x eqn:?Q; [exfalso|reflexivity] end.
  (** A line that is not of a plugin. *)
  Lemma plugin_absent line : has_prefix line "--" = false ->
    (forall h l r, pieces line = l ++ (" protoc-gen-" +++ h) :: r -> l <> [] -> r <> [] -> False) ->
    parse_line line = match split_char ":" line with
        | [file; l; c; message] =>
            match atoi l with
            | None => Some (uninterpreted line)
            | Some l =>
                match atoi c with
                | None => Some (uninterpreted line)
                | Some c =>
                    let message := trim_space message in
                    if is_empty message then Some (uninterpreted line)
                    else Some (mk_failure (best_file_path files file) l c "" message)
                end
            end
        | _ => match parse_known files allow_unused line with Some a => a | None => Some (uninterpreted line) end
        end.
  Proof.
    intros H1 H2. unfold Protoc_Model.parse_line.
    absent. { none. apply needs_plugin_failed in Q. congruence. }
    absent. { none. apply needs_other_plugin in Q. congruence. }
    absent. { none. apply needs_full_plugin in Q as (h & a & b & Q & Ha & Hb). eauto. }
    reflexivity.
  Qed.
  Lemma standard_line file l c message nl nc : plain_name file -> number l nl -> number c nc -> no_char ":" message = true -> trim_space message <> "" ->
    parse_line (file +++ ":" +++ l +++ ":" +++ c +++ ":" +++ message) = Some (mk_failure (best_file_path files file) nl nc "" (trim_space message)).
  Proof.
    intros Hf Hl Hc Hm Hm'. destruct (number_spec _ _ Hl) as (Dl & Nl & Al). destruct (number_spec _ _ Hc) as (Dc & Nc & Ac).
    pose proof (digits_no_colon _ Dl) as Cl. pose proof (digits_no_colon _ Dc) as Cc. pose proof Hf as (Nf & Cf & Sf & Pf).
    assert (Hp : pieces (file +++ ":" +++ l +++ ":" +++ c +++ ":" +++ message) = [file; l; c; message]).
    { unfold pieces. rewrite !split_lit by auto. now rewrite split_char_no. }
    rewrite plugin_absent.
    - fold (pieces (file +++ ":" +++ l +++ ":" +++ c +++ ":" +++ message)). rewrite Hp, Al, Ac. cbv zeta. apply is_empty_false in Hm'. now rewrite Hm'.
    - now apply plain_not_flag.
    - rewrite Hp. intros h a b E Ha Hb. destruct a as [|? a]; [contradiction|]. cbn [app] in E. injection E as _ E.
      destruct a as [|? a]; [cbn [app] in E; injection E as El _; rewrite El in Dl; discriminate|]. cbn [app] in E. injection E as _ E.
      destruct a as [|? a]; [cbn [app] in E; injection E as El _; rewrite El in Dc; discriminate|]. cbn [app] in E. injection E as _ E.
      destruct a as [|? a]; [cbn [app] in E; injection E as _ E; now destruct Hb|]. cbn [app] in E. now destruct a.
  Qed.

  (** For each expression, what the pieces of the line would be. *)
  Ltac other N H := let h := fresh in let Hin := fresh in apply N in H as (h & Hin); simpl in Hin; repeat (destruct Hin as [Hin|Hin]; [discriminate Hin|]); exact Hin.
  Ltac gone Hp N := absent; [none; match goal with Q : re_find _ _ = Some _ |- False => apply N in Q as (?h & Q); rewrite Hp in Q; simpl in Q; repeat (destruct Q as [Q|Q]; [discriminate Q|]); exact Q end|].
  Ltac unnumbered Hp N := absent; [none; match goal with Q : re_find _ _ = Some _ |- False => apply N in Q as (?h & Q & ?D & ?Hn); rewrite Hp in Q; simpl in Q; repeat (destruct Q as [Q|Q]; [rewrite <- Q in *; discriminate|]); exact Q end|].
  Lemma no_syntax_absent line : (forall p, In p (pieces line) -> has_suffix p "No syntax specified for the proto file" = false) -> re_find no_syntax_specified_re line = None.
  Proof.
    intros H. none. apply needs_no_syntax in Q as (h & Q). apply H in Q. now rewrite has_suffix_app in Q.
  Qed.
  Lemma no_space_suffix f w : no_char " " f = true -> no_char " " w = false -> has_suffix f w = false.
  Proof.
    intros H1 H2. destruct (has_suffix f w) eqn:E; [|reflexivity]. apply has_suffix_spec in E as (r & ->). apply no_space_app in H1. congruence.
  Qed.
  Lemma dotted_suffix a : has_suffix (a +++ ".") "No syntax specified for the proto file" = false.
  Proof.
    destruct (has_suffix _ _) eqn:E; [|reflexivity]. apply has_suffix_spec in E as (r & E).
    apply (f_equal last_char) in E. rewrite !last_char_app_r in E by discriminate. discriminate.
  Qed.
  Lemma unused_old file name : plain_name file -> plain_name name ->
    parse_line (file +++ ": warning: Import " +++ name +++ " but not used.") = allowed allow_unused (plain files file (unused name)).
  Proof.
    intros Hf Hn. pose proof Hf as (Nf & Cf & Sf & _). pose proof Hn as (Nn & Cn & Sn & _).
    set (line := file +++ ": warning: Import " +++ name +++ " but not used.").
    assert (Hp : pieces line = [file; " warning"; " Import " +++ name +++ " but not used."]).
    { unfold pieces, line. etransitivity; [exact (split_char_app colon file (" warning: Import " +++ name +++ " but not used.") Cf)|]. f_equal.
      etransitivity; [exact (split_char_app colon " warning" (" Import " +++ name +++ " but not used.") eq_refl)|]. f_equal.
      apply split_char_no. unfold no_char in *. now rewrite !sforall_app, Cn. }
    rewrite plugin_absent.
    - fold (pieces line). rewrite Hp. unfold parse_known.
      absent. { apply no_syntax_absent. rewrite Hp. intros p [<-|[<-|[<-|[]]]]; [now apply no_space_suffix|reflexivity|]. rewrite <- !sapp_assoc. change " but not used." with (" but not used" +++ "."). rewrite <- sapp_assoc. apply dotted_suffix. }
      unnumbered Hp needs_3110. unnumbered Hp needs_380.
      unfold try at 1. unfold line. rewrite extra_find by auto. reflexivity.
    - now apply plain_not_flag.
    - rewrite Hp. intros h a b E Ha Hb. destruct a as [|? a]; [contradiction|]. cbn [app] in E. injection E as _ E.
      destruct a as [|? a]; [discriminate|]. cbn [app] in E. injection E as _ E.
      destruct a as [|? a]; [discriminate|]. cbn [app] in E. now destruct a.
  Qed.

  Lemma unused_placed e file l c name nl nc : e = " is unused" \/ e = " but not used" -> plain_name file -> plain_name name -> number l nl -> number c nc ->
    parse_line (file +++ ":" +++ l +++ ":" +++ c +++ ": warning: Import " +++ name +++ e +++ ".") = allowed allow_unused (mk_failure (best_file_path files file) nl nc "" (unused name)).
  Proof.
    intros He Hf Hn Hl Hc. destruct (number_spec _ _ Hl) as (Dl & Nl & Al). destruct (number_spec _ _ Hc) as (Dc & Nc & Ac).
    pose proof (digits_no_colon _ Dl) as Cl. pose proof (digits_no_colon _ Dc) as Cc. pose proof Hf as (Nf & Cf & Sf & _). pose proof Hn as (Nn & Cn & Sn & _).
    set (line := file +++ ":" +++ l +++ ":" +++ c +++ ": warning: Import " +++ name +++ e +++ ".").
    assert (Ce : no_char colon e = true) by (destruct He as [-> | ->]; reflexivity).
    assert (Hp : pieces line = [file; l; c; " warning"; " Import " +++ name +++ e +++ "."]).
    { unfold pieces, line. rewrite (split_lit file), (split_lit l) by auto. do 2 f_equal.
      etransitivity; [exact (split_char_app colon c (" warning: Import " +++ name +++ e +++ ".") Cc)|]. f_equal.
      etransitivity; [exact (split_char_app colon " warning" (" Import " +++ name +++ e +++ ".") eq_refl)|]. f_equal.
      apply split_char_no. unfold no_char in *. now rewrite !sforall_app, Cn, Ce. }
    assert (Hpl : placed files line file l c (unused name) = mk_failure (best_file_path files file) nl nc "" (unused name)).
    { unfold placed. now rewrite Al, Ac. }
    rewrite plugin_absent.
    - fold (pieces line). rewrite Hp. unfold parse_known.
      absent. { apply no_syntax_absent. rewrite Hp.
        assert (Hd : forall d, sforall is_digit d = true -> has_suffix d "No syntax specified for the proto file" = false).
        { intros d Hd. apply no_space_suffix; [|reflexivity]. revert Hd. apply sforall_impl. intros a Ha. apply negb_true_iff, Ascii.eqb_neq. intros ->. discriminate. }
        intros p [<-|[<-|[<-|[<-|[<-|[]]]]]]; [now apply no_space_suffix|auto|auto|reflexivity|]. rewrite <- !sapp_assoc. apply dotted_suffix. }
      destruct He as [-> | ->].
      + unfold try at 1. unfold extra_import_3110_re. unfold line at 1. rewrite placed_find by auto. unfold at_0, at_1, at_2, at_3. cbn [nth]. now rewrite Hpl.
      + absent.
        { none. unfold re_find, extra_import_3110_re in Q. cbn [re_anchored re_items] in Q. apply match_sound, placed_cut in Q as (f' & l' & c' & n' & x & E & _).
          unfold line in E. apply (f_equal srev) in E. rewrite !srev_sapp in E. cbn in E. discriminate. }
        unfold try at 1. unfold extra_import_380_re. unfold line at 1. rewrite placed_find by auto. unfold at_0, at_1, at_2, at_3. cbn [nth]. now rewrite Hpl.
    - now apply plain_not_flag.
    - rewrite Hp. intros h a b E Ha Hb. destruct a as [|? a]; [contradiction|]. cbn [app] in E. injection E as _ E.
      destruct a as [|? a]; [cbn [app] in E; injection E as El _; rewrite El in Dl; discriminate|]. cbn [app] in E. injection E as _ E.
      destruct a as [|? a]; [cbn [app] in E; injection E as El _; rewrite El in Dc; discriminate|]. cbn [app] in E. injection E as _ E.
      destruct a as [|? a]; [discriminate|]. cbn [app] in E. injection E as _ E.
      destruct a as [|? a]; [discriminate|]. cbn [app] in E. now destruct a.
  Qed.

  Lemma two_pieces file m : plain_name file -> no_char colon m = true -> (exists a, m = a +++ ".") ->
    let line := file +++ String colon m in
    pieces line = [file; m] /\ re_find no_syntax_specified_re line = None /\
    parse_line line = match parse_known files allow_unused line with Some a => a | None => Some (uninterpreted line) end.
  Proof.
    intros Hf Hm (a & ->) line. pose proof Hf as (Nf & Cf & Sf & _).
    assert (Hp : pieces line = [file; a +++ "."]).
    { unfold pieces, line. rewrite split_char_app by auto. now rewrite split_char_no. }
    split; [auto|]. split.
    - apply no_syntax_absent. rewrite Hp. intros p [<-|[<-|[]]]; [now apply no_space_suffix|apply dotted_suffix].
    - rewrite plugin_absent.
      + fold (pieces line). now rewrite Hp.
      + now apply plain_not_flag.
      + rewrite Hp. intros h x b E Hx Hb. destruct x as [|? x]; [contradiction|]. cbn [app] in E. injection E as _ E.
        destruct x as [|? x]; [cbn [app] in E; injection E as _ E; congruence|]. cbn [app] in E. now destruct x.
  Qed.
  Lemma import_errors_silent file name : plain_name file -> plain_name name ->
    parse_line (file +++ ": Import " +++ name +++ " was not found or had errors.") = None.
  Proof.
    intros Hf Hn. pose proof Hn as (Nn & Cn & Sn & _). set (m := " Import " +++ name +++ " was not found or had errors.").
    destruct (two_pieces file m Hf) as (Hp & Hs & E).
    { unfold m, no_char in *. now rewrite !sforall_app, Cn. }
    { exists (" Import " +++ name +++ " was not found or had errors"). unfold m. now rewrite !sapp_assoc. }
    change (file +++ ": Import " +++ name +++ " was not found or had errors.") with (file +++ String colon m). rewrite E.
    unfold parse_known. unfold try at 1. rewrite Hs. subst m.
    unnumbered Hp needs_3110. unnumbered Hp needs_380. gone Hp needs_extra. unnumbered Hp needs_recursive_380. gone Hp needs_recursive.
    gone Hp needs_directory. gone Hp needs_not_found. gone Hp needs_explicit.
    unfold try at 1.
    destruct (match_complete (re_items import_not_found_re) (file +++ String colon (" Import " +++ name +++ " was not found or had errors.")) None [file; name]) as (g & Hg).
    { unfold import_not_found_re, grp. cbn [re_items app].
      apply CutOpen, (CutDots file), CutClose, (CutLit ": Import "), CutOpen, (CutDots name), CutClose, (CutLit " was not found or had errors"), CutDot, CutEnd, CutNil. }
    unfold re_find. cbn [re_anchored import_not_found_re]. fold import_not_found_re. unfold re_items in Hg. unfold import_not_found_re in *. cbn [re_items] in *. now rewrite Hg.
  Qed.
  Lemma not_found file : plain_name file -> parse_line (file +++ ": File not found.") = Some (unplaced ("Import " +++ quote +++ file +++ quote +++ " was not found.")).
  Proof.
    intros Hf. pose proof Hf as (Nf & Cf & Sf & _). set (m := " File not found.").
    destruct (two_pieces file m Hf) as (Hp & Hs & E); [reflexivity|now exists " File not found"|].
    change (file +++ ": File not found.") with (file +++ String colon m). rewrite E.
    unfold parse_known. unfold try at 1. rewrite Hs. subst m.
    unnumbered Hp needs_3110. unnumbered Hp needs_380. gone Hp needs_extra. unnumbered Hp needs_recursive_380. gone Hp needs_recursive.
    gone Hp needs_directory. unfold try at 1.
    assert (Hg : re_find file_not_found_re (file +++ String colon " File not found.") = Some [file]).
    { apply find_cut.
      - unfold grp. cbn [app]. apply CutOpen, (CutDots file), CutClose, (CutLit ": File not found"), CutDot, CutEnd, CutNil.
      - intros gs H. assert (H' : forall line, cut (grp [Dots] ++ [Lit ": File not found"; Dot; End]) line None gs -> exists t c, line = t +++ ": File not found" +++ String c "" /\ gs = [t]).
        { clear H. intros line H. groups H. eauto. }
        apply H' in H as (t & c & Ht & ->). symmetry in Ht. now apply (same_end t ": File not found" c file ".") in Ht as [-> _]. }
    now rewrite Hg.
  Qed.
End Lines.
