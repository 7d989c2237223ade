(** C119: create that is killed, for the whole program. *)
From Verif Require CreateOut_Proofs Props_CreateOut Settings_Proofs2.
From Verif Require Import Crash_Proofs Crash_Proofs2.
From Verif Require Import GoStrFacts GoPathFacts Settings_Spec File_Spec Exec_Spec Exec_Proofs Exec_Proofs3 Cmd_Spec Create_Spec CreateOut_Spec Format_Spec Main_Model Main_Spec Main_Spec2
  Main_Spec3 Main_Proofs Main_Proofs2 Main_Proofs6 Main_Proofs7 Main_Proofs14 Props_Main Props_Main2 Props_Main3 Props_Main4 Props_Main5 Props_Main11.

(** [text] is what is to be in the new file [f]. *)
Definition new_text (w : world) (disk : string -> result string) (cwd : string) (items : list item) (f text : string) : Prop :=
  exists d conf p, ok_comps d /\ path_dir (path_abs cwd f) = abs_path d /\ in_force_for_new w disk (Cmd_Spec.text items "config-data") d conf /\
    states_package (header_of_config conf) text p /\
    (Cmd_Spec.text items "package" <> "" -> p = Cmd_Spec.text items "package") /\
    (Cmd_Spec.text items "package" = "" -> Cmd_Spec.text items "config-data" = "" ->
     (forall d' base, ok_comps d' -> In (abs_path d', base) (cr_dir_to_base (cfg_create conf)) -> no_sibling d' d) ->
     exists cd default, searched (exists_at w disk) d cd /\ default_of conf default /\ package_for (cr_dir_to_base (cfg_create conf)) cd d default p) /\
    forall sort_options es hts, a_package p -> quotes_free f -> quotes_free (prefix_of conf) -> contents_of conf p f es ->
      reads_as (header_of_config conf +++ String newline "") hts -> reads_as text (hts ++ concat (map (tokens sort_options) es)).

Lemma firstn_split {A} (a b c : list A) k (l : list A) : a ++ b ++ c = firstn k l ->
  a = firstn (length a) l /\ b = firstn (length b) (skipn (length a) l).
Proof.
  revert k l. induction a as [|x a IH]; intros k l H.
  - split; [reflexivity|]. cbn [app length skipn] in *. revert k l H. induction b as [|y b IHb]; intros k l H; [reflexivity|].
    destruct k, l; try discriminate H. cbn in H. injection H as -> H. cbn. f_equal. now apply (IHb k).
  - destruct k, l; try discriminate H. cbn in H. injection H as -> H. destruct (IH k l H) as (E1 & E2). cbn [length firstn skipn]. split; [now f_equal|exact E2].
Qed.
Lemma same_abs cwd args f g : NoDup (map (path_abs cwd) args) -> In f args -> In g args -> path_abs cwd f = path_abs cwd g -> f = g.
Proof.
  induction args as [|h args IH]; intros N F G E; [destruct F|]. inversion N as [|? ? N1 N2]; subst. destruct F as [->|F], G as [->|G]; [reflexivity| | |now apply IH].
  - exfalso. apply N1. rewrite E. now apply in_map.
  - exfalso. apply N1. rewrite <- E. now apply in_map.
Qed.

(** Whatever the status, and at whatever moment the program is killed: the files are made in
    the order in which they are given, from the first one on, and at most one of them holds only
    the beginning of its text; nothing else is touched.  A file that held something is never
    touched, and neither is anything if one of the files cannot be made. *)
Theorem C119_killed : forall w cwd args l c items s s2 z es now, ordinary w cwd -> sorts (w_sort_plugins w) ->
  means (w_read_csv w) l c items args -> c_words c = ["create"] -> NoDup (map (path_abs cwd) args) ->
  main w l s = (s2, z) -> io_done s2 = io_done s ++ es -> killed (io_disk s) (written es) now ->
  exists whole hit rest, args = whole ++ hit ++ rest /\ length hit <= 1 /\
    (forall f, In f whole -> exists text, new_text w (io_disk s) cwd items f text /\ now (path_abs cwd f) = Ok text) /\
    (forall f, In f hit -> exists text part lost, new_text w (io_disk s) cwd items f text /\ text = part +++ lost /\ now (path_abs cwd f) = Ok part) /\
    (forall q, ~ In q (map (path_abs cwd) (whole ++ hit)) -> now q = io_disk s q) /\
    (whole ++ hit <> [] -> forall f, In f args -> ~ in_the_way w (io_disk s) cwd f).
Proof.
  intros w cwd args l c items s s2 z es now (V & G & Wd & Cl & Nm & St) So Mf Wf Nd Ef Es Kd.
  destruct (line_is w l c items args G Mf) as (k & K & L). rewrite L in Ef. clear L. unfold asked in K. rewrite Wf in K. injection K as <-.
  assert (Nothing : forall es', io_done s2 = io_done s ++ es' -> written es' = [] ->
    exists whole hit rest, args = whole ++ hit ++ rest /\ length hit <= 1 /\
    (forall f, In f whole -> exists text, new_text w (io_disk s) cwd items f text /\ now (path_abs cwd f) = Ok text) /\
    (forall f, In f hit -> exists text part lost, new_text w (io_disk s) cwd items f text /\ text = part +++ lost /\ now (path_abs cwd f) = Ok part) /\
    (forall q, ~ In q (map (path_abs cwd) (whole ++ hit)) -> now q = io_disk s q) /\
    (whole ++ hit <> [] -> forall f, In f args -> ~ in_the_way w (io_disk s) cwd f)).
  { intros es' E' W. rewrite Es in E'. apply app_inv_head in E'. subst es'. rewrite W in Kd. destruct Kd as (a & b & d & X & _ & _ & _ & Kq). symmetry in X. apply app_eq_nil in X as (-> & X). apply app_eq_nil in X as (-> & _).
    exists [], [], args. split; [reflexivity|]. split; [auto|]. split; [intros f []|]. split; [intros f []|]. split; [intros q _; apply Kq; intros []|]. now intros []. }
  destruct (the_options w items) as [r|m] eqn:Or.
  2:{ rewrite no_options in Ef. injection Ef as <- _. rewrite Exec_Proofs.println_adds in Nothing. cbn [fst adds io_done] in Nothing. eapply Nothing; [reflexivity|]. now destruct (is_empty m). }
  clear Nothing. rewrite with_options in Ef. destruct (options_are _ _ _ _ Wd Or) as (wt & Rw). assert (Hr : here r = cwd) by now rewrite Rw. assert (Cr : clean_abs (here r)) by now rewrite Hr.
  assert (Da : r_config_data r = Cmd_Spec.text items "config-data") by now rewrite Rw.
  set (pkg := Cmd_Spec.text items "package") in *.
  unfold process in Ef. change (Main_Model.method w r (CallCreate args pkg) s) with (create_cmd w r args pkg s) in Ef.
  destruct (create_cmd w r args pkg s) as [s' o] eqn:E. destruct (create_writes w r s args pkg s' o E) as (es0 & E0 & (kk & F0) & P0).
  assert (W0 : written es = written es0).
  { assert (X : forall e, s2 = fst (println e s') -> written es = written es0).
    { intros e ->. rewrite Exec_Proofs.println_adds in Es. cbn [fst adds io_done] in Es. rewrite E0, <- app_assoc in Es. apply app_inv_head in Es. rewrite <- Es, written_app. destruct (is_empty e); cbn; now rewrite app_nil_r. }
    destruct o as [a|e|e]; injection Ef as <- _; [|now apply (X e)..]. rewrite E0 in Es. apply app_inv_head in Es. now rewrite Es. }
  rewrite W0 in Kd. destruct Kd as (dn & nx & rs & X & Ln & Kd & Kn & Kq). rewrite X, !map_app in F0. destruct (firstn_split _ _ _ _ _ F0) as (D1 & D2). rewrite (map_length fst dn) in D1, D2. rewrite (map_length fst nx) in D2.
  rewrite firstn_map in D1. rewrite skipn_map, firstn_map in D2.
  set (whole := firstn (length dn) args) in *. set (hit := firstn (length nx) (skipn (length dn) args)) in *.
  assert (Ar : args = whole ++ hit ++ skipn (length nx) (skipn (length dn) args)) by (unfold whole, hit; now rewrite !firstn_skipn).
  assert (New : forall p data, In (p, data) (written es0) -> forall f, In f args -> path_abs cwd f = p -> new_text w (io_disk s) cwd items f data).
  { intros p data I f Fi <-. destruct (P0 _ _ I) as (Ck & g & Gi & Eg & Cd). rewrite Hr in Eg. apply (same_abs cwd args f g Nd Fi Gi) in Eg. subst g.
    destruct (path_dir_clean_abs _ (path_abs_clean cwd f Cl)) as (d & Hd & Ed). rewrite <- Hr in Ed.
    destruct (data_made w V So r s pkg f d data (Ck f Fi) Cd Hd Ed) as (conf & p & C1 & -> & C3 & C4). rewrite Hr in Ed. rewrite Da in C1, C4.
    exists d, conf, p. split; [exact Hd|]. split; [exact Ed|]. split; [exact C1|]. split; [apply Props_CreateOut.created_states|]. split; [exact C3|]. split; [exact C4|].
    intros so es1 hts Hp Hq Hx D Hh. now apply CreateOut_Proofs.created_reads. }
  exists whole, hit, (skipn (length nx) (skipn (length dn) args)). split; [exact Ar|]. split; [unfold hit; rewrite firstn_length; apply (Nat.le_trans _ (length nx)); [apply Nat.le_min_l|exact Ln]|].
  rewrite Hr in D1, D2.
  split; [|split; [|split]].
  - intros f Fi. assert (I : In (path_abs cwd f) (map fst dn)) by (rewrite D1; now apply in_map). apply in_map_iff in I as ((p & data) & Ep & I). cbn in Ep. subst p.
    exists data. split; [|now apply Kd]. eapply New; [rewrite X; apply in_or_app; left; exact I| |reflexivity]. rewrite Ar. apply in_or_app. now left.
  - intros f Fi. assert (I : In (path_abs cwd f) (map fst nx)); [rewrite D2; apply in_map; exact Fi|]. apply in_map_iff in I as ((p & data) & Ep & I). cbn in Ep. subst p.
    destruct (Kn _ _ I) as (part & lost & Ed & Eq). exists data, part, lost. split; [|split; [exact Ed|exact Eq]]. eapply New; [rewrite X; apply in_or_app; right; apply in_or_app; left; exact I| |reflexivity].
    rewrite Ar. apply in_or_app. right. apply in_or_app. now left.
  - intros q N. apply Kq. rewrite map_app in N |- *. now rewrite D1, D2.
  - intros Ne f Fi W. rewrite <- Hr in W. destruct (in_the_way_err _ _ _ _ W) as (m & Em). destruct (written es0) as [|[p data] l0] eqn:We.
    + apply Ne. symmetry in X. apply app_eq_nil in X as (X1 & X). apply app_eq_nil in X as (X2 & _). unfold whole, hit. now rewrite X1, X2.
    + destruct (P0 p data (or_introl eq_refl)) as (Ck & _). rewrite (Ck f Fi) in Em. discriminate Em.
Qed.
Print Assumptions C119_killed.

(** ** Example: killed while the second of two files is made. *)
Definition exw27_line : list string := ["create"; "bar_baz.proto"; "qux.proto"; "--package"; "acme.foo.v1"].
Definition exw27_text (f : string) : string := match io_disk (fst (main exw11 exw27_line exw11_s)) f with Ok t => t | Err _ => "" end.
Definition exw27_one : string := Eval vm_compute in exw27_text "/w/bar_baz.proto".
Definition exw27_two : string := Eval vm_compute in exw27_text "/w/qux.proto".
Definition exw27_lost : string := Eval vm_compute in substring 6 (String.length exw27_two) exw27_two.
Definition exw27_part : string := Eval vm_compute in substring 0 6 exw27_two.
Definition exw27_now (q : string) : result string :=
  if String.eqb q "/w/bar_baz.proto" then Ok exw27_one else if String.eqb q "/w/qux.proto" then Ok exw27_part else io_disk exw11_s q.
Lemma exw27_killed : killed (io_disk exw11_s) (written (io_done (fst (main exw11 exw27_line exw11_s)))) exw27_now.
Proof.
  assert (W : written (io_done (fst (main exw11 exw27_line exw11_s))) = [("/w/bar_baz.proto", exw27_one); ("/w/qux.proto", exw27_two)]) by (vm_compute; reflexivity).
  rewrite W. exists [("/w/bar_baz.proto", exw27_one)], [("/w/qux.proto", exw27_two)], []. split; [reflexivity|]. split; [auto|].
  split; [intros q d [[= <- <-]|[]]; reflexivity|]. split.
  - intros q d [[= <- <-]|[]]. exists exw27_part, exw27_lost. split; [vm_compute; reflexivity|reflexivity].
  - intros q N. unfold exw27_now. destruct (String.eqb q "/w/bar_baz.proto") eqn:A; [apply String.eqb_eq in A; subst; exfalso; apply N; cbn; tauto|].
    destruct (String.eqb q "/w/qux.proto") eqn:B; [apply String.eqb_eq in B; subst; exfalso; apply N; cbn; tauto|]. reflexivity.
Qed.
Example C119_killed_ex : ordinary exw11 "/w" /\ sorts (w_sort_plugins exw11) /\
  means (w_read_csv exw11) exw27_line exw_create [Plain "bar_baz.proto"; Plain "qux.proto"; Given "package" LongSpace "acme.foo.v1"] ["bar_baz.proto"; "qux.proto"] /\
  NoDup (map (path_abs "/w") ["bar_baz.proto"; "qux.proto"]) /\ snd (main exw11 exw27_line exw11_s) = 0%Z /\ io_done exw11_s = [] /\
  killed (io_disk exw11_s) (written (io_done (fst (main exw11 exw27_line exw11_s)))) exw27_now /\
  exw27_now "/w/bar_baz.proto" <> io_disk exw11_s "/w/bar_baz.proto" /\ exw27_now "/w/qux.proto" = Ok "// Cop".
Proof.
  split; [exact exw11_ordinary|]. split; [exact Settings_Proofs2.by_name_sorts|]. split.
  { exists None. split; [cbn; tauto|]. split; [|split; [reflexivity|split; [split; cbn; auto with arith|reflexivity]]].
    constructor; [right; discriminate|constructor; [right; discriminate|constructor; [|constructor]]]. split; [intros [X|[X|X]]; discriminate X|]. split; [discriminate|]. exists Text. split; [unfold takes; cbn; tauto|split; discriminate]. }
  split; [repeat constructor; cbn; intuition discriminate|]. split; [vm_compute; reflexivity|]. split; [reflexivity|]. split; [exact exw27_killed|]. split; [vm_compute; discriminate|vm_compute; reflexivity].
Qed.
(** A file of which only the beginning was made is in the way of the next run: it is not made again. *)
Theorem C119_again_refuted : ~ (forall w cwd args l c items s s2 es now, ordinary w cwd -> sorts (w_sort_plugins w) ->
  means (w_read_csv w) l c items args -> c_words c = ["create"] -> NoDup (map (path_abs cwd) args) ->
  main w l s = (s2, 0%Z) -> io_done s2 = io_done s ++ es -> killed (io_disk s) (written es) now ->
  snd (main w l (mk_io now (io_done s))) = 0%Z).
Proof.
  intros H. destruct C119_killed_ex as (A & B & C & D & E & _ & K & _).
  specialize (H exw11 "/w" _ exw27_line exw_create _ exw11_s (fst (main exw11 exw27_line exw11_s)) (io_done (fst (main exw11 exw27_line exw11_s))) exw27_now A B C eq_refl D
    ltac:(rewrite <- E; apply surjective_pairing) eq_refl K). vm_compute in H. discriminate H.
Qed.
Print Assumptions C119_again_refuted.
