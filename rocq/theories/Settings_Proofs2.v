(** The interface of the configuration provider. *)
From Coq Require Import Permutation.
From Verif Require Import GoStrFacts GoPathFacts Strs_Spec Settings_Model Settings_Spec Settings_Proofs File_Model File_Spec File_Proofs File_Proofs2.

Lemma get_path_clean ex dir d : is_abs dir = true -> ok_comps d -> path_clean dir = abs_path d ->
  get_file_path_for_dir ex dir = get_file_path_for_dir ex (abs_path d).
Proof.
  intros Ha H E. unfold get_file_path_for_dir. rewrite Ha, is_abs_abs_path, E. cbn [negb]. now rewrite clean_abs_path.
Qed.
Lemma discovery_governs ex dir d p : is_abs dir = true -> ok_comps d -> path_clean dir = abs_path d ->
  (get_file_path_for_dir ex dir = Ok p <-> governs ex d p).
Proof. intros Ha H E. rewrite (get_path_clean ex dir d) by assumption. now apply governs_iff. Qed.
Lemma two_not_none ex a : two_configs ex a -> ~ no_config ex a.
Proof. intros T N. specialize (T _ (or_introl eq_refl)). rewrite N in T by (now left). discriminate. Qed.
Lemma discovery_error ex dir d : is_abs dir = true -> ok_comps d -> path_clean dir = abs_path d ->
  ((exists m, get_file_path_for_dir ex dir = Err m) <-> exists a, nearest ex d a /\ two_configs ex a).
Proof.
  intros Ha H E. pose proof (discovery ex dir d Ha H E) as D. split.
  - intros (m & Em). rewrite Em in D. exact D.
  - intros (a & N & T). destruct (get_file_path_for_dir ex dir) as [p|m]; [exfalso|eauto].
    assert (ok_comps a) as Hoa by (destruct N as (b & -> & _); now apply ok_comps_app in H).
    destruct p as [|c p].
    + apply (two_not_none ex a T). destruct N as (b & -> & _). eapply D; reflexivity.
    + destruct D as (a' & N' & T'). assert (a' = a) as -> by (eapply nearest_fun; eassumption).
      exact (config_two_excl ex a _ Hoa T' T).
Qed.
Lemma config_path_facts d file : ok_comps d -> In file (config_paths d) ->
  is_abs file = true /\ path_clean file = file /\ path_dir file = abs_path d /\ file <> "".
Proof.
  intros H Hf.
  assert (forall f, ok_comp f = true -> is_abs (abs_path (d ++ [f])) = true /\ path_clean (abs_path (d ++ [f])) = abs_path (d ++ [f]) /\
    path_dir (abs_path (d ++ [f])) = abs_path d /\ abs_path (d ++ [f]) <> "") as K.
  { intros f Hok. split; [apply is_abs_abs_path|]. split; [|split; [now apply path_dir_abs|discriminate]].
    apply clean_abs_path. apply ok_comps_app; split; [assumption|constructor; [assumption|constructor]]. }
  destruct Hf as [<-|[<-|[]]]; now apply K.
Qed.
Section Get.
  Variable ex : string -> bool.
  Variable read : string -> result string.
  Variable dj dy : string -> result external_config.
  Variable look : string -> result string.
  Variable sort : list gen_plugin -> list gen_plugin.
  Variable devel : bool.
  Lemma get_file_eq d file : ok_comps d -> In file (config_paths d) ->
    get_for_file read dj dy look sort devel file =
    do e <- get_external_config read dj dy file; external_config_to_config read look sort devel e (abs_path d).
  Proof.
    intros H Hf. destruct (config_path_facts d file H Hf) as (A & B & C & _). unfold get_for_file.
    rewrite A, B, C. reflexivity.
  Qed.
  Lemma get_for_dir_iff d c : ok_comps d ->
    (get_for_dir ex read dj dy look sort devel (abs_path d) = Ok c <->
     (governs ex d "" /\ external_config_to_config read look sort devel empty_external (abs_path d) = Ok c)
     \/ exists a file e, nearest ex d a /\ the_config ex a file /\ decoded read dj dy a file e /\
          external_config_to_config read look sort devel e (abs_path a) = Ok c).
  Proof.
    intros H. unfold get_for_dir. pose proof (fun p => governs_iff ex d p H) as G.
    assert (forall a, nearest ex d a -> ok_comps a) as Oa.
    { intros a (b & E & _). subst d. now apply ok_comps_app in H. }
    split.
    - destruct (get_file_path_for_dir ex (abs_path d)) as [p|]; [|discriminate]. cbn [bind].
      pose proof (proj1 (G p) eq_refl) as Gp. destruct p as [|ch p]; cbn [is_empty].
      + intros E. left. auto.
      + destruct Gp as [[F _]|(a & N & T)]; [discriminate|]. rewrite (get_file_eq a) by (auto || apply T).
        destruct (get_external_config read dj dy (String ch p)) as [e|] eqn:Ee; [|discriminate]. cbn [bind].
        apply (external_decoded read dj dy a) in Ee; [|auto|apply T]. intros E. right. eauto 8.
    - intros [[Gp E]|(a & file & e & N & T & De & E)].
      + apply G in Gp. rewrite Gp. cbn [bind is_empty]. exact E.
      + assert (governs ex d file) as Gp by (right; eauto). apply G in Gp. rewrite Gp. cbn [bind].
        destruct (config_path_facts a file (Oa a N) (proj1 T)) as (_ & _ & _ & Hn). apply is_empty_false in Hn. rewrite Hn.
        rewrite (get_file_eq a) by (auto || apply T). apply external_decoded in De; [|auto|apply T]. rewrite De. exact E.
  Qed.
  Hypothesis Hsort : sorts sort.
  Lemma get_for_file_iff d file c : ok_comps d -> In file (config_paths d) ->
    (get_for_file read dj dy look sort devel file = Ok c ->
     exists e, decoded read dj dy d file e /\ acceptable read devel e (abs_path d) /\ becomes read look e (abs_path d) c) /\
    (forall e, decoded read dj dy d file e -> acceptable read devel e (abs_path d) ->
     exists c, get_for_file read dj dy look sort devel file = Ok c).
  Proof.
    intros H Hf. rewrite (get_file_eq d) by assumption. split.
    - destruct (get_external_config read dj dy file) as [e|] eqn:Ee; [|discriminate]. cbn [bind]. intros E.
      apply (external_decoded read dj dy d) in Ee; [|assumption|assumption]. exists e. split; [assumption|].
      apply (accepted _ _ sort); [assumption|now exists d|assumption].
    - intros e De A. apply external_decoded in De; [|assumption|assumption]. rewrite De. cbn [bind].
      apply acceptable_accepted; [assumption|now exists d|assumption].
  Qed.
End Get.
Lemma get_for_data_accepts read dj look sort devel dir data e : sorts sort -> is_abs dir = true -> dj data = Ok e ->
  ((exists c, get_for_data read dj look sort devel dir data = Ok c) <-> acceptable read devel e (path_clean dir)).
Proof.
  intros S Ha E. rewrite (get_for_data_eq read dj look sort devel dir data e Ha E). pose proof (path_clean_clean_abs dir Ha) as C. split.
  - intros (c & Ec). now apply (accepted read look sort devel S e (path_clean dir) c C) in Ec.
  - intros A. now apply acceptable_accepted.
Qed.
Lemma get_for_data_normalises read dj look sort devel dir data e c : sorts sort -> is_abs dir = true -> dj data = Ok e ->
  get_for_data read dj look sort devel dir data = Ok c ->
  becomes read look e (path_clean dir) c /\ clean_abs (cfg_dir c) /\
  Forall clean_abs (cfg_exclude_prefixes c) /\ Forall clean_abs (cc_include_paths (cfg_compile c)) /\
  Forall (fun d => clean_abs (fst d)) (cr_dir_to_base (cfg_create c)) /\
  Forall (fun i => Forall clean_abs (snd i)) (lc_ignores (cfg_lint c)) /\
  Forall (fun g => clean_abs (gp_output_abs g)) (gc_plugins (cfg_gen c)).
Proof.
  intros S Ha E. rewrite (get_for_data_eq read dj look sort devel dir data e Ha E). pose proof (path_clean_clean_abs dir Ha) as C. intros Ec.
  apply (accepted read look sort devel S e (path_clean dir) c C) in Ec as [_ B]. split; [assumption|]. split.
  - now rewrite (be_dir _ _ _ _ _ B).
  - now apply (becomes_clean read look e (path_clean dir)).
Qed.
Lemma header_comments read dj look sort devel dir data e c : sorts sort -> is_abs dir = true -> dj data = Ok e ->
  get_for_data read dj look sort devel dir data = Ok c ->
  eh_is_commented (x_header e) = false -> eh_path (x_header e) <> "" \/ eh_content (x_header e) <> "" ->
  exists text, header_text read (path_clean dir) (x_header e) text /\
    let lines := split_char newline (lc_file_header (cfg_lint c)) in
    Forall (fun l => l = "//" \/ exists t, t <> "" /\ l = "// " +++ t) lines /\
    Forall2 (fun raw l => trim_space raw = "" /\ l = "//" \/ trim_space raw <> "" /\ l = "// " +++ trim_space raw)
      (split_char newline (trim_space text)) lines.
Proof.
  intros S Ha E G Hc Hn. apply (get_for_data_normalises _ _ _ _ _ _ _ e) in G as (B & _); [|assumption|assumption|assumption].
  destruct (be_header _ _ _ _ _ B) as [(A1 & A2 & _)|(text & T & H & _)]; [tauto|]. exists text. split; [assumption|].
  rewrite Hc in H. apply header_split in H. cbv zeta. rewrite H. split.
  - apply Forall_map, Forall_forall. intros l _. unfold header_line. destruct (trim_space l) as [|ch t]; [now left|]. right.
    exists (String ch t). split; [discriminate|reflexivity].
  - generalize (split_char newline (trim_space text)). induction l as [|x l IH]; cbn [map]; constructor; [|assumption].
    unfold header_line. destruct (trim_space x) as [|ch t]; [left; auto|right]. split; [discriminate|reflexivity].
Qed.

(** ** Insertion sort by name is one way to sort plugins *)
Fixpoint insert_plugin (x : gen_plugin) (l : list gen_plugin) : list gen_plugin :=
  match l with
  | [] => [x]
  | y :: l' => if str_leb (gp_name x) (gp_name y) then x :: l else y :: insert_plugin x l'
  end.
Fixpoint by_name (l : list gen_plugin) : list gen_plugin :=
  match l with [] => [] | x :: l' => insert_plugin x (by_name l') end.
Lemma insert_perm x l : Permutation (x :: l) (insert_plugin x l).
Proof.
  induction l as [|y l IH]; [reflexivity|]. cbn [insert_plugin]. destruct (str_leb _ _); [reflexivity|].
  rewrite perm_swap. now constructor.
Qed.
Lemma by_name_perm l : Permutation l (by_name l).
Proof. induction l as [|x l IH]; [reflexivity|]. cbn [by_name]. rewrite <- insert_perm. now constructor. Qed.
Inductive by_names : list gen_plugin -> Prop :=
| bn_nil : by_names []
| bn_cons : forall x l, (forall y, In y l -> str_leb (gp_name x) (gp_name y) = true) -> by_names l -> by_names (x :: l).
Lemma insert_sorted x l : by_names l -> by_names (insert_plugin x l).
Proof.
  induction 1 as [|y l Hy Hl IH]; cbn [insert_plugin]; [constructor; [intros z []|constructor]|].
  destruct (str_leb (gp_name x) (gp_name y)) eqn:E.
  - constructor; [|now constructor]. intros z [<-|Hz]; [assumption|]. eapply str_leb_trans; [exact E|auto].
  - constructor; [|assumption]. intros z Hz. apply (Permutation_in _ (Permutation_sym (insert_perm x l))) in Hz as [<-|Hz]; [|auto].
    destruct (str_leb_total (gp_name x) (gp_name y)) as [F|F]; [congruence|assumption].
Qed.
Lemma by_name_sorts : sorts by_name.
Proof.
  intros l. split; [apply by_name_perm|].
  assert (by_names (by_name l)) as B by (induction l; cbn [by_name]; [constructor|now apply insert_sorted]).
  intros a x b y c E. rewrite E in B. clear E. induction a as [|z a IH]; cbn [app] in B; inversion B; subst; auto.
  match goal with H : forall _, In _ _ -> _ |- _ => apply H end. apply in_or_app. right. now left.
Qed.
