(** Proofs about Grpc_Model, first part: strings, headers, handlers and services. *)
From Verif Require Import GoStrFacts GoMapFacts Reflect_Proofs Desc_Proofs Exec_Proofs.
From Verif Require Export Grpc_Model Grpc_Spec.
From Coq Require Import Lia.

(** ** Strings *)
Lemma split_once_some sep s a b : sep <> "" -> split_once sep s = Some (a, b) -> first_split sep s a b.
Proof.
  intros Hsep. revert a b. induction s as [|c s IH]; intros a b; cbn [split_once].
  - destruct (has_prefix "" sep) eqn:P; [|discriminate]. apply has_prefix_spec in P as (r & P). destruct sep; [easy|discriminate].
  - destruct (has_prefix (String c s) sep) eqn:P.
    + apply has_prefix_spec in P as (r & P). intros E. assert (Ea := f_equal (fun o => match o with Some (x, _) => x | None => "" end) E). assert (Eb := f_equal (fun o => match o with Some (_, x) => x | None => "" end) E). cbn beta iota in Ea, Eb. subst a b.
      rewrite P, sdrop_app_exact. split; [reflexivity|]. intros. cbn. lia.
    + destruct (split_once sep s) as [[a' b']|]; [|discriminate]. intros E. injection E as <- <-. destruct (IH a' b' eq_refl) as (-> & M). split; [reflexivity|].
      intros [|c' a2] b2 E2.
      * exfalso. apply has_prefix_false with (r := b2) in P. now apply P.
      * cbn in E2. injection E2 as _ E2. cbn. specialize (M a2 b2 E2). lia.
Qed.
Lemma split_once_none sep s : sep <> "" -> split_once sep s = None -> forall a b, s <> a +++ sep +++ b.
Proof.
  intros Hsep. induction s as [|c s IH]; cbn [split_once].
  - intros _ a b E. destruct a; [|discriminate]. destruct sep; [easy|discriminate].
  - destruct (has_prefix (String c s) sep) eqn:P; [discriminate|]. destruct (split_once sep s) as [[]|]; [discriminate|]. intros _ [|c' a] b E.
    + apply has_prefix_false with (r := b) in P. now apply P.
    + cbn in E. injection E as _ E. now apply (IH eq_refl a b).
Qed.
Lemma app_inj_length a b c d : String.length a = String.length c -> a +++ b = c +++ d -> a = c /\ b = d.
Proof.
  revert c. induction a as [|x a IH]; intros [|y c]; cbn; try discriminate; [auto|]. intros [= L] [= -> E]. destruct (IH c L E) as (-> & ->). auto.
Qed.
Lemma app_inj_l p a b : p +++ a = p +++ b -> a = b.
Proof. intros H. now apply (app_inj_length p a p b eq_refl H). Qed.
Lemma first_split_fun sep s a b a' b' : first_split sep s a b -> first_split sep s a' b' -> a = a' /\ b = b'.
Proof.
  intros (E & M) (E' & M'). assert (L : String.length a = String.length a') by (assert (X := M _ _ E'); assert (Y := M' _ _ E); lia).
  rewrite E in E'. destruct (app_inj_length _ _ _ _ L E') as (-> & X). split; [reflexivity|]. now apply app_inj_l in X.
Qed.
Lemma split_once_iff sep s a b : sep <> "" -> split_once sep s = Some (a, b) <-> first_split sep s a b.
Proof.
  intros H. split; [now apply split_once_some|]. intros F. destruct (split_once sep s) as [[a' b']|] eqn:E.
  - apply split_once_some in E; [|exact H]. destruct (first_split_fun _ _ _ _ _ _ F E) as (-> & ->). reflexivity.
  - destruct (split_once_none _ _ H E a b). apply F.
Qed.
Lemma no_char_no_slash s : no_char "/" s = true <-> no_slash s.
Proof.
  unfold no_slash. induction s as [|c s IH]; cbn.
  - split; [intros _ [|] b; discriminate|reflexivity].
  - unfold no_char in *. cbn. rewrite Bool.andb_true_iff, IH. split.
    + intros (N & H) [|c' a] b E; cbn in E; injection E as -> E; [discriminate|]. now apply (H a b).
    + intros H. split.
      * destruct (Ascii.eqb c "/") eqn:E; [|reflexivity]. apply Ascii.eqb_eq in E as ->. exfalso. now apply (H "" s).
      * intros a b ->. now apply (H (String c a) b).
Qed.
Lemma get_network_address_ok address n r : get_network_address address = Ok (n, r) <-> network_of address n r.
Proof.
  unfold get_network_address, network_of. destruct (split_once "://" address) as [[a b]|] eqn:E.
  - apply split_once_some in E; [|discriminate]. destruct (String.eqb a "tcp" || String.eqb a "unix") eqn:T.
    + split.
      * intros H. injection H as <- <-. left. split; [exact E|]. apply Bool.orb_true_iff in T as [T|T]; apply String.eqb_eq in T; auto.
      * intros [(F & _)|(N & _)]; [|destruct (N a b); apply E]. destruct (first_split_fun _ _ _ _ _ _ E F) as (-> & ->). reflexivity.
    + split; [discriminate|]. intros [(F & K)|(N & _)]; [|destruct (N a b); apply E]. destruct (first_split_fun _ _ _ _ _ _ E F) as (-> & ->). destruct K as [-> | ->]; discriminate.
  - assert (N := split_once_none "://" address ltac:(discriminate) E). split.
    + intros H. injection H as <- <-. right. auto.
    + intros [((F & _) & _)|(_ & -> & ->)]; [now destruct (N n r)|reflexivity].
Qed.
Lemma get_service_for_method_ok method path : get_service_for_method method = Ok path <-> exists name, method = path +++ "/" +++ name /\ no_slash path /\ no_slash name.
Proof.
  unfold get_service_for_method. split.
  - assert (J := join_split "/" method). assert (P := split_char_parts "/" method). destruct (split_char "/" method) as [|a [|b [|c l]]]; try discriminate. intros H. injection H as <-. exists b.
    inversion P as [|? ? Pa P']. inversion P' as [|? ? Pb]. clear P P'. subst x x0 l l0. split; [symmetry; exact J|]. split; now apply no_char_no_slash.
  - intros (name & -> & Np & Nn). apply no_char_no_slash in Np, Nn. change ("/" +++ name) with (String "/" name). rewrite (split_char_app "/" path name Np). rewrite (split_char_no _ _ Nn). reflexivity.
Qed.

(** ** Headers *)
Lemma parse_headers_err hs m : (exists m', parse_headers hs m = Ok m') <-> headers_fit hs.
Proof.
  revert m. induction hs as [|h hs IH]; intros m; cbn [parse_headers].
  - split; [intros _ h []|]. intros _. eauto.
  - destruct (split_once ":" h) as [[k v]|] eqn:E.
    + rewrite IH. split; [|intros H h' H'; apply H; now right]. intros H h' [<-|H']; [|now apply H]. exists k, v. apply split_once_some; [discriminate|exact E].
    + split; [intros (m' & H); discriminate|]. intros H. destruct (H h (or_introl eq_refl)) as (k & v & F). destruct (split_once_none ":" h ltac:(discriminate) E k v). apply F.
Qed.
Lemma last_value_fun hs k v v' : last_value hs k v -> last_value hs k v' -> v = v'.
Proof.
  intros (b & h & a & E & H & N) (b' & h' & a' & E' & H' & N'). subst hs. revert b' E'. induction b as [|x b IH]; intros [|x' b'] E'; cbn in E'.
  - injection E' as -> ->. now apply (first_split_fun ":" h' k v k v').
  - injection E' as -> ->. destruct (N h' v'); [|exact H']. apply in_or_app. right. now left.
  - injection E' as -> E'. destruct (N' h v); [|exact H]. rewrite <- E'. apply in_or_app. right. now left.
  - injection E' as _ E'. now apply (IH b').
Qed.
Lemma last_value_cons h hs k v : last_value (h :: hs) k v <-> last_value hs k v \/ (header h k v /\ forall h' v', In h' hs -> ~ header h' k v').
Proof.
  split.
  - intros ([|x b] & h' & a & E & H & N); cbn in E; injection E as -> ->; [right; auto|]. left. exists b, h', a. auto.
  - intros [(b & h' & a & -> & H & N)|(H & N)]; [exists (h :: b), h', a; auto|exists [], h, hs; auto].
Qed.
Lemma parse_headers_ok hs : forall m m', NoDup (map fst m) -> parse_headers hs m = Ok m' -> NoDup (map fst m') /\
  forall k v, gget k m' = Some v <-> last_value hs k v \/ (gget k m = Some v /\ forall h v', In h hs -> ~ header h k v').
Proof.
  induction hs as [|h hs IH]; intros m m' Nm; cbn [parse_headers].
  - intros H. injection H as <-. split; [exact Nm|]. intros k v. split; [intros H; right; split; [exact H|intros h v' []]|]. intros [([|] & ? & ? & E & _)|(H & _)]; [discriminate|discriminate|exact H].
  - destruct (split_once ":" h) as [[k0 v0]|] eqn:E; [|discriminate]. apply split_once_some in E; [|discriminate]. intros H. apply IH in H as (N & G); [|now apply gput_NoDup].
    split; [exact N|]. intros k v. rewrite G, last_value_cons. destruct (string_dec k k0) as [->|Ne].
    + rewrite gget_gput_eq. split.
      * intros [H|(H & F)]; [auto|]. injection H as ->. left. right. auto.
      * intros [[H|(H & F)]|(H & F)]; [auto| |].
        { right. destruct (first_split_fun _ _ _ _ _ _ E H) as (_ & ->). auto. }
        { exfalso. apply (F h v0); [now left|exact E]. }
    + rewrite gget_gput_neq by exact Ne. split.
      * intros [H|(H & F)]; [auto|]. right. split; [exact H|]. intros h' v' [<-|H']; [|now apply F]. intros H'. destruct (first_split_fun _ _ _ _ _ _ E H') as (-> & _). easy.
      * intros [[H|(H & F)]|(H & F)]; [auto| |].
        { destruct (first_split_fun _ _ _ _ _ _ E H) as (-> & _). easy. }
        { right. split; [exact H|]. intros h' v' H'. apply F. now right. }
Qed.
Lemma parsed_last_values ord hs m : visits_all ord -> parse_headers hs [] = Ok m ->
  last_values hs (map (fun kv => fst kv +++ ":" +++ snd kv) (ord "newGRPCHandler" (string * string)%type m)).
Proof.
  intros Hord H. apply parse_headers_ok in H as (N & G); [|constructor]. exists m. split; [apply Permutation_map; symmetry; apply Hord|]. split; [exact N|]. intros k v. split.
  - intros H. assert (X : gget k m = Some v) by (now apply In_gget). apply G in X as [X|(X & _)]; [exact X|discriminate].
  - intros H. apply gget_In. apply G. now left.
Qed.
