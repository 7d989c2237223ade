(** Proofs about options, places and addresses of the downloader. *)
From Verif Require Import Download_Model Download_Spec GoStrFacts GoPathFacts.

(** ** Joining *)
Lemma split_joined rs : forall v, split_char slash (join "/" (v :: rs)) = split_char slash v ++ concat (map (split_char slash) rs).
Proof.
  induction rs as [|r rs IH]; intros v; [cbn [join map concat]; now rewrite app_nil_r|].
  cbn [map concat]. change (join "/" (v :: r :: rs)) with (v +++ String slash (join "/" (r :: rs))). now rewrite split_app_slash, IH.
Qed.
Lemma split_ok rs : ok_comps rs -> concat (map (split_char slash) rs) = rs.
Proof.
  induction 1 as [|r rs Hr H IH]; [reflexivity|]. cbn [map concat]. apply ok_comp_inv in Hr as (_ & _ & _ & Hr). rewrite IH. now rewrite split_char_no.
Qed.
Lemma names_stack v xs : names v xs -> fold_left (clean_step true) (split_char slash v) [] = rev xs.
Proof.
  intros (Ha & Hx & E). unfold path_clean in E. rewrite Ha in E. unfold clean_comps in E.
  change ("/" +++ join "/" (rev (fold_left (clean_step true) (split_char slash v) []))) with (abs_path (rev (fold_left (clean_step true) (split_char slash v) []))) in E.
  apply abs_path_inj in E; [|apply ok_comps_rev, clean_fold_rooted_ok; [constructor|apply split_char_parts]|exact Hx].
  rewrite <- E. now rewrite rev_involutive.
Qed.
Lemma is_abs_join v rs : is_abs v = true -> is_abs (join "/" (v :: rs)) = true.
Proof. destruct v as [|c v]; [discriminate|]. intros H. destruct rs; exact H. Qed.
Lemma path_join_cons v rs : v <> "" -> path_join (v :: rs) = path_clean (join "/" (v :: rs)).
Proof. intros H. cbn [path_join]. apply is_empty_false in H. now rewrite H. Qed.
Lemma is_abs_not_empty v : is_abs v = true -> v <> "".
Proof. now intros H ->. Qed.
Lemma join_names v xs rs : names v xs -> ok_comps rs -> path_join (v :: rs) = abs_path (xs ++ rs).
Proof.
  intros H Hr. destruct (H) as (Ha & Hx & _). rewrite path_join_cons by now apply is_abs_not_empty.
  unfold path_clean. rewrite (is_abs_join _ _ Ha). unfold abs_path. f_equal. f_equal. unfold clean_comps.
  rewrite split_joined, fold_left_app, (names_stack _ _ H), split_ok, clean_fold_ok by assumption.
  now rewrite rev_app_distr, !rev_involutive.
Qed.
Lemma names_exist v : is_abs v = true -> exists xs, names v xs.
Proof. intros H. destruct (path_clean_clean_abs v H) as (xs & Hx & E). exists xs. now split. Qed.
Lemma names_abs xs : ok_comps xs -> names (abs_path xs) xs.
Proof. intros H. split; [reflexivity|]. split; [exact H|now apply clean_abs_path]. Qed.
Lemma names_inj v xs ys : names v xs -> names v ys -> xs = ys.
Proof. intros (_ & Hx & E) (_ & Hy & F). rewrite E in F. now apply abs_path_inj in F. Qed.

(** A relative path stays relative. *)
Lemma rel_stack cs : Forall (fun x => no_char slash x = true) cs -> forall st, Forall (fun x => x <> "" /\ no_char slash x = true) st ->
  Forall (fun x => x <> "" /\ no_char slash x = true) (fold_left (clean_step false) cs st).
Proof.
  induction 1 as [|c cs Hc H IH]; intros st Hs; [exact Hs|]. cbn [fold_left]. apply IH. unfold clean_step.
  destruct (is_empty c) eqn:E; [exact Hs|]. apply is_empty_false in E. cbn [orb]. destruct (String.eqb c "."); [exact Hs|].
  destruct (String.eqb c "..") eqn:E2; [|now constructor].
  destruct Hs as [|x st Hx Hs]; [repeat constructor; discriminate|]. destruct (String.eqb x ".."); [|exact Hs]. repeat constructor; try apply Hx; try discriminate; exact Hs.
Qed.
Lemma is_abs_clean_rel p : is_abs p = false -> is_abs (path_clean p) = false.
Proof.
  intros H. unfold path_clean. rewrite H. unfold clean_comps.
  assert (F := rel_stack (split_char slash p) (split_char_parts _ _) [] (Forall_nil _)).
  destruct (rev _) as [|x l] eqn:E; [reflexivity|].
  assert (In x (fold_left (clean_step false) (split_char slash p) [])) as Hx by (apply in_rev; rewrite E; now left).
  rewrite Forall_forall in F. destruct (F _ Hx) as (Hn & Hs). destruct x as [|c x]; [easy|].
  assert (c <> slash) as Hc by (intros ->; discriminate).
  destruct (is_abs (join "/" (String c x :: l))) eqn:E3; [|reflexivity]. unfold is_abs in E3. apply has_prefix_spec in E3 as (r & E3).
  destruct l; cbn in E3; injection E3 as E3 _; easy.
Qed.
Lemma is_abs_join_rel v rs : v <> "" -> is_abs v = false -> is_abs (path_join (v :: rs)) = false.
Proof.
  intros Hv Ha. rewrite path_join_cons by exact Hv. apply is_abs_clean_rel. destruct v as [|c v]; [easy|]. destruct rs; exact Ha.
Qed.
Lemma path_join_not_empty v rs : v <> "" -> path_join (v :: rs) <> "".
Proof.
  intros Hv. rewrite path_join_cons by exact Hv. unfold path_clean. destruct (is_abs _); [discriminate|]. unfold clean_comps.
  assert (F := rel_stack (split_char slash (join "/" (v :: rs))) (split_char_parts _ _) [] (Forall_nil _)).
  destruct (rev _) as [|x l] eqn:E; [discriminate|].
  assert (In x (fold_left (clean_step false) (split_char slash (join "/" (v :: rs))) [])) as Hx by (apply in_rev; rewrite E; now left).
  rewrite Forall_forall in F. destruct (F _ Hx) as (Hn & _). destruct x; [easy|]. now destruct l.
Qed.

(** ** The default cache *)
Ltac oks := repeat (apply Forall_cons; [reflexivity|]); try apply Forall_nil.
Lemma get_uname_ok goos goarch u : get_uname goos goarch = Ok u <-> supported goos goarch /\ u = (system_name goos, "x86_64").
Proof.
  unfold get_uname, supported, system_name. split.
  - destruct (String.eqb goos "darwin") eqn:E; [|destruct (String.eqb goos "linux") eqn:E2; [|discriminate]]; cbn [bind];
      destruct (String.eqb goarch "amd64") eqn:E3; try discriminate; intros [= <-]; apply String.eqb_eq in E3.
    + apply String.eqb_eq in E. auto.
    + apply String.eqb_eq in E2. auto.
  - intros (([->| ->] & ->) & ->); reflexivity.
Qed.
Lemma ok_inj (a b : string) : Ok a = Ok b -> a = b.
Proof. congruence. Qed.
Section Default.
  Variable goos goarch : string.
  Variable getenv : string -> string.
  Notation no_osarch := (default_base_no_osarch goos goarch getenv).
  (** An absolute result is the documented directory. *)
  Lemma no_osarch_ok b : no_osarch = Ok b -> is_abs b = true -> supported goos goarch /\ exists cs, default_cache goos getenv cs /\ ok_comps cs /\ b = abs_path cs.
  Proof.
    unfold default_base_no_osarch. destruct (get_uname goos goarch) as [u|] eqn:U; [|discriminate]. cbn [bind]. apply get_uname_ok in U as (Hs & ->). cbn [fst snd].
    intros H Hb. split; [exact Hs|]. destruct (is_empty (getenv "XDG_CACHE_HOME")) eqn:EX; cbn [negb] in H.
    - apply is_empty_true in EX. destruct (is_empty (getenv "HOME")) eqn:EH; [discriminate|]. apply is_empty_false in EH.
      destruct (is_abs (getenv "HOME")) eqn:EA.
      + destruct (names_exist _ EA) as (hs & Hh). assert (Hok := proj1 (proj2 Hh)). destruct Hs as ([->| ->] & ->); cbn -[path_join] in H; apply ok_inj in H; subst b.
        * exists (hs ++ [".cache"; "prototool"]). split; [now apply LinuxCache|]. split; [apply ok_comps_app; split; [exact Hok|oks]|]. apply join_names; [exact Hh|oks].
        * exists (hs ++ ["Library"; "Caches"; "prototool"]). split; [now apply DarwinCache|]. split; [apply ok_comps_app; split; [exact Hok|oks]|]. apply join_names; [exact Hh|oks].
      + exfalso. destruct Hs as ([->| ->] & ->); cbn -[path_join] in H; apply ok_inj in H; subst b; now rewrite is_abs_join_rel in Hb.
    - apply is_empty_false in EX. apply ok_inj in H; subst b. destruct (is_abs (getenv "XDG_CACHE_HOME")) eqn:EA; [|now rewrite is_abs_join_rel in Hb].
      destruct (names_exist _ EA) as (xs & Hx). exists (xs ++ ["prototool"]). split; [now apply XdgCache|]. split; [apply ok_comps_app; split; [apply Hx|oks]|]. apply join_names; [exact Hx|oks].
  Qed.
  Lemma no_osarch_given cs : supported goos goarch -> default_cache goos getenv cs -> no_osarch = Ok (abs_path cs) /\ ok_comps cs.
  Proof.
    intros Hs Hd. unfold default_base_no_osarch. rewrite (proj2 (get_uname_ok goos goarch _) (conj Hs eq_refl)). cbn [bind fst snd].
    destruct Hd as [xs Hx|hs -> EX Hh|hs -> EX Hh].
    - assert (E := is_abs_not_empty _ (proj1 Hx)). apply is_empty_false in E. rewrite E. cbn [negb]. rewrite (join_names _ _ _ Hx) by oks. split; [reflexivity|]. apply ok_comps_app. split; [apply Hx|oks].
    - rewrite EX. assert (E := is_abs_not_empty _ (proj1 Hh)). apply is_empty_false in E. rewrite E. cbn -[path_join]. rewrite (join_names _ _ _ Hh) by oks. split; [reflexivity|]. apply ok_comps_app. split; [apply Hh|oks].
    - rewrite EX. assert (E := is_abs_not_empty _ (proj1 Hh)). apply is_empty_false in E. rewrite E. cbn -[path_join]. rewrite (join_names _ _ _ Hh) by oks. split; [reflexivity|]. apply ok_comps_app. split; [apply Hh|oks].
  Qed.
  Lemma system_ok : ok_comps [system_name goos; "x86_64"].
  Proof. unfold system_name. destruct (String.eqb goos "darwin"); oks. Qed.
  Lemma no_osarch_not_empty b : no_osarch = Ok b -> b <> "".
  Proof.
    unfold default_base_no_osarch. destruct (get_uname goos goarch) as [u|]; [|discriminate]. cbn [bind].
    destruct (is_empty (getenv "XDG_CACHE_HOME")) eqn:EX; cbn [negb].
    - destruct (is_empty (getenv "HOME")) eqn:EH; [discriminate|]. apply is_empty_false in EH.
      destruct (String.eqb _ "Darwin"); [intros <-%ok_inj; now apply path_join_not_empty|]. destruct (String.eqb _ "Linux"); [intros <-%ok_inj; now apply path_join_not_empty|discriminate].
    - apply is_empty_false in EX. intros <-%ok_inj. now apply path_join_not_empty.
  Qed.
End Default.

Section Location.
  Variable goos goarch : string.
  Variable getenv : string -> string.
  Variable cwd : string.
  Variable digest : string -> string.
  Variable d : downloader.
  Hypothesis Hcwd : clean_abs cwd.

  Lemma abs_clean_names p : p <> "" -> exists cs, names_from cwd p cs /\ abs_clean cwd p = abs_path cs.
  Proof.
    intros Hp. unfold abs_clean, names_from. assert (E := Hp). apply is_empty_false in E. rewrite E. destruct (is_abs p) eqn:Ea; cbn [negb].
    - destruct (names_exist _ Ea) as (cs & Hc). exists cs. split; [now split|apply Hc].
    - unfold path_abs. rewrite Ea. assert (Hc : is_abs cwd = true) by now apply clean_abs_is_abs. assert (Ha : is_abs (cwd +++ "/" +++ p) = true).
      { destruct cwd; [discriminate|exact Hc]. }
      destruct (names_exist _ Ha) as (cs & Hn). exists cs. split; [now split|]. rewrite path_join_cons by now apply is_abs_not_empty. apply Hn.
  Qed.
  Lemma names_from_inj p xs ys : names_from cwd p xs -> names_from cwd p ys -> xs = ys.
  Proof. intros (_ & H) (_ & K). destruct (is_abs p); eapply names_inj; eauto. Qed.
  Lemma names_from_ok p xs : names_from cwd p xs -> ok_comps xs.
  Proof. intros (_ & H). destruct (is_abs p); apply H. Qed.
  (** The directory of all versions. *)
  Lemma no_version_ok p : base_no_version goos goarch getenv cwd d = Ok p <->
    exists cs, cache_root goos goarch getenv cwd (d_cache_path d) cs /\ p = abs_path (cs ++ ["protobuf"]).
  Proof.
    unfold base_no_version, cache_root. destruct (is_empty (d_cache_path d)) eqn:Ec.
    - apply is_empty_true in Ec. rewrite Ec. unfold default_base. split.
      + destruct (default_base_no_osarch goos goarch getenv) as [b|] eqn:B; [|discriminate]. cbn [bind].
        destruct (get_uname goos goarch) as [u|] eqn:U; [|discriminate]. cbn [bind]. apply get_uname_ok in U as (Hs & ->). cbn [fst snd].
        unfold check_abs. destruct (is_abs (path_join [b; system_name goos; "x86_64"])) eqn:Ea; [|discriminate]. cbn [bind]. intros <-%ok_inj.
        assert (Hb : is_abs b = true).
        { destruct (is_abs b) eqn:Hb; [reflexivity|]. rewrite is_abs_join_rel in Ea; [discriminate|now apply (no_osarch_not_empty _ _ _ _ B)|exact Hb]. }
        destruct (no_osarch_ok _ _ _ _ B Hb) as (_ & cs & Hd & Hok & ->). exists (cs ++ [system_name goos; "x86_64"]). split; [left; eauto|].
        rewrite (join_names (abs_path cs) cs) by (apply names_abs, Hok || apply system_ok). apply join_names; [apply names_abs, ok_comps_app; split; [exact Hok|apply system_ok]|oks].
      + intros (cs & [(_ & Hs & dc & Hd & ->)|(Hn & _)] & ->); [|easy]. destruct (no_osarch_given _ _ _ _ Hs Hd) as (-> & Hok). cbn [bind].
        rewrite (proj2 (get_uname_ok goos goarch _) (conj Hs eq_refl)). cbn [bind fst snd].
        rewrite (join_names (abs_path dc) dc) by (apply names_abs, Hok || apply system_ok). unfold check_abs. rewrite is_abs_abs_path. cbn [bind]. f_equal.
        apply join_names; [apply names_abs, ok_comps_app; split; [exact Hok|apply system_ok]|oks].
    - apply is_empty_false in Ec. destruct (abs_clean_names _ Ec) as (cs & Hn & ->). cbn [bind]. unfold check_abs. rewrite is_abs_abs_path. cbn [bind].
      assert (Hok := names_from_ok _ _ Hn). rewrite (join_names (abs_path cs) cs) by (apply names_abs, Hok || oks). split.
      + intros <-%ok_inj. exists cs. auto.
      + intros (cs' & [(E & _)|Hn'] & ->); [easy|]. now rewrite (names_from_inj _ _ _ Hn Hn').
  Qed.
  Lemma cache_root_ok given cs : cache_root goos goarch getenv cwd given cs -> ok_comps cs.
  Proof.
    intros [(_ & Hs & dc & Hd & ->)|H]; [|now apply names_from_ok in H]. apply ok_comps_app. split; [eapply no_osarch_given; eauto|apply system_ok].
  Qed.
  Lemma base_path_ok p : ok_comp (version_part digest d) = true -> base_path goos goarch getenv cwd digest d = Ok p <->
    exists cs, cache_root goos goarch getenv cwd (d_cache_path d) cs /\ p = abs_path (cs ++ ["protobuf"; version_part digest d]).
  Proof.
    intros Hv. unfold base_path. assert (J : forall cs, cache_root goos goarch getenv cwd (d_cache_path d) cs ->
      path_join [abs_path (cs ++ ["protobuf"]); version_part digest d] = abs_path (cs ++ ["protobuf"; version_part digest d])).
    { intros cs Hc. rewrite (join_names _ (cs ++ ["protobuf"])).
      - now rewrite <- app_assoc.
      - apply names_abs, ok_comps_app. split; [now apply cache_root_ok in Hc|oks].
      - constructor; [exact Hv|constructor]. }
    split.
    - destruct (base_no_version goos goarch getenv cwd d) as [b|] eqn:B; [|discriminate]. cbn [bind]. intros <-%ok_inj. apply no_version_ok in B as (cs & Hc & ->).
      exists cs. split; [exact Hc|now apply J].
    - intros (cs & Hc & ->). rewrite (proj2 (no_version_ok _) (ex_intro _ cs (conj Hc eq_refl))). cbn [bind]. f_equal. now apply J.
  Qed.
  (** What is deleted. *)
  Lemma deleted_ok p : deleted_path goos goarch getenv cwd d = Ok p <->
    exists cs, p = abs_path cs /\ ((d_cache_path d = "" /\ supported goos goarch /\ default_cache goos getenv cs) \/ names_from cwd (d_cache_path d) cs).
  Proof.
    unfold deleted_path, base_no_version_osarch. destruct (is_empty (d_cache_path d)) eqn:Ec.
    - apply is_empty_true in Ec. rewrite Ec. unfold check_abs. split.
      + destruct (default_base_no_osarch goos goarch getenv) as [b|] eqn:B; [|discriminate]. cbn [bind]. destruct (is_abs b) eqn:Hb; [|discriminate].
        intros <-%ok_inj. destruct (no_osarch_ok _ _ _ _ B Hb) as (Hs & cs & Hd & _ & ->). exists cs. auto.
      + intros (cs & -> & [(_ & Hs & Hd)|(Hn & _)]); [|easy]. destruct (no_osarch_given _ _ _ _ Hs Hd) as (-> & _). reflexivity.
    - apply is_empty_false in Ec. destruct (abs_clean_names _ Ec) as (cs & Hn & ->). cbn [bind]. unfold check_abs. rewrite is_abs_abs_path. split.
      + intros <-%ok_inj. exists cs. auto.
      + intros (cs' & -> & [(E & _)|Hn']); [easy|]. now rewrite (names_from_inj _ _ _ Hn Hn').
  Qed.
  Lemma default_cache_inj a b : supported goos goarch -> default_cache goos getenv a -> default_cache goos getenv b -> a = b.
  Proof.
    intros Hs Ha Hb. apply (no_osarch_given _ goarch) in Ha as (Ha & Oa); [|exact Hs]. apply (no_osarch_given _ goarch) in Hb as (Hb & Ob); [|exact Hs].
    rewrite Ha in Hb. apply ok_inj in Hb. now apply abs_path_inj in Hb.
  Qed.
  (** What is downloaded is below what is deleted. *)
  Lemma deleted_within b p : ok_comp (version_part digest d) = true -> base_path goos goarch getenv cwd digest d = Ok b -> deleted_path goos goarch getenv cwd d = Ok p -> within p b.
  Proof.
    intros Hv Hb Hp. apply base_path_ok in Hb as (cs & Hc & ->); [|exact Hv]. apply deleted_ok in Hp as (ds & -> & Hd). assert (Oc := cache_root_ok _ _ Hc).
    assert (Ov : ok_comps ["protobuf"; version_part digest d]) by (constructor; [reflexivity|constructor; [exact Hv|constructor]]).
    destruct Hc as [(E & Hs & dc & Hdc & ->)|Hn].
    - destruct Hd as [(_ & _ & Hd)|(Hx & _)]; [|easy]. rewrite (default_cache_inj _ _ Hs Hd Hdc). apply ok_comps_app in Oc as (Oc & Os).
      exists dc, ([system_name goos; "x86_64"] ++ ["protobuf"; version_part digest d]). rewrite app_assoc. split; [exact Oc|]. split; [|split; reflexivity]. apply ok_comps_app. auto.
    - destruct Hd as [(E & _)|Hd]; [destruct Hn as (Hn & _); now rewrite E in Hn|]. rewrite (names_from_inj _ _ _ Hd Hn).
      exists cs, ["protobuf"; version_part digest d]. auto.
  Qed.
End Location.

(** ** Addresses *)
Lemma has_prefix_rc s : has_prefix s "rc-" = true -> s = "rc-" +++ sdrop 3 s.
Proof. intros H. apply has_prefix_spec in H as (r & ->). reflexivity. Qed.
Lemma all_digits_rc s x : all_digits (String x s) = true -> is_digit x = true.
Proof. cbn. now intros H%andb_true_iff. Qed.
Lemma no_rc_in_digits n : all_digits n = true -> forall a m, n <> a +++ "rc-" +++ m.
Proof.
  intros H a m ->. induction a as [|x a IH]; [discriminate|]. cbn in H. apply andb_true_iff in H as (_ & H). auto.
Qed.
Lemma drop_rc_name s : release_name s (drop_rc_hyphen s).
Proof.
  induction s as [|c r IH].
  - right. split; [|reflexivity]. intros a n H. destruct a; discriminate.
  - cbn [drop_rc_hyphen]. destruct (has_prefix (String c r) "rc-" && negb (is_empty (sdrop 3 (String c r))) && all_digits (sdrop 3 (String c r))) eqn:E.
    + apply andb_true_iff in E as (E & E3). apply andb_true_iff in E as (E1 & E2). left. exists "", (sdrop 3 (String c r)).
      split; [now apply has_prefix_rc|]. split; [|reflexivity]. split; [|exact E3]. apply negb_true_iff in E2. now apply is_empty_false in E2.
    + destruct IH as [(a & n & Hr & Hd & Hn)|(Hno & Hn)].
      * left. exists (String c a), n. rewrite Hn. split; [cbn; now f_equal|]. split; [exact Hd|reflexivity].
      * right. rewrite Hn. split; [|reflexivity]. intros [|x a] n Heq Hd.
        -- rewrite Heq in E. destruct Hd as (Hn0 & Ha). cbn [String.append] in E. change ("" +++ "rc-" +++ n) with ("rc-" +++ n) in E. cbn in E.
           apply is_empty_false in Hn0. rewrite Hn0, Ha in E. destruct n; discriminate.
        -- cbn in Heq. injection Heq as -> Heq. now apply (Hno a n).
Qed.
Lemma release_name_fun s a b : release_name s a -> release_name s b -> a = b.
Proof.
  intros [(x & n & -> & Hd & ->)|(Hno & ->)] [(y & m & E & He & ->)|(Hno' & ->)].
  - assert (K : forall x y n m, all_digits n = true -> all_digits m = true -> x +++ "rc-" +++ n = y +++ "rc-" +++ m -> x = y /\ n = m).
    { clear. induction x as [|c x IH]; intros [|e y] n m Hn Hm H.
      * injection H as ->. auto.
      * exfalso. assert (K : n = y +++ "rc-" +++ m \/ exists z, n = z +++ "rc-" +++ m).
        { cbn in H. injection H as <- H. destruct y as [|? y]; [discriminate|]. cbn in H. injection H as <- H. destruct y as [|? y]; [discriminate|].
          cbn in H. injection H as <- H. right. now exists y. }
        destruct K as [K|(z & K)]; exact (no_rc_in_digits _ Hn _ _ K).
      * exfalso. assert (K : exists z, m = z +++ "rc-" +++ n).
        { cbn in H. injection H as -> H. destruct x as [|? x]; [discriminate|]. cbn in H. injection H as -> H. destruct x as [|? x]; [discriminate|].
          cbn in H. injection H as -> H. now exists x. }
        destruct K as (z & K). exact (no_rc_in_digits _ Hm _ _ K).
      * cbn in H. injection H as <- H. destruct (IH y n m Hn Hm H) as (-> & ->). auto. }
    destruct (K x y n m (proj2 Hd) (proj2 He) E) as (-> & ->). reflexivity.
  - exfalso. now apply (Hno' x n).
  - exfalso. now apply (Hno y m).
  - reflexivity.
Qed.
(** What protoc's releases call the system. *)
Lemma protoc_s_ok goos goarch : supported goos goarch -> get_protoc_s goos = Ok (if String.eqb goos "darwin" then "osx" else "linux").
Proof. intros ([->| ->] & _); reflexivity. Qed.
Lemma data_from goos goarch d read_file http_get data : get_download_data goos goarch d read_file http_get = Ok data ->
  exists url, get_protoc_url goos goarch d = Ok url /\
    ((exists p, url = "file://" +++ p /\ read_file p = Ok data) \/
     ((has_prefix url "http://" = true \/ has_prefix url "https://" = true) /\
      (http_get url = Response 200 (Ok data) \/ (d_url d <> "" /\ data = "" /\ exists st body, st <> 200%Z /\ http_get url = Response st body)))).
Proof.
  unfold get_download_data. destruct (get_protoc_url goos goarch d) as [url|]; [|discriminate]. cbn [bind]. intros H. exists url. split; [reflexivity|].
  destruct (has_prefix url "file://") eqn:E1; [left; apply has_prefix_spec in E1 as (p & ->); exists p; now split|right].
  destruct (has_prefix url "http://" || has_prefix url "https://") eqn:E2; [|discriminate]. apply orb_true_iff in E2. split; [exact E2|].
  destruct (http_get url) as [m|st body]; [destruct (is_empty (d_url d)); discriminate|].
  destruct (st =? 200)%Z eqn:E3; [left; apply Z.eqb_eq in E3 as ->; now rewrite H|]. right. apply Z.eqb_neq in E3.
  destruct (is_empty (d_url d)) eqn:E4; [discriminate|]. apply is_empty_false in E4. injection H as <-. eauto 7.
Qed.

(** ** Options *)
Lemma made_ok stat version cache url bin wkt d : new_downloader stat version cache url bin wkt = Made d <->
  (bin = "" /\ wkt = "" /\ d = mk_downloader (if is_empty version then "3.11.0" else version) cache url "" "") \/
  (local_protoc stat url bin wkt /\ d = mk_downloader (if is_empty version then "3.11.0" else version) cache "" (path_clean bin) (path_clean wkt)).
Proof.
  unfold new_downloader, local_protoc, default_protoc_version. destruct (is_empty bin) eqn:Eb, (is_empty wkt) eqn:Ew; cbn [negb orb].
  - apply is_empty_true in Eb as ->. apply is_empty_true in Ew as ->. split; [intros [= <-]; auto|]. intros [(_ & _ & ->)|((_ & H & _) & _)]; [reflexivity|easy].
  - apply is_empty_true in Eb as ->. apply is_empty_false in Ew. split; [destruct (is_empty url); discriminate|]. intros [(_ & -> & _)|((_ & H & _) & _)]; easy.
  - apply is_empty_true in Ew as ->. apply is_empty_false in Eb. split; [destruct (is_empty url); discriminate|]. intros [(-> & _)|((_ & _ & H & _) & _)]; easy.
  - apply is_empty_false in Eb. apply is_empty_false in Ew. destruct (is_empty url) eqn:Eu; cbn [negb].
    + apply is_empty_true in Eu as ->. split.
      * intros H. right. destruct (stat (path_clean bin)) eqn:S1; try discriminate; destruct (stat (path_clean wkt)) eqn:S2; try discriminate;
          destruct (stat (path_join [path_clean wkt; "google"; "protobuf"])) eqn:S3; try discriminate; injection H as <-; repeat split; auto; discriminate.
      * intros [(-> & _)|((_ & _ & _ & H1 & H2 & H3) & ->)]; [easy|]. rewrite H3. destruct (stat (path_clean bin)); try easy; destruct (stat (path_clean wkt)); easy.
    + apply is_empty_false in Eu. split; [discriminate|]. intros [(-> & _)|((-> & _) & _)]; easy.
Qed.

(** ** Archives *)
Lemma write_within bs name : ok_comps bs -> name <> "" -> ~ In ".." (split_char slash name) -> within (abs_path bs) (write_path (abs_path bs) name).
Proof.
  intros Hb Hn Hd. unfold write_path. rewrite path_join_abs by assumption. set (cs := split_char slash name) in *.
  assert (K : forall cs st, Forall (fun x => no_char slash x = true) cs -> ~ In ".." cs -> exists rs, ok_comps rs /\ fold_left (clean_step true) cs st = rs ++ st).
  { clear. induction cs as [|c cs IH]; intros st H Hd; [exists []; split; [constructor|reflexivity]|]. inversion H as [|? ? Hc Hcs]; subst. cbn [fold_left].
    destruct (IH (clean_step true st c) Hcs) as (rs & Hr & ->); [intros Hi; apply Hd; now right|]. unfold clean_step.
    destruct (is_empty c || String.eqb c ".") eqn:E; [now exists rs|]. apply orb_false_iff in E as (E1 & E2). apply is_empty_false in E1. apply String.eqb_neq in E2.
    destruct (String.eqb c "..") eqn:E3; [apply String.eqb_eq in E3 as ->; exfalso; apply Hd; now left|]. apply String.eqb_neq in E3.
    exists (rs ++ [c]). rewrite <- app_assoc. split; [|reflexivity]. apply ok_comps_app. split; [exact Hr|]. constructor; [now apply ok_comp_intro|constructor]. }
  destruct (K cs (rev bs) (split_char_parts _ _) Hd) as (rs & Hr & ->). exists bs, (rev rs). rewrite rev_app_distr, rev_involutive. repeat split; auto. now apply ok_comps_rev.
Qed.
Lemma write_ok bs rs : ok_comps bs -> ok_comps rs -> rs <> [] -> write_path (abs_path bs) (join "/" rs) = abs_path (bs ++ rs).
Proof. apply path_join_abs_ok. Qed.
