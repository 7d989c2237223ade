(** C64, C65: what is said when there is no protoc to be had. *)
From Verif Require Import Download_Model Download_Spec Download_Proofs GoStrFacts GoPathFacts.

Lemma ref_inj a b : a = b -> Refused a = Refused b. Proof. now intros ->. Qed.
(** The options are rejected exactly with the text for what is wrong with them, *)
Theorem C65_said : forall stat version cache url bin wkt t, new_downloader stat version cache url bin wkt = Refused t <-> says_local stat url bin wkt t.
Proof.
  intros stat version cache url bin wkt t. unfold new_downloader, not_exist. split.
  - destruct (is_empty bin) eqn:Eb, (is_empty wkt) eqn:Ew; cbn [negb orb]; [discriminate| | |]; (destruct (is_empty url) eqn:Eu; cbn [negb];
      [apply is_empty_true in Eu|apply is_empty_false in Eu]); (apply is_empty_true in Eb || apply is_empty_false in Eb); (apply is_empty_true in Ew || apply is_empty_false in Ew).
    + intros E. injection E as <-. apply Only_one; [exact Eu|split; auto].
    + intros E. injection E as <-. apply Both_ways; auto.
    + intros E. injection E as <-. apply Only_one; [exact Eu|split; [intros X; destruct (Eb X)|intros X; destruct (X Ew)]].
    + intros E. injection E as <-. apply Both_ways; auto.
    + assert (K : forall (P Q : Prop), (P -> Q) -> P -> Q) by auto.
      destruct (stat (path_clean bin)) eqn:S1; [| |intros E; apply (f_equal (fun r => match r with Refused m => m | _ => "" end)) in E; rewrite <- E; now apply No_program|];
      (destruct (stat (path_clean wkt)) eqn:S2; [| |intros E; apply (f_equal (fun r => match r with Refused m => m | _ => "" end)) in E; rewrite <- E; apply No_types; congruence|];
       (destruct (stat (path_join [path_clean wkt; "google"; "protobuf"])) eqn:S3;
         [discriminate|intros E; apply (f_equal (fun r => match r with Refused m => m | _ => "" end)) in E; rewrite <- E; apply Other_thing; congruence
         |intros E; apply (f_equal (fun r => match r with Refused m => m | _ => "" end)) in E; rewrite <- E; apply No_directory; congruence|discriminate])).
    + intros E. injection E as <-. apply Both_ways; auto.
  - intros [B U|U H|U B W S1|U B W S1 S2|U B W S1 S2 S3|U B W S1 S2 S3].
    + assert (E : negb (is_empty bin) || negb (is_empty wkt) = true) by (destruct B as [B|B]; apply is_empty_false in B; rewrite B; [reflexivity|apply orb_true_r]).
      apply is_empty_false in U. now rewrite E, U.
    + subst url. destruct bin, wkt; try reflexivity; destruct H as (H1 & H2); [destruct (H1 eq_refl eq_refl)|discriminate H2; discriminate].
    + subst url. apply is_empty_false in B, W. rewrite B, W, S1. reflexivity.
    + subst url. apply is_empty_false in B, W. rewrite B, W, S2. cbn [negb orb is_empty]. destruct (stat (path_clean bin)); [..|destruct (S1 eq_refl)|]; reflexivity || auto.
    + subst url. apply is_empty_false in B, W. rewrite B, W, S3. cbn [negb orb is_empty]. destruct (stat (path_clean bin)); [| |destruct (S1 eq_refl)|]; (destruct (stat (path_clean wkt)); [| |destruct (S2 eq_refl)|]); reflexivity.
    + subst url. apply is_empty_false in B, W. rewrite B, W, S3. cbn [negb orb is_empty]. destruct (stat (path_clean bin)); [| |destruct (S1 eq_refl)|]; (destruct (stat (path_clean wkt)); [| |destruct (S2 eq_refl)|]); reflexivity.
Qed.
Print Assumptions C65_said.
Example C65_said_ex : let stat p := if mem p ["/p"; "/i"; "/i/google/protobuf"] then IsOther else NotExist in
  says_local stat "" "/p" "/i" ("""/i/google/protobuf""" +++ " is not a valid well-known types directory") /\
  says_local stat "" "/p" "/q" "stat /q: no such file or directory" /\ says_local stat "http://x" "/p" "/i" "cannot use protoc-url in combination with either protoc-bin-path or protoc-wkt-path".
Proof.
  split; [|split].
  - now apply (Other_thing (fun p => if mem p ["/p"; "/i"; "/i/google/protobuf"] then IsOther else NotExist) "" "/p" "/i").
  - now apply (No_types (fun p => if mem p ["/p"; "/i"; "/i/google/protobuf"] then IsOther else NotExist) "" "/p" "/q").
  - apply Both_ways; [now left|discriminate].
Qed.

Lemma three_lines n a b c d e f g : join n [a +++ b +++ c +++ d; e +++ f; g] = a +++ b +++ c +++ d +++ (n +++ e) +++ f +++ (n +++ g).
Proof. cbn [join]. now rewrite !sapp_assoc. Qed.
(** and when there is no archive at the address, what is said is why. *)
Theorem C64_said : forall goos goarch d read_file http_get url t, get_protoc_url goos goarch d = Ok url ->
  get_download_data goos goarch d read_file http_get = Err t <-> says_no_archive read_file http_get (d_version d) url (negb (String.eqb (d_url d) "")) t.
Proof.
  intros goos goarch d read_file http_get url t U. unfold get_download_data. rewrite U. cbn [bind].
  assert (EI : forall (a b : string), Err (A := string) a = Err b -> a = b) by (intros a b E; exact (f_equal (fun r => match r with Err m => m | Ok m => m end) E)).
  assert (Q : String.eqb (d_url d) "" = is_empty (d_url d)) by now destruct (d_url d). rewrite Q. clear Q.
  assert (Excl : has_prefix url "http://" = true \/ has_prefix url "https://" = true -> has_prefix url "file://" = false).
  { intros Hp. apply not_true_is_false. intros K. apply has_prefix_spec in K as (r & ->). destruct Hp as [Hp|Hp]; discriminate. }
  assert (Orb : has_prefix url "http://" = true \/ has_prefix url "https://" = true -> has_prefix url "http://" || has_prefix url "https://" = true).
  { intros [->| ->]; [reflexivity|apply orb_true_r]. }
  split.
  - destruct (has_prefix url "file://") eqn:F.
    + apply has_prefix_spec in F as (p & ->). change (sdrop 7 ("file://" +++ p)) with p. intros E. exact (No_file _ _ _ _ _ p t eq_refl E).
    + destruct (has_prefix url "http://" || has_prefix url "https://") eqn:H.
      * apply orb_true_iff in H. destruct (http_get url) as [m|status body] eqn:G.
        { destruct (is_empty (d_url d)) eqn:Ed; intros E; apply EI in E; rewrite <- E; [|now apply No_answer].
          refine (eq_ind _ (says_no_archive read_file http_get (d_version d) url false) (No_release read_file http_get (d_version d) url false m H eq_refl (or_introl G)) _ _). apply three_lines. }
        { destruct (status =? 200)%Z eqn:Z; [apply Z.eqb_eq in Z; subst status|apply Z.eqb_neq in Z].
          - intros ->. now apply No_body.
          - destruct (is_empty (d_url d)) eqn:Ed; [|discriminate]. intros E. apply EI in E. rewrite <- E.
            refine (eq_ind _ (says_no_archive read_file http_get (d_version d) url false) (No_release read_file http_get (d_version d) url false "<nil>" H eq_refl (or_intror _)) _ _); [eauto|]. apply three_lines. }
      * intros E. apply EI in E. rewrite <- E. apply No_scheme. rewrite F. apply orb_false_iff in H as (-> & ->). intuition discriminate.
  - intros [p m E R|m P G C|m P G|m P C G|N].
    + rewrite E. rewrite (proj2 (has_prefix_spec _ _)) by eauto. exact R.
    + rewrite (Excl P), (Orb P), G. apply negb_true_iff in C. now rewrite C.
    + rewrite (Excl P), (Orb P), G. reflexivity.
    + rewrite (Excl P), (Orb P). apply negb_false_iff in C. destruct G as [->|(status & body & -> & Z & ->)]; [|apply Z.eqb_neq in Z; rewrite Z]; rewrite C; apply f_equal; symmetry; apply three_lines.
    + destruct (has_prefix url "file://"); [destruct N; auto|]. destruct (has_prefix url "http://"); [destruct N; auto|]. destruct (has_prefix url "https://"); [destruct N; auto|]. reflexivity.
Qed.
Print Assumptions C64_said.
Example C64_said_ex : get_protoc_url "linux" "amd64" (mk_downloader "3.1.0" "" "ftp://x" "" "") = Ok "ftp://x" /\
  says_no_archive (fun _ => Err "none") (fun _ => NoResponse "off") "3.1.0" "ftp://x" true "unknown url, can only handle http, https, file: ftp://x" /\
  says_no_archive (fun _ => Err "none") (fun _ => NoResponse "off") "3.1.0" "http://x" true "off".
Proof.
  split; [reflexivity|]. split; [apply No_scheme; intros [X|[X|X]]; discriminate X|]. apply No_answer; auto.
Qed.
