(** C53, C63, C64: what is said where there is no cache or no release of protoc. *)
From Verif Require Import Download_Model Download_Spec Download_Text_Spec Download_Proofs GoStrFacts GoPathFacts.

Section System.
  Variable goos goarch : string.
  Lemma uname_said t : get_uname goos goarch = Err t <-> says_system goos goarch t.
  Proof.
    unfold get_uname. destruct (String.eqb_spec goos "darwin") as [D|D]; [|destruct (String.eqb_spec goos "linux") as [L|L]]; cbn [bind].
    3: { split; [intros E; apply (f_equal (fun r => match r with Err m => m | _ => "" end)) in E; rewrite <- E; now constructor|]. inversion 1 as [|X]; [reflexivity|destruct X; contradiction]. }
    all: destruct (String.eqb_spec goarch "amd64") as [A|A]; [split; [discriminate|inversion 1; contradiction]|].
    all: split; [intros E; apply (f_equal (fun r => match r with Err m => m | _ => "" end)) in E; rewrite <- E; constructor; auto|].
    all: inversion 1; [contradiction|reflexivity].
  Qed.
  Lemma uname_ok s m : get_uname goos goarch = Ok (s, m) <-> supported goos goarch /\ s = system_name goos /\ m = "x86_64".
  Proof.
    unfold get_uname, supported, system_name. destruct (String.eqb_spec goos "darwin") as [D|D]; [|destruct (String.eqb_spec goos "linux") as [L|L]]; cbn [bind].
    3: { split; [discriminate|]. intros (([X|X] & _) & _); contradiction. }
    all: destruct (String.eqb_spec goarch "amd64") as [A|A]; [|split; [discriminate|intros ((_ & X) & _); contradiction]].
    all: split; [intros E; injection E as <- <-; auto|intros (_ & -> & ->); reflexivity].
  Qed.

  (** C64: without an address of the user's, there is no release for other systems and machines. *)
  Theorem C64_system : forall d t, get_protoc_url goos goarch d = Err t <-> d_url d = "" /\ says_system goos goarch t.
  Proof.
    intros d t. unfold get_protoc_url. destruct (is_empty (d_url d)) eqn:E; cbn [negb].
    - apply is_empty_true in E. rewrite <- uname_said. destruct (get_uname goos goarch) as [[s m]|m] eqn:U; cbn [bind].
      + split; [|intros (_ & X); discriminate X]. intros X. exfalso. revert X. apply uname_ok in U as (([->| ->] & _) & _); discriminate.
      + split; [intros X; split; [exact E|]; now injection X as ->|]. intros (_ & X). now injection X as ->.
    - apply is_empty_false in E. split; [discriminate|]. intros (X & _). contradiction.
  Qed.

  Variable getenv : string -> string.
  Variable cwd : string.
  Variable digest : string -> string.
  Hypothesis Hcwd : clean_abs cwd.
  Notation no_osarch := (default_base_no_osarch goos goarch getenv).
  Lemma osarch_err place t : no_osarch = Err t -> says_no_cache goos goarch getenv place t.
  Proof.
    unfold default_base_no_osarch. destruct (get_uname goos goarch) as [[s m]|m] eqn:U; cbn [bind].
    2: { intros X. injection X as <-. apply No_system. now apply uname_said. }
    apply uname_ok in U as (S & -> & ->). destruct (is_empty (getenv "XDG_CACHE_HOME")) eqn:X; cbn [negb]; [|discriminate].
    apply is_empty_true in X. destruct (is_empty (getenv "HOME")) eqn:H.
    - apply is_empty_true in H. intros E. injection E as <-. now apply No_home.
    - destruct S as ([-> | ->] & _); discriminate.
  Qed.
  Lemma osarch_ok b : no_osarch = Ok b <-> supported goos goarch /\ exists v l, cache_variable goos getenv v l /\ v <> "" /\ b = path_join (v :: l).
  Proof.
    unfold default_base_no_osarch. destruct (get_uname goos goarch) as [[s m]|m] eqn:U; cbn [bind].
    2: { split; [discriminate|]. intros (S & _). assert (Y : get_uname goos goarch = Ok (system_name goos, "x86_64")) by now apply uname_ok. congruence. }
    apply uname_ok in U as (S & -> & ->). destruct (is_empty (getenv "XDG_CACHE_HOME")) eqn:X; cbn [negb fst].
    - apply is_empty_true in X. destruct (is_empty (getenv "HOME")) eqn:H.
      + apply is_empty_true in H. split; [discriminate|]. intros (_ & v & l & V & N & _). destruct V; congruence.
      + apply is_empty_false in H. destruct S as ([-> | ->] & A); unfold system_name; cbn [String.eqb Ascii.eqb Bool.eqb].
        * split.
          -- intros E. injection E as <-. split; [split; auto|]. exists (getenv "HOME"), [".cache"; "prototool"]. split; [now apply By_home_linux|]. auto.
          -- intros (_ & v & l & V & N & ->). destruct V as [V| |]; [congruence|reflexivity|discriminate].
        * split.
          -- intros E. injection E as <-. split; [split; auto|]. exists (getenv "HOME"), ["Library"; "Caches"; "prototool"]. split; [now apply By_home_darwin|]. auto.
          -- intros (_ & v & l & V & N & ->). destruct V as [V| |]; [congruence|discriminate|reflexivity].
    - apply is_empty_false in X. split.
      + intros E. injection E as <-. split; [exact S|]. exists (getenv "XDG_CACHE_HOME"), ["prototool"]. split; [now apply By_xdg|]. auto.
      + intros (_ & v & l & V & N & ->). destruct V; [reflexivity|contradiction..].
  Qed.
  Lemma err_said (place : string -> string) t :
    (forall v l, v <> "" -> is_abs (place (path_join (v :: l))) = is_abs v) ->
    (do b <- no_osarch; check_abs (place b)) = Err t <-> says_no_cache goos goarch getenv place t.
  Proof.
    intros P. split.
    - destruct no_osarch as [p|m] eqn:E; cbn [bind].
      + apply osarch_ok in E as (S & v & l & V & N & ->). unfold check_abs. destruct (is_abs (place (path_join (v :: l)))) eqn:A; [discriminate|].
        intros X. apply (f_equal (fun r => match r with Err m => m | _ => "" end)) in X. rewrite <- X. apply (Relative goos goarch getenv place v l S V N).
        now rewrite (P v l N) in A.
      + intros X. injection X as <-. now apply osarch_err.
    - intros [t' H|S X H|v l S V N A].
      + unfold default_base_no_osarch. apply uname_said in H. now rewrite H.
      + unfold default_base_no_osarch. rewrite (proj2 (uname_ok _ _) (conj S (conj eq_refl eq_refl))). cbn [bind]. now rewrite X, H.
      + rewrite (proj2 (osarch_ok (path_join (v :: l)))) by (split; [exact S|]; now exists v, l). cbn [bind]. unfold check_abs.
        rewrite (P v l N). unfold is_abs. now rewrite A.
  Qed.
  Lemma is_abs_joined v l : v <> "" -> is_abs (path_join (v :: l)) = is_abs v.
  Proof using.
    intros N. destruct (is_abs v) eqn:A; [|now apply is_abs_join_rel]. rewrite path_join_cons by exact N. unfold path_clean. now rewrite (is_abs_join v l A).
  Qed.
  Lemma custom_abs p : p <> "" -> check_abs (abs_clean cwd p) = Ok (abs_clean cwd p).
  Proof using Hcwd.
    intros N. destruct (abs_clean_names cwd Hcwd p N) as (cs & _ & ->). unfold check_abs. now rewrite is_abs_abs_path.
  Qed.
  (** C63: the directory of a version cannot be told exactly if none is given for the cache and there is
      no default one. *)
  Theorem C63_said : forall d t, base_path goos goarch getenv cwd digest d = Err t <->
    d_cache_path d = "" /\ says_no_cache goos goarch getenv (fun b => path_join [b; system_name goos; "x86_64"]) t.
  Proof.
    intros d t. unfold base_path, base_no_version. destruct (is_empty (d_cache_path d)) eqn:E.
    - apply is_empty_true in E.
      rewrite <- err_said by (intros v l N; rewrite !is_abs_joined; [reflexivity|exact N|now apply path_join_not_empty]).
      unfold default_base. destruct no_osarch as [b|m] eqn:O; cbn [bind].
      + apply osarch_ok in O as (S & _). rewrite (proj2 (uname_ok _ _) (conj S (conj eq_refl eq_refl))). cbn [bind fst snd].
        destruct (check_abs _) as [p|m]; cbn [bind]; [split; [discriminate|intros (_ & X); discriminate X]|]. split; [intros X; split; [exact E|]; exact X|intros (_ & X); exact X].
      + split; [intros X; split; [exact E|]; exact X|intros (_ & X); exact X].
    - apply is_empty_false in E. cbn [bind]. rewrite custom_abs by exact E. split; [discriminate|]. intros (X & _). contradiction.
  Qed.
  (** C53: so is what cache delete would remove. *)
  Theorem C53_said : forall d t, deleted_path goos goarch getenv cwd d = Err t <->
    d_cache_path d = "" /\ says_no_cache goos goarch getenv (fun b => b) t.
  Proof.
    intros d t. unfold deleted_path, base_no_version_osarch. destruct (is_empty (d_cache_path d)) eqn:E.
    - apply is_empty_true in E. rewrite <- err_said by (intros v l N; now apply is_abs_joined). split; [intros X; split; [exact E|]; exact X|intros (_ & X); exact X].
    - apply is_empty_false in E. cbn [bind]. rewrite custom_abs by exact E. split; [discriminate|]. intros (X & _). contradiction.
  Qed.
End System.
Print Assumptions C64_system.
Print Assumptions C63_said.
Print Assumptions C53_said.
Example C63_said_ex :
  let env v := if String.eqb v "HOME" then "me" else "" in
  base_path "linux" "amd64" env "/w" (fun s => s) (mk_downloader "3.8.0" "" "" "" "") = Err "expected absolute path but was me/.cache/prototool/Linux/x86_64" /\
  deleted_path "linux" "amd64" env "/w" (mk_downloader "3.8.0" "" "" "" "") = Err "expected absolute path but was me/.cache/prototool" /\
  base_path "linux" "amd64" (fun _ => "") "/w" (fun s => s) (mk_downloader "3.8.0" "" "" "" "") = Err "HOME is not set" /\
  get_protoc_url "linux" "arm64" (mk_downloader "3.8.0" "" "" "" "") = Err "unsupported value for runtime.GOARCH: arm64".
Proof. vm_compute. repeat split. Qed.
