(** Properties of the download of protoc: C51-C53 and C63-C66. *)
From Verif Require Import Download_Model Download_Spec Download_Proofs GoStrFacts GoPathFacts.
From Verif Require Import Cache_Model Cache_Spec Cache_Proofs.

(** ** C51 *)
Section Crashes.
  Variable entries pre post : list (string * string).
  Variable bin data : string.
  Variable answers : string -> bool.
  Notation ended w k ok := (nth_error (w_calls w) k = Some (Returned ok)).
  (** Downloads of the archive [entries], in which [bin] is the program.  Only the whole
      program answers the version check. *)
  Definition an_archive : Prop := entries = pre ++ (bin, data) :: post /\ NoDup (map fst entries) /\ forall c, answers c = true -> c = data.

  (** After any steps of any number of calls, with crashes anywhere: when a call has
      returned without error, the program and the files before it in the archive are
      there with their full contents.  What is missing is the files after the program:
      see [C51_order_refuted].  The cache is not deleted: see [C51_delete_refuted]. *)
  Theorem C51_complete_partial fs w k : an_archive -> (fs bin = Some data -> complete fs (pre ++ [(bin, data)])) ->
    steps entries bin answers false (world_0 fs) w -> ended w k true ->
    complete (w_files w) (pre ++ [(bin, data)]).
  Proof.
    intros (He & Hn & Ha) Hf S Hk. assert (Hs : sound bin answers pre data fs).
    { intros Hc. apply Hf. eapply checked_bin; eauto. }
    destruct (contents_steps entries bin answers pre post data He Hn Ha fs w Hs S) as (_ & (C1 & C2 & _)). apply C1. exact (C2 _ _ Hk).
  Qed.
  (** If the program is the last file of the archive, that is all of them. *)
  Theorem C51_program_last fs w k : an_archive -> post = [] -> (fs bin = Some data -> complete fs entries) ->
    steps entries bin answers false (world_0 fs) w -> ended w k true -> complete (w_files w) entries.
  Proof. intros A Hp Hf S Hk. pose proof A as (He & _). rewrite Hp in He. rewrite He in Hf |- *. exact (C51_complete_partial fs w k A Hf S Hk). Qed.
  (** A download that gets to its second check has left every file complete. *)
  Theorem C51_written fs w k i : an_archive -> (fs bin = Some data -> complete fs (pre ++ [(bin, data)])) ->
    steps entries bin answers false (world_0 fs) w -> nth_error (w_calls w) k = Some (Rechecking i) -> complete (w_files w) entries.
  Proof.
    intros (He & Hn & Ha) Hf S Hk. assert (Hs : sound bin answers pre data fs).
    { intros Hc. apply Hf. eapply checked_bin; eauto. }
    destruct (contents_steps entries bin answers pre post data He Hn Ha fs w Hs S) as (_ & (_ & C2 & _)). exact (C2 _ _ Hk).
  Qed.
  (** Whatever happened before, also deletion of the cache: once no other call is under
      way, a new one can succeed. *)
  Theorem C51_recovers deletes fs w : an_archive -> answers data = true -> steps entries bin answers deletes (world_0 fs) w ->
    (forall k p, nth_error (w_calls w) k = Some p -> over p) ->
    exists w', steps entries bin answers deletes w w' /\ ended w' (length (w_calls w)) true.
  Proof.
    intros (He & Hn & _) Ha S Ho. eapply recovers; [eapply held_steps; exact S|exact Ho|exact Hn| |exact Ha]. rewrite He. apply in_elt.
  Qed.
End Crashes.
Print Assumptions C51_complete_partial.
Print Assumptions C51_program_last.
Print Assumptions C51_written.
Print Assumptions C51_recovers.

Lemma then_ entries bin answers deletes w x y : step entries bin answers deletes w x -> steps entries bin answers deletes x y -> steps entries bin answers deletes w y.
Proof. intros S T. eapply steps_trans; [apply steps_one; exact S|exact T]. Qed.
Ltac go C := eapply then_; [eapply C; reflexivity|]; cbn [set_call app].
Definition no_disk : string -> option string := fun _ => None.
Definition is_program (c : string) : bool := String.eqb c "BIN".
Definition program_last : list (string * string) := [("include/any.proto", "P"); ("bin/protoc", "BIN")].
Definition program_first : list (string * string) := [("bin/protoc", "BIN"); ("include/any.proto", "P")].
Lemma program_last_archive : an_archive program_last [("include/any.proto", "P")] [] "bin/protoc" "BIN" is_program.
Proof.
  split; [reflexivity|]. split; [|intros c H; now apply String.eqb_eq in H]. repeat constructor; cbn; intuition discriminate.
Qed.
Lemma program_first_archive : an_archive program_first [] [("include/any.proto", "P")] "bin/protoc" "BIN" is_program.
Proof.
  split; [reflexivity|]. split; [|intros c H; now apply String.eqb_eq in H]. repeat constructor; cbn; intuition discriminate.
Qed.
(** A crash in the middle of the program, then a call that succeeds. *)
Example C51_ex : exists w, steps program_last "bin/protoc" is_program false (world_0 no_disk) w /\
  nth_error (w_calls w) 0 = Some Dead /\ nth_error (w_calls w) 1 = Some (Returned true) /\ w_files w "include/any.proto" = Some "P".
Proof.
  eexists. split.
  - go Begin. eapply then_; [apply (MakeLock _ _ _ _ _ _ _ _ 0); reflexivity|]; cbn [set_call app].
    eapply then_; [apply (TakeLock _ _ _ _ _ _ _ _ _ 0 0); reflexivity|]; cbn [set_call app].
    eapply then_; [apply (CheckFails _ _ _ _ _ _ _ _ _ 0 0); reflexivity|]; cbn [set_call app].
    eapply then_; [apply (Fetch _ _ _ _ _ _ _ _ _ 0 0); reflexivity|]; cbn [set_call app].
    eapply then_; [apply (OpenFile _ _ _ _ _ _ _ _ _ 0 0 "include/any.proto" "P"); reflexivity|]; cbn [set_call app].
    eapply then_; [apply (WriteSome _ _ _ _ _ _ _ _ _ 0 0 "include/any.proto" "P" ""); [reflexivity|discriminate]|]; cbn [set_call app].
    eapply then_; [apply (WriteDone _ _ _ _ _ _ _ _ _ 0 0 "include/any.proto"); reflexivity|]; cbn [set_call app].
    eapply then_; [apply (OpenFile _ _ _ _ _ _ _ _ _ 0 0 "bin/protoc" "BIN"); reflexivity|]; cbn [set_call app].
    eapply then_; [apply (WriteSome _ _ _ _ _ _ _ _ _ 0 0 "bin/protoc" "B" "IN"); [reflexivity|discriminate]|]; cbn [set_call app].
    eapply then_; [eapply (Crash _ _ _ _ _ _ _ _ _ 0); reflexivity|]; cbn [set_call app holds].
    go Begin. eapply then_; [apply (OpenLock _ _ _ _ _ _ _ _ _ 1); reflexivity|]; cbn [set_call app].
    eapply then_; [apply (TakeLock _ _ _ _ _ _ _ _ _ 1 0); reflexivity|]; cbn [set_call app].
    eapply then_; [apply (CheckFails _ _ _ _ _ _ _ _ _ 1 0); reflexivity|]; cbn [set_call app].
    eapply then_; [apply (Fetch _ _ _ _ _ _ _ _ _ 1 0); reflexivity|]; cbn [set_call app].
    eapply then_; [apply (OpenFile _ _ _ _ _ _ _ _ _ 1 0 "include/any.proto" "P"); reflexivity|]; cbn [set_call app].
    eapply then_; [apply (WriteSome _ _ _ _ _ _ _ _ _ 1 0 "include/any.proto" "P" ""); [reflexivity|discriminate]|]; cbn [set_call app].
    eapply then_; [apply (WriteDone _ _ _ _ _ _ _ _ _ 1 0 "include/any.proto"); reflexivity|]; cbn [set_call app].
    eapply then_; [apply (OpenFile _ _ _ _ _ _ _ _ _ 1 0 "bin/protoc" "BIN"); reflexivity|]; cbn [set_call app].
    eapply then_; [apply (WriteSome _ _ _ _ _ _ _ _ _ 1 0 "bin/protoc" "BIN" ""); [reflexivity|discriminate]|]; cbn [set_call app].
    eapply then_; [apply (WriteDone _ _ _ _ _ _ _ _ _ 1 0 "bin/protoc"); reflexivity|]; cbn [set_call app].
    eapply then_; [apply (Written _ _ _ _ _ _ _ _ _ 1 0); reflexivity|]; cbn [set_call app].
    eapply then_; [apply (Recheck _ _ _ _ _ _ _ _ _ 1 0); reflexivity|]; cbn [set_call app].
    eapply then_; [eapply (Unlock _ _ _ _ _ _ _ _ _ 1 0 true); reflexivity|]; cbn [set_call app]. apply Stay.
  - repeat split; reflexivity.
Qed.
Lemma no_program : no_disk "bin/protoc" = Some "BIN" -> False.
Proof. discriminate. Qed.
(** The program first: after a crash behind it, a later call succeeds and files are missing. *)
Theorem C51_order_refuted : ~ (forall entries pre post bin data answers fs w k, an_archive entries pre post bin data answers ->
  (fs bin = Some data -> complete fs entries) -> steps entries bin answers false (world_0 fs) w ->
  nth_error (w_calls w) k = Some (Returned true) -> complete (w_files w) entries).
Proof.
  intros H. assert (K : exists w, steps program_first "bin/protoc" is_program false (world_0 no_disk) w /\
    nth_error (w_calls w) 1 = Some (Returned true) /\ w_files w "include/any.proto" = None).
  { eexists. split.
    - go Begin. eapply then_; [apply (MakeLock _ _ _ _ _ _ _ _ 0); reflexivity|]; cbn [set_call app].
      eapply then_; [apply (TakeLock _ _ _ _ _ _ _ _ _ 0 0); reflexivity|]; cbn [set_call app].
      eapply then_; [apply (CheckFails _ _ _ _ _ _ _ _ _ 0 0); reflexivity|]; cbn [set_call app].
      eapply then_; [apply (Fetch _ _ _ _ _ _ _ _ _ 0 0); reflexivity|]; cbn [set_call app].
      eapply then_; [apply (OpenFile _ _ _ _ _ _ _ _ _ 0 0 "bin/protoc" "BIN"); reflexivity|]; cbn [set_call app].
      eapply then_; [apply (WriteSome _ _ _ _ _ _ _ _ _ 0 0 "bin/protoc" "BIN" ""); [reflexivity|discriminate]|]; cbn [set_call app].
      eapply then_; [eapply (Crash _ _ _ _ _ _ _ _ _ 0); reflexivity|]; cbn [set_call app holds].
      go Begin. eapply then_; [apply (OpenLock _ _ _ _ _ _ _ _ _ 1); reflexivity|]; cbn [set_call app].
      eapply then_; [apply (TakeLock _ _ _ _ _ _ _ _ _ 1 0); reflexivity|]; cbn [set_call app].
      eapply then_; [apply (CheckOk _ _ _ _ _ _ _ _ _ 1 0); reflexivity|]; cbn [set_call app].
      eapply then_; [eapply (Unlock _ _ _ _ _ _ _ _ _ 1 0 true); reflexivity|]; cbn [set_call app]. apply Stay.
    - split; reflexivity. }
  destruct K as (w & S & Hk & Hf). assert (C := H _ _ _ _ _ _ no_disk w 1 program_first_archive (fun x => match no_program x with end) S Hk "include/any.proto" "P").
  rewrite Hf in C. discriminate C. right. now left.
Qed.
Print Assumptions C51_order_refuted.
(** An interrupted deletion: a later call succeeds and files are missing. *)
Theorem C51_delete_refuted : ~ (forall entries pre post bin data answers fs w k, an_archive entries pre post bin data answers ->
  (fs bin = Some data -> complete fs entries) -> post = [] -> steps entries bin answers true (world_0 fs) w ->
  nth_error (w_calls w) k = Some (Returned true) -> (forall j p, nth_error (w_calls w) j = Some p -> over p) -> complete (w_files w) entries).
Proof.
  intros H. pose (disk p := if String.eqb p "bin/protoc" then Some "BIN" else if String.eqb p "include/any.proto" then Some "P" else None).
  assert (K : exists w, steps program_last "bin/protoc" is_program true (world_0 disk) w /\ w_calls w = [Dead; Returned true] /\ w_files w "include/any.proto" = None).
  { eexists. split.
    - go Begin. eapply then_; [apply (Delete _ _ _ _ _ _ _ _ _ 0); reflexivity|]; cbn [set_call app].
      eapply then_; [apply (RemoveFile _ _ _ _ _ _ _ _ _ 0 "include/any.proto"); reflexivity|].
      eapply then_; [eapply (Crash _ _ _ _ _ _ _ _ _ 0); reflexivity|]; cbn [set_call app holds].
      go Begin. eapply then_; [apply (MakeLock _ _ _ _ _ _ _ _ 1); reflexivity|]; cbn [set_call app].
      eapply then_; [apply (TakeLock _ _ _ _ _ _ _ _ _ 1 0); reflexivity|]; cbn [set_call app].
      eapply then_; [apply (CheckOk _ _ _ _ _ _ _ _ _ 1 0); reflexivity|]; cbn [set_call app].
      eapply then_; [eapply (Unlock _ _ _ _ _ _ _ _ _ 1 0 true); reflexivity|]; cbn [set_call app]. apply Stay.
    - split; reflexivity. }
  destruct K as (w & S & Hc & Hf). assert (C := fun a => H _ _ _ _ _ _ disk w 1 program_last_archive a eq_refl S).
  rewrite Hc in C. assert (D : complete disk program_last) by (intros p c [[= <- <-]|[[= <- <-]|[]]]; reflexivity).
  assert (E := C (fun _ => D) eq_refl). assert (O : forall j p, nth_error [Dead; Returned true] j = Some p -> over p).
  { intros [|[|[|j]]] p [= <-]; exact I. }
  specialize (E O "include/any.proto" "P" (or_introl eq_refl)). congruence.
Qed.
Print Assumptions C51_delete_refuted.

(** ** C52 *)
(** Two calls never write files at the same time, if the cache is not deleted. *)
Theorem C52_exclusion_partial entries bin answers fs w j k p q : steps entries bin answers false (world_0 fs) w ->
  nth_error (w_calls w) j = Some p -> nth_error (w_calls w) k = Some q -> writes_files p -> writes_files q -> j = k.
Proof.
  intros S Hj Hk Hp Hq. eapply one_holder; [eapply locks_steps; [apply locks_0|exact S]|exact Hj|exact Hk| |]; [destruct p|destruct q]; try contradiction; discriminate.
Qed.
Print Assumptions C52_exclusion_partial.
(** Nor does one write while another checks or is about to return. *)
Theorem C52_quiet_partial entries bin answers fs w j k p q : steps entries bin answers false (world_0 fs) w ->
  nth_error (w_calls w) j = Some p -> nth_error (w_calls w) k = Some q -> writes_files p -> holds q <> None -> j = k.
Proof.
  intros S Hj Hk Hp Hq. eapply one_holder; [eapply locks_steps; [apply locks_0|exact S]|exact Hj|exact Hk| |exact Hq]. destruct p; try contradiction; discriminate.
Qed.
Print Assumptions C52_quiet_partial.
(** A call that writes while another waits. *)
Example C52_ex : exists w, steps program_last "bin/protoc" is_program false (world_0 no_disk) w /\
  nth_error (w_calls w) 0 = Some (Writing 0 program_last) /\ nth_error (w_calls w) 1 = Some (Opened 0).
Proof.
  eexists. split.
  - go Begin. eapply then_; [apply (MakeLock _ _ _ _ _ _ _ _ 0); reflexivity|]; cbn [set_call app].
    eapply then_; [apply (TakeLock _ _ _ _ _ _ _ _ _ 0 0); reflexivity|]; cbn [set_call app].
    eapply then_; [apply (CheckFails _ _ _ _ _ _ _ _ _ 0 0); reflexivity|]; cbn [set_call app].
    eapply then_; [apply (Fetch _ _ _ _ _ _ _ _ _ 0 0); reflexivity|]; cbn [set_call app].
    go Begin. eapply then_; [apply (OpenLock _ _ _ _ _ _ _ _ _ 1); reflexivity|]; cbn [set_call app]. apply Stay.
  - split; reflexivity.
Qed.
(** Deletion removes the lock file, and then two calls write at the same time. *)
Theorem C52_delete_refuted : ~ (forall entries bin answers fs w j k p q, steps entries bin answers true (world_0 fs) w ->
  nth_error (w_calls w) j = Some p -> nth_error (w_calls w) k = Some q -> writes_files p -> writes_files q -> j = k).
Proof.
  intros H. assert (K : exists w, steps program_last "bin/protoc" is_program true (world_0 no_disk) w /\
    nth_error (w_calls w) 0 = Some (Writing 0 program_last) /\ nth_error (w_calls w) 2 = Some (Writing 1 program_last)).
  { eexists. split.
    - go Begin. eapply then_; [apply (MakeLock _ _ _ _ _ _ _ _ 0); reflexivity|]; cbn [set_call app].
      eapply then_; [apply (TakeLock _ _ _ _ _ _ _ _ _ 0 0); reflexivity|]; cbn [set_call app].
      eapply then_; [apply (CheckFails _ _ _ _ _ _ _ _ _ 0 0); reflexivity|]; cbn [set_call app].
      eapply then_; [apply (Fetch _ _ _ _ _ _ _ _ _ 0 0); reflexivity|]; cbn [set_call app].
      go Begin. eapply then_; [apply (Delete _ _ _ _ _ _ _ _ _ 1); reflexivity|]; cbn [set_call app].
      eapply then_; [apply (RemoveLock _ _ _ _ _ _ _ _ _ 1); reflexivity|].
      go Begin. eapply then_; [apply (MakeLock _ _ _ _ _ _ _ _ 2); reflexivity|]; cbn [set_call app].
      eapply then_; [apply (TakeLock _ _ _ _ _ _ _ _ _ 2 1); reflexivity|]; cbn [set_call app].
      eapply then_; [apply (CheckFails _ _ _ _ _ _ _ _ _ 2 1); reflexivity|]; cbn [set_call app].
      eapply then_; [apply (Fetch _ _ _ _ _ _ _ _ _ 2 1); reflexivity|]; cbn [set_call app]. apply Stay.
    - split; reflexivity. }
  destruct K as (w & S & H0 & H2). discriminate (H _ _ _ _ _ _ _ _ _ S H0 H2 I I).
Qed.
Print Assumptions C52_delete_refuted.

Section Places.
  Variable goos goarch : string.
  Variable getenv : string -> string.
  Variable cwd : string.
  Variable digest : string -> string.
  Hypothesis Hcwd : clean_abs cwd.
  Notation base_path := (base_path goos goarch getenv cwd digest).
  Notation deleted_path := (deleted_path goos goarch getenv cwd).
  Notation cache_root := (cache_root goos goarch getenv cwd).

  (** ** C53 *)
  (** Without PROTOTOOL_CACHE_PATH, cache delete removes the default cache and nothing
      else. *)
  Theorem C53_default_partial stat version m p : getenv "PROTOTOOL_CACHE_PATH" = "" ->
    cache_delete goos goarch getenv cwd stat version = (m, Some (Ok p)) ->
    exists cs, default_cache goos getenv cs /\ p = abs_path cs.
  Proof.
    intros He. unfold cache_delete, command_downloader. rewrite He. change (flag_or_env "" "") with "". destruct (new_downloader _ _ _ _ _ _) as [d| |] eqn:N; try discriminate.
    intros [= <- H]. apply deleted_ok in H as (cs & -> & H); [|exact Hcwd]. exists cs. split; [|reflexivity].
    assert (E : d_cache_path d = "") by (apply made_ok in N as [(_ & _ & ->)|(_ & ->)]; reflexivity).
    destruct H as [(_ & _ & H)|(H & _)]; [exact H|now rewrite E in H].
  Qed.
  (** What a downloader has cached is below what is deleted with the same options. *)
  Theorem C53_removes d b p : ok_comp (version_part digest d) = true -> base_path d = Ok b -> deleted_path d = Ok p -> within p b.
  Proof. apply deleted_within. exact Hcwd. Qed.

  (** ** C63 *)
  (** The directory of a version: below the cache, the directory protobuf and the version,
      or what the URL is hashed to; an error exactly if there is no cache. *)
  Theorem C63_location d p : ok_comp (version_part digest d) = true -> base_path d = Ok p <->
    exists cs, cache_root (d_cache_path d) cs /\ p = abs_path (cs ++ ["protobuf"; if String.eqb (d_url d) "" then d_version d else digest (d_url d)]).
  Proof.
    intros Hv. rewrite base_path_ok by assumption. unfold version_part. destruct (is_empty (d_url d)) eqn:E.
    - apply is_empty_true in E. rewrite E. reflexivity.
    - apply is_empty_false, String.eqb_neq in E. rewrite E. reflexivity.
  Qed.
  (** Different versions have directories of which none is in the other. *)
  Theorem C63_distinct a b p q : d_cache_path a = d_cache_path b -> ok_comp (version_part digest a) = true -> ok_comp (version_part digest b) = true ->
    version_part digest a <> version_part digest b -> base_path a = Ok p -> base_path b = Ok q -> ~ within p q.
  Proof.
    intros E Ha Hb N Hp Hq (ds & rs & Hd & Hr & E1 & E2). apply base_path_ok in Hp as (cs & Hc & ->); [|assumption..]. apply base_path_ok in Hq as (cs' & Hc' & ->); [|assumption..].
    rewrite <- E in Hc'. assert (Oc := cache_root_ok _ _ _ _ _ _ Hc). assert (Oc' := cache_root_ok _ _ _ _ _ _ Hc').
    assert (cs = cs') as <-.
    { destruct Hc as [(Z & Hs & dc & H1 & ->)|H1], Hc' as [(Z' & _ & dc' & H2 & ->)|H2].
      - now rewrite (default_cache_inj _ _ _ _ _ Hs H1 H2).
      - destruct H2 as (H2 & _). now rewrite Z in H2.
      - destruct H1 as (H1 & _). now rewrite Z' in H1.
      - eapply names_from_inj; eauto. }
    assert (O : forall v, ok_comp v = true -> ok_comps (cs ++ ["protobuf"; v])).
    { intros v Hv. apply ok_comps_app. split; [exact Oc|]. constructor; [reflexivity|constructor; [exact Hv|constructor]]. }
    apply abs_path_inj in E1; [|auto|exact Hd]. subst ds. apply abs_path_inj in E2; [|auto|apply ok_comps_app; auto].
    rewrite <- app_assoc in E2. apply app_inv_head in E2. injection E2 as E2 _. congruence.
  Qed.
End Places.
Print Assumptions C53_default_partial.
Print Assumptions C53_removes.
Print Assumptions C63_location.
Print Assumptions C63_distinct.

Definition an_env (k : string) : string := if String.eqb k "HOME" then "/home/u" else "".
Definition a_custom_env (k : string) : string := if String.eqb k "HOME" then "/home/u" else if String.eqb k "PROTOTOOL_CACHE_PATH" then "/data/cache" else "".
Definition no_stat : string -> stat_info := fun _ => NotExist.
Definition a_digest : string -> string := fun u => "d".
Lemma root_clean : clean_abs "/w".
Proof. exists ["w"]. split; [oks|reflexivity]. Qed.
Example C53_ex : cache_delete "linux" "amd64" an_env "/w" no_stat "" = (Made (mk_downloader "3.11.0" "" "" "" ""), Some (Ok "/home/u/.cache/prototool")).
Proof. reflexivity. Qed.
Example C53_removes_ex : base_path "linux" "amd64" an_env "/w" a_digest (mk_downloader "3.11.0" "" "" "" "") = Ok "/home/u/.cache/prototool/Linux/x86_64/protobuf/3.11.0" /\
  deleted_path "linux" "amd64" an_env "/w" (mk_downloader "3.11.0" "" "" "" "") = Ok "/home/u/.cache/prototool".
Proof. split; reflexivity. Qed.
(** With PROTOTOOL_CACHE_PATH that directory is deleted, although the help says that
    nothing outside the default cache is (internal/cmd/templates.go:141). *)
Theorem C53_custom_refuted : ~ (forall goos goarch getenv cwd stat version m p, clean_abs cwd ->
  cache_delete goos goarch getenv cwd stat version = (m, Some (Ok p)) -> exists cs, default_cache goos getenv cs /\ p = abs_path cs).
Proof.
  intros H. destruct (H "linux" "amd64" a_custom_env "/w" no_stat "" _ _ root_clean eq_refl) as (cs & Hd & E).
  assert (S : supported "linux" "amd64") by (split; [now left|reflexivity]). destruct (no_osarch_given _ _ _ _ S Hd) as (N & _). rewrite <- E in N. vm_compute in N. discriminate N.
Qed.
Print Assumptions C53_custom_refuted.
Example C63_ex : ok_comp (version_part a_digest (mk_downloader "3.11.0" "cache" "" "" "")) = true /\
  base_path "linux" "amd64" an_env "/w" a_digest (mk_downloader "3.11.0" "cache" "" "" "") = Ok "/w/cache/protobuf/3.11.0" /\
  base_path "linux" "amd64" an_env "/w" a_digest (mk_downloader "3.11.1" "cache" "" "" "") = Ok "/w/cache/protobuf/3.11.1" /\
  base_path "linux" "amd64" an_env "/w" a_digest (mk_downloader "3.11.0" "/c" "https://x/y.zip" "" "") = Ok "/c/protobuf/d".
Proof. repeat split; reflexivity. Qed.
(** A version that is not the name of a directory leads out of it. *)
Theorem C63_version_refuted : ~ (forall goos goarch getenv cwd digest d p cs, clean_abs cwd -> d_version d <> "" ->
  base_path goos goarch getenv cwd digest d = Ok p -> cache_root goos goarch getenv cwd (d_cache_path d) cs -> within (abs_path cs) p).
Proof.
  intros H. destruct (H "linux" "amd64" an_env "/w" a_digest (mk_downloader "../../../x" "/c/d" "" "" "") "/x" ["c"; "d"] root_clean) as (ds & rs & Hd & Hr & E1 & E2).
  - discriminate.
  - reflexivity.
  - right. split; [discriminate|]. cbn. apply (names_abs ["c"; "d"]). oks.
  - apply abs_path_inj in E1; [|oks|exact Hd]. subst ds. apply (abs_path_inj ["x"]) in E2; [discriminate|oks|apply ok_comps_app; split; [oks|exact Hr]].
Qed.
Print Assumptions C63_version_refuted.

(** ** C64 *)
(** Without a URL, the release of the version for the system and the machine; an error
    for others. *)
Theorem C64_url goos goarch d u : d_url d = "" -> get_protoc_url goos goarch d = Ok u <->
  supported goos goarch /\ exists name, release_name (d_version d) name /\
    u = "https://github.com/protocolbuffers/protobuf/releases/download/v" +++ name +++ "/protoc-" +++ d_version d +++ "-" +++ (if String.eqb goos "darwin" then "osx" else "linux") +++ "-x86_64.zip".
Proof.
  intros E. unfold get_protoc_url. rewrite E. change (negb (is_empty "")) with false. cbv iota. split.
  - destruct (get_uname goos goarch) as [x|] eqn:U; [|discriminate]. apply get_uname_ok in U as (S & ->). cbn [bind snd]. rewrite (protoc_s_ok _ _ S). cbn [bind].
    intros H. apply ok_inj in H as <-. split; [exact S|]. exists (drop_rc_hyphen (d_version d)). split; [apply drop_rc_name|reflexivity].
  - intros (S & name & Hn & ->). rewrite (proj2 (get_uname_ok goos goarch _) (conj S eq_refl)). cbn [bind snd]. rewrite (protoc_s_ok _ _ S). cbn [bind].
    rewrite (release_name_fun _ _ _ Hn (drop_rc_name _)). reflexivity.
Qed.
Print Assumptions C64_url.
Theorem C64_custom goos goarch d : d_url d <> "" -> get_protoc_url goos goarch d = Ok (d_url d).
Proof. intros E. unfold get_protoc_url. apply is_empty_false in E. now rewrite E. Qed.
Print Assumptions C64_custom.
(** The archive is what is at that address.  With a custom URL, another status than 200
    is an empty archive, see [C64_status_refuted]. *)
Theorem C64_data_partial goos goarch d read_file http_get data : get_download_data goos goarch d read_file http_get = Ok data ->
  data <> "" \/ d_url d = "" ->
  exists url, get_protoc_url goos goarch d = Ok url /\
    ((exists p, url = "file://" +++ p /\ read_file p = Ok data) \/
     ((has_prefix url "http://" = true \/ has_prefix url "https://" = true) /\ http_get url = Response 200 (Ok data))).
Proof.
  intros H Hn. apply data_from in H as (url & Hu & [H|(H & [K|(K1 & K2 & _)])]); [eauto..|]. exfalso. destruct Hn; contradiction.
Qed.
Print Assumptions C64_data_partial.
(** And what is there is the archive. *)
Theorem C64_found goos goarch d read_file http_get data url p : get_protoc_url goos goarch d = Ok url ->
  (url = "file://" +++ p /\ read_file p = Ok data) \/
  ((has_prefix url "http://" = true \/ has_prefix url "https://" = true) /\ http_get url = Response 200 (Ok data)) ->
  get_download_data goos goarch d read_file http_get = Ok data.
Proof.
  intros Hu H. unfold get_download_data. rewrite Hu. cbn [bind]. destruct H as [(-> & H)|(Hp & H)].
  - rewrite (proj2 (has_prefix_spec _ _)) by eauto. exact H.
  - assert (F : has_prefix url "file://" = false).
    { apply not_true_is_false. intros K. apply has_prefix_spec in K as (r & ->). destruct Hp as [Hp|Hp]; discriminate. }
    rewrite F. rewrite (proj2 (orb_true_iff _ _) Hp), H. reflexivity.
Qed.
Print Assumptions C64_found.
Theorem C64_status_refuted : ~ (forall goos goarch d read_file http_get data, get_download_data goos goarch d read_file http_get = Ok data ->
  exists url, (exists p, url = "file://" +++ p /\ read_file p = Ok data) \/ http_get url = Response 200 (Ok data)).
Proof.
  intros H. destruct (H "linux" "amd64" (mk_downloader "" "" "https://x/y.zip" "" "") (fun _ => Err "no") (fun _ => Response 404 (Ok "<html>")) "" eq_refl) as (url & [(p & _ & K)|K]); discriminate.
Qed.
Print Assumptions C64_status_refuted.
Example C64_ex : get_protoc_url "linux" "amd64" (mk_downloader "3.11.0-rc-2" "" "" "" "") =
  Ok "https://github.com/protocolbuffers/protobuf/releases/download/v3.11.0-rc2/protoc-3.11.0-rc-2-linux-x86_64.zip" /\
  get_download_data "darwin" "amd64" (mk_downloader "3.11.0" "" "" "" "") (fun _ => Err "no")
    (fun u => if String.eqb u "https://github.com/protocolbuffers/protobuf/releases/download/v3.11.0/protoc-3.11.0-osx-x86_64.zip" then Response 200 (Ok "zip") else NoResponse "x") = Ok "zip".
Proof. split; reflexivity. Qed.

(** ** C65 *)
(** The options are accepted exactly if neither of the two paths is given, or both
    without a URL and with what must be there. *)
Theorem C65_options stat version cache url bin wkt : (exists d, new_downloader stat version cache url bin wkt = Made d) <->
  (bin = "" /\ wkt = "") \/ local_protoc stat url bin wkt.
Proof.
  split.
  - intros (d & H). apply made_ok in H as [(H1 & H2 & _)|(H & _)]; auto.
  - intros [(H1 & H2)|H]; eexists; apply made_ok; eauto.
Qed.
Print Assumptions C65_options.
(** They are used as given, and the version is the default one if there is none. *)
Theorem C65_kept stat version cache url bin wkt d : new_downloader stat version cache url bin wkt = Made d ->
  d_cache_path d = cache /\ d_url d = url /\ (version <> "" -> d_version d = version) /\ (version = "" -> d_version d = "3.11.0").
Proof.
  intros H. assert (V : d_version d = if is_empty version then "3.11.0" else version).
  { apply made_ok in H as [(_ & _ & ->)|(_ & ->)]; reflexivity. }
  assert (C : d_cache_path d = cache) by (apply made_ok in H as [(_ & _ & ->)|(_ & ->)]; reflexivity).
  assert (U : d_url d = url) by (apply made_ok in H as [(_ & _ & ->)|((-> & _) & ->)]; reflexivity).
  rewrite V. repeat split; [exact C|exact U|intros N; apply is_empty_false in N; now rewrite N|now intros ->].
Qed.
Print Assumptions C65_kept.
(** What the flags say goes before what the environment says. *)
Theorem C65_environment getenv stat version cache url bin wkt d : command_downloader getenv stat version cache url bin wkt = Made d ->
  (cache <> "" -> d_cache_path d = cache) /\ (cache = "" -> d_cache_path d = getenv "PROTOTOOL_CACHE_PATH") /\
  (bin <> "" -> d_bin_path d = path_clean bin) /\ (bin = "" -> getenv "PROTOTOOL_PROTOC_BIN_PATH" <> "" -> d_bin_path d = path_clean (getenv "PROTOTOOL_PROTOC_BIN_PATH")) /\
  (wkt <> "" -> d_wkt_path d = path_clean wkt) /\ (wkt = "" -> getenv "PROTOTOOL_PROTOC_WKT_PATH" <> "" -> d_wkt_path d = path_clean (getenv "PROTOTOOL_PROTOC_WKT_PATH")).
Proof.
  assert (F : forall a b, a <> "" -> flag_or_env a b = a) by (intros a b N; unfold flag_or_env; apply is_empty_false in N; now rewrite N).
  assert (G : forall b, flag_or_env "" b = b) by reflexivity.
  assert (K : forall a b, flag_or_env a b = "" -> a = "" /\ b = "").
  { intros a b. destruct (string_dec a "") as [->|N]; [now rewrite G|]. rewrite F by exact N. easy. }
  unfold command_downloader. intros H. destruct (C65_kept _ _ _ _ _ _ _ H) as (C & _). rewrite C. clear C.
  split; [exact (F _ _)|]. split; [now intros ->|]. apply made_ok in H as [(B & W & ->)|(_ & ->)]; cbn [d_bin_path d_wkt_path].
  - apply K in B as (-> & ->). apply K in W as (-> & ->). repeat split; intros; easy.
  - repeat split; intros; subst; try reflexivity; now rewrite F by assumption.
Qed.
Print Assumptions C65_environment.
(** With a local protoc, it and its well known types are used, whatever is cached. *)
Theorem C65_local stat version cache url bin wkt d cached : new_downloader stat version cache url bin wkt = Made d -> bin <> "" ->
  protoc_path d cached = Ok (path_clean bin) /\ wkt_include_path d cached = Ok (path_clean wkt).
Proof.
  intros H Hb. apply made_ok in H as [(E & _)|((_ & _ & Hw & _) & ->)]; [easy|]. unfold protoc_path, wkt_include_path. cbn [d_bin_path d_wkt_path].
  assert (N : forall p, path_clean p <> "").
  { intros p E. assert (K := path_join_not_empty p []). destruct (string_dec p "") as [->|Hp]; [discriminate|]. rewrite path_join_cons in K by exact Hp. now apply (K Hp). }
  rewrite (proj2 (is_empty_false _) (N bin)), (proj2 (is_empty_false _) (N wkt)). auto.
Qed.
Print Assumptions C65_local.
(** Otherwise those of the directory of the version, and an error if that is one. *)
Theorem C65_cached stat version cache url bin wkt d bs m : new_downloader stat version cache url bin wkt = Made d -> bin = "" -> ok_comps bs ->
  protoc_path d (Ok (abs_path bs)) = Ok (abs_path (bs ++ ["bin"; "protoc"])) /\ wkt_include_path d (Ok (abs_path bs)) = Ok (abs_path (bs ++ ["include"])) /\
  protoc_path d (Err m) = Err m /\ wkt_include_path d (Err m) = Err m.
Proof.
  intros H Hb Ho. apply made_ok in H as [(_ & _ & ->)|((_ & Hn & _) & _)]; [|easy]. unfold protoc_path, wkt_include_path. cbn [d_bin_path d_wkt_path is_empty negb bind].
  rewrite !(join_names (abs_path bs) bs) by (apply names_abs, Ho || oks). auto.
Qed.
Print Assumptions C65_cached.
Definition a_stat (p : string) : stat_info := if String.eqb p "/usr/bin/protoc" then IsOther else if mem p ["/usr/include"; "/usr/include/google/protobuf"] then IsDir else NotExist.
Example C65_ex : new_downloader a_stat "" "" "" "/usr/bin/protoc" "/usr/include/" = Made (mk_downloader "3.11.0" "" "" "/usr/bin/protoc" "/usr/include") /\
  new_downloader a_stat "" "" "" "/usr/bin/protoc" "" = Refused "both protoc-bin-path and protoc-wkt-path must be set".
Proof. split; reflexivity. Qed.
(** It is not always an error, when they are not accepted. *)
Theorem C65_error_refuted : ~ (forall stat version cache url bin wkt, exists r, new_downloader stat version cache url bin wkt = Made r \/ exists m, new_downloader stat version cache url bin wkt = Refused m).
Proof. intros H. destruct (H (fun p => StatError "permission denied") "" "" "" "/p" "/i") as (r & [K|(m & K)]); discriminate. Qed.
Print Assumptions C65_error_refuted.

(** ** C66 *)
(** A file of the archive is written below the directory of the version, if no element of
    its name is "..", *)
Theorem C66_within_partial bs name : ok_comps bs -> name <> "" -> ~ In ".." (split_char slash name) ->
  within (abs_path bs) (write_path (abs_path bs) name).
Proof. apply write_within. Qed.
Print Assumptions C66_within_partial.
(** and it is at its name, so different names do not meet. *)
Theorem C66_named bs rs : ok_comps bs -> ok_comps rs -> rs <> [] -> write_path (abs_path bs) (join "/" rs) = abs_path (bs ++ rs).
Proof. apply write_ok. Qed.
Print Assumptions C66_named.
Example C66_ex : write_path "/c/protobuf/3.11.0" "include/google/protobuf/any.proto" = "/c/protobuf/3.11.0/include/google/protobuf/any.proto".
Proof. reflexivity. Qed.
Theorem C66_slip_refuted : ~ (forall bs name, ok_comps bs -> name <> "" -> within (abs_path bs) (write_path (abs_path bs) name)).
Proof.
  intros H. destruct (H ["c"] "../etc/x") as (ds & rs & Hd & Hr & E1 & E2); [oks|discriminate|].
  apply abs_path_inj in E1; [|oks|exact Hd]. subst ds. change (write_path (abs_path ["c"]) "../etc/x") with (abs_path ["etc"; "x"]) in E2.
  apply abs_path_inj in E2; [discriminate|oks|apply ok_comps_app; split; [oks|exact Hr]].
Qed.
Print Assumptions C66_slip_refuted.
