(** C109: the order in which maps are ranged over, in which the runs of protoc end, and the way in
    which slices grow decide nothing. *)
From Coq Require Import Permutation.
From Verif Require Import GoStrFacts Exec_Spec Cmd_Spec Main_Model Main_Spec Main_Proofs7 Props_Main Props_Main2 Props_Main3 Props_Main4 Props_Main5 Props_Main12 Props_Main15.
From Verif Require Import Chance_Spec Chance_Proofs2 Chance_Proofs3.

(** The commands that only read the files, or make a new one. *)
Definition settles (c : command) (items : list item) : Prop :=
  In (c_words c) [["cache"; "delete"]; ["cache"; "update"]; ["config"; "init"]; ["create"]; ["files"]; ["lint"]; ["version"]] \/
  (c_words c = ["compile"] /\ on items "dry-run" = false).

Lemma println_same m s s' : eqv s s' -> eqv (fst (println m s)) (fst (println m s')).
Proof.
  intros (D & P). unfold println. destruct (is_empty m); [split; assumption|]. unfold print, emit. cbn [fst]. split; cbn [io_disk io_done]; [exact D|]. now apply Permutation_app_tail.
Qed.
Lemma options_here w cwd items r : w_getwd w = Ok cwd -> the_options w items = Ok r -> here r = cwd.
Proof.
  intros G. unfold the_options. rewrite G. destruct (if String.eqb (text items "walk-timeout") "" then Ok 0%Z else w_parse_duration w (text items "walk-timeout")) as [z|]; [|discriminate]. cbn [bind].
  intros [= <-]. reflexivity.
Qed.

Section Chance.
  Variable w : world.
  Variable cwd : string.
  Hypothesis O : ordinary w cwd.
  Hypothesis PO : protoc_ordinary w.
  Variable order : map_order.
  Variable ended : nat -> list nat.
  Variable grow : nat -> nat -> nat.
  Hypothesis V' : visits_all order.
  Hypothesis E' : ends_once ended.
  Notation w' := (other_chance w order ended grow).

  Lemma line_same (R : io -> io -> Prop) (ks : Cmd_Model.call -> Prop) : (forall a, R a a) -> (forall a b m, R a b -> R (fst (println m a)) (fst (println m b))) ->
    (forall r k s, here r = cwd -> ks k -> ends_same R (Main_Model.method w r k s) (Main_Model.method w' r k s)) ->
    forall l c items args s s1 z s2 z', means (w_read_csv w) l c items args -> (forall k, asked (w_read_csv w) c items args = Some k -> ks k) ->
      main w l s = (s1, z) -> main w' l s = (s2, z') -> z = z' /\ (z <> 1%Z -> R s1 s2).
  Proof.
    intros Rr Rp K l c items args s s1 z s2 z' M A. destruct O as (V & G & Wd & Cl & Nm & St).
    destruct (line_is w l c items args G M) as (k & Ak & L). destruct (line_is w' l c items args G M) as (k' & Ak' & L').
    change (w_read_csv w') with (w_read_csv w) in Ak'. assert (k' = k) as -> by congruence. rewrite L, L'. change (the_options w' items) with (the_options w items).
    destruct (the_options w items) as [r|m] eqn:Op.
    - rewrite !with_options. apply process_ends_same; [exact Rp|]. apply K; [exact (options_here w cwd items r Wd Op)|]. now apply A.
    - rewrite !no_options. intros [= <- <-] [= <- <-]. auto.
  Qed.

  (** Two runs end with the same status, having said and done the same in the same order; only
      when something went wrong may another message say what. *)
  Theorem C109_same : forall l c items args s s1 z s2 z', means (w_read_csv w) l c items args -> settles c items ->
    main w l s = (s1, z) -> main w' l s = (s2, z') -> z = z' /\ (z <> 1%Z -> s1 = s2).
  Proof.
    intros l c items args s s1 z s2 z' M S. destruct O as (V & G & Wd & Cl & Nm & St), PO as (T & E).
    apply (line_same eq (fun k => settled k = true)) with (c := c) (items := items) (args := args); [reflexivity|now intros a b m <-| |exact M|].
    - intros r k t H K. apply method_same; (exact V || exact V' || exact E || exact E' || exact T || exact K).
    - intros k. unfold asked. destruct S as [S|(W & D)]; [|rewrite W, D; intros [= <-]; reflexivity].
      cbn [In] in S. destruct S as [W|[W|[W|[W|[W|[W|[W|[]]]]]]]]; rewrite <- W; try (intros [= <-]; reflexivity).
  Qed.
  (** format, and the commands that compile --dry-run prints: the same files are left, and the
      same is said, maybe in another order. *)
  Theorem C109_reordered : forall l c items args s s1 z s2 z', means (w_read_csv w) l c items args -> c_words c = ["format"] \/ c_words c = ["compile"] ->
    main w l s = (s1, z) -> main w' l s = (s2, z') -> z = z' /\ (z <> 1%Z -> same_but_order s1 s2).
  Proof.
    intros l c items args s s1 z s2 z' M S. destruct O as (V & G & Wd & Cl & Nm & St), PO as (T & E).
    apply (line_same eqv (fun k => exists a b d e f, k = Cmd_Model.CallFormat a b d e f \/ k = Cmd_Model.CallCompile a b)) with (c := c) (items := items) (args := args);
      [apply eqv_refl|intros a b m; apply println_same| |exact M|].
    - intros r k t H (a & b & d & e & f & [-> | ->]).
      + apply format_cmd_same; (exact V || exact V' || exact E || exact E' || exact T || exact Nm || exact St || (rewrite H; exact Cl)).
      + destruct b; [apply compile_dry_same|apply eqv_eq, compile_cmd_same]; (exact V || exact V' || exact E || exact E' || exact T || exact Nm || exact St || (rewrite H; exact Cl)).
    - intros k. unfold asked. destruct S as [W|W]; rewrite W; intros [= <-].
      + do 5 eexists. left. reflexivity.
      + exists args, (on items "dry-run"), false, false, false. right. reflexivity.
  Qed.
End Chance.
Print Assumptions C109_same.
Print Assumptions C109_reordered.

(** ** Examples: two directories, visited in one order and in the other. *)
Definition backwards (w : world) : world := other_chance w (fun _ _ l => rev l) (fun n => List.seq 0 n) (fun _ n => n + 5).
Lemma backwards_fine : visits_all (fun _ _ l => rev l) /\ ends_once (fun n => List.seq 0 n).
Proof. split; [intros place A l; apply Permutation_rev|intros n; reflexivity]. Qed.
Lemma exw15_protoc : protoc_ordinary exw15.
Proof. split; [intros [|n] f [= <-]; discriminate|]. intros n. symmetry. apply Permutation_rev. Qed.
Example C109_same_ex : ordinary exw15 "/w" /\ protoc_ordinary exw15 /\
  means (w_read_csv exw15) ["lint"] (exw_command ["lint"]) [] [] /\ settles (exw_command ["lint"]) [] /\
  snd (main exw15 ["lint"] exw15_s) = 255%Z /\ main (backwards exw15) ["lint"] exw15_s = main exw15 ["lint"] exw15_s /\
  main (backwards exw15) ["files"] exw15_s = (mk_io (io_disk exw15_s) (Main_Spec.shown ["a.proto"; "b/bad.proto"]), 0%Z).
Proof.
  split; [exact exw15_ordinary|]. split; [exact exw15_protoc|]. split. { exists None. split; [cbn; tauto|]. split; [constructor|]. split; [reflexivity|]. split; [split; cbn; auto with arith|reflexivity]. }
  split; [left; cbn; tauto|]. split; [vm_compute; reflexivity|]. split; vm_compute; reflexivity.
Qed.
Lemma format_lint_means : means (w_read_csv exw15) ["format"; "--lint"] (exw_command ["format"]) [Given "lint" LongAlone "true"] [].
Proof.
  exists None. split; [cbn; tauto|]. split; [|split; [reflexivity|split; [split; cbn; auto with arith|reflexivity]]]. constructor; [|constructor].
  split; [intros [H|[H|H]]; discriminate H|]. split; [discriminate|]. exists OnOff. unfold takes. cbn. tauto.
Qed.
Definition untidy_file (name : string) : event := Printed (name +++ ":1:1:Format returned a diff." +++ String newline "").
Example C109_reordered_ex : ordinary exw15 "/w" /\ protoc_ordinary exw15 /\
  means (w_read_csv exw15) ["format"; "--lint"] (exw_command ["format"]) [Given "lint" LongAlone "true"] [] /\
  main exw15 ["format"; "--lint"] exw15_s = (mk_io (io_disk exw15_s) [Compiled false; untidy_file "a.proto"; untidy_file "b/bad.proto"], 255%Z) /\
  main (backwards exw15) ["format"; "--lint"] exw15_s = (mk_io (io_disk exw15_s) [Compiled false; untidy_file "b/bad.proto"; untidy_file "a.proto"], 255%Z).
Proof. split; [exact exw15_ordinary|]. split; [exact exw15_protoc|]. split; [exact format_lint_means|]. split; vm_compute; reflexivity. Qed.
(** What format reports about several directories comes in any order. *)
Theorem C109_output_refuted : ~ (forall w cwd order ended grow l c items args s s1 z s2 z',
  ordinary w cwd -> protoc_ordinary w -> visits_all order -> ends_once ended -> means (w_read_csv w) l c items args -> c_words c = ["format"] ->
  main w l s = (s1, z) -> main (other_chance w order ended grow) l s = (s2, z') -> z <> 1%Z -> io_done s1 = io_done s2).
Proof.
  intros H. destruct C109_reordered_ex as (Ow & Op & M & A & B).
  specialize (H exw15 "/w" _ _ _ _ _ _ _ _ _ _ _ _ Ow Op (proj1 backwards_fine) (proj2 backwards_fine) M eq_refl A B ltac:(discriminate)). discriminate H.
Qed.
Print Assumptions C109_output_refuted.
(** When a file cannot be written, other files have been rewritten before that, or not. *)
Definition exw19 : world := mk_world "linux" "amd64" "go1.13" (fun v => if String.eqb v "HOME" then "/home" else "") (Ok "/w") (fun s => if String.eqb s "3s" then Ok 3%Z else Err "bad time")
  (fun s => Ok [s]) (fun _ => "usage") (fun _ => "help") (fun _ => "") (fun _ => "topic")
  (fun _ A l => l) exw15_stat exw15_node (fun _ => None) (fun p _ => if String.eqb p "/w/b/bad.proto" then Some (Ok "text", "permission denied") else None) (fun _ => None) (Ok "/tmp/f") (Ok "/tmp/d") (fun _ => Err "not found")
  (fun _ _ => None) (fun _ => Err "no json") (fun _ => Err "no yaml") (fun _ => Ok "")
  (fun l => l) (fun l => l) (fun l => l) (fun _ _ => Ok []) (fun s => s) (fun _ _ _ => Ok "")
  (fun _ => Ok tt) (fun s => s) (fun _ => NotExist) exw12_temp (fun _ _ => Protoc_Model.Ended "" Protoc_Model.NoError)
  (fun _ _ _ => Ok []) (fun n => List.seq 0 n) (fun _ n => n) (fun s => s) (fun _ => Ok "") (fun _ => Ok "") (fun _ => Ok [])
  (fun _ => Ok tt) (fun _ => Ok tt) (fun _ => Ok tt) (fun _ => Ok tt) (fun _ => Ok tt) (fun _ _ => ([], None)).
Theorem C109_failed_refuted : ~ (forall w cwd order ended grow l c items args s s1 z s2 z',
  ordinary w cwd -> protoc_ordinary w -> visits_all order -> ends_once ended -> means (w_read_csv w) l c items args -> c_words c = ["format"] ->
  main w l s = (s1, z) -> main (other_chance w order ended grow) l s = (s2, z') -> forall q, io_disk s1 q = io_disk s2 q).
Proof.
  intros H.
  assert (Ow : ordinary exw19 "/w") by (destruct exw15_ordinary as (V & G & Wd & Cl & Nm & St); repeat split; assumption).
  assert (Op : protoc_ordinary exw19) by (split; [intros [|n] f [= <-]; discriminate|intros n; reflexivity]).
  assert (M : means (w_read_csv exw19) ["format"; "--overwrite"] (exw_command ["format"]) [Given "overwrite" LongAlone "true"] []).
  { exists None. split; [cbn; tauto|]. split; [|split; [reflexivity|split; [split; cbn; auto with arith|reflexivity]]]. constructor; [|constructor].
    split; [intros [X|[X|X]]; discriminate X|]. split; [discriminate|]. exists OnOff. unfold takes. cbn. tauto. }
  pose proof (fun s1 z s2 z' A B => H exw19 "/w" _ _ (fun _ n => n + 5) _ _ _ _ exw15_s s1 z s2 z' Ow Op (proj1 backwards_fine) (proj2 backwards_fine) M eq_refl A B "/w/a.proto") as K.
  specialize (K _ _ _ _ (surjective_pairing _) (surjective_pairing _)). vm_compute in K. discriminate K.
Qed.
Print Assumptions C109_failed_refuted.
