(** What the methods of the runner do to the world. *)
From Verif Require Import GoStrFacts.
From Verif Require Import Main_Model.

Lemma result_string_dec (a b : result string) : {a = b} + {a <> b}.
Proof. decide equality; apply string_dec. Qed.

(** Everything that [c] does is allowed by [P], and a file changes only by being written. *)
Definition does {A} (P : event -> Prop) (c : cmd A) : Prop := forall s,
  exists es, io_done (fst (c s)) = io_done s ++ es /\ Forall P es /\
    (forall p, io_disk (fst (c s)) p <> io_disk s p -> exists d, In (Wrote p d) es).

Section Does.
  Variable P : event -> Prop.
  Lemma does_nothing {A} (o : io -> outcome A) : does P (fun s => (s, o s)).
  Proof. intros s. exists []. cbn. rewrite app_nil_r. split; [reflexivity|]. split; [constructor|]. intros p H. now destruct H. Qed.
  Lemma does_ret {A} (a : A) : does P (ret a).
  Proof. apply (does_nothing (fun _ => Value a)). Qed.
  Lemma does_exit {A} m : does P (@exit255 A m).
  Proof. apply (does_nothing (fun _ => Exit m)). Qed.
  Lemma does_fail {A} m : does P (@fail A m).
  Proof. apply (does_nothing (fun _ => Fail m)). Qed.
  Lemma does_check {A} (x : result A) : does P (Exec_Model.check x).
  Proof. destruct x; [apply does_ret|apply does_fail]. Qed.
  Lemma does_then {A B} (c : cmd A) (k : A -> cmd B) : does P c -> (forall a, does P (k a)) -> does P (and_then c k).
  Proof.
    intros C K s. destruct (C s) as (es & D & F & W). unfold and_then. destruct (c s) as [s1 [a|m|m]]; cbn [fst] in *; eauto.
    destruct (K a s1) as (es' & D' & F' & W'). exists (es ++ es'). rewrite D', D, app_assoc. split; [reflexivity|].
    split; [now apply Forall_app|]. intros p H.
    destruct (result_string_dec (io_disk s1 p) (io_disk s p)) as [E|E].
    - rewrite <- E in H. destruct (W' p H) as (d & I). exists d. apply in_app_iff. auto.
    - destruct (W p E) as (d & I). exists d. apply in_app_iff. auto.
  Qed.
  Lemma does_emit e : P e -> does P (emit e).
  Proof.
    intros H s. exists [e]. cbn. split; [reflexivity|]. split; [now repeat constructor|]. intros p N. now destruct N.
  Qed.
  Lemma does_print s : (forall t, P (Printed t)) -> does P (print s).
  Proof. intros H. now apply does_emit. Qed.
  Lemma does_println s : (forall t, P (Printed t)) -> does P (println s).
  Proof. intros H. unfold println. destruct (is_empty s); [apply does_ret|now apply does_print]. Qed.
  Lemma does_each {A} (f : A -> cmd unit) l : (forall x, In x l -> does P (f x)) -> does P (each f l).
  Proof.
    induction l as [|x l IH]; intros H; [apply does_ret|]. apply does_then; [apply H; now left|].
    intros _. apply IH. intros y I. apply H. now right.
  Qed.
  Lemma does_read p : does P (read_file p).
  Proof.
    intros s. exists []. unfold read_file. destruct (io_disk s p); cbn; rewrite app_nil_r;
      (split; [reflexivity|]; split; [constructor|intros q H; now destruct H]).
  Qed.
  Lemma does_write e p d : P (Wrote p d) -> does P (write_file e p d).
  Proof.
    intros H s. exists [Wrote p d]. unfold write_file.
    destruct (e p d) as [[r m]|]; cbn; (split; [reflexivity|]; split; [now repeat constructor|]); intros q N; exists d; left;
      (destruct (String.eqb q p) eqn:E; [apply String.eqb_eq in E; now subst|now destruct N]).
  Qed.
  (** What depends on the state only through reading it. *)
  Lemma does_state {A} (f : io -> cmd A) : (forall s, does P (f s)) -> does P (fun s => f s s).
  Proof. intros H s. apply (H s s). Qed.
  Lemma does_state_disk {A} (f : (string -> result string) -> cmd A) : (forall k, does P (f k)) -> does P (fun s => f (io_disk s) s).
  Proof. intros H s. apply (H (io_disk s) s). Qed.
  Lemma does_deferred {A} (c : cmd A) e : does P c -> P e -> does P (deferred c e).
  Proof.
    intros H E s. destruct (H s) as (es & D & F & W). unfold deferred. destruct (c s) as [s1 o]; cbn in *.
    exists (es ++ [e]). rewrite D, app_assoc. split; [reflexivity|]. split; [apply Forall_app; auto|].
    intros p N. destruct (W p N) as (d & I). exists d. apply in_app_iff. auto.
  Qed.
End Does.
Lemma does_weaken {A} (P Q : event -> Prop) (c : cmd A) : (forall e, P e -> Q e) -> does P c -> does Q c.
Proof.
  intros H C s. destruct (C s) as (es & D & F & W). exists es. split; [assumption|]. split; [|assumption]. eapply Forall_impl; eauto.
Qed.

Ltac doing :=
  repeat first
    [ assumption | apply does_ret | apply does_exit | apply does_fail | apply does_check
    | apply does_print | apply does_println | apply does_read
    | apply does_each; intros ? ?
    | apply does_then; [|intros ?]
    | match goal with
      | |- does _ (if ?b then _ else _) => destruct b
      | |- does _ (match ?x with _ => _ end) => destruct x
      | |- forall t, _ (Printed t) => assumption
      end ].

(** Visiting a map shows its entries and nothing else. *)
Definition visits (ord : map_order) : Prop := forall place A (l : list A) x, In x (ord place A l) -> In x l.

Section Commands.
  Variable P : event -> Prop.
  Hypothesis Hp : forall t, P (Printed t).
  Lemma does_get_meta work stat get args : does P (get_meta work stat get args).
  Proof. unfold get_meta. doing. Qed.
  Lemma does_print_failures_for cwd json to_json format filename m fs : does P (print_failures_for cwd json to_json format filename m fs).
  Proof. unfold print_failures_for. doing. Qed.
  Lemma does_report cwd format json to_json m fs : does P (report cwd format json to_json m fs).
  Proof. unfold report, print_failures. apply does_then; [apply does_print_failures_for|intros _]. doing. Qed.
  Lemma does_do_compile cwd format json to_json D compiler gen set full m : P (Compiled gen) ->
    does P (do_compile cwd format json to_json D compiler gen set full m).
  Proof.
    intros H. unfold do_compile. apply does_then; [now apply does_emit|intros _].
    apply does_then; [apply (does_state P (fun s => Exec_Model.check (compiler gen set full (io_disk s) (m_set m)))); intros; apply does_check|intros ?].
    apply does_then; [apply does_report|intros _]. doing.
  Qed.
  Lemma does_compile cwd format json to_json D compiler commands gen set dry_run m : (dry_run = false -> P (Compiled gen)) ->
    does P (compile cwd format json to_json D compiler commands gen set dry_run m).
  Proof. intros H. unfold compile. destruct dry_run; [doing|]. now apply does_do_compile, H. Qed.
  Lemma does_lint cwd format json to_json run_lint m : does P (lint cwd format json to_json run_lint m).
  Proof.
    unfold lint. apply does_then; [|intros; apply does_report].
    apply (does_state P (fun s => Exec_Model.check (run_lint (io_disk s) (m_set m) false))). intros; apply does_check.
  Qed.
  (** Formatting writes files of the set, and only if told to. *)
  Lemma does_format_file cwd format json to_json transform diff write_error overwrite diff_mode lint_mode fix_flag m f :
    (overwrite = true -> forall d, P (Wrote (pf_path f) d)) ->
    does P (format_file cwd format json to_json transform diff write_error overwrite diff_mode lint_mode fix_flag m f).
  Proof.
    intros H. unfold format_file, print_failures. destruct (_ && _); [apply does_ret|].
    apply does_then; [apply does_read|intros input]. apply does_then; [apply does_check|intros [data fs]].
    destruct fs; [|apply does_then; [apply does_print_failures_for|intros; apply does_ret]].
    destruct (negb _); [|doing].
    destruct overwrite; [apply does_then; [apply does_write; auto|intros; apply does_ret]|].
    destruct lint_mode; [apply does_then; [apply does_print_failures_for|intros; apply does_ret]|]. doing.
  Qed.
  Lemma does_format ord cwd format json to_json transform diff write_error overwrite diff_mode lint_mode fix_flag m :
    visits ord -> (overwrite = true -> forall d fs f x, In (d, fs) (ps_files (m_set m)) -> In f fs -> P (Wrote (pf_path f) x)) ->
    does P (Exec_Model.format ord cwd format json to_json transform diff write_error overwrite diff_mode lint_mode fix_flag m).
  Proof.
    intros V H. unfold Exec_Model.format. apply does_then; [|intros []; doing].
    set (fs := concat _).
    assert (G : forall f, In f fs -> overwrite = true -> forall x, P (Wrote (pf_path f) x)).
    { intros f I O x. unfold fs in I. apply in_concat in I as (l & I & J). apply in_map_iff in I as ([d l'] & <- & I).
      apply filter_In in I as [I _]. apply V in I. eapply H; eauto. }
    clearbody fs. clear H. generalize true as ok. induction fs as [|f fs IH]; intros ok; cbn [format_files]; [apply does_ret|].
    apply does_then; [apply does_format_file; intros; apply G; [now left|assumption]|].
    intros ok'. apply IH. intros g I. apply G. now right.
  Qed.
End Commands.
