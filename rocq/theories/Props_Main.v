(** Properties of the whole program: C81 (what it may do), C82 (nothing is remembered). *)
From Verif Require Import GoStrFacts Exec_Spec Cmd_Spec Cmd_Proofs3 Main_Model Main_Spec Main_Proofs Main_Proofs2 Main_Proofs3 Main_Proofs4.
From Coq Require Import Permutation.

Lemma visits_ok ord : visits_all ord -> visits ord.
Proof. intros V place A l x I. apply (Permutation_in x (Permutation_sym (V place A l))), I. Qed.

(** C81: whatever the words on the command line are, everything that is done is allowed by
    them. *)
Theorem C81_effects : forall w cwd args s s' st,
  visits_all (w_order w) -> w_getwd w = Ok cwd -> main w args s = (s', st) ->
  exists es, io_done s' = io_done s ++ es /\ Forall (may_do cwd (w_temp_file w) (w_temp_dir w) args) es.
Proof.
  intros w cwd args s s' st V D E. destruct (main_does w args (visits_ok _ V) s) as (es & H & F & _). rewrite E, D in *.
  exists es. auto.
Qed.
Print Assumptions C81_effects.
(** Files change only as allowed, that is not at all without one of the commands. *)
Theorem C81_files : forall w cwd args s s' st p,
  visits_all (w_order w) -> w_getwd w = Ok cwd -> main w args s = (s', st) ->
  io_disk s' p <> io_disk s p -> may_change cwd (w_temp_file w) args p.
Proof.
  intros w cwd args s s' st p V D E N. destruct (main_does w args (visits_ok _ V) s) as (es & _ & F & W). rewrite E, D in *.
  destruct (W p N) as (d & I). rewrite Forall_forall in F. specialize (F _ I). now inversion F.
Qed.
Print Assumptions C81_files.
Theorem C81_untouched : forall w args s s' st,
  visits_all (w_order w) -> main w args s = (s', st) ->
  (forall c, In c ["create"; "config"; "format"; "all"; "descriptor-set"] -> ~ In c args) ->
  io_disk s' = io_disk s.
Proof.
  intros w args s s' st V E N. destruct (main_does w args (visits_ok _ V) s) as (es & H & F & W). 
  destruct (main_framed w args (io_disk s)) as (es' & d & z & E' & K). destruct s as [disk done]. cbn [io_disk] in *. rewrite (E' done) in *.
  injection E as <- <-. cbn [io_disk io_done fst] in *. apply app_inv_head in H. subst es'.
  apply K. intros p x I. rewrite Forall_forall in F. specialize (F _ I). inversion F as [|? ? M| | | | | | | | | |]; subst.
  destruct M as [f C _ _|C _|f C _ _|C _ _|C _|C _ _ _|C _ _]; (eapply N; [|apply C; left; reflexivity]); cbn; tauto.
Qed.
Print Assumptions C81_untouched.

(** A line that is meant to read only reads: nothing is written, generated, removed or
    called, at most protoc is run to check the files. *)
Theorem C81_only_reads : forall w args c items rest s s' st,
  visits_all (w_order w) -> (w_goos w = "darwin" \/ w_goos w = "linux") ->
  means (w_read_csv w) args c items rest -> only_reads c items -> main w args s = (s', st) ->
  io_disk s' = io_disk s /\
  exists es, io_done s' = io_done s ++ es /\ Forall (fun e => e = Compiled false \/ exists t, e = Printed t) es.
Proof.
  intros w args c items rest s s' st V G (more & Hc & I & -> & N & ->) R E.
  assert (W : exists walk, walk_asked (w_parse_duration w) items walk) by (unfold walk_asked; destruct (String.eqb _ _); eauto).
  destruct W as (walk & W).
  destruct (line_runs (w_read_csv w) (w_goos w) (w_getenv w) (w_getwd w) (w_parse_duration w) (w_usage w) (w_help w) (w_suggestions w)
    (w_help_topic w) (Main_Model.method w) c items more walk G Hc I N W) as (k & K & L).
  set (P := fun e => e = Compiled false \/ exists t, e = Printed t).
  assert (A : process_does P (main w (c_words c ++ concat (map (spell c) items) ++ tail_words more))).
  { unfold main. rewrite L. apply process_ok; [intros t; right; eauto|]. apply checked. intros r _.
    apply (does_weaken (may w r k)); [|apply method_may, visits_ok, V].
    unfold asked in K. intros e M. unfold P.
    destruct R as [R|[[R O]|[[R O]|[[R O]|[R [O O']]]]]].
    - cbn [In] in R. repeat (destruct R as [R|R]); [..|destruct R]; rewrite <- R in K; injection K as <-;
        (destruct e as [?|[]|? ?|?|?|?|?|?|?]; cbn in M; try contradiction M; eauto).
    - rewrite R in K. injection K as <-. rewrite O in M. destruct e as [?|[]|? ?|?|?|?|?|?|?]; cbn in M; try contradiction M; eauto.
      destruct M as [M _]; discriminate M.
    - rewrite R in K. injection K as <-. rewrite O in M. destruct e as [?|[]|? ?|?|?|?|?|?|?]; cbn in M; try contradiction M; eauto.
      discriminate M.
    - rewrite R in K. injection K as <-. destruct e as [?|[]|? ?|?|?|?|?|?|?]; cbn in M; try contradiction M; eauto;
        destruct M as [M _]; contradiction.
    - rewrite R in K. injection K as <-. rewrite O, O' in M. destruct e as [?|[]|? ?|?|?|?|?|?|?]; cbn in M; try contradiction M; eauto.
      destruct M as [[M _]|[M _]]; [contradiction|discriminate M]. }
  destruct (A s) as (es & H & F & _).
  destruct (main_framed w (c_words c ++ concat (map (spell c) items) ++ tail_words more) (io_disk s)) as (es' & d & z & E' & Q).
  destruct s as [disk done]. cbn [io_disk] in *. rewrite E' in *.
  injection E as <- <-. cbn [io_disk io_done fst] in *. apply app_inv_head in H. subst es'. split; [|exists es; auto].
  apply Q. intros p x J. rewrite Forall_forall in F. destruct (F _ J) as [X|(t & X)]; discriminate X.
Qed.
Print Assumptions C81_only_reads.

(** C82: the program remembers nothing: with the same files it does the same. *)
Theorem C82_same_files : forall w args s1 s2, io_disk s1 = io_disk s2 ->
  exists es disk st, main w args s1 = (mk_io disk (io_done s1 ++ es), st) /\ main w args s2 = (mk_io disk (io_done s2 ++ es), st).
Proof.
  intros w args [d1 l1] [d2 l2] H. cbn in H. subst d2. destruct (main_framed w args d1) as (es & d & z & E & _).
  exists es, d, z. split; apply E.
Qed.
Print Assumptions C82_same_files.
(** After any number of lines that only read, a line does what it would have done first. *)
Theorem C82_history : forall w lines args s,
  visits_all (w_order w) -> (w_goos w = "darwin" \/ w_goos w = "linux") ->
  Forall (fun l => exists c items args, means (w_read_csv w) l c items args /\ only_reads c items) lines ->
  let s' := after (main w) lines s in
  io_disk s' = io_disk s /\
  exists es disk st, main w args s = (mk_io disk (io_done s ++ es), st) /\ main w args s' = (mk_io disk (io_done s' ++ es), st).
Proof.
  intros w lines args s V G F s'.
  assert (E : io_disk s = io_disk s').
  { unfold s'. clear s' args. revert s. induction F as [|l lines (c & items & rest & M & R) F IH]; intros s; [reflexivity|].
    cbn [after]. destruct (main w l s) as [s1 st] eqn:E. cbn [fst]. rewrite <- IH. symmetry.
    now apply (C81_only_reads w l c items rest s s1 st V G M R E). }
  split; [now symmetry|]. now apply C82_same_files.
Qed.
Print Assumptions C82_history.

(** A world to show that the hypotheses can be met: one directory with one file. *)
Definition exw_node (p : string) : node :=
  if String.eqb p "/w" then NDir [("a.proto", NFile); ("b.txt", NFile)] else if String.eqb p "/w/a.proto" then NFile else NBroken.
Definition exw_stat (p : string) : result file_kind :=
  if mem p ["/w"; "."] then Ok Exec_Model.Directory else if String.eqb p "/w/a.proto" then Ok Exec_Model.Regular else Err "no such file".
Definition exw : world := mk_world "linux" "amd64" "go1.13" (fun v => if String.eqb v "HOME" then "/home" else "") (Ok "/w") (fun s => if String.eqb s "3s" then Ok 3%Z else Err "bad time")
  (fun s => Ok [s]) (fun _ => "usage") (fun _ => "help") (fun _ => "") (fun _ => "topic")
  (fun _ A l => l) exw_stat exw_node (fun _ => None) (fun _ _ => None) (fun _ => None) (Ok "/tmp/f") (Ok "/tmp/d") (fun _ => Err "not found")
  (fun _ _ => None) (fun _ => Err "no json") (fun _ => Err "no yaml") (fun _ => Ok "")
  (fun l => l) (fun l => l) (fun l => l) (fun _ _ => Ok []) (fun s => s) (fun _ _ _ => Ok "")
  (fun _ => Ok tt) (fun s => s) (fun _ => NotExist) (fun _ => Ok "/tmp/p") (fun _ _ => Protoc_Model.Ended "" Protoc_Model.NoError)
  (fun _ _ _ => Ok []) (fun n => seq 0 n) (fun _ n => n) (fun s => s) (fun _ => Ok "") (fun _ => Ok "") (fun _ => Ok [])
  (fun _ => Ok tt) (fun _ => Ok tt) (fun _ => Ok tt) (fun _ => Ok tt) (fun _ => Ok tt) (fun _ _ => ([], None)).
Definition exw_disk (p : string) : result string := if String.eqb p "/w/a.proto" then Ok "syntax = ""proto3"";" else Err "no such file".
Definition exw_s : io := mk_io exw_disk [].
Example exw_visits : visits_all (w_order exw).
Proof. intros place A l. apply Permutation_refl. Qed.
Example C81_effects_ex : main exw ["create"; "d.proto"] exw_s =
  (fst (main exw ["create"; "d.proto"] exw_s), 0%Z) /\ io_disk (fst (main exw ["create"; "d.proto"] exw_s)) "/w/d.proto" <> exw_disk "/w/d.proto".
Proof. split; [vm_compute; reflexivity|vm_compute; discriminate]. Qed.
Example C81_files_ex : io_disk (fst (main exw ["config"; "init"; "/v"] exw_s)) "/v/prototool.yaml" <> exw_disk "/v/prototool.yaml".
Proof. vm_compute. discriminate. Qed.
Example C81_untouched_ex : main exw ["files"; "--walk-timeout"; "3s"] exw_s = (mk_io exw_disk [Printed ("a.proto" +++ String newline "")], 0%Z).
Proof. vm_compute. reflexivity. Qed.
Example C81_only_reads_ex : exists c items, means (w_read_csv exw) ["format"; "."; "--overwrite=false"; "--lint"] c items ["."] /\ only_reads c items.
Proof.
  exists (mk_command ["format"]
    (compiling ++ [("diff", OnOff); ("error-format", Text); ("fix", OnOff); ("json", OnOff); ("lint", OnOff); ("overwrite", OnOff)])
    [("diff", "d"%char); ("fix", "f"%char); ("lint", "l"%char); ("overwrite", "w"%char)] 0 (Some 1)),
    [Plain "."; Given "overwrite" LongEquals "false"; Given "lint" LongAlone "true"].
  split; [|right; left; split; reflexivity]. exists None. split; [cbn; tauto|]. split; [|split; [reflexivity|split; [split; cbn; auto with arith|reflexivity]]].
  assert (NS : forall w, w = LongEquals \/ w = LongAlone -> ~ is_short w) by (intros w [-> | ->] [X|[X|X]]; discriminate X).
  constructor; [right; intros r; discriminate|]. constructor; [|constructor; [|constructor]].
  - split; [intros X; destruct (NS _ (or_introl eq_refl) X)|]. split; [discriminate|]. exists OnOff. unfold takes. cbn. tauto.
  - split; [intros X; destruct (NS _ (or_intror eq_refl) X)|]. split; [discriminate|]. exists OnOff. unfold takes. cbn. tauto.
Qed.
(** A whole run: the files are checked with protoc and linted. *)
Example C82_same_files_ex : exists es, es <> [] /\ 
  main exw ["lint"] exw_s = (mk_io exw_disk es, 255%Z) /\ main exw ["lint"] (mk_io exw_disk [Printed "before"]) = (mk_io exw_disk (Printed "before" :: es), 255%Z).
Proof. eexists. split; [|split; vm_compute; reflexivity]. discriminate. Qed.
Example C82_history_ex : Forall (fun l => exists c items args, means (w_read_csv exw) l c items args /\ only_reads c items) [["files"]; ["version"]] /\
  io_done (after (main exw) [["files"]; ["version"]] exw_s) <> [].
Proof.
  split; [|vm_compute; discriminate].
  constructor; [|constructor; [|constructor]].
  - exists (mk_command ["files"] [("config-data", Text); ("walk-timeout", Text)] [] 0 (Some 1)), [], []. split; [|left; cbn; tauto].
    exists None. split; [cbn; tauto|]. split; [constructor|]. split; [reflexivity|]. split; [split; cbn; auto|reflexivity].
  - exists (mk_command ["version"] [("json", OnOff)] [] 0 (Some 0)), [], []. split; [|left; cbn; tauto].
    exists None. split; [cbn; tauto|]. split; [constructor|]. split; [reflexivity|]. split; [split; cbn; auto|reflexivity].
Qed.
