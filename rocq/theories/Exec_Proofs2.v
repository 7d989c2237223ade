(** Proofs about the format command. *)
From Verif Require Import GoStrFacts.
From Verif Require Export Exec_Proofs.
From Coq Require Import Lia.

Section Formats.
  Variable ord : map_order.
  Variable cwd work_dir error_format : string.
  Variable json : bool.
  Variable to_json : failure -> string.
  Variable stat : string -> result file_kind.
  Variable get_for_dir : string -> string -> result proto_set.
  Variable D : Type.
  Variable compiler : bool -> bool -> option (bool * bool) -> (string -> result string) -> proto_set -> result (list failure * list D).
  Variable commands : bool -> proto_set -> result (list string).
  Variable transform : Z -> string -> string -> string -> string -> result (string * list failure).
  Variable diff : string -> string -> string -> result string.
  Variable write_error : string -> string -> option (result string * string).
  Notation format_file := (format_file cwd error_format json to_json transform diff write_error).
  Notation format_files := (format_files cwd error_format json to_json transform diff write_error).
  Notation format := (format ord cwd error_format json to_json transform diff write_error).
  Notation formatter := (formatter transform).

  Lemma formatter_is x m p i : transform (format_fix x m) (format_header x m) (format_java_prefix x m) p i = formatter x m p i.
  Proof. destruct x; reflexivity. Qed.

  (** What happens to the file with contents [c]. *)
  Definition put (s : io) (p : string) (w : option (result string)) (es : list event) : io :=
    mk_io (match w with None => io_disk s | Some c => fun q => if String.eqb q p then c else io_disk s q end) (io_done s ++ es).
  Lemma put_none s p es : put s p None es = adds s es.
  Proof. reflexivity. Qed.
  Definition skips (m : meta) (f : proto_file) : bool := negb (is_empty (m_single m)) && negb (String.eqb (pf_path f) (abs_clean cwd (m_single m))).

  (** The cases for one file. *)
  Inductive handled (o d l x : bool) (m : meta) (f : proto_file) (c : result string) : option (result string) -> list event -> outcome bool -> Prop :=
  | HSkip : skips m f = true -> handled o d l x m f c None [] (Value true)
  | HUnread e : skips m f = false -> c = Err e -> handled o d l x m f c None [] (Fail e)
  | HUnformatted input e : skips m f = false -> c = Ok input -> formatter x m (pf_path f) input = Err e -> handled o d l x m f c None [] (Fail e)
  | HFailures input data fs es r : skips m f = false -> c = Ok input -> formatter x m (pf_path f) input = Ok (data, fs) -> fs <> [] ->
      (forall s, print_failures_for cwd json to_json error_format (pf_display f) (Some m) fs s = (adds s es, r)) ->
      handled o d l x m f c None es (match r with Value _ => Value false | Exit e => Exit e | Fail e => Fail e end)
  | HSame data : skips m f = false -> c = Ok data -> formatter x m (pf_path f) data = Ok (data, []) ->
      handled o d l x m f c None (if negb o && negb l && negb d then [Printed data] else []) (Value true)
  | HWrite input data : skips m f = false -> c = Ok input -> formatter x m (pf_path f) input = Ok (data, []) -> input <> data -> o = true ->
      write_error (pf_path f) data = None -> handled o d l x m f c (Some (Ok data)) [Wrote (pf_path f) data] (Value true)
  | HWriteFails input data rest e : skips m f = false -> c = Ok input -> formatter x m (pf_path f) input = Ok (data, []) -> input <> data -> o = true ->
      write_error (pf_path f) data = Some (rest, e) -> handled o d l x m f c (Some rest) [Wrote (pf_path f) data] (Fail e)
  | HLint input data es r : skips m f = false -> c = Ok input -> formatter x m (pf_path f) input = Ok (data, []) -> input <> data -> o = false -> l = true ->
      (forall s, print_failures_for cwd json to_json error_format "" (Some m) [mk_failure (pf_display f) 0 0 "FORMAT_DIFF" "Format returned a diff."] s = (adds s es, r)) ->
      handled o d l x m f c None es (match r with Value _ => Value false | Exit e => Exit e | Fail e => Fail e end)
  | HDiff input data t : skips m f = false -> c = Ok input -> formatter x m (pf_path f) input = Ok (data, []) -> input <> data -> o = false -> l = false -> d = true ->
      diff input data (pf_display f) = Ok t -> handled o d l x m f c None [Printed t] (Value false)
  | HDiffFails input data e : skips m f = false -> c = Ok input -> formatter x m (pf_path f) input = Ok (data, []) -> input <> data -> o = false -> l = false -> d = true ->
      diff input data (pf_display f) = Err e -> handled o d l x m f c None [] (Fail e)
  | HPlain input data : skips m f = false -> c = Ok input -> formatter x m (pf_path f) input = Ok (data, []) -> input <> data -> o = false -> l = false -> d = false ->
      handled o d l x m f c None [Printed data] (Value false).

  Lemma and_then_adds {A B} (c : cmd A) (k : A -> cmd B) s es r : c s = (adds s es, r) ->
    and_then c k s = match r with Value a => k a (adds s es) | Exit e => (adds s es, Exit e) | Fail e => (adds s es, Fail e) end.
  Proof. intros E. unfold and_then. rewrite E. destruct r; reflexivity. Qed.

  Lemma file_handled o d l x m f c : exists w es r, handled o d l x m f c w es r /\
    forall s, io_disk s (pf_path f) = c -> format_file o d l x m f s = (put s (pf_path f) w es, r).
  Proof.
    unfold Exec_Model.format_file. destruct (skips m f) eqn:Sk.
    { exists None, [], (Value true). split; [now constructor|]. intros s _. unfold skips in Sk. rewrite Sk. unfold ret. rewrite put_none. now rewrite adds_nil. }
    unfold skips in Sk. rewrite Sk. destruct c as [input|e].
    2:{ exists None, [], (Fail e). split; [now apply HUnread|]. intros s E. unfold and_then at 1, read_file. rewrite E, put_none. now rewrite adds_nil. }
    destruct (formatter x m (pf_path f) input) as [[data fs]|e] eqn:T.
    2:{ exists None, [], (Fail e). split; [eapply HUnformatted; eauto|]. intros s E. unfold and_then at 1, read_file. rewrite E, formatter_is, T, put_none. cbn. now rewrite adds_nil. }
    assert (R : forall (k : string -> cmd bool) s, io_disk s (pf_path f) = Ok input -> and_then (read_file (pf_path f)) k s = k input s).
    { intros k s E. unfold and_then, read_file. now rewrite E. }
    destruct fs as [|f0 fs].
    - destruct (string_dec input data) as [->|N].
      + eexists None, _, _. split; [now apply HSame|]. intros s E. rewrite R by exact E. rewrite formatter_is, T. unfold and_then at 1, check, ret at 1. rewrite String.eqb_refl. cbn [negb].
        rewrite put_none. destruct (negb o && negb l && negb d); [reflexivity|]. unfold ret. now rewrite adds_nil.
      + assert (Ne : String.eqb input data = false) by now apply String.eqb_neq. destruct o.
        * destruct (write_error (pf_path f) data) as [[rest e]|] eqn:W.
          -- exists (Some rest), [Wrote (pf_path f) data], (Fail e). split; [eapply HWriteFails; eauto|]. intros s E. rewrite R by exact E. rewrite formatter_is, T. unfold and_then at 1, check, ret at 1. rewrite Ne. cbn [negb].
             unfold and_then at 1, write_file. rewrite W. reflexivity.
          -- exists (Some (Ok data)), [Wrote (pf_path f) data], (Value true). split; [eapply HWrite; eauto|]. intros s E. rewrite R by exact E. rewrite formatter_is, T. unfold and_then at 1, check, ret at 1. rewrite Ne. cbn [negb].
             unfold and_then at 1, write_file. rewrite W. reflexivity.
        * destruct l.
          -- destruct (print_failures_pure cwd json to_json error_format "" (Some m) [mk_failure (pf_display f) 0 0 "FORMAT_DIFF" "Format returned a diff."]) as (es & r & P & _).
             exists None, es, (match r with Value _ => Value false | Exit e => Exit e | Fail e => Fail e end). split; [eapply HLint; eauto|]. intros s E. rewrite R by exact E. rewrite formatter_is, T. unfold and_then at 1, check, ret at 1. rewrite Ne. cbn [negb].
             unfold print_failures. rewrite (and_then_adds _ _ _ _ _ (P s)). rewrite put_none. destruct r; reflexivity.
          -- destruct d.
             ++ destruct (diff input data (pf_display f)) as [t|e] eqn:Df.
                ** exists None, [Printed t], (Value false). split; [eapply HDiff; eauto|]. intros s E. rewrite R by exact E. rewrite formatter_is, T. unfold and_then at 1, check at 1, ret at 1. rewrite Ne. cbn [negb]. rewrite Df. reflexivity.
                ** exists None, [], (Fail e). split; [eapply HDiffFails; eauto|]. intros s E. rewrite R by exact E. rewrite formatter_is, T. unfold and_then at 1, check at 1, ret at 1. rewrite Ne. cbn [negb]. rewrite Df, put_none. cbn. now rewrite adds_nil.
             ++ exists None, [Printed data], (Value false). split; [eapply HPlain; eauto|]. intros s E. rewrite R by exact E. rewrite formatter_is, T. unfold and_then at 1, check at 1, ret at 1. rewrite Ne. reflexivity.
    - destruct (print_failures_pure cwd json to_json error_format (pf_display f) (Some m) (f0 :: fs)) as (es & r & P & _).
      exists None, es, (match r with Value _ => Value false | Exit e => Exit e | Fail e => Fail e end). split; [eapply HFailures; eauto; discriminate|]. intros s E. rewrite R by exact E. rewrite formatter_is, T. unfold and_then at 1, check, ret at 1.
      unfold print_failures. rewrite (and_then_adds _ _ _ _ _ (P s)). rewrite put_none. destruct r; reflexivity.
  Qed.

  (** Files one after the other: those that were handled, with what was done. *)
  Inductive went (o d l x : bool) (m : meta) : io -> list proto_file -> list (proto_file * option (result string) * list event * outcome bool) -> io -> Prop :=
  | WentNil s : went o d l x m s [] [] s
  | WentOn s f fs w es v hs s' : handled o d l x m f (io_disk s (pf_path f)) w es (Value v) ->
      went o d l x m (put s (pf_path f) w es) fs hs s' -> went o d l x m s (f :: fs) ((f, w, es, Value v) :: hs) s'
  | WentStop s f fs w es r : handled o d l x m f (io_disk s (pf_path f)) w es r -> (forall v, r <> Value v) ->
      went o d l x m s (f :: fs) [(f, w, es, r)] (put s (pf_path f) w es).
  Definition final (b : bool) (hs : list (proto_file * option (result string) * list event * outcome bool)) : outcome bool :=
    fold_left (fun acc h => match acc, snd h with
                            | Value a, Value b => Value (a && b)
                            | Value _, r => r
                            | r, _ => r
                            end) hs (Value b).
  Lemma final_stop (hs : list (proto_file * option (result string) * list event * outcome bool)) r : (forall b : bool, r <> Value b) ->
    fold_left (fun acc h => match acc, snd h with Value a, Value b => Value (a && b) | Value _, r => r | r, _ => r end) hs r = r.
  Proof. intros N. induction hs as [|h hs IH]; [reflexivity|]. cbn. destruct r; [now destruct (N a)|exact IH|exact IH]. Qed.

  Lemma files_went o d l x m fs : forall b s, exists hs s', went o d l x m s fs hs s' /\ format_files o d l x m b fs s = (s', final b hs).
  Proof.
    induction fs as [|f fs IH]; intros b s.
    - exists [], s. split; [constructor|reflexivity].
    - destruct (file_handled o d l x m f (io_disk s (pf_path f))) as (w & es & r & H & E). specialize (E s eq_refl).
      destruct r as [v|e|e].
      + destruct (IH (b && v) (put s (pf_path f) w es)) as (hs & s' & W & F). exists ((f, w, es, Value v) :: hs), s'. split; [eapply WentOn; eauto|].
        cbn [Exec_Model.format_files]. unfold and_then. rewrite E. exact F.
      + exists [(f, w, es, Exit e)], (put s (pf_path f) w es). split; [apply WentStop; [exact H|discriminate]|]. cbn [Exec_Model.format_files]. unfold and_then. now rewrite E.
      + exists [(f, w, es, Fail e)], (put s (pf_path f) w es). split; [apply WentStop; [exact H|discriminate]|]. cbn [Exec_Model.format_files]. unfold and_then. now rewrite E.
  Qed.

  (** With distinct paths each file is handled with its first contents. *)
  Definition h_file (h : proto_file * option (result string) * list event * outcome bool) : proto_file := fst (fst (fst h)).
  Definition h_put (h : proto_file * option (result string) * list event * outcome bool) := snd (fst (fst h)).
  Definition h_events (h : proto_file * option (result string) * list event * outcome bool) := snd (fst h).
  Definition h_result (h : proto_file * option (result string) * list event * outcome bool) := snd h.
  Lemma put_other s p w es q : q <> p -> io_disk (put s p w es) q = io_disk s q.
  Proof. intros N. unfold put. cbn. destruct w; [|reflexivity]. apply String.eqb_neq in N. now rewrite N. Qed.
  Lemma put_same s p w es : io_disk (put s p w es) p = match w with Some c => c | None => io_disk s p end.
  Proof. unfold put. cbn. destruct w; [|reflexivity]. now rewrite String.eqb_refl. Qed.

  Lemma went_spec o d l x m disk fs : forall s hs s', NoDup (map pf_path fs) -> (forall f, In f fs -> io_disk s (pf_path f) = disk (pf_path f)) ->
    went o d l x m s fs hs s' ->
    Forall (fun h => handled o d l x m (h_file h) (disk (pf_path (h_file h))) (h_put h) (h_events h) (h_result h)) hs /\
    (exists rest, fs = map h_file hs ++ rest /\ (rest = [] \/ exists h, In h hs /\ forall b, h_result h <> Value b)) /\
    io_done s' = io_done s ++ concat (map h_events hs) /\
    (forall h, In h hs -> io_disk s' (pf_path (h_file h)) = match h_put h with Some c => c | None => disk (pf_path (h_file h)) end) /\
    (forall q, (forall h, In h hs -> h_put h <> None -> q <> pf_path (h_file h)) -> io_disk s' q = io_disk s q).
  Proof.
    induction fs as [|f fs IH]; intros s hs s' N A W; inversion W; subst; clear W.
    - split; [constructor|]. split; [exists []; auto|]. cbn. rewrite app_nil_r. repeat split. intros h [].
    - cbn [map] in N. apply NoDup_cons_iff in N as (Nf & N).
      assert (Sf : io_disk s (pf_path f) = disk (pf_path f)) by (apply A; now left).
      assert (A' : forall g, In g fs -> io_disk (put s (pf_path f) w es) (pf_path g) = disk (pf_path g)).
      { intros g Hg. rewrite put_other; [apply A; now right|]. intros E. apply Nf. rewrite <- E. now apply in_map. }
      destruct (IH _ _ _ N A' ltac:(eassumption)) as (I1 & (rest & I2 & I3) & I4 & I5 & I6). split; [|split; [|split; [|split]]].
      * constructor; [|exact I1]. cbn. rewrite <- Sf. assumption.
      * exists rest. cbn. rewrite I2. split; [reflexivity|]. destruct I3 as [I3|(h & Hh & I3)]; [auto|]. right. exists h. split; [now right|exact I3].
      * rewrite I4. cbn. now rewrite app_assoc.
      * intros h [<-|Hh]; [|now apply I5]. cbn. rewrite I6.
        -- rewrite put_same. destruct w; [reflexivity|exact Sf].
        -- intros h' Hh' _ E. apply Nf. rewrite E, I2. apply in_map, in_or_app. left. now apply in_map.
      * intros q Hq. rewrite I6 by (intros h Hh; apply Hq; now right). destruct w as [c|]; [|reflexivity]. apply put_other. apply (Hq (f, Some c, es, Value v)); [now left|discriminate].
    - assert (Sf : io_disk s (pf_path f) = disk (pf_path f)) by (apply A; now left).
      split; [|split; [|split; [|split]]].
      + constructor; [|constructor]. cbn. rewrite <- Sf. assumption.
      + exists fs. split; [reflexivity|]. right. eexists. split; [now left|]. assumption.
      + cbn. now rewrite app_nil_r.
      + intros h [<-|[]]. unfold h_file, h_put. cbn [fst snd]. rewrite put_same. destruct w; [reflexivity|exact Sf].
      + intros q Hq. destruct w as [c|]; [|reflexivity]. apply put_other. apply (Hq (f, Some c, es, r)); [now left|discriminate].
  Qed.
  (** The end. *)
  Lemma final_value b v hs : final b hs = Value v <-> (exists vs, map h_result hs = map Value vs /\ v = (b && forallb (fun x => x) vs)).
  Proof.
    revert b. induction hs as [|h hs IH]; intros b.
    - cbn. split; [intros [= <-]; exists []; cbn; now rewrite andb_true_r|]. intros ([|] & E & ->); [cbn; now rewrite andb_true_r|discriminate].
    - unfold final. cbn [fold_left]. change (snd h) with (h_result h). destruct (h_result h) as [u|e|e] eqn:R.
      + change (final (b && u) hs = Value v <-> exists vs, map h_result (h :: hs) = map Value vs /\ v = b && forallb (fun x => x) vs). rewrite IH. cbn [map]. rewrite R. split.
        * intros (vs & E & ->). exists (u :: vs). cbn. rewrite E. split; [reflexivity|now rewrite andb_assoc].
        * intros ([|u' vs] & E & ->); [discriminate|]. injection E as <- E. exists vs. split; [exact E|]. cbn. now rewrite andb_assoc.
      + rewrite final_stop by discriminate. split; [discriminate|]. intros ([|u' vs] & E & _); cbn in E; rewrite R in E; discriminate.
      + rewrite final_stop by discriminate. split; [discriminate|]. intros ([|u' vs] & E & _); cbn in E; rewrite R in E; discriminate.
  Qed.
  Lemma final_cases b hs : (exists v, final b hs = Value v) \/ exists h, In h hs /\ final b hs = h_result h /\ forall v, h_result h <> Value v.
  Proof.
    revert b. induction hs as [|h hs IH]; intros b; [left; now exists b|]. unfold final. cbn [fold_left]. change (snd h) with (h_result h). destruct (h_result h) as [u|e|e] eqn:R.
    - destruct (IH (b && u)) as [H|(g & Hg & E & N)]; [left; exact H|]. right. exists g. split; [now right|]. split; [exact E|exact N].
    - right. exists h. split; [now left|]. rewrite final_stop by discriminate. rewrite R. split; [reflexivity|discriminate].
    - right. exists h. split; [now left|]. rewrite final_stop by discriminate. rewrite R. split; [reflexivity|discriminate].
  Qed.
  Lemma went_one o d l x m s fs hs s' : went o d l x m s fs hs s' -> forall g h, In g hs -> In h hs -> (forall v, h_result g <> Value v) -> (forall v, h_result h <> Value v) -> g = h.
  Proof.
    induction 1 as [s|s f fs w es v hs s' H W IH|s f fs w es r H N]; intros g h Hg Hh Ng Nh; [destruct Hg|..].
    - destruct Hg as [<-|Hg]; [now destruct (Ng v)|]. destruct Hh as [<-|Hh]; [now destruct (Nh v)|]. auto.
    - destruct Hg as [<-|[]], Hh as [<-|[]]. reflexivity.
  Qed.
End Formats.
