(** After format --overwrite there is nothing left to do. *)
From Verif Require Import GoStrFacts GoPathFacts Settings_Spec File_Proofs4 File_Model File_Spec Exec_Spec Exec_Proofs Exec_Proofs2 Exec_Proofs3 Props_Exec Format_Spec Format_Model Format_Same2
  Main_Model Main_Spec Main_Proofs Main_Proofs2 Main_Proofs4 Main_Proofs6 Main_Proofs7 Main_Proofs8.

Section Settled.
  Variable w : world.
  Hypothesis V : visits_all (w_order w).
  Hypothesis V' : visits (w_order w).
  Hypothesis Nm : forall p, named (w_node_at w p).
  Hypothesis St : forall k, w_stat w "" <> Ok k.
  Variable r : runner.
  Hypothesis Cr : clean_abs (here r).
  Variable args : list string.
  Variable x : bool.
  Notation getm d := (get_meta (here r) (w_stat w) (provider w r d) args).
  Notation comp := (compile (here r) (r_error_format r) (r_json r) Json_Model.failure_json file_set (the_compiler w r) (the_commands w r) false false false).
  (** Each file asked for then holds what the formatter makes of it. *)
  Lemma format_result s s1 m : found (here r) (w_stat w) (provider w r (io_disk s)) args m ->
    method w r (CallFormat args true false false x) s = (s1, Value tt) ->
    forall f, Exec_Spec.asked (here r) m f -> exists input data, io_disk s (pf_path f) = Ok input /\ formatter (the_transform w) x m (pf_path f) input = Ok (data, []) /\ io_disk s1 (pf_path f) = Ok data.
  Proof.
    intros F E. destruct (format_fine w V Nm St r Cr r args m _ _ _ _ s s1 (conj eq_refl (conj eq_refl eq_refl)) F E) as (md & Md & R & _).
    destruct (method_framed w r (CallFormat args true false false x) (io_disk s)) as (es & d' & o' & Q & _).
    pose proof (Q (io_done s)) as Q1. destruct s as [dk dn]. cbn [io_disk io_done] in *. rewrite Q1 in E. injection E as <- ->. specialize (Q []). cbn [io_disk].
    exact (C27_formatted (w_order w) (here r) (here r) (r_error_format r) (r_json r) Json_Model.failure_json (w_stat w) (provider w r dk) file_set (the_compiler w r) (the_commands w r)
            (the_transform w) (w_diff w) (w_write_error w) V args m x dk _ R Q).
  Qed.
  Hypothesis Hj : forall d e, w_decode_json w d = Ok e -> header_elsewhere e.
  Hypothesis Hy : forall d e, w_decode_yaml w d = Ok e -> header_elsewhere e.
  (** What was written is left as it is when it is formatted again. *)
  Lemma format_settles s s1 s2 o d l :
    method w r (CallFormat args true false false x) s = (s1, Value tt) ->
    method w r (CallCompile args false) s1 = (s2, Value tt) ->
    (forall m f input data, found (here r) (w_stat w) (provider w r (io_disk s)) args m -> Exec_Spec.asked (here r) m f -> io_disk s (pf_path f) = Ok input ->
       formatter (the_transform w) x m (pf_path f) input = Ok (data, []) -> io_disk s1 (pf_path f) = Ok data -> formatter (the_transform w) x m (pf_path f) data = Ok (data, [])) ->
    more_than_one_set [o; d; l] = false ->
    exists es, method w r (CallFormat args o d l x) s1 = (mk_io (io_disk s1) (io_done s1 ++ Compiled false :: es), Value tt) /\ written es = [].
  Proof.
    intros E C A M.
    assert (exists m, getm (io_disk s) s = (s, Value m)) as (m & G).
    { change (format_cmd (w_order w) (here r) (here r) (r_error_format r) (r_json r) Json_Model.failure_json (w_stat w) (provider w r (io_disk s)) file_set (the_compiler w r) (the_commands w r)
            (the_transform w) (w_diff w) (w_write_error w) args true false false x s = (s1, Value tt)) in E.
      unfold format_cmd in E. change (more_than_one_set [true; false; false]) with false in E. cbv iota in E. unfold and_then at 1 in E.
      destruct (Exec_Proofs.get_meta_pure (here r) (w_stat w) (provider w r (io_disk s)) args) as (oc & Eo & [(m & -> & _)|((e & ->) & _)]); rewrite Eo in E; [exists m; apply Eo|discriminate E]. }
    pose proof (getm_found w r _ _ _ _ G) as F.
    pose proof (format_result s s1 m F E) as K.
    assert (P : forall a b, provider w r (io_disk s1) a b = provider w r (io_disk s) a b).
    { apply (method_keeps w V' Hj Hy r (CallFormat args true false false x) s s1 (Value tt)); [intros p dt (_ & X); exact X|exact E]. }
    assert (G1 : getm (io_disk s1) s1 = (s1, Value m)).
    { rewrite (get_meta_same _ _ _ _ _ _ P).
      destruct (Exec_Proofs.get_meta_pure (here r) (w_stat w) (provider w r (io_disk s)) args) as (oc & Eo & _). rewrite Eo in *. now injection G as ->. }
    assert (exists s3 ds, comp m s1 = (s3, Value ds)) as (s3 & ds & C1).
    { change (compile_cmd (here r) (here r) (r_error_format r) (r_json r) Json_Model.failure_json (w_stat w) (provider w r (io_disk s1)) file_set (the_compiler w r) (the_commands w r) args false s1 = (s2, Value tt)) in C.
      unfold compile_cmd in C. unfold and_then at 1 in C. rewrite G1 in C. unfold and_then at 1 in C. destruct (comp m s1) as [s3 [ds|e|e]]; [eauto|discriminate C..]. }
    apply (format_quiet (w_order w) (here r) (here r) (r_error_format r) (r_json r) Json_Model.failure_json (w_stat w) (provider w r (io_disk s1)) file_set (the_compiler w r) (the_commands w r)
            (the_transform w) (w_diff w) (w_write_error w) x args o d l m s1 ds s3 G1 C1); [|exact V|exact M].
    intros f B. destruct (negb (is_empty (m_single m)) && negb (String.eqb (pf_path f) (abs_clean (here r) (m_single m)))) eqn:Sk; [now left|]. right.
    assert (As : Exec_Spec.asked (here r) m f).
    { split; [exact B|]. apply andb_false_iff in Sk as [Sk|Sk]; apply negb_false_iff in Sk; [left; now apply is_empty_true in Sk|right; now apply String.eqb_eq]. }
    destruct (K f As) as (input & data & K1 & K2 & K3).
    exists data. split; [exact K3|]. rewrite formatter_is. exact (A m f _ _ F As K1 K2 K3).
  Qed.
End Settled.
