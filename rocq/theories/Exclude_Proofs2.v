(** Commands and excluded directories. *)
From Verif Require Import GoStrFacts GoPathFacts Settings_Model Settings_Spec File_Model File_Spec Exec_Model Exec_Spec Main_Model Main_Proofs Main_Proofs2 Local_Spec Local_Proofs Local_Proofs2 Local_Proofs3 Exclude_Spec Exclude_Proofs.
From Verif Require Place_Spec Place_Proofs Main_Proofs7.

Section Excluded.
  Variable w : world.
  Variable st : string -> result file_kind.
  Variable nd : string -> node.
  Notation w' := (other_files w st nd).
  Hypothesis V : visits (w_order w).
  Hypothesis Nm : forall p, named (w_node_at w p).
  Hypothesis Nm' : forall p, named (nd p).
  Hypothesis St : forall k, w_stat w "" <> Ok k.
  Variable r : runner.
  Variable hs : list string.
  Hypothesis Hh : ok_comps hs.
  Hypothesis Hr : here r = abs_path hs.
  Hypothesis Sc : r_config_data r = "" -> forall p, config_name p -> w_stat w p = st p.
  Variable d d' : string -> result string.
  Hypothesis As : forall p, settings_file w (r_config_data r) d p -> d p = d' p.
  Variable args : list string.
  Notation dir := (match w_stat w (Exec_Spec.target args) with Ok Regular => path_dir (Exec_Spec.target args) | _ => Exec_Spec.target args end).
  Variable root names : list string.
  Hypothesis Hn : ok_comps names.
  Hypothesis Nn : names <> [].
  Hypothesis Ex : excludes w (r_config_data r) d hs (Place_Spec.place hs dir) root names.
  Hypothesis Eh : hollow names (w_node_at w (abs_path root)) = hollow names (nd (abs_path root)).
  Notation D := (abs_path (root ++ names)).

  Lemma As' p : settings_file w' (r_config_data r) d p -> d p = d' p.
  Proof.
    intros [q X C|q t e X C R E N|e x X E N]; apply As; [now apply Configuration|now apply (Header w _ d q t e)|now apply Header_given].
  Qed.
  Lemma here_clean : abs_clean (here r) (here r) = abs_path hs.
  Proof. unfold abs_clean. rewrite Hr, is_abs_abs_path, clean_abs_path by assumption. destruct (is_empty _); reflexivity. Qed.
  Lemma provider_excluded : dir <> "" -> provider w' r d' (here r) dir = provider w r d' (here r) dir.
  Proof.
    intros N. rewrite <- (provider_local w r d d' As (here r) dir). rewrite <- (provider_local w' r d d' As' (here r) dir).
    unfold provider. cbn [other_files w_order w_node_at w_decode_json w_decode_yaml w_look_path w_sort_plugins w_too_slow].
    rewrite (exists_only (exists_at w' d) (exists_at w d)).
    2:{ intros X p C. unfold exists_at. cbn [other_files w_stat]. now rewrite Sc. }
    rewrite (provider_hollow (exists_at w d) d (w_decode_json w) (w_decode_yaml w) (w_look_path w) (w_sort_plugins w) false (r_config_data r) (w_order w) (w_node_at w) nd Nm Nm' (here r) (here r) dir hs (Place_Spec.place hs dir) root names Hh (Place_Proofs.place_ok hs dir Hh) Hn Nn here_clean (Place_Proofs.clean_place hs Hh r Hr dir N) Ex Eh).
    reflexivity.
  Qed.
  Lemma found_outside ps x fs f : dir <> "" -> provider w r d (here r) dir = Ok ps -> In (x, fs) (ps_files ps) -> In f fs -> ~ within D (pf_path f).
  Proof.
    intros N. unfold provider.
    destruct (provider_get_for_dir (w_order w) (here r) (w_node_at w) (exists_at w d) d (w_decode_json w) (w_decode_yaml w) (w_look_path w) (w_sort_plugins w) false (r_config_data r) (here r) dir) as [ps'|] eqn:E; [|discriminate].
    cbn [bind]. intros X. assert (ps' = ps) as -> by (destruct (_ =? 0)%Z; [now injection X|destruct (w_too_slow _ _ _); [discriminate X|now injection X]]). revert x fs f.
    exact (provider_outside (exists_at w d) d (w_decode_json w) (w_decode_yaml w) (w_look_path w) (w_sort_plugins w) false (r_config_data r) (w_order w) V (w_node_at w) Nm (here r) (here r) dir hs (Place_Spec.place hs dir) root names Hh (Place_Proofs.place_ok hs dir Hh) Hn Nn here_clean (Place_Proofs.clean_place hs Hh r Hr dir N) Ex ps E).
  Qed.
End Excluded.
