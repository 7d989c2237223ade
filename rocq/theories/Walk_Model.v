(** Model of the walk with a timeout, internal/file/proto_set_provider.go:213-300, as a
    state machine of the goroutine that walks, the timer and the caller. *)
From Verif Require Export File_Model.

(** The goroutine of lines 231-280.  It has paths still to visit, or it has the result
    of filepath.Walk and is about to send it on walkErrC (an unbuffered channel), or it
    has sent it. *)
Inductive walker : Type :=
| Walking (todo : list (string * node)) (st : walk_state)
| Sending (r : result walk_state)
| Sent.
(** The caller, lines 281-299: in the select (or, without a timeout, in the receive of
    line 282), after the timer branch, or returned. *)
Inductive caller : Type :=
| Selecting
| AfterTimeout
| Returned (r : result (list proto_file)).
(** [ms_timed_out] is the variable timedOut. *)
Record machine : Type := mk_machine { ms_walker : walker; ms_timed_out : bool; ms_caller : caller }.

Section Machine.
  Variable exists_file : string -> bool.
  Variable read_file : string -> result string.
  Variable decode_json decode_yaml : string -> result external_config.
  Variable config_data : string.
  Variable work root : string.
  (** c.walkTimeout != 0 *)
  Variable timeout : bool.
  Definition timeout_message : string := "walking the directory structure looking for proto files timed out".

  (** One call of the closure and of the code of filepath.Walk around it, lines 234-278.
      [seen] is the value read from timedOut at line 239. *)
  Definition walk_step (seen : bool) (path : string) (n : node) (todo : list (string * node)) (st : walk_state) : walker :=
    match n with
    | NBroken => Sending (Err ("lstat " +++ path))
    | NUnreadable => Sending (Err ("open " +++ path))
    | NFile =>
        if seen then Sending (Err timeout_message)
        else match visit_path exists_file read_file decode_json decode_yaml config_data work root path false st with
             | Err m => Sending (Err m)
             | Ok (_, st') => Walking todo st'
             end
    | NDir entries =>
        if seen then Sending (Err timeout_message)
        else match visit_path exists_file read_file decode_json decode_yaml config_data work root path true st with
             | Err m => Sending (Err m)
             | Ok (VSkipDir, st') => Walking todo st'
             | Ok (VContinue, st') =>
                 Walking (map (fun e => (path_join [path; fst e], snd e)) entries ++ todo) st'
             end
    end.
  (** The steps.  The read of timedOut in the goroutine is not synchronised with the
      write in the caller: once it is written, the goroutine may see either value. *)
  Inductive step : machine -> machine -> Prop :=
  | s_walk : forall seen path n todo st t c,
      (seen = true -> t = true) ->
      step (mk_machine (Walking ((path, n) :: todo) st) t c) (mk_machine (walk_step seen path n todo st) t c)
  | s_walked : forall st t c, step (mk_machine (Walking [] st) t c) (mk_machine (Sending (Ok st)) t c)
  | s_receive : forall r t,
      step (mk_machine (Sending r) t Selecting)
           (mk_machine Sent t (Returned (match r with Ok st => Ok (w_files st) | Err m => Err m end)))
  | s_timer : forall w t, timeout = true -> step (mk_machine w t Selecting) (mk_machine w true AfterTimeout)
  | s_receive_late : forall r t,
      step (mk_machine (Sending r) t AfterTimeout)
           (mk_machine Sent t (Returned (match r with Ok _ => Err "internal prototool error" | Err m => Err m end))).
  Inductive steps : machine -> machine -> Prop :=
  | st_refl : forall s, steps s s
  | st_step : forall s s' s'', steps s s' -> step s' s'' -> steps s s''.
  (** The state when the goroutine has been started. *)
  Definition start (n : node) (excludes : list string) : machine :=
    mk_machine (Walking [(root, n)] (mk_walk_state excludes [])) false Selecting.
End Machine.
