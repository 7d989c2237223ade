(** Model of the goroutines of internal/protoc/compiler.go:128-147: one per command, at
    most runtime.NumCPU() at a time, collecting failures and errors under a lock.

    Each step is one operation that other goroutines can observe.  What a goroutine gets
    from its command is an argument: [result i] for the i-th. *)
From Verif Require Export GoStr Text_Model.

Section Pool.
  Variable ncpu : nat.
  (** len(cmdMetas) *)
  Variable total : nat.
  Variable result : nat -> list failure * list string.

  (** Where a goroutine is, compiler.go:135-146. *)
  Inductive phase : Type :=
  | Running                                            (* in runCmdMeta *)
  | Locked                                             (* after lock.Lock() *)
  | Loaded (fs : list failure) (es : list string)      (* has read failures and errs *)
  | Stored                                             (* has assigned failures and errs *)
  | Unlocked                                           (* after lock.Unlock() *)
  | Released                                           (* after <-semaphoreC *)
  | Finished.                                          (* after wg.Done() *)
  Record pool : Type := mk_pool {
    p_workers : list phase;      (* the goroutines started so far *)
    p_waiting : nat;             (* the counter of wg *)
    p_slots : nat;               (* len(semaphoreC) *)
    p_lock : bool;
    p_failures : list failure;
    p_errors : list string;
    p_returned : bool            (* wg.Wait() has returned *)
  }.
  (** compiler.go:128-132 *)
  Definition pool_0 : pool := mk_pool [] 0 0 false [] [] false.
  Fixpoint update (ws : list phase) (i : nat) (w : phase) : list phase :=
    match ws, i with
    | [], _ => []
    | _ :: r, 0 => w :: r
    | x :: r, S i => x :: update r i w
    end.
  Inductive step : pool -> pool -> Prop :=
  (** compiler.go:133-136: the send blocks while the channel is full *)
  | Start ws n k lock fs es :
      length ws < total -> k < ncpu ->
      step (mk_pool ws n k lock fs es false) (mk_pool (ws ++ [Running]) (S n) (S k) lock fs es false)
  (** compiler.go:139 *)
  | Lock ws n k fs es ret i :
      nth_error ws i = Some Running ->
      step (mk_pool ws n k false fs es ret) (mk_pool (update ws i Locked) n k true fs es ret)
  (** compiler.go:140-143: append reads the slices and then they are assigned *)
  | Load ws n k lock fs es ret i :
      nth_error ws i = Some Locked ->
      step (mk_pool ws n k lock fs es ret) (mk_pool (update ws i (Loaded fs es)) n k lock fs es ret)
  | Store ws n k lock fs es ret i fs' es' :
      nth_error ws i = Some (Loaded fs' es') ->
      step (mk_pool ws n k lock fs es ret) (mk_pool (update ws i Stored) n k lock (fs' ++ fst (result i)) (es' ++ snd (result i)) ret)
  (** compiler.go:144 *)
  | Unlock ws n k fs es ret i :
      nth_error ws i = Some Stored ->
      step (mk_pool ws n k true fs es ret) (mk_pool (update ws i Unlocked) n k false fs es ret)
  (** compiler.go:145 *)
  | Release ws n k lock fs es ret i :
      nth_error ws i = Some Unlocked ->
      step (mk_pool ws n (S k) lock fs es ret) (mk_pool (update ws i Released) n k lock fs es ret)
  (** compiler.go:137, deferred *)
  | Finish ws n k lock fs es ret i :
      nth_error ws i = Some Released ->
      step (mk_pool ws (S n) k lock fs es ret) (mk_pool (update ws i Finished) n k lock fs es ret)
  (** compiler.go:148 *)
  | Return ws k lock fs es :
      length ws = total ->
      step (mk_pool ws 0 k lock fs es false) (mk_pool ws 0 k lock fs es true).
  (** Any number of steps. *)
  Inductive steps : pool -> pool -> Prop :=
  | Stay p : steps p p
  | More p q r : steps p q -> step q r -> steps p r.
End Pool.
