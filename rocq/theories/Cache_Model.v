(** Model of the download cache of internal/protoc/downloader.go:154-263: any number of
    calls of cache in any number of processes, one directory, one lock file, crashes at
    any point, and deletion of the cache.

    Every step is one operation on the file system, or the end of a process.
    Simplifications.
    - A call has its own open file for the lock, so calls in one process exclude each
      other like processes do; d.lock is left out.
    - All calls are for the same directory, so they get the same archive.
    - Permissions are left out.  Directories are left out: os.MkdirAll is an error that
      may happen when a file is opened. *)
From Verif Require Export GoStr.

Section Cache.
  (** The files of the archive, in order, and where bin/protoc is. *)
  Variable entries : list (string * string).
  Variable bin : string.
  (** Whether the program with these contents answers protoc --version as expected. *)
  Variable answers : string -> bool.
  (** Whether the cache is ever deleted. *)
  Variable deletes : bool.

  (** Where a call is; [i] is the file that was opened for the lock. *)
  Inductive phase : Type :=
  | Begun                                                  (* before newFlock *)
  | Opened (i : nat)                                       (* the lock file is open *)
  | Checking (i : nat)                                     (* has the lock, before the first check *)
  | Fetching (i : nat)                                     (* the check failed *)
  | Writing (i : nat) (todo : list (string * string))      (* files that are still to be written *)
  | Filling (i : nat) (path rest : string) (todo : list (string * string))   (* a file is open, rest is to be written *)
  | Rechecking (i : nat)                                   (* before the second check *)
  | Ending (i : nat) (ok : bool)                           (* before flockUnlock *)
  | Returned (ok : bool)
  | Dead                                                   (* crashed *)
  | Deleting.                                              (* in os.RemoveAll *)
  (** The file system: the contents of files, the file at the path of the lock, the
      number of files that were made for it, and which call has the lock on each. *)
  Record world : Type := mk_world {
    w_files : string -> option string;
    w_lock : option nat;
    w_made : nat;
    w_holder : nat -> option nat;
    w_calls : list phase
  }.
  Definition set_file (f : string -> option string) (p : string) (v : option string) : string -> option string :=
    fun q => if String.eqb q p then v else f q.
  Definition set_holder (h : nat -> option nat) (i : nat) (v : option nat) : nat -> option nat :=
    fun j => if j =? i then v else h j.
  Fixpoint set_call (cs : list phase) (k : nat) (p : phase) : list phase :=
    match cs, k with
    | [], _ => []
    | _ :: r, 0 => p :: r
    | c :: r, S k => c :: set_call r k p
    end.
  (** The lock that a call has. *)
  Definition holds (p : phase) : option nat :=
    match p with
    | Checking i | Fetching i | Writing i _ | Filling i _ _ _ | Rechecking i | Ending i _ => Some i
    | _ => None
    end.
  (** Whether bin/protoc runs and answers. *)
  Definition checked (files : string -> option string) : bool :=
    match files bin with Some c => answers c | None => false end.

  Inductive step : world -> world -> Prop :=
  (** a call of cache or of Delete begins *)
  | Begin fs l n h cs : step (mk_world fs l n h cs) (mk_world fs l n h (cs ++ [Begun]))
  (** downloader.go:167, 460-467, 469-480: TryLockContext opens the file, and makes it if
      there is none *)
  | OpenLock fs i n h cs k :
      nth_error cs k = Some Begun ->
      step (mk_world fs (Some i) n h cs) (mk_world fs (Some i) n h (set_call cs k (Opened i)))
  | MakeLock fs n h cs k :
      nth_error cs k = Some Begun ->
      step (mk_world fs None n h cs) (mk_world fs (Some n) (S n) h (set_call cs k (Opened n)))
  (** downloader.go:171: flock succeeds when no other open file has it *)
  | TakeLock fs l n h cs k i :
      nth_error cs k = Some (Opened i) -> h i = None ->
      step (mk_world fs l n h cs) (mk_world fs l n (set_holder h i (Some k)) (set_call cs k (Checking i)))
  (** downloader.go:171-173: after fileLockTimeout *)
  | TimeOut fs l n h cs k i :
      nth_error cs k = Some (Opened i) ->
      step (mk_world fs l n h cs) (mk_world fs l n h (set_call cs k (Returned false)))
  (** downloader.go:176, 192-210 *)
  | CheckOk fs l n h cs k i :
      nth_error cs k = Some (Checking i) -> checked fs = true ->
      step (mk_world fs l n h cs) (mk_world fs l n h (set_call cs k (Ending i true)))
  | CheckFails fs l n h cs k i :
      nth_error cs k = Some (Checking i) -> checked fs = false ->
      step (mk_world fs l n h cs) (mk_world fs l n h (set_call cs k (Fetching i)))
  (** downloader.go:217-229 *)
  | Fetch fs l n h cs k i :
      nth_error cs k = Some (Fetching i) ->
      step (mk_world fs l n h cs) (mk_world fs l n h (set_call cs k (Writing i entries)))
  | FetchFails fs l n h cs k i :
      nth_error cs k = Some (Fetching i) ->
      step (mk_world fs l n h cs) (mk_world fs l n h (set_call cs k (Ending i false)))
  (** downloader.go:250: os.O_CREATE|os.O_TRUNC *)
  | OpenFile fs l n h cs k i p c todo :
      nth_error cs k = Some (Writing i ((p, c) :: todo)) ->
      step (mk_world fs l n h cs) (mk_world (set_file fs p (Some "")) l n h (set_call cs k (Filling i p c todo)))
  | OpenFails fs l n h cs k i p c todo :
      nth_error cs k = Some (Writing i ((p, c) :: todo)) ->
      step (mk_world fs l n h cs) (mk_world fs l n h (set_call cs k (Ending i false)))
  (** downloader.go:257: some more bytes are written; if the file was removed
      meanwhile, they go nowhere *)
  | WriteSome fs l n h cs k i p a b todo :
      nth_error cs k = Some (Filling i p (a +++ b) todo) -> a <> "" ->
      step (mk_world fs l n h cs)
           (mk_world (match fs p with Some c => set_file fs p (Some (c +++ a)) | None => fs end) l n h (set_call cs k (Filling i p b todo)))
  | WriteFails fs l n h cs k i p rest todo :
      nth_error cs k = Some (Filling i p rest todo) ->
      step (mk_world fs l n h cs) (mk_world fs l n h (set_call cs k (Ending i false)))
  | WriteDone fs l n h cs k i p todo :
      nth_error cs k = Some (Filling i p "" todo) ->
      step (mk_world fs l n h cs) (mk_world fs l n h (set_call cs k (Writing i todo)))
  (** downloader.go:262 *)
  | Written fs l n h cs k i :
      nth_error cs k = Some (Writing i []) ->
      step (mk_world fs l n h cs) (mk_world fs l n h (set_call cs k (Rechecking i)))
  (** downloader.go:180-182 *)
  | Recheck fs l n h cs k i :
      nth_error cs k = Some (Rechecking i) ->
      step (mk_world fs l n h cs) (mk_world fs l n h (set_call cs k (Ending i (checked fs))))
  (** downloader.go:174, deferred *)
  | Unlock fs l n h cs k i ok :
      nth_error cs k = Some (Ending i ok) ->
      step (mk_world fs l n h cs) (mk_world fs l n (set_holder h i None) (set_call cs k (Returned ok)))
  (** a process may be killed at any time; the system closes its files *)
  | Crash fs l n h cs k p :
      nth_error cs k = Some p ->
      step (mk_world fs l n h cs)
           (mk_world fs l n (match holds p with Some i => set_holder h i None | None => h end) (set_call cs k Dead))
  (** downloader.go:144-152: os.RemoveAll removes one file after the other, in some order *)
  | Delete fs l n h cs k :
      deletes = true -> nth_error cs k = Some Begun ->
      step (mk_world fs l n h cs) (mk_world fs l n h (set_call cs k Deleting))
  | RemoveFile fs l n h cs k p :
      nth_error cs k = Some Deleting ->
      step (mk_world fs l n h cs) (mk_world (set_file fs p None) l n h cs)
  | RemoveLock fs l n h cs k :
      nth_error cs k = Some Deleting ->
      step (mk_world fs l n h cs) (mk_world fs None n h cs)
  | Deleted fs l n h cs k :
      nth_error cs k = Some Deleting -> (forall p, fs p = None) -> l = None ->
      step (mk_world fs l n h cs) (mk_world fs l n h (set_call cs k (Returned true))).
  (** The beginning: some files, no calls. *)
  Definition world_0 (fs : string -> option string) : world := mk_world fs None 0 (fun _ => None) [].
  Inductive steps : world -> world -> Prop :=
  | Stay w : steps w w
  | More w x y : steps w x -> step x y -> steps w y.
End Cache.
