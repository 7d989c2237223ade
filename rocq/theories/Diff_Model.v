(** Model of internal/diff/diff.go: running diff on two temporary files.

    Simplifications.
    - Temporary files and the program diff are arguments; the second call of
      ioutil.TempFile may return something else than the first.
    - The operating system is not Plan 9, and its paths have slashes. *)
From Verif Require Export GoStr Exec_Model.

Definition tab : ascii := ascii_of_nat 9.
(** bytes.SplitN with a newline and n = 3 *)
Fixpoint cut_line (s : string) : string * option string :=
  match s with
  | EmptyString => ("", None)
  | String c r =>
      if Ascii.eqb c newline then ("", Some r)
      else let (l, rest) := cut_line r in (String c l, rest)
  end.
(** bytes.LastIndexByte(line, '\t'), and the line from there on; nil if there is none *)
Fixpoint from_last_tab (s : string) : option string :=
  match s with
  | EmptyString => None
  | String c r =>
      match from_last_tab r with
      | Some t => Some t
      | None => if Ascii.eqb c tab then Some s else None
      end
  end.
Definition time_stamp (line : string) : string := match from_last_tab line with Some t => t | None => "" end.
(** diff.go:90-109 *)
Definition replace_temp_filename (diff filename : string) : result string :=
  match cut_line diff with
  | (l0, Some r) =>
      match cut_line r with
      | (l1, Some rest) =>
          Ok (join (String newline "") ["--- " +++ (filename +++ ".orig") +++ time_stamp l0; "+++ " +++ filename +++ time_stamp l1; rest])
      | _ => Err ("got unexpected diff for " +++ filename)
      end
  | _ => Err ("got unexpected diff for " +++ filename)
  end.

Section Diff.
  (** ioutil.TempFile, for the first and the second file *)
  Variable temp_file : bool -> result string.
  (** An error of Write or Close, for the first and the second file. *)
  Variable temp_write : bool -> option string.
  (** exec.Command("diff", "-u", f1, f2).CombinedOutput() for the files with the given
      contents: the output, and the error *)
  Variable diff_program : string -> string -> string -> string -> string * option string.

  (** diff.go:65-79 *)
  Definition write_temp_file (second : bool) (data : string) : cmd string :=
    run f <- check (temp_file second);
    emit (Wrote f data) ;;
    match temp_write second with
    | Some m => emit (Removed f) ;; fail m
    | None => ret f
    end.
  (** A deferred call of os.Remove. *)
  Definition removing {A} (f : string) (c : cmd A) : cmd A := fun s =>
    let (s, r) := c s in (mk_io (io_disk s) (io_done s ++ [Removed f]), r).
  (** diff.go:39-63 *)
  Definition diff_do (input output filename : string) : cmd string :=
    run f1 <- write_temp_file false input;
    removing f1
      (run f2 <- write_temp_file true output;
       removing f2
         (emit (Ran ["diff"; "-u"; f1; f2]) ;;
          match diff_program f1 f2 input output with
          | (EmptyString, Some m) => fail m
          | (EmptyString, None) => ret ""
          | (data, _) => check (replace_temp_filename data filename)
          end)).
End Diff.
