(** * The logger

    Models /repo/ripsrc/pkg/logger/logger.go (NewDefaultLogger, Info, Debug, log, formatArgs), and goroutines that use loggers at the same
    time.  Simplifications: a value that is not a string is given by the text fmt prints for it with %v; of the errors only the texts are kept;
    one call of Write on the writer is atomic and works (an error of it is a panic). *)
From Verif.Model Require Import Base GoStrings.

(** An argument: a string, or another value, which prints as [t]. *)
Inductive arg := AStr (s : bytes) | AOther (t : bytes).
Definition show_arg (a : arg) : bytes := match a with AStr s => s | AOther t => t end.
(** formatArgs (logger.go:59-73) *)
Fixpoint format_args (args : list arg) : outcome (list (bytes * bytes)) :=
  match args with
  | [] => Ret []
  | [_] => Err (B "len of args not even")
  | k :: v :: r =>
      if Nat.odd (length r) then Err (B "len of args not even") else
      match k with
      | AStr s => match format_args r with Ret kvs => Ret ((s, show_arg v) :: kvs) | Err e => Err e | Panic e => Panic e end
      | AOther _ => Err (B "key arg passes in not a string")
      end
  end.
(** %v of a slice of kv, and of the arguments. *)
Definition show_list (l : list bytes) : bytes := B "[" ++ join (B " ") l ++ B "]".
Definition show_kvs (kvs : list (bytes * bytes)) : bytes := show_list (map (fun x => B "{" ++ x.1 ++ B " " ++ x.2 ++ B "}") kvs).
(** log (logger.go:34-53): what is written, line by line; [debug]: Debug or Info (logger.go:26-32). *)
Record entry := Entry { en_debug : bool; en_msg : bytes; en_args : list arg }.
Definition log_line (e : entry) (kvs : list (bytes * bytes)) : bytes :=
  (if en_debug e then B "DEBUG" else B "INFO") ++ B " " ++ en_msg e ++ B " " ++ show_kvs kvs.
Definition log_lines (e : entry) : list bytes :=
  match format_args (en_args e) with
  | Ret kvs => [log_line e kvs]
  | Err x | Panic x =>
      [B "ERROR Logger invalid args passed. Msg: " ++ en_msg e ++ B " Args: " ++ show_list (map show_arg (en_args e)) ++ B " Err: " ++ x; log_line e []]
  end.

(** ** Goroutines that write to the same writer

    Each uses one logger (a number) and has lines still to write; [at_] is where it is in "write" (logger.go:35-47). *)
Inductive place := POut | PLocked | PText | PNewline.   (* before Lock, before the first Write, before the second, before Unlock *)
Record thread := Thread { th_logger : nat; th_at : place; th_lines : list bytes }.   (* the head is the line being written *)
Record lsys := Lsys { ls_threads : list thread; ls_locks : gmap nat nat; ls_out : bytes }.
(** One step of goroutine [i]; the locks are by logger. *)
Definition log_step (i : nat) (s : lsys) : option lsys :=
  match ls_threads s !! i with
  | None => None
  | Some (Thread g p ls) =>
      match p, ls with
      | POut, l :: r => match ls_locks s !! g with
          | None => Some (Lsys (<[i := Thread g PLocked (l :: r)]> (ls_threads s)) (<[g := i]> (ls_locks s)) (ls_out s))
          | Some _ => None end
      | PLocked, l :: r => Some (Lsys (<[i := Thread g PText (l :: r)]> (ls_threads s)) (ls_locks s) (ls_out s ++ l))
      | PText, l :: r => Some (Lsys (<[i := Thread g PNewline (l :: r)]> (ls_threads s)) (ls_locks s) (ls_out s ++ [NL]))
      | PNewline, l :: r => Some (Lsys (<[i := Thread g POut r]> (ls_threads s)) (delete g (ls_locks s)) (ls_out s))
      | _, [] => None
      end
  end.
Definition log_steps (s s' : lsys) : Prop := exists i, log_step i s = Some s'.
(** Goroutines with what they log, each with its logger. *)
Definition log_start (ts : list (nat * list entry)) : lsys :=
  Lsys (map (fun x => Thread x.1 POut (concat (map log_lines x.2))) ts) ∅ [].
