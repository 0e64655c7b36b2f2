(** * The command validate_inc_blame

    Models /repo/cmd/validate.go:36-128: the incremental blame of every commit is compared with git blame. *)
From Verif.Model Require Import Base GoStrings IncBlame CommitMeta Process GitBlame.

(** What it prints (the texts are left out, and so is the dump of the two blames, lines 70-77). *)
Inductive vmessage :=
| CheckingCommit (c : bytes)                     (* line 53 *)
| CheckingFile (c p : bytes)                     (* line 57 *)
| LenMismatch (c p : bytes)                      (* lines 80-81 *)
| InvalidCommit (c p : bytes) (i : nat)          (* line 105 *)
| InvalidContent (c p : bytes) (i : nat)         (* line 110 *)
| Success (repo : bytes).                        (* line 125 *)

(** validate.go:84-113: the lines from number [i] on; the two lists have the same length. *)
Fixpoint compare_lines (c p : bytes) (i : nat) (ls1 : list line) (ls2 : list (bytes * bytes)) : list vmessage :=
  match ls1, ls2 with
  | l1 :: r1, l2 :: r2 =>
      let c1 := trim_space (l_data l1) in
      let c2 := trim_space l2.1 in
      let mostly_same := bool_decide (c1 = c2) && ((length c1 <=? 10) || bool_decide (c1 = B "return")) in
      if bool_decide (l_commit l1 <> l2.2) && negb mostly_same then [InvalidCommit c p i]
      else if bool_decide (c1 <> c2) then [InvalidContent c p i]
      else compare_lines c p (S i) r1 r2
  | _, _ => []
  end.

(** validate.go:56-115: one file of a result.  manuallyChecked (line 34) is empty. *)
Definition validate_file (git : bytes -> bytes -> outcome bytes) (c p : bytes) (b1 : blame) : outcome (list vmessage) :=
  if bool_decide (b_lines b1 = []) then Ret [CheckingFile c p]
  else
    do ls2 <- git_blame git c p;
    Ret (CheckingFile c p ::
      if bool_decide (length (b_lines b1) <> length ls2) then [LenMismatch c p] else compare_lines c p 0 (b_lines b1) ls2).

(** validate.go:52-117: the goroutine that reads the results.  [ord]: the order in which Go visits the files of a commit. *)
Definition validate_result (git : bytes -> bytes -> outcome bytes) (ord : list (bytes * blame) -> list (bytes * blame)) (r : result)
    : outcome (list vmessage) :=
  do ms <- omapM (fun f : bytes * blame => validate_file git (r_commit r) f.1 f.2) (ord (map_to_list (r_files r)));
  Ret (CheckingCommit (r_commit r) :: concat ms).

(** validate.go:39-125 for one repository; [run] are the results Run sends and what it returns.  An error of Run is a panic (lines
    120-122), as is a panic of the goroutine that reads the results.  Simplification: what is printed before a panic is left out. *)
Definition validate_repo (git : bytes -> bytes -> outcome bytes) ord (repo : bytes) (run : list result * outcome unit) : outcome (list vmessage) :=
  do ms <- omapM (validate_result git ord) run.1;
  match run.2 with
  | Ret _ => Ret (concat ms ++ [Success repo])
  | Err e | Panic e => Panic e
  end.
(** validate.go:39: one repository after the other. *)
Definition validate_all ord (repos : list (bytes * (bytes -> bytes -> outcome bytes) * (list result * outcome unit))) : outcome (list vmessage) :=
  do ms <- omapM (fun x => validate_repo x.1.2 ord x.1.1 x.2) repos; Ret (concat ms).
