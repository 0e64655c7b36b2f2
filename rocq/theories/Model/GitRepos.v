(** * gitrepos: looking for repositories in a directory

    /repo/ripsrc/pkg/gitrepos/gitrepos.go *)
From Verif.Model Require Import Base GoStrings.

(** What is on the disk.  [Link t]: a symbolic link, [t] what os.Stat finds at its end (TLoop: an error other than "does not exist").
    [Dir search read es]: a directory; [search]: os.Stat of its entries is permitted; [read]: ioutil.ReadDir of it succeeds; [es]: its entries in
    the order ReadDir returns them (by name).  Simplifications: nothing changes on the disk during the call; filepath.Abs does not fail; a path is
    the list of names below the directory passed (the real one is filepath.Join of them). *)
Inductive target := TFile | TDir | TMissing | TLoop.
Inductive node := File | Link (t : target) | Dir (search read : bool) (es : list (bytes * node)).

Fixpoint entry_of (n : bytes) (es : list (bytes * node)) : option node :=
  match es with [] => None | (m, t) :: es => if decide (m = n) then Some t else entry_of n es end.

(** gitrepos.go:69-83 (dirContainsDir) *)
Definition dir_contains_dir (search : bool) (es : list (bytes * node)) (sub : bytes) : outcome bool :=
  if search then
    match entry_of sub es with
    | None | Some (Link TMissing) => Ret false
    | Some (Link TLoop) => Err (B "can't check if dir contains")
    | Some (Dir _ _ _) | Some (Link TDir) => Ret true
    | Some File | Some (Link TFile) => Ret false
    end
  else Err (B "can't check if dir contains").

(** filepath.Ext of a path whose last element is [name] (Go's path/filepath): from the last dot on. *)
Fixpoint ext (name : bytes) : bytes :=
  match name with
  | [] => []
  | c :: r => match ext r with [] => if decide (c = "."%char) then name else [] | e => e end
  end.

Notation path := (list bytes).
(** The callback: from the calls made so far and the path of this call, the error it returns. *)
Notation callback := (list path -> path -> option bytes).

(** gitrepos.go:10-67 (IterDir).  [name]: the last element of the directory's absolute path.  Returns the calls made and the error. *)
Fixpoint iter_dir (cb : callback) (t : node) (p : path) (name : bytes) (max : Z) (calls : list path) : list path * option bytes :=
  match t with
  | Link TMissing | Link TLoop => (calls, Some (B "can't stat passed dir"))
  | File | Link _ => (calls, Some (B "passed dir is a file, expecting a dir"))
  | Dir search read es =>
      match dir_contains_dir search es (B ".git") with
      | Err e | Panic e => (calls, Some e)
      | Ret true => (calls ++ [p], cb calls p)
      | Ret false =>
          let rest calls :=
            if decide (max = 0)%Z then (calls, None)
            else if negb read then (calls, Some (B "can't read passed dir"))
            else
              (fix loop (es : list (bytes * node)) (calls : list path) : list path * option bytes :=
                 match es with
                 | [] => (calls, None)
                 | (n, sub) :: es =>
                     match sub with
                     | Dir _ _ _ =>
                         match iter_dir cb sub (p ++ [n]) n (max - 1) calls with
                         | (calls, None) => loop es calls
                         | (calls, Some e) => (calls, Some e)
                         end
                     | _ => loop es calls
                     end
                 end) es calls in
          if decide (ext name = B ".git") then
            match dir_contains_dir search es (B "objects") with
            | Err e | Panic e => (calls, Some e)
            | Ret true => match cb calls p with Some e => (calls ++ [p], Some e) | None => rest (calls ++ [p]) end
            | Ret false => rest calls
            end
          else rest calls
      end
  end.
(** [Link TDir] as the directory passed is os.Stat's directory: pass the [Dir] it points to. *)
