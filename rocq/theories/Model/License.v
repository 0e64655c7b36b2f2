(** * Choosing the licence of a file

    Models /repo/ripsrc/fileinfo/license_enabled.go:34-67 (detect), license_disabled.go:7-9, and license.go:5-9 (License).  The licence
    database (licensedb.Detect) is a parameter; it returns a Go map, whose iteration order is a parameter too.

    Simplifications: a confidence is a finite float32, given in units of 2^-149 (each finite float32 is a multiple of it).  The mutex around
    licensedb.Detect only keeps calls apart.  sort.Slice is a parameter with the contract [sort_slice]: it sorts, it is not stable in
    general, and of two elements it swaps only those that are out of order (it is an insertion sort on short slices). *)
From Verif.Model Require Import Base GoStrings FileInfo.

(** License (license.go:5-9). *)
Record license := License { li_name : bytes; li_confidence : Z }.
(** minConfidenceLevel (license_enabled.go:34): the float32 nearest to 0.85, which is 14260634 / 2^24. *)
Definition min_confidence : Z := 14260634 * 2 ^ 125.
(** What licensedb.Detect returns: ErrNoLicenseFound, another error, or the licences with their confidences. *)
Inductive found := NoLicense | Failed (e : bytes) | Found (kv : gmap bytes Z).

(** sort.Slice with the comparison of license_enabled.go:57-59. *)
Definition sort_slice (s : list license -> list license) : Prop :=
  (forall l, s l ≡ₚ l) /\
  (forall l i j a b, s l !! i = Some a -> s l !! j = Some b -> i < j -> ~ (li_confidence b > li_confidence a)%Z) /\
  (forall a b, s [a; b] = if (li_confidence b >? li_confidence a)%Z then [b; a] else [a; b]).

Section Detect.
(** [order kv]: the order in which the loop of license_enabled.go:52-54 sees the map. *)
Context (order : gmap bytes Z -> list (bytes * Z)) (sort : list license -> list license).
(** detect (license_enabled.go:38-67) *)
Definition detect (r : found) : outcome (option license) :=
  match r with
  | NoLicense => Ret None
  | Failed e => Err e
  | Found kv =>
      match sort (map (fun x => License x.1 x.2) (order kv)) with
      | [] => Ret None
      | m :: _ => if (min_confidence <=? li_confidence m)%Z then Ret (Some m) else Ret None
      end
  end.
End Detect.
(** detect of license_disabled.go:7-9 (build tag no_license) *)
Definition detect_disabled : outcome (option license) := Ret None.

(** The classifiers of a call in which detect is this one; [db]: licensedb.Detect by name and content (license_enabled.go:38-41). *)
Definition with_detect (cl : classifiers license) (order : gmap bytes Z -> list (bytes * Z)) (sort : list license -> list license) (db : bytes -> bytes -> found) : classifiers license :=
  Classifiers license (cl_config cl) (cl_dot cl) (cl_vendor cl) (cl_language cl) (fun p content => detect order sort (db p content)).
