(** Model of the file reference count of a CDF group: netcdf/cdf/cdf.go:540-582. *)
From Verif Require Import Prelude.

(** cdf.go:68-71 (fields file and fileRefCount); [rc_file] is false once file = nil.
    [rc_closes] is the observable effect: how often the underlying file's Close ran. *)
Record rcst : Type := mkRc { rc_count : Z; rc_file : bool; rc_closes : nat }.

(** cdf.go:586 (New) *)
Definition rc_new : rcst := mkRc 1 true 0.

Inductive rcop : Type := RGet (path : bytes) | RClose.

(** cdf.go:568-582 (GetGroup) and 540-553 (Close).  Close with the count at zero throws, which
    RecoverError swallows; calling Close on a nil file panics. *)
Definition rc_step (s : rcst) (o : rcop) : rcst * res unit :=
  match o with
  | RGet p =>
      if beqb p [] || beqb p (bs "/")
      then (mkRc (rc_count s + 1) (rc_file s) (rc_closes s), Ok tt)
      else (s, Err ENotFound)
  | RClose =>
      if rc_count s <=? 0 then (s, Ok tt)
      else if rc_count s - 1 =? 0 then
        if rc_file s then (mkRc 0 false (S (rc_closes s)), Ok tt)
        else (mkRc 0 false (rc_closes s), Panic)
      else (mkRc (rc_count s - 1) (rc_file s) (rc_closes s), Ok tt)
  end.

Fixpoint rc_run (s : rcst) (ops : list rcop) : rcst * list (res unit) :=
  match ops with
  | [] => (s, [])
  | o :: r => let '(s1, x) := rc_step s o in
              let '(s2, xs) := rc_run s1 r in (s2, x :: xs)
  end.
