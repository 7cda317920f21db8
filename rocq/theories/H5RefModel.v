(** Reference counting of the file behind HDF5 groups: netcdf/hdf5/readers.go:191-215, 260-289 and
    hdf5.go:2299-2304, 2371-2374. *)
From Verif Require Import Prelude.

(** [r_count] is refCountedFile.refCount, [r_file] tells whether its file is not nil,
    [r_closes] counts the calls of the file's Close.  [r_handles]: for each handle
    (the group returned by New and each one returned by GetGroup) whether h5.file is not nil. *)
Record h5ref : Type := mkRef {
  r_count : Z; r_file : bool; r_closes : nat; r_handles : list bool }.

(** hdf5.go:2404-2419, readers.go:191-196, 260-262 (New) *)
Definition ref_new : h5ref := mkRef 1 true 0 [true].

(** GetGroup through handle [i], which finds the group or not, and Close of handle [i] *)
Inductive rop : Type := HGet (i : nat) (found : bool) | HClose (i : nat).

Fixpoint set_nth {A} (l : list A) (i : nat) (x : A) : list A :=
  match l, i with
  | [], _ => []
  | _ :: r, O => x :: r
  | y :: r, S j => y :: set_nth r j x
  end.

(** readers.go:276-289 *)
Definition dereference (s : h5ref) : h5ref * res unit :=
  let c := r_count s - 1 in
  if c =? 0 then (mkRef c false (if r_file s then S (r_closes s) else r_closes s) (r_handles s), Ok tt)
  else if c <? 0 then (mkRef c (r_file s) (r_closes s) (r_handles s), Err EInternal)
  else (mkRef c (r_file s) (r_closes s) (r_handles s), Ok tt).

(** One call.  A handle that does not exist cannot be called: no effect.  GetGroup on a closed
    handle dereferences the nil raFile in dup (readers.go:209-215) and panics. *)
Definition ref_step (s : h5ref) (o : rop) : h5ref * res unit :=
  match o with
  | HGet i found =>
      match nth_error (r_handles s) i with
      | None => (s, Ok tt)
      | Some open =>
          if found then
            if open
            then (mkRef (r_count s + 1) (r_file s) (r_closes s) (r_handles s ++ [true]), Ok tt)
            else (s, Panic)
          else (s, Err ENotFound)
      end
  | HClose i =>
      match nth_error (r_handles s) i with
      | None => (s, Ok tt)
      | Some true =>
          let '(s', r) := dereference s in
          (mkRef (r_count s') (r_file s') (r_closes s') (set_nth (r_handles s') i false),
           (* hdf5.go:2301: the result of file.Close is dropped *) Ok tt)
      | Some false => (s, Ok tt)
      end
  end.

Fixpoint ref_run (s : h5ref) (ops : list rop) : h5ref * list (res unit) :=
  match ops with
  | [] => (s, [])
  | o :: r => let '(s1, x) := ref_step s o in
              let '(s2, xs) := ref_run s1 r in (s2, x :: xs)
  end.

Definition ref_after (ops : list rop) : h5ref := fst (ref_run ref_new ops).

(** ** Concurrent GetGroup: readers.go:264-266, refCount++ without the lock, is a load followed
    by a store.  Goroutine [t] has not started ([GIdle]), has loaded [v] ([GLoaded v]), or
    has its handle. *)
Inductive gpc : Type := GIdle | GLoaded (v : Z) | GDone.
Record gstate : Type := mkG { g_count : Z; g_pcs : list gpc }.

Definition g_new (n : nat) : gstate := mkG 1 (repeat GIdle n).

(** The next step of goroutine [t] *)
Definition g_step (s : gstate) (t : nat) : gstate :=
  match nth_error (g_pcs s) t with
  | Some GIdle => mkG (g_count s) (set_nth (g_pcs s) t (GLoaded (g_count s)))
  | Some (GLoaded v) => mkG (v + 1) (set_nth (g_pcs s) t GDone)
  | _ => s
  end.

Definition g_run (n : nat) (sched : list nat) : gstate := fold_left g_step sched (g_new n).
