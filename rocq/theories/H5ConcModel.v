(** Several goroutines reading one file through raFile views: netcdf/hdf5/readers.go:202-258.

    The file is its bytes and one shared position.  Every operation locks, seeks, reads and
    unlocks; goroutines interleave between these steps in any way the lock allows.
    Simplifications: Seek to a negative offset is not modelled (offsets are >= 0); one
    file.Read delivers all the bytes asked for that exist. *)
From Verif Require Import Prelude.

(** An operation on view [v]: Read of [n] bytes, or ReadAt *)
Inductive cop : Type := CRead (v : nat) (n : Z) | CReadAt (v : nat) (off n : Z).
Definition op_view (o : cop) : nat := match o with CRead v _ | CReadAt v _ _ => v end.

(** Where a goroutine is in its current operation *)
Inductive pc : Type :=
| PIdle                                  (* between operations *)
| PLocked (o : cop)                      (* lock taken *)
| PSought (o : cop) (saved : option Z)   (* Seek done; ReadAt keeps the view's pointer *)
| PRead (o : cop) (out : bytes).         (* Read done, pointer updated; about to unlock *)

Record cstate : Type := mkC {
  c_file : bytes;
  c_pos : Z;                      (* offset of the shared file *)
  c_lock : bool;                  (* mutex held *)
  c_views : nat -> Z;             (* seekPointer of each view *)
  c_pcs : nat -> pc;              (* goroutines *)
  c_todo : nat -> list cop;       (* what they still have to do *)
  c_order : list (nat * cop);     (* operations in the order they took the lock *)
  c_done : list (nat * cop * bytes) (* completed operations, in order of completion *)
}.

Definition setf {A} (f : nat -> A) (k : nat) (x : A) : nat -> A :=
  fun i => if Nat.eqb i k then x else f i.

(** file.Read at the shared position *)
Definition file_read (f : bytes) (pos n : Z) : bytes := ztake n (zdrop pos f).

(** One step of goroutine [t]; none if it waits for the lock or has nothing to do. *)
Definition c_step (s : cstate) (t : nat) : cstate :=
  match c_pcs s t with
  | PIdle =>
      match c_todo s t with
      | [] => s
      | o :: rest =>
          if c_lock s then s   (* Lock blocks *)
          else mkC (c_file s) (c_pos s) true (c_views s) (setf (c_pcs s) t (PLocked o))
                   (setf (c_todo s) t rest) (c_order s ++ [(t, o)]) (c_done s)
      end
  | PLocked o =>
      match o with
      | CRead v n =>
          (* readers.go:226: Seek(f.seekPointer) *)
          mkC (c_file s) (c_views s v) (c_lock s) (c_views s)
              (setf (c_pcs s) t (PSought o None)) (c_todo s) (c_order s) (c_done s)
      | CReadAt v off n =>
          (* readers.go:244-250: save, Seek(offset), set the pointer *)
          mkC (c_file s) off (c_lock s) (setf (c_views s) v off)
              (setf (c_pcs s) t (PSought o (Some (c_views s v)))) (c_todo s) (c_order s) (c_done s)
      end
  | PSought o saved =>
      (* readers.go:226-238: for ReadAt readNoLock seeks again, to the pointer just set *)
      let v := op_view o in
      let n := match o with CRead _ n => n | CReadAt _ _ n => n end in
      let pos := match saved with None => c_pos s | Some _ => c_views s v end in
      let out := file_read (c_file s) pos n in
      let ptr := match saved with
                 | None => c_views s v + zlen out
                 | Some old => old    (* readers.go:252 *)
                 end in
      mkC (c_file s) (pos + zlen out) (c_lock s) (setf (c_views s) v ptr)
          (setf (c_pcs s) t (PRead o out)) (c_todo s) (c_order s) (c_done s)
  | PRead o out =>
      mkC (c_file s) (c_pos s) false (c_views s) (setf (c_pcs s) t PIdle) (c_todo s)
          (c_order s) (c_done s ++ [(t, o, out)])
  end.

Definition c_run (s : cstate) (sched : list nat) : cstate := fold_left c_step sched s.

Definition c_init (f : bytes) (views : nat -> Z) (todo : nat -> list cop) : cstate :=
  mkC f 0 false views (fun _ => PIdle) todo [] [].
