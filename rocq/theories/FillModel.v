(** Model of internal/fillvalue.go. *)
From Verif Require Import Prelude GoVal.

(** fillvalue.go:10-22; floats as bit patterns *)
Definition FillByte : Z := -127.
Definition FillChar : Z := 0.
Definition FillShort : Z := -32767.
Definition FillInt : Z := -2147483647.
Definition FillFloat : Z := 0x7cf00000.
Definition FillDouble : Z := 0x479e000000000000.
Definition FillUByte : Z := 255.
Definition FillUShort : Z := 65535.
Definition FillUInt : Z := 4294967295.
Definition FillInt64 : Z := -9223372036854775806.
Definition FillUInt64 : Z := 0xfffffffffffffffe.

(** fillvalue.go:25-28: state of a FillValueReader *)
Record fvr : Type := mkFvr { fv_repeat : bytes; fv_index : nat }.

(** fillvalue.go:30-32 *)
Definition new_fvr (r : bytes) : fvr := mkFvr r 0.

(** fillvalue.go:39-42: the fast loop copies whole patterns while
    i < len(p)-rl+1; the fuel bounds the number of iterations by len(p). *)
Fixpoint fv_fast (fuel : nat) (i len rl : Z) (rep : bytes) : bytes :=
  match fuel with
  | O => []
  | S f => if i <? len - rl + 1 then rep ++ fv_fast f (i + rl) len rl rep else []
  end.

(** fillvalue.go:44-47: byte by byte for the rest; returns bytes and new ri. *)
Fixpoint fv_slow (n : nat) (ri : nat) (rep : bytes) : bytes * nat :=
  match n with
  | O => ([], ri)
  | S m =>
      let b := nth (ri mod List.length rep) rep 0 in
      let '(r, ri') := fv_slow m (S ri) rep in
      (b :: r, ri')
  end.

(** fillvalue.go:34-50: Read into a buffer of [n] bytes; returns the bytes stored in
    the buffer and the new state.  An empty pattern (division by zero in Go) is not
    represented: all callers pass a non-empty pattern. *)
Definition fv_read (s : fvr) (n : nat) : bytes * fvr :=
  let rep := fv_repeat s in
  let fast :=
    match fv_index s with
    | O => fv_fast n 0 (Z.of_nat n) (zlen rep) rep
    | S _ => []
    end in
  let rest := (n - List.length fast)%nat in
  let '(slow, ri) := fv_slow rest (fv_index s) rep in
  (fast ++ slow, mkFvr rep (ri mod List.length rep)).
