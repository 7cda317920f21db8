(** The HDF5 shuffle and fletcher32 filters as the HDF5 library applies them when writing.
    Independent of the reader model. *)
From Verif Require Import Prelude.

(** Shuffle: all first bytes of the elements, then all second bytes, ...; bytes after the last
    whole element stay at the end. *)
Definition shuffle (n : nat) (d : bytes) : bytes :=
  let k := (List.length d / n)%nat in
  flat_map (fun i => map (fun j => nth (j * n + i) d 0) (seq 0 k)) (seq 0 n) ++ skipn (k * n) d.

(** What a consumer asking for these many bytes in turn must get. *)
Fixpoint cut (d : bytes) (sizes : list Z) : list bytes :=
  match sizes with
  | [] => []
  | p :: r => ztake p d :: cut (zdrop p d) r
  end.

(** H5_checksum_fletcher32: 16-bit big-endian words summed with 32-bit arithmetic in runs of
    at most 360, folding the carries after each run; an odd last byte is the high byte of a
    word. *)
Definition wrap32 (z : Z) : Z := z mod 2 ^ 32.
Definition fold16 (s : Z) : Z := s mod 2 ^ 16 + s / 2 ^ 16.

Fixpoint run_words (n : nat) (s : Z * Z) (d : bytes) : (Z * Z) * bytes :=
  match n, d with
  | S m, x :: y :: r =>
      let s1 := wrap32 (fst s + (256 * x + y)) in run_words m (s1, wrap32 (snd s + s1)) r
  | _, _ => (s, d)
  end.

Definition fold2 (s : Z * Z) : Z * Z := (fold16 (fst s), fold16 (snd s)).

Fixpoint flet_runs (fuel : nat) (s : Z * Z) (d : bytes) : (Z * Z) * bytes :=
  match fuel with
  | O => (s, d)
  | S f =>
      match d with
      | _ :: _ :: _ => let (s', d') := run_words 360 s d in flet_runs f (fold2 s') d'
      | _ => (s, d)
      end
  end.

Definition fletcher32 (d : bytes) : Z :=
  let (s, r) := flet_runs (List.length d) (0, 0) d in
  let s := match r with
           | x :: _ => let s1 := wrap32 (fst s + 256 * x) in fold2 (s1, wrap32 (snd s + s1))
           | [] => s
           end in
  let s := fold2 s in
  snd s * 2 ^ 16 + fst s.

(** Published fletcher32 behaviour on the HDF5 test vectors would need the library; these are
    computed by hand from the C code. *)
Example fletcher32_small :
  fletcher32 [] = 0 /\ fletcher32 [1; 2] = 0x01020102 /\
  fletcher32 [1; 2; 3] = (0x0102 + 0x0402) * 65536 + 0x0402 /\
  fletcher32 [255; 255] = 0xFFFFFFFF.
Proof. repeat split; vm_compute; reflexivity. Qed.
