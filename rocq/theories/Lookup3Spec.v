(** Bob Jenkins' lookup3 hash (hashlittle with initval 0), the metadata checksum of the
    HDF5 file format, on bytes.  Written from its definition: six rounds of [mix] with the
    roles of the three words rotating, seven rounds of [fin]. *)
From Verif Require Import Prelude.

Definition M32 : Z := 2 ^ 32.
Definition rotl (x k : Z) : Z := (x * 2 ^ k) mod M32 + x / 2 ^ (32 - k).

(** One round of mix on (x, y, z): x -= z, x ^= z<<<k, z += y; then the roles move on. *)
Definition mix_round (s : Z * Z * Z) (k : Z) : Z * Z * Z :=
  let '(x, y, z) := s in
  let x' := Z.lxor ((x - z) mod M32) (rotl z k) in
  let z' := (z + y) mod M32 in
  (y, z', x').

Definition mix_spec (s : Z * Z * Z) : Z * Z * Z := fold_left mix_round [4; 6; 8; 16; 19; 4] s.

(** One round of the final mixing on (c, b, a): c ^= b, c -= b<<<k; next (a, c, b). *)
Definition fin_round (s : Z * Z * Z) (k : Z) : Z * Z * Z :=
  let '(x, y, w) := s in
  let x' := (Z.lxor x y - rotl y k) mod M32 in
  (w, x', y).

Definition fin_spec (s : Z * Z * Z) : Z :=
  let '(a, b, c) := s in
  let '(_, c', _) := fold_left fin_round [14; 11; 25; 16; 4; 14; 24] (c, b, a) in c'.

(** Byte [i] of the current block, weighted by its place in its word. *)
Definition at_byte (k : bytes) (i : nat) : Z := nth i k 0 * 2 ^ (8 * Z.of_nat (i mod 4)).
Definition add_block (s : Z * Z * Z) (k : bytes) : Z * Z * Z :=
  let '(a, b, c) := s in
  ((a + at_byte k 0 + at_byte k 1 + at_byte k 2 + at_byte k 3) mod M32,
   (b + at_byte k 4 + at_byte k 5 + at_byte k 6 + at_byte k 7) mod M32,
   (c + at_byte k 8 + at_byte k 9 + at_byte k 10 + at_byte k 11) mod M32).

(** Blocks of twelve bytes are added and mixed as long as more than twelve bytes remain. *)
Fixpoint lookup3_from (fuel : nat) (s : Z * Z * Z) (k : bytes) : Z :=
  match fuel with
  | O => 0
  | S f =>
      if 12 <? zlen k then lookup3_from f (mix_spec (add_block s (firstn 12 k))) (skipn 12 k)
      else if zlen k =? 0 then snd s
      else fin_spec (add_block s k)
  end.

Definition lookup3 (k : bytes) : Z :=
  let a := (0xdeadbeef + zlen k) mod M32 in
  lookup3_from (S (List.length k)) (a, a, a) k.

(** The published self-test value of hashlittle. *)
Example lookup3_published :
  lookup3 (bs "Four score and seven years ago") = 0x17770551 /\ lookup3 [] = 0xdeadbeef.
Proof. split; vm_compute; reflexivity. Qed.
