(** netcdf/hdf5/checksum.go and hdf5.go:338-368.  Values of type uint32 are integers in
    [0,2^32). *)
From Verif Require Import Prelude GoVal H5Base.

(** checksum.go:9-11 *)
Definition rot (x k : Z) : Z := Z.lor (u32 (Z.shiftl x k)) (Z.shiftr x (32 - k)).

(** checksum.go:13-37, one assignment per binding *)
Definition mix (a b c : Z) : Z * Z * Z :=
  let a := u32 (a - c) in let a := Z.lxor a (rot c 4) in let c := u32 (c + b) in
  let b := u32 (b - a) in let b := Z.lxor b (rot a 6) in let a := u32 (a + c) in
  let c := u32 (c - b) in let c := Z.lxor c (rot b 8) in let b := u32 (b + a) in
  let a := u32 (a - c) in let a := Z.lxor a (rot c 16) in let c := u32 (c + b) in
  let b := u32 (b - a) in let b := Z.lxor b (rot a 19) in let a := u32 (a + c) in
  let c := u32 (c - b) in let c := Z.lxor c (rot b 4) in let b := u32 (b + a) in
  (a, b, c).

(** checksum.go:39-60; the caller only uses c *)
Definition final (a b c : Z) : Z :=
  let c := Z.lxor c b in let c := u32 (c - rot b 14) in
  let a := Z.lxor a c in let a := u32 (a - rot c 11) in
  let b := Z.lxor b a in let b := u32 (b - rot a 25) in
  let c := Z.lxor c b in let c := u32 (c - rot b 16) in
  let a := Z.lxor a c in let a := u32 (a - rot c 4) in
  let b := Z.lxor b a in let b := u32 (b - rot a 14) in
  let c := Z.lxor c b in let c := u32 (c - rot b 24) in
  c.

(** checksum.go:71-78, the loop; the fuel is the list, which loses three words per turn *)
Fixpoint hash_loop (fuel : nat) (vals : list Z) (n a b c : Z) : res (list Z * Z * (Z * Z * Z)) :=
  if n <=? 12 then Ok (vals, n, (a, b, c))
  else
    match fuel, vals with
    | S fu, v0 :: v1 :: v2 :: r =>
        let '(a, b, c) := mix (u32 (a + v0)) (u32 (b + v1)) (u32 (c + v2)) in
        hash_loop fu r (n - 12) a b c
    | _, _ => Panic
    end.

(** checksum.go:64-94 *)
Definition hashInts (vals : list Z) (nBytes : Z) : res Z :=
  let n := if nBytes =? 0 then u32 (4 * zlen vals) else nBytes in
  let a := u32 (0xdeadbeef + n) in
  let* (vals, n, (a, b, c)) := hash_loop (List.length vals) vals n a a a in
  if 9 <=? n then
    match vals with
    | v0 :: v1 :: v2 :: _ => Ok (final (u32 (a + v0)) (u32 (b + v1)) (u32 (c + v2)))
    | _ => Panic
    end
  else if 5 <=? n then
    match vals with
    | v0 :: v1 :: _ => Ok (final (u32 (a + v0)) (u32 (b + v1)) c)
    | _ => Panic
    end
  else if 1 <=? n then
    match vals with
    | v0 :: _ => Ok (final (u32 (a + v0)) b c)
    | _ => Panic
    end
  else Ok c.

(** checksum.go:98-101: the whole words; [n] of them *)
Fixpoint words (n : nat) (d : bytes) : list Z :=
  match n with
  | O => []
  | S m => of_le (firstn 4 d) :: words m (skipn 4 d)
  end.

(** checksum.go:102-106: the last, incomplete word, zero-padded *)
Definition pad_word (b : bytes) : Z := of_le (b ++ zrep (4 - zlen b) 0).

(** checksum.go:96-108 *)
Definition checksum (data : bytes) : res Z :=
  let n := zlen data in
  let whole := words (Z.to_nat (n / 4)) data in
  let vals := if 0 <? n mod 4 then whole ++ [pad_word (zdrop (n - n mod 4) data)] else whole in
  hashInts vals (u32 n).

(** hdf5.go:347-365 *)
Definition computeChecksumStream (blen : Z) : P Z :=
  let ilen := blen / 4 in
  let rem := blen mod 4 in
  do* b := rd (4 * ilen) in
  let block := words (Z.to_nat ilen) b in
  do* block := (if 0 <? rem
                then do* t := rd rem in pret (block ++ [pad_word t])
                else pret block) in
  fun s => let* h := hashInts block (u32 blen) in Ok (h, s).

(** hdf5.go:338-345 *)
Definition checkChecksum (f : bytes) (addr blen : Z) : res unit :=
  let* bf := newSeek f addr (blen + 4) in
  let* (hash, bf) := computeChecksumStream blen bf in
  let* (sum, _) := read32 bf in
  if hash =? sum then Ok tt else Err EInternal.
