(** C27: metadata checksums. *)
From Verif Require Import Prelude GoVal BaseLemmas H5Base H5ChecksumModel Lookup3Spec H5ChecksumProofs.

(** The writer's checksum of a block is Jenkins' lookup3 hash of its bytes, the checksum
    the HDF5 file format prescribes. *)
Theorem C27_lookup3 : forall d, zlen d < 2 ^ 32 -> checksum d = Ok (lookup3 d).
Proof. exact checksum_lookup3. Qed.

(** A block of any length, stored anywhere in a file and followed by the four bytes of the
    checksum the writer computes for it, passes the reader's verification.  The reader's
    stream version computes the same value for every block length, also from 2^32 on,
    where both use the length modulo 2^32. *)
Theorem C27_written_verifies : forall d, exists s,
  checksum d = Ok s /\ 0 <= s < 2 ^ 32 /\
  (forall r, computeChecksumStream (zlen d) (d ++ r) = Ok (s, r)) /\
  forall pre post, zlen (pre ++ d ++ le 4 s ++ post) < 2 ^ 63 ->
    checkChecksum (pre ++ d ++ le 4 s ++ post) (zlen pre) (zlen d) = Ok tt.
Proof.
  intros d. destruct (checksum_ok d) as [s E]. exists s. split; [exact E|].
  assert (W : w32 s) by (rewrite checksum_eq in E; exact (hashInts_w32 _ _ _ E)).
  split; [exact W|]. split.
  - intros r. rewrite compute_stream, E. reflexivity.
  - intros pre post H. rewrite check_block by assumption. rewrite E. cbn [rbind].
    rewrite Z.eqb_refl. reflexivity.
Qed.

(** A block followed by anything else than its lookup3 hash is rejected. *)
Theorem C27_rejects : forall pre d s post, zlen (pre ++ d ++ le 4 s ++ post) < 2 ^ 63 ->
  zlen d < 2 ^ 32 -> 0 <= s < 2 ^ 32 ->
  checkChecksum (pre ++ d ++ le 4 s ++ post) (zlen pre) (zlen d) =
  if s =? lookup3 d then Ok tt else Err EInternal.
Proof.
  intros pre d s post Hf Hd Hs. rewrite check_block by assumption.
  rewrite checksum_lookup3 by assumption. cbn [rbind]. rewrite Z.eqb_sym. reflexivity.
Qed.

Definition C27_block : bytes := bs "Four score and seven years ago".

Example C27_example :
  checksum C27_block = Ok 0x17770551 /\
  checkChecksum ([1; 2; 3] ++ C27_block ++ le 4 0x17770551 ++ [9]) 3 30 = Ok tt /\
  checkChecksum ([1; 2; 3] ++ C27_block ++ le 4 0x17770552 ++ [9]) 3 30 = Err EInternal.
Proof. repeat split; vm_compute; reflexivity. Qed.

Print Assumptions C27_lookup3.
Print Assumptions C27_written_verifies.
Print Assumptions C27_rejects.
