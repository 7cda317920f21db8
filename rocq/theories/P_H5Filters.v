(** C37, C38, C60: the shuffle and fletcher32 filters. *)
From Verif Require Import Prelude GoVal BaseLemmas H5Base H5FilterModel FilterSpec H5FilterProofs.

(** C37.  Full statement: for every element size n >= 1, buffer d and sequence of read sizes, the
    unshuffling reader over the shuffled d delivers d piece by piece.  Missing here: buffers
    whose length is not a multiple of n, for which the statement is false, see C37_refuted. *)
Theorem C37_unshuffle_partial : forall n d sizes, 1 <= n -> (n | zlen d) ->
  Forall (fun p => 0 <= p) sizes ->
  unsh_reads (newUnshuffleReader (shuffle (Z.to_nat n) d) (zlen d) n) sizes = Ok (cut d sizes).
Proof. exact unsh_reads_all. Qed.

Example C37_example :
  shuffle 2 [1; 2; 3; 4; 5; 6] = [1; 3; 5; 2; 4; 6] /\
  unsh_reads (newUnshuffleReader [1; 3; 5; 2; 4; 6] 6 2) [1; 0; 4; 9; 2] =
  Ok [[1]; []; [2; 3; 4; 5]; [6]; []].
Proof. split; vm_compute; reflexivity. Qed.

(** A buffer with bytes after the last whole element loses them: they read as zero. *)
Theorem C37_refuted : exists n d, 1 <= n /\
  unsh_reads (newUnshuffleReader (shuffle (Z.to_nat n) d) (zlen d) n) [zlen d] <> Ok (cut d [zlen d]).
Proof. exists 2, [1; 2; 3; 4; 5]. split; [discriminate|]. vm_compute. discriminate. Qed.

(** C38.  What the reader accepts, for every partition of the data into reads that reaches the
    end with its last read: the library's checksum with each half reduced modulo 65535. *)
Theorem C38_accepts : forall d stored reqs last,
  are_bytes d -> 0 <= stored < 2 ^ 32 ->
  List.concat (map snd (reqs ++ [last])) = d ->
  Forall (fun q : Z * bytes => zlen (snd q) <= fst q) (reqs ++ [last]) ->
  (reqs <> [] -> snd last <> []) ->
  (let* fl := fletcher32Reader (d ++ le 4 stored) (zlen d + 4) in
   rmap fst (fl_reads fl (map (fun q => (fst q, zlen (snd q))) (reqs ++ [last])))) =
  if norm (fletcher32 d) =? stored then Ok (map snd (reqs ++ [last])) else Err EFletcher.
Proof. exact fletcher_reads. Qed.

(** Full statement of C38: the same with [fletcher32 d =? stored].  Missing: data for which a
    half of the library's checksum is 0xFFFF; for these it is false, see C38_refuted. *)
Theorem C38_fletcher_partial : forall d stored reqs last,
  are_bytes d -> 0 <= stored < 2 ^ 32 ->
  fletcher32 d mod 2 ^ 16 <> 0xFFFF -> fletcher32 d / 2 ^ 16 <> 0xFFFF ->
  List.concat (map snd (reqs ++ [last])) = d ->
  Forall (fun q : Z * bytes => zlen (snd q) <= fst q) (reqs ++ [last]) ->
  (reqs <> [] -> snd last <> []) ->
  (let* fl := fletcher32Reader (d ++ le 4 stored) (zlen d + 4) in
   rmap fst (fl_reads fl (map (fun q => (fst q, zlen (snd q))) (reqs ++ [last])))) =
  if fletcher32 d =? stored then Ok (map snd (reqs ++ [last])) else Err EFletcher.
Proof.
  intros d stored reqs last Hd Hs H1 H2 Hc Hq Hl.
  rewrite (fletcher_reads d stored reqs last) by assumption. rewrite norm_id by (try apply fletcher32_range; assumption). reflexivity.
Qed.

Definition C38_run (d : bytes) (stored : Z) (reqs : list (Z * Z)) : res (list bytes) :=
  let* fl := fletcher32Reader (d ++ le 4 stored) (zlen d + 4) in rmap fst (fl_reads fl reqs).

Example C38_example :
  fletcher32 [1; 2; 3] = 0x05040402 /\
  C38_run [1; 2; 3] 0x05040402 [(1, 1); (5, 2)] = Ok [[1]; [2; 3]] /\
  C38_run [1; 2; 3] 0x05040402 [(2, 2); (1, 1)] = Ok [[1; 2]; [3]] /\
  C38_run [1; 2; 3] 0x05040403 [(2, 2); (1, 1)] = Err EFletcher.
Proof. repeat split; vm_compute; reflexivity. Qed.

(** A chunk holding the word 0xFFFF with the checksum the library stores for it is rejected,
    and accepted with a checksum the library would not store. *)
Theorem C38_refuted : exists d stored,
  are_bytes d /\ stored = fletcher32 d /\
  C38_run d stored [(zlen d, zlen d)] = Err EFletcher /\
  exists other, other <> fletcher32 d /\ C38_run d other [(zlen d, zlen d)] = Ok [d].
Proof.
  exists [255; 255], 0xFFFFFFFF.
  split. { constructor; [split; [discriminate|reflexivity]|]. constructor; [split; [discriminate|reflexivity]|]. constructor. }
  split; [vm_compute; reflexivity|]. split; [vm_compute; reflexivity|].
  exists 0. split; [vm_compute; discriminate|vm_compute; reflexivity].
Qed.

(** C60.  A chunk written through shuffle and then fletcher32 is read back through both, however
    the reader below partitions the data.  Missing: chunks of odd length, for which
    it is false, see C60_refuted; lengths that are no multiple of n as in C37. *)
Theorem C60_shuffle_fletcher_partial : forall n d stored parts m,
  1 <= n -> (n | zlen d) -> zlen d mod 2 = 0 -> are_bytes d -> 0 <= stored < 2 ^ 32 ->
  parts <> [] -> Forall (fun q : bytes => q <> []) parts ->
  List.concat parts = shuffle (Z.to_nat n) d ->
  read_shuffled_fletcher (shuffle (Z.to_nat n) d ++ le 4 stored) (zlen d) n (map zlen parts ++ [m]) =
  if norm (fletcher32 (shuffle (Z.to_nat n) d)) =? stored then Ok d else Err EFletcher.
Proof. exact shuffled_fletcher. Qed.

Example C60_example :
  read_shuffled_fletcher (shuffle 2 [1; 2; 3; 4] ++ le 4 (fletcher32 [1; 3; 2; 4])) 4 2 [3; 1; 0] =
  Ok [1; 2; 3; 4].
Proof. vm_compute. reflexivity. Qed.

(** Three one-byte elements: readAll asks the fletcher reader once more after the end of the data;
    that call adds the odd last byte to the sums a second time. *)
Theorem C60_refuted : exists n d parts m,
  1 <= n /\ (n | zlen d) /\ List.concat parts = shuffle (Z.to_nat n) d /\
  read_shuffled_fletcher (shuffle (Z.to_nat n) d ++ le 4 (fletcher32 (shuffle (Z.to_nat n) d)))
    (zlen d) n (map zlen parts ++ [m]) = Err EFletcher.
Proof.
  exists 1, [1; 2; 3], [[1; 2; 3]], 0. split; [discriminate|]. split; [exists 3; reflexivity|].
  split; vm_compute; reflexivity.
Qed.

Print Assumptions C37_unshuffle_partial.
Print Assumptions C37_refuted.
Print Assumptions C38_accepts.
Print Assumptions C38_fletcher_partial.
Print Assumptions C38_refuted.
Print Assumptions C60_shuffle_fletcher_partial.
Print Assumptions C60_refuted.
