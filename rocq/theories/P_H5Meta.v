(** C26, C28, C29, C30, C31, C33: the blocks of metadata the HDF5 writer emits are read back. *)
From Verif Require Import Prelude GoVal H5Base H5ChecksumModel H5MetaWrite H5MetaRead MetaSpec
  BaseLemmas H5MetaProofs.
From Coq Require Import ZifyBool ZifyNat.

(** ** C28 *)

(** Whatever was put behind the superblock, the finished file starts with a superblock from
    which the reader gets the root address, and the rest of the file is as it was. *)
Theorem C28_superblock ext body root f :
  zlen body + 48 < 2 ^ 63 -> 0 <= root < 2 ^ 63 ->
  finalize (superblockV2 ++ body) root = Ok f ->
  readSuperblock ext f = Ok root /\ zdrop 48 f = body /\ zlen f = 48 + zlen body.
Proof.
  intros Hb Hr Ef. destruct (finalize_eq body root Hb) as (h & Eh & Hh & E).
  rewrite E in Ef.
  assert (E2 : f = sb_head (48 + zlen body) root ++ le 4 h ++ body) by congruence.
  clear E Ef. subst f. pose proof (zlen_nonneg body) as H0.
  assert (L : zlen (sb_head (48 + zlen body) root ++ le 4 h ++ body) = 48 + zlen body)
    by (rewrite !zlen_app, zlen_sb_head, zlen_le; lia).
  split; [|split; [|exact L]].
  - rewrite readSuperblock_head; [|lia|lia|exact Eh|exact Hh|rewrite L; lia].
    rewrite L, Z.leb_refl. reflexivity.
  - rewrite app_assoc. apply zdrop_app_exact. rewrite zlen_app, zlen_sb_head, zlen_le. reflexivity.
Qed.

(** Finishing a file never fails. *)
Theorem C28_total body root : zlen body + 48 < 2 ^ 63 ->
  exists f, finalize (superblockV2 ++ body) root = Ok f.
Proof.
  intros Hb. destruct (finalize_eq body root Hb) as (h & _ & _ & E). eexists. exact E.
Qed.

Definition ok_or {A} (d : A) (x : res A) : A := match x with Ok a => a | _ => d end.
Definition ex_file : bytes := ok_or [] (finalize (superblockV2 ++ [1; 2; 3]) 50).
Example C28_example : 
  finalize (superblockV2 ++ [1; 2; 3]) 50 = Ok ex_file /\
  readSuperblock (fun _ => Panic) ex_file = Ok 50 /\ zlen ex_file = 51.
Proof. vm_compute. split; [reflexivity|]. split; reflexivity. Qed.

(** ** C26 *)

(** A finished file cut off anywhere is refused: with ErrCorrupted if not even the superblock is
    left, with ErrTruncated otherwise. *)
Theorem C26_truncated ext body root f n :
  zlen body + 48 < 2 ^ 63 -> 0 <= root < 2 ^ 63 ->
  finalize (superblockV2 ++ body) root = Ok f ->
  0 <= n < zlen f ->
  readSuperblock ext (ztake n f) = Err (if n <? 48 then ECorrupted else ETruncated).
Proof.
  intros Hb Hr Ef Hn. destruct (finalize_eq body root Hb) as (h & Eh & Hh & E).
  rewrite E in Ef.
  assert (E2 : f = sb_head (48 + zlen body) root ++ le 4 h ++ body) by congruence.
  clear E Ef. subst f. pose proof (zlen_nonneg body) as H0.
  assert (L : zlen (sb_head (48 + zlen body) root ++ le 4 h ++ body) = 48 + zlen body)
    by (rewrite !zlen_app, zlen_sb_head, zlen_le; lia).
  rewrite L in Hn.
  destruct (n <? 48) eqn:En.
  - unfold readSuperblock. rewrite zlen_ztake by lia.
    replace (48 <=? n) with false by lia. reflexivity.
  - rewrite app_assoc. rewrite ztake_app_r by (rewrite zlen_app, zlen_sb_head, zlen_le; lia).
    rewrite <- app_assoc. rewrite zlen_app, zlen_sb_head, zlen_le. change (44 + Z.of_nat 4) with 48.
    assert (L2 : zlen (sb_head (48 + zlen body) root ++ le 4 h ++ ztake (n - 48) body) = n)
      by (rewrite !zlen_app, zlen_sb_head, zlen_le, zlen_ztake by lia; lia).
    rewrite readSuperblock_head; [|lia|lia|exact Eh|exact Hh|rewrite L2; lia].
    rewrite L2. replace (48 + zlen body <=? n) with false by lia. reflexivity.
Qed.

Example C26_example :
  finalize (superblockV2 ++ [1; 2; 3]) 50 = Ok ex_file /\
  readSuperblock (fun _ => Panic) (ztake 50 ex_file) = Err ETruncated /\
  readSuperblock (fun _ => Panic) (ztake 47 ex_file) = Err ECorrupted.
Proof. vm_compute. split; [reflexivity|]. split; reflexivity. Qed.

(** ** C29 *)

(** Reading a written header hands every message that has a body, and then perhaps one null
    message, to the code that deals with messages, in the order written; the checksum is right. *)
Theorem C29_header {S} (handle : Z -> bytes -> S -> res (S * bytes)) ms f a b st :
  Forall msg_ok ms -> zlen (ohdr_body ms) < 2 ^ 32 ->
  objectHeaderV2 ms = Ok b -> has_at f a b -> a <> 0 -> zlen f < 2 ^ 63 ->
  exists pad, is_padding pad /\
    readObjectHeader handle f a st = deliver handle (contents ms ++ pad) st.
Proof.
  intros Hms Hl Eb Hat Ha Hf. eexists. split; [|exact (header_read handle ms f a b st Hms Hl Eb Hat Ha Hf)].
  apply pad_content_ok.
Qed.

(** In particular what is read is the list of messages written. *)
Theorem C29_messages ms f a b :
  Forall msg_ok ms -> zlen (ohdr_body ms) < 2 ^ 32 ->
  objectHeaderV2 ms = Ok b -> has_at f a b -> a <> 0 -> zlen f < 2 ^ 63 ->
  exists pad, is_padding pad /\ readObjectHeader record f a [] = Ok (contents ms ++ pad).
Proof.
  intros Hms Hl Eb Hat Ha Hf.
  destruct (C29_header record ms f a b [] Hms Hl Eb Hat Ha Hf) as (pad & Hp & E).
  exists pad. split; [exact Hp|]. rewrite E.
  assert (G : forall l st, deliver record l st = Ok (st ++ l)).
  { induction l as [|[t d] l IH]; intros st; cbn [deliver].
    - rewrite app_nil_r. reflexivity.
    - unfold record at 1. cbn [forallb]. rewrite IH, <- app_assoc. reflexivity. }
  apply (G _ []).
Qed.

(** Writing a header never fails, and takes a multiple of eight bytes and fourteen more. *)
Theorem C29_total ms : exists b, objectHeaderV2 ms = Ok b /\ zlen b mod 8 = 14 mod 8.
Proof.
  destruct (objectHeader_eq ms) as (h & E & _). eexists. split; [exact E|].
  rewrite !zlen_app, !zlen_le. change (zlen (bs "OHDR")) with 4. change (zlen [2; 2]) with 2.
  unfold ohdr_body. cbv zeta. rewrite zlen_app. unfold null_pad. cbv zeta.
  set (n := zlen (flat_map msg_bytes ms)). pose proof (Z.mod_pos_bound n 8 eq_refl) as B.
  pose proof (Z.div_mod n 8 ltac:(discriminate)) as D. set (q := n / 8) in *. set (r := n mod 8) in *.
  clearbody q r n.
  assert (G : forall x, (exists k, x = 8 * k) -> (4 + (2 + (Z.of_nat 4 + x)) + Z.of_nat 4) mod 8 = 14 mod 8).
  { intros x [k ->]. replace (4 + (2 + (Z.of_nat 4 + 8 * k)) + Z.of_nat 4) with (14 + k * 8) by lia.
    apply Z_mod_plus_full. }
  apply G. destruct (r =? 0) eqn:Er.
  { exists q. change (zlen (@nil Z)) with 0. lia. }
  rewrite zlen_cons, zlen_app, zlen_le, zlen_cons, zlen_zrep.
  destruct (8 - r <? 4) eqn:E8; [exists (q + 2)|exists (q + 1)]; lia.
Qed.

(** A message of 65536 bytes or more is beyond what the header can express: its size is
    written modulo 2^16, and the reader takes the wrong bytes for the next message. *)
Definition long_body : bytes := zrep 65537 1.
Theorem C29_long_message_refuted :
  (let* b := objectHeaderV2 [msg 13 long_body] in
   readObjectHeader record (zrep 8 0 ++ b) 8 []) = Err EInternal.
Proof. vm_compute. reflexivity. Qed.

Definition ex_msgs : list h5msg :=
  [buildLinkInfoMessage; groupInfoMessage; msg 13 []; buildLinkMessage (bs "temp") 1234].
Example C29_example : exists b,
  objectHeaderV2 ex_msgs = Ok b /\ Forall msg_ok ex_msgs /\
  readObjectHeader record (zrep 48 7 ++ b ++ [9]) 48 [] =
    Ok [(2, [0; 0] ++ zrep 16 255); (10, [0; 0]); (6, [1; 0; 4] ++ bs "temp" ++ le 8 1234);
        (0, [0])].
Proof.
  exists (ok_or [] (objectHeaderV2 ex_msgs)).
  split; [vm_compute; reflexivity|]. split; [|vm_compute; reflexivity].
  repeat (apply Forall_cons; [split; [split; [discriminate|reflexivity]|reflexivity]|]). apply Forall_nil.
Qed.

(** ** C30 *)
Theorem C30_link name addr : zlen name < 256 -> 0 <= addr < 2 ^ 64 ->
  readLink (m_data (buildLinkMessage name addr)) = Ok ((name, addr, 0), []).
Proof. exact (link_read name addr). Qed.

Example C30_example : readLink (m_data (buildLinkMessage (bs "group1") 4096)) = Ok ((bs "group1", 4096, 0), []).
Proof. reflexivity. Qed.

(** The bound is sharp: the length of a longer name is written modulo 256, and reading such a
    link ends the process (checkZeroes finds the rest of the name). *)
Theorem C30_long_name_refuted : exists name addr,
  zlen name = 256 /\ 0 <= addr < 2 ^ 64 /\
  readLink (m_data (buildLinkMessage name addr)) = Panic.
Proof.
  exists (zrep 256 120), 4096. split; [reflexivity|]. split; [split; [discriminate|reflexivity]|].
  vm_compute. reflexivity.
Qed.

(** ** C31 *)
Theorem C31_dataspace dims r : Forall (fun d => 0 <= d < 2 ^ 64) dims -> zlen dims <= 255 ->
  readDataspace (buildDataspaceMessage dims ++ r) = Ok (dims, r).
Proof. intros H Hl. apply dataspace_read; [exact H|lia]. Qed.

Theorem C31_layout addr size : 0 <= addr < 2 ^ 64 - 1 -> 0 <= size < 2 ^ 64 ->
  readDataLayout (buildLayoutMessageV2 addr size) = Ok (LContiguous addr size, []).
Proof. exact (layout_read addr size). Qed.

Example C31_example :
  readDataspace (buildDataspaceMessage [3; 0; 2 ^ 63]) = Ok ([3; 0; 2 ^ 63], []) /\
  readDataspace (buildDataspaceMessage []) = Ok ([], []) /\
  readDataLayout (buildLayoutMessageV2 48 1000) = Ok (LContiguous 48 1000, []).
Proof. vm_compute. split; [reflexivity|]. split; reflexivity. Qed.

(** ** C33 *)

(** [n] bytes precede the heap; [addr] is the address the writer remembers for it.  The object
    with index [k] is what was put there as the [k]-th; an empty object, and an index never
    given out, yield nothing. *)
Theorem C33_heap n objs addr b f : globalHeap n objs = (addr, b) -> has_at f n b ->
  zlen f < 2 ^ 63 -> zlen objs <= 65535 ->
  forall k, 1 <= k ->
  readGlobalHeap f addr k =
  Ok (match nth_error objs (Z.to_nat (k - 1)) with
      | Some (x :: o) => Some (x :: o)
      | _ => None
      end).
Proof. exact (fun E Ha Hf Hm => heap_read n objs f addr b E Ha Hf Hm). Qed.

Example C33_example : exists addr b,
  globalHeap 51 [bs "north"; []; bs "a longer string"] = (addr, b) /\
  readGlobalHeap (zrep 51 1 ++ b) addr 1 = Ok (Some (bs "north")) /\
  readGlobalHeap (zrep 51 1 ++ b) addr 2 = Ok None /\
  readGlobalHeap (zrep 51 1 ++ b) addr 3 = Ok (Some (bs "a longer string")).
Proof.
  exists (fst (globalHeap 51 [bs "north"; []; bs "a longer string"])),
         (snd (globalHeap 51 [bs "north"; []; bs "a longer string"])).
  split; [vm_compute; reflexivity|]. split; [vm_compute; reflexivity|].
  split; vm_compute; reflexivity.
Qed.

Print Assumptions C28_superblock.
Print Assumptions C28_total.
Print Assumptions C26_truncated.
Print Assumptions C29_header.
Print Assumptions C29_messages.
Print Assumptions C29_total.
Print Assumptions C29_long_message_refuted.
Print Assumptions C30_link.
Print Assumptions C30_long_name_refuted.
Print Assumptions C31_dataspace.
Print Assumptions C31_layout.
Print Assumptions C33_heap.
