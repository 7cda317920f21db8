(** C73: superblock extensions *)
From Verif Require Import Prelude GoVal BaseLemmas H5Base H5MetaRead Lookup3Spec MetaSpec DenseSpec ForeignSpec ForeignExtSpec H5DenseRead
  H5Value H5TypeRead H5PathModel H5RecordModel H5FileRead PathSpec H5PathProofs H5DenseProofs H5BTreeProofs H5ApiPath H5ForeignProofs
  H5ForeignTree H5ForeignOpen H5ForeignApi P_H5Dense P_H5Foreign.
From Coq Require Import Lia ZifyBool ZifyNat Permutation.

(** A file with an empty root group and an extension *)
Definition ex_ext_super : bytes :=
  sealed (h5_signature ++ [2; 8; 8; 0] ++ le 8 0 ++ le 8 81 ++ le 8 92 ++ le 8 48).
Definition ex_ext_file (m : fmsg) : bytes := ex_ext_super ++ fx_head2 [gx_info] 0 ++ fx_head2 [m] 0.
(** The K values of the library, but for those of the leaves; the driver of files in several parts; paged allocation *)
Definition ext_k : fmsg := fm 19 (k_values 32 16 8).
Definition ext_driver : fmsg := fm 20 (driver_info (bs "NCSAmult") [1; 2; 3; 4; 5; 6; 0; 0]).
Definition ext_space : fmsg := fm 23 (space_info 1 1 4096).

(** The reader reads the extension, but has no use for the messages that are found in one: files that set the K values, a
    driver or the handling of free space do not open. *)
Theorem C73_extension_refuted : forall m, m = ext_k \/ m = ext_driver \/ m = ext_space -> exists f e,
  extended_superblock_is f 81 48 /\ object_is f alone 1 48 (FGroup []) /\
  header_is f 81 (HV2 false) [m] /\ openFile f = Err e.
Proof.
  intros m Hm. exists (ex_ext_file m), (if fm_type m =? 19 then ESuperblock else EInternal). split; [|split; [|split]].
  - split; [unfold word; lia|]. split; [unfold word; lia|]. split; [unfold undefined; lia|]. exists 92, 2, 0.
    split; [unfold word; lia|]. split; [destruct Hm as [-> | [-> | ->]]; vm_compute; congruence|].
    split; [left; reflexivity|]. split; [unfold word; lia|]. destruct Hm as [-> | [-> | ->]]; here.
  - assert (Hh : header_is (ex_ext_file m) 48 (HV2 false) [gx_info]).
    { apply gx_h2; [chunk2|reflexivity|destruct Hm as [-> | [-> | ->]]; here]. }
    apply (is_group _ _ 1 0 0 48 [gx_info] [[]] []).
    + split; [lia|]. exists (HV2 false), [gx_info]. split; [exact Hh|].
      repeat (apply held_msg; [discriminate|]). apply held_nil.
    + lia.
    + apply Forall2_cons; [|apply Forall2_nil]. right. right. split; [left; reflexivity|reflexivity].
    + right. exists ([0; 0] ++ le 8 undefined ++ le 8 undefined), undefined, undefined. split; [reflexivity|]. split.
      * exists 0, 0, 0, 0. unfold undefined. split; [unfold word; lia|]. split; [unfold word; lia|]. split; [unfold word; lia|].
        split; [unfold word; lia|]. split; [unfold word; lia|reflexivity].
      * left. split; reflexivity.
    + left. reflexivity.
    + discriminate.
    + apply Permutation_refl.
    + apply NoDup_nil.
    + apply kids_nil.
  - apply gx_h2; [destruct Hm as [-> | [-> | ->]]; chunk2|destruct Hm as [-> | [-> | ->]]; reflexivity|destruct Hm as [-> | [-> | ->]]; here].
  - destruct Hm as [-> | [-> | ->]]; vm_compute; reflexivity.
Qed.

(** Without such a message the same file opens, so it is the message that is refused. *)
Example C73_extension_example : told (ex_ext_file (fm 0 [0; 0; 0; 0; 0; 0; 0; 0])) (bs "/") = Ok ([], [], []).
Proof. vm_compute. reflexivity. Qed.

Print Assumptions C73_extension_refuted.
