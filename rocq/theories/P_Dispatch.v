(** Property C23: which reader a file is offered to. *)
From Verif Require Import Prelude GoVal BaseLemmas ValidNameModel ValidNameProofs OrderedMapModel ArraySpec CdfSpec CdfCalls
  CdfWriterModel CdfReaderModel CdfHeader CdfFile CdfInv CdfRound CdfLayout CdfVersion CdfExamples DispatchModel.

(** C23, for every byte sequence and any two readers: the outcome is that of the reader for the
    first byte, and nothing else is accepted. *)
Theorem C23_dispatch {C H} (cdf : bytes -> res C) (hdf : bytes -> res H) (f : bytes) :
  (forall c, nc_open cdf hdf f = Ok (GCdf c) <-> hd_error f = Some 67 /\ cdf f = Ok c) /\
  (forall h, nc_open cdf hdf f = Ok (GHdf h) <-> hd_error f = Some 137 /\ hdf f = Ok h) /\
  (hd_error f <> Some 67 -> hd_error f <> Some 137 -> nc_open cdf hdf f = Err EUnknown) /\
  (hd_error f = Some 67 -> forall e, cdf f = Err e -> nc_open cdf hdf f = Err e) /\
  (hd_error f = Some 137 -> forall e, hdf f = Err e -> nc_open cdf hdf f = Err e).
Proof.
  unfold nc_open, get_kind, magicCDF, magicHDF. destruct f as [|b f]; cbn [hd_error].
  { repeat split; try discriminate; intros; try discriminate; intuition discriminate. }
  destruct (b =? 67) eqn:E1; [apply Z.eqb_eq in E1; subst b|destruct (b =? 0x89) eqn:E2; [apply Z.eqb_eq in E2; subst b|]].
  - destruct (cdf (67 :: f)) as [c| |] eqn:E; cbn [rmap]; repeat split; intros; try discriminate; try congruence; intuition congruence.
  - destruct (hdf (0x89 :: f)) as [c| |] eqn:E; cbn [rmap]; repeat split; intros; try discriminate; try congruence; intuition congruence.
  - apply Z.eqb_neq in E1. apply Z.eqb_neq in E2. repeat split; intros; try discriminate; try congruence; try intuition congruence.
Qed.

(** Every file the CDF reader accepts, and every file the CDF writer makes, begins with 'C', so
    it is offered to the CDF reader. *)
Theorem C23_cdf_accepts {H} (hdf : bytes -> res H) f c : cdf_open f = Ok c -> nc_open cdf_open hdf f = Ok (GCdf c).
Proof.
  intros E. apply (C23_dispatch cdf_open hdf f). split; [|exact E]. unfold cdf_open, read_header in E.
  destruct (read_bytes 4 f) as [[m s0]| |] eqn:R; try discriminate. cbn [rbind] in E.
  destruct (beqb (ztake 3 m) (bs "CDF")) eqn:B; [|discriminate]. apply beqb_eq in B.
  unfold read_bytes in R. change (go_make 4 1) with (Ok tt) in R. cbn [rbind] in R. destruct (zlen f <? 4); [discriminate|]. assert (M : m = ztake 4 f) by congruence. subst m.
  destruct f as [|x f]; [discriminate|]. cbn [hd_error]. unfold ztake in B. rewrite firstn_firstn in B. change (Nat.min (Z.to_nat 3) (Z.to_nat 4)) with 3%nat in B. cbn [firstn] in B. change (bs "CDF") with [67; 68; 70] in B. congruence.
Qed.
Theorem C23_cdf_writer {H} (hdf : bytes -> res H) st f : close_writer st = Ok f ->
  nc_open cdf_open hdf f = rmap GCdf (cdf_open f).
Proof.
  intros E. destruct (file_start st f E) as (r & ->). reflexivity.
Qed.
Example C23_example : exists c, nc_open cdf_open (fun _ => @Err unit EBadMagic) ex_file = Ok (GCdf c) /\
  nc_open cdf_open (fun _ => @Err unit EBadMagic) [] = Err EUnknown /\
  nc_open cdf_open (fun _ => @Err unit EBadMagic) (bs "HDF") = Err EUnknown /\
  nc_open cdf_open (fun _ => @Err unit EBadMagic) [137; 72] = Err EBadMagic.
Proof. eexists. split; [vm_compute; reflexivity|]. split; [vm_compute; reflexivity|]. split; vm_compute; reflexivity. Qed.

Print Assumptions C23_dispatch.
Print Assumptions C23_cdf_accepts.
Print Assumptions C23_cdf_writer.
