(** netcdf/netcdf4.go: choice of the reader by the first byte.  The two readers are
    parameters of the functions; [P_Dispatch] uses the CDF reader of [CdfReaderModel].
    Simplifications: the file is its bytes; a Read of one byte at the start returns it
    unless the file is empty (then n = 0 and err = io.EOF); Seek(0, SeekStart) does not fail;
    os.Open of an existing file does not fail. *)
From Verif Require Import Prelude GoVal.

Definition magicCDF : Z := 67.     (* netcdf4.go:15, 'C' *)
Definition magicHDF : Z := 0x89.   (* netcdf4.go:16 *)

(** netcdf4.go:72-80 *)
Definition get_kind (f : bytes) : res Z :=
  match f with
  | [] => Err EEOF
  | b :: _ => Ok b
  end.

(** The group returned, with the reader that made it *)
Inductive group (C H : Type) : Type := GCdf (c : C) | GHdf (h : H).
Arguments GCdf {C H}. Arguments GHdf {C H}.

(** netcdf4.go:28-48 and 53-70.  Open and New differ only in who closes the file. *)
Definition nc_open {C H} (cdf : bytes -> res C) (hdf : bytes -> res H) (f : bytes) : res (group C H) :=
  match get_kind f with
  | Ok kind =>
      if kind =? magicCDF then rmap GCdf (cdf f)
      else if kind =? magicHDF then rmap GHdf (hdf f)
      else Err EUnknown
  | Err _ => Err EUnknown
  | Panic => Panic
  end.
