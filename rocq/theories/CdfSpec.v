(** Specification of what a CDF writer accepts and a reader must return.
    Nothing in this file refers to the models. *)
From Verif Require Import Prelude GoVal.

(** Rectangular values: all slices at the same depth have the same positive length;
    leaves are numbers or strings. *)
Inductive rect : list Z -> gval -> Prop :=
| r_num k z : rect [] (VNum k z)
| r_str s : rect [] (VStr s)
| r_slice ds t l : l <> [] -> Forall (rect ds) l -> rect (zlen l :: ds) (VSlice t l).

(** Length of the longest string in a value *)
Fixpoint longest (v : gval) : Z :=
  match v with
  | VStr s => zlen s
  | VSlice _ l => fold_right (fun x m => Z.max (longest x) m) 0 l
  | _ => 0
  end.

(** The first innermost row: the []string reached by taking element 0 repeatedly *)
Fixpoint first_row (v : gval) : gval :=
  match v with
  | VSlice t l => match t with
                  | GString => v
                  | _ => match l with [] => v | x :: _ => first_row x end
                  end
  | _ => v
  end.

(** Strings padded with NUL to length [n] *)
Fixpoint pad_strings (n : Z) (v : gval) : gval :=
  match v with
  | VStr s => VStr (s ++ zrep (n - zlen s) 0)
  | VSlice t l => VSlice t (map (pad_strings n) l)
  | _ => v
  end.

(** What reading back must return *)
Definition returned (v : gval) : gval := pad_strings (longest v) v.

(** Innermost element type *)
Fixpoint base_type (t : gtype) : gtype :=
  match t with GSlice t' => base_type t' | _ => t end.

(** IEEE single precision signalling NaN (exponent all ones, quiet bit clear, fraction not zero) *)
Definition signalling32 (z : Z) : Prop :=
  Z.land z 2139095040 = 2139095040 /\ Z.land z 4194304 = 0 /\ Z.land z 4194303 <> 0.

(** Values that round-trip.  [named]: the caller named at least one dimension. *)
Record storable (named : bool) (v : gval) : Prop := mkStorable {
  st_wt : wt v = true;
  st_rect : exists ds, rect ds v;
  (* the longest string is in the first row, and is not empty *)
  st_str : base_type (type_of v) = GString ->
           0 < longest v /\ longest (first_row v) = longest v;
  (* a one-byte string without dimension names is stored as a scalar character *)
  st_char : forall c, v = VStr [c] -> named = false -> c < 128;
  st_nan : forall z, v = VNum F32 z -> ~ signalling32 z
}.

(** Number of elements, a string array counting its characters. *)
Fixpoint extent (v : gval) : list Z :=
  match v with
  | VSlice _ l => zlen l :: match l with [] => [] | x :: _ => extent x end
  | _ => []
  end.

(** External representation of a value: big-endian leaves in row-major order *)
Fixpoint xdr (v : gval) : bytes :=
  match v with
  | VNum k z => be (Z.to_nat (ksize k)) z
  | VStr s => s
  | VSlice _ l => flat_map xdr l
  | VOther => []
  end.

(** Attribute values come back unchanged, except that a slice of length one becomes its element. *)
Definition attr_returned (v : gval) : gval :=
  match v with VSlice _ [x] => x | _ => v end.
