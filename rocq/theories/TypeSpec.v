(** What it means for a Go value to be of a netCDF-4 type, written without reference to the
    writer or the reader.  An element type is a number, a string, an opaque of fixed size,
    an enumeration, a compound or a sequence of varying length. *)
From Verif Require Import Prelude GoVal H5Value H5TypeRead.

Inductive sty : Type :=
| SNum (k : nk)
| SStr
| SOpaque (n : Z)
| SEnum (k : nk) (names : list bytes) (vals : list Z)
| SComp (fs : list (bytes * sty))
| SVlen (s : sty).

Section Ind.
  Variable P : sty -> Prop.
  Hypothesis Hnum : forall k, P (SNum k).
  Hypothesis Hstr : P SStr.
  Hypothesis Hop : forall n, P (SOpaque n).
  Hypothesis Hen : forall k ns vs, P (SEnum k ns vs).
  Hypothesis Hco : forall fs, Forall (fun f => P (snd f)) fs -> P (SComp fs).
  Hypothesis Hvl : forall s, P s -> P (SVlen s).
  Fixpoint sty_ind' (s : sty) : P s :=
    match s with
    | SNum k => Hnum k
    | SStr => Hstr
    | SOpaque n => Hop n
    | SEnum k ns vs => Hen k ns vs
    | SComp fs =>
        Hco fs ((fix go (fs : list (bytes * sty)) : Forall (fun f => P (snd f)) fs :=
                   match fs with
                   | [] => Forall_nil _
                   | f :: r => Forall_cons f (sty_ind' (snd f)) (go r)
                   end) fs)
    | SVlen s => Hvl s (sty_ind' s)
    end.
End Ind.

(** Strings and names without NUL *)
Definition text (s : bytes) : Prop := Forall (fun b => 0 < b < 256) s.

Definition is_int (k : nk) : Prop := k <> F32 /\ k <> F64.

(** The Go type of the values *)
Fixpoint go_type (s : sty) : hty :=
  match s with
  | SNum k => TNum k
  | SStr => TStr
  | SOpaque _ => TOpaque
  | SEnum _ _ _ => TEnum
  | SComp _ => TComp
  | SVlen s => TSlice (go_type s)
  end.

(** Bytes an element takes in a dataset; strings and sequences are 16-byte descriptors *)
Fixpoint size_of (s : sty) : Z :=
  match s with
  | SNum k => ksize k
  | SStr => 16
  | SOpaque n => n
  | SEnum k _ _ => ksize k
  | SComp fs => (fix go (fs : list (bytes * sty)) : Z :=
                   match fs with [] => 0 | (_, s) :: r => size_of s + go r end) fs
  | SVlen _ => 16
  end.

(** [v] is a value of type [s] *)
Fixpoint conf (s : sty) (v : hval) {struct s} : Prop :=
  match s with
  | SNum k => exists z, v = HNum k z /\ in_range k z = true
  | SStr => exists t, v = HStr t /\ text t /\ zlen t < 2 ^ 32
  | SOpaque n => exists b, v = HOpaque b /\ zlen b = n
  | SEnum k names vals =>
      exists z, v = HEnum (HNum k z) names (map (HNum k) vals) /\ in_range k z = true
  | SComp fs =>
      exists l, v = HComp l /\
        (fix go (fs : list (bytes * sty)) (l : list (bytes * hval)) : Prop :=
           match fs, l with
           | [], [] => True
           | (nm, s) :: fs', (nm', x) :: l' => nm' = nm /\ conf s x /\ go fs' l'
           | _, _ => False
           end) fs l
  | SVlen s' =>
      exists l, v = HSlice (go_type s') l /\ zlen l < 2 ^ 32 /\
        (fix all (l : list hval) : Prop :=
           match l with [] => True | x :: r => conf s' x /\ all r end) l
  end.

(** [v] is a rectangular array of elements of type [s] with the given dimensions *)
Fixpoint nested (n : nat) (t : hty) : hty :=
  match n with O => t | S m => TSlice (nested m t) end.
Fixpoint array_of (s : sty) (dims : list Z) (v : hval) : Prop :=
  match dims with
  | [] => conf s v
  | n :: ds =>
      exists l, v = HSlice (nested (List.length ds) (go_type s)) l /\ zlen l = n /\
        Forall (array_of s ds) l
  end.

(** Opaque types in a datatype message take everything that follows for their tag *)
Fixpoint has_opaque (s : sty) : bool :=
  match s with
  | SOpaque _ => true
  | SComp fs => (fix go (fs : list (bytes * sty)) : bool :=
                   match fs with [] => false | (_, s) :: r => has_opaque s || go r end) fs
  | SVlen s => has_opaque s
  | _ => false
  end.

(** Elements that need nothing outside themselves *)
Fixpoint closed (s : sty) : bool :=
  match s with
  | SStr | SVlen _ => false
  | SComp fs => (fix go (fs : list (bytes * sty)) : bool :=
                   match fs with [] => true | (_, s) :: r => closed s && go r end) fs
  | _ => true
  end.

(** The types that can be written: the limits of the format as used by the writer, an
    opaque member only at the end, sequences of closed elements only *)
Definition size_ok (n : Z) : Prop := 0 < n < 65536 \/ 16777216 <= n < 2 ^ 32.
Fixpoint writable (s : sty) : Prop :=
  match s with
  | SNum _ | SStr => True
  | SOpaque n => 0 < n < 2 ^ 32
  | SEnum k names vals =>
      is_int k /\ List.length names = List.length vals /\ zlen names < 256 /\
      Forall text names /\ Forall (fun z => in_range k z = true) vals
  | SComp fs =>
      zlen fs < 256 /\ size_ok (size_of s) /\
      (fix go (fs : list (bytes * sty)) : Prop :=
         match fs with
         | [] => True
         | (nm, s) :: r =>
             text nm /\ writable s /\ (r <> [] -> has_opaque s = false) /\ go r
         end) fs
  | SVlen s => writable s /\ closed s = true
  end.

(** An empty sequence tells its element type only by its Go type, which says nothing about
    the members of a compound, the size of an opaque or the members of an enumeration *)
Definition plain (s : sty) : bool := match s with SNum _ => true | _ => false end.
Fixpoint seqs_ok (s : sty) (v : hval) {struct s} : bool :=
  match s, v with
  | SVlen s', HSlice _ [] => plain s'
  | SComp fs, HComp l =>
      (fix go (fs : list (bytes * sty)) (l : list (bytes * hval)) : bool :=
         match fs, l with
         | (_, s) :: fs', (_, x) :: l' => seqs_ok s x && go fs' l'
         | _, _ => true
         end) fs l
  | _, _ => true
  end.

(** The reader's description of a type: kind, width, sign, little-endian order, sizes,
    members with names and offsets *)
Fixpoint describe (s : sty) : dty :=
  match s with
  | SNum F32 => DFloat 4 false
  | SNum F64 => DFloat 8 false
  | SNum k => DFixed (ksize k) (ksigned k) false
  | SStr => DVlen 16 true (DString 1)
  | SOpaque n => DOpaque n
  | SEnum k names vals =>
      DEnum (ksize k) (ksize k) (ksigned k) false names (map (HNum k) vals)
  | SComp fs =>
      DComp (size_of s)
        ((fix go (off : Z) (fs : list (bytes * sty)) : list (bytes * Z * list Z * dty) :=
            match fs with
            | [] => []
            | (nm, s) :: r => (nm, off, [], describe s) :: go (off + size_of s) r
            end) 0 fs)
  | SVlen s => DVlen 16 false (describe s)
  end.

(** ** Variables *)

(** no sequences anywhere *)
Fixpoint novlen (s : sty) : bool :=
  match s with
  | SVlen _ => false
  | SComp fs => (fix go (fs : list (bytes * sty)) : bool :=
                   match fs with [] => true | (_, s) :: r => novlen s && go r end) fs
  | _ => true
  end.

(** Element types of variables: sequences only at the top *)
Definition var_type (s : sty) : Prop :=
  writable s /\ (novlen s = true \/ exists s', s = SVlen s').

(** Values of variables: an array of an enumeration is one Go value with an array of
    numbers inside; everything else is an array of elements. *)
Definition value_of (s : sty) (dims : list Z) (v : hval) : Prop :=
  match s with
  | SEnum k names vals =>
      exists w, v = HEnum w names (map (HNum k) vals) /\ array_of (SNum k) dims w
  | _ => array_of s dims v
  end.

(** The first element of an array tells its type; it must be there, unless the Go type of
    the array is enough *)
Fixpoint first_ok (s : sty) (dims : list Z) (v : hval) : bool :=
  match dims with
  | [] => seqs_ok s v
  | _ :: ds => match v with HSlice _ (x :: _) => first_ok s ds x | _ => plain s end
  end.
Definition shape_ok (s : sty) (dims : list Z) (v : hval) : Prop :=
  match s with
  | SNum _ | SEnum _ _ _ => True
  | SStr => dims <> []
  | _ => (forall n, In n dims -> 0 < n) /\ first_ok s dims v = true
  end.
