(** Of what type a written value is, and what the type of the elements is as a shape (TypeTextSpec): in terms of Go values
    (TypeSpec), without the functions of the writer or the reader. *)
From Verif Require Import Prelude GoVal H5Value TypeTextSpec TypeSpec FileSpec.

(** The shape of a type *)
Fixpoint type_shape (s : sty) : shape :=
  match s with
  | SNum F32 => SFloat 4
  | SNum F64 => SFloat 8
  | SNum k => SInt (ksize k) (ksigned k)
  | SStr => SText
  | SOpaque n => TypeTextSpec.SOpaque n
  | SEnum k names vals => TypeTextSpec.SEnum (ksize k) (ksigned k) (combine names vals)
  | SComp fs => SStruct (map (fun m => match m with (n, t) => (n, type_shape t) end) fs)
  | SVlen t => SSeq (type_shape t)
  end.

(** [v] is a string, or an array of the dimensions [dims] with elements of type [s] *)
Definition var_of_type (s : sty) (dims : list Z) (v : hval) : Prop :=
  (s = SStr /\ dims = [] /\ exists t, v = HStr t /\ TypeSpec.text t /\ zlen t < 2 ^ 32 - 1) \/
  (var_type s /\ value_of s dims v /\ shape_ok s dims v).

(** The same for attributes, which have no dimension of no elements *)
Definition attr_of_type (s : sty) (dims : list Z) (v : hval) : Prop :=
  Forall (fun n => 0 < n) dims /\
  ((s = SStr /\ dims = [] /\ exists t, v = HStr t /\ TypeSpec.text t /\ zlen t < 2 ^ 32 - 1) \/
   (writable s /\ value_of s dims v /\ shape_ok s dims v /\
    match s with
    | SNum _ | SStr | SEnum _ _ _ => True
    | SComp _ => Forall (fun x => seqs_ok s x = true) (items (List.length dims) v)
    | SVlen _ => ragged dims v
    | SOpaque _ => False
    end)).
