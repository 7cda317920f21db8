(** What a parsed datatype (H5TypeRead) is, as a shape. *)
From Verif Require Import Prelude GoVal H5Value H5TypeRead TypeTextSpec.

Definition integer_of (v : hval) : Z := match v with HNum _ z => z | _ => 0 end.

(** A reference is read as an unsigned integer of 8 bytes.  A member with dimensions is an array of
    them. *)
Fixpoint shape_of (d : dty) : shape :=
  match d with
  | DFixed n sg _ => SInt n sg
  | DFloat n _ => SFloat n
  | DString _ => SText
  | DOpaque n => SOpaque n
  | DComp _ ms =>
      SStruct (map (fun m => match m with
                             | (n, _, dims, t) =>
                                 (n, match dims with [] => shape_of t | _ => SArray dims (shape_of t) end)
                             end) ms)
  | DRef _ => SInt 8 false
  | DEnum _ blen sg _ names vals => SEnum blen sg (combine names (map integer_of vals))
  | DVlen _ true _ => SText
  | DVlen _ false t => SSeq (shape_of t)
  | DArray _ dims t => SArray dims (shape_of t)
  end.

(** No member has dimensions of its own (those of version 1 can have some; in later versions it is
    of an array type), and enumerations have integers as values. *)
Fixpoint no_member_dims (d : dty) : Prop :=
  match d with
  | DComp _ ms => (fix go l := match l with
                               | [] => True
                               | (_, _, dims, t) :: r => dims = [] /\ no_member_dims t /\ go r
                               end) ms
  | DEnum _ _ _ _ _ vals => Forall (fun v => exists k z, v = HNum k z) vals
  | DVlen _ false t => no_member_dims t
  | DArray _ _ t => no_member_dims t
  | _ => True
  end.
