(** How the type of an attribute is told: the text of the type of its elements with a mark for every dimension,
    but none where there is one dimension of one element. *)
From Verif Require Import Prelude TypeTextSpec.

Definition marks (mark : bytes) (dims : list Z) : bytes :=
  match dims with [1] => [] | _ => List.concat (repeat mark (List.length dims)) end.

(** [T]: the types of the group, with their names; [num]: how a number is written *)
Definition attribute_cdl (num : Z -> bytes) (T : list (bytes * shape)) (s : shape) (dims : list Z) : bytes :=
  text (CDL num) T s ++ marks (bs "(*)") dims.
Definition attribute_in_go (num : Z -> bytes) (name : bytes) (T : list (bytes * shape)) (s : shape) (dims : list Z) : bytes :=
  marks (bs "[]") dims ++ text (Golang num name) T s.
