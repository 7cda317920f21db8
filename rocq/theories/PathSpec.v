(** Group paths, independently of the code: a path is the list of the non-empty pieces between
    slashes; following it from a group means looking up each piece in turn among the children
    of the group reached so far, which must be a group each time, the last one included. *)
From Verif Require Import Prelude H5PathModel.

(** [piece] is what has been seen of the current piece, in order *)
Fixpoint pieces (piece : bytes) (s : bytes) : list bytes :=
  match s with
  | [] => match piece with [] => [] | _ => [piece] end
  | c :: r =>
      if c =? 47 then match piece with [] => pieces [] r | _ => piece :: pieces [] r end
      else pieces (piece ++ [c]) r
  end.
Definition components (path : bytes) : list bytes := pieces [] path.
Definition absolute (path : bytes) : bool := match path with c :: _ => c =? 47 | [] => false end.

Fixpoint child (name : bytes) (l : list (bytes * otree)) : option otree :=
  match l with
  | [] => None
  | (n, o) :: r => if list_eq_dec Z.eq_dec name n then Some o else child name r
  end.

Fixpoint follow (o : otree) (path : list bytes) : option otree :=
  match o with
  | ONode false _ => None
  | ONode true ch =>
      match path with
      | [] => Some o
      | c :: r => match child c ch with Some o' => follow o' r | None => None end
      end
  end.

(** The name of the group reached: every component between slashes *)
Definition full_name (cs : list bytes) : bytes := [47] ++ List.concat (map (fun c => c ++ [47]) cs).
