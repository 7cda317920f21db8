(** Group paths: netcdf/hdf5/hdf5.go:2306-2375 (canonicalizePath and GetGroup).

    Objects are trees: whether the object is a group and its children by name; a child's
    name field is the name it is linked under (hdf5.go:1404-1440 sets it so). *)
From Verif Require Import Prelude.

Inductive otree : Type := ONode (isGroup : bool) (children : list (bytes * otree)).
Definition o_group (o : otree) : bool := match o with ONode g _ => g end.
Definition o_children (o : otree) : list (bytes * otree) := match o with ONode _ c => c end.

Definition slash : Z := 47.

(** strings.Split(s, "/") *)
Fixpoint split (s : bytes) : list bytes :=
  match s with
  | [] => [[]]
  | c :: r =>
      if c =? slash then [] :: split r
      else match split r with
           | x :: xs => (c :: x) :: xs
           | [] => [[c]]
           end
  end.

(** strings.Join(l, "/") *)
Fixpoint join (l : list bytes) : bytes :=
  match l with
  | [] => []
  | [x] => x
  | x :: xs => x ++ slash :: join xs
  end.

Definition has_slash (s : bytes) : bool :=
  match s with c :: _ => c =? slash | [] => false end.

(** hdf5.go:2306-2320 *)
Definition canonicalizePath (s : bytes) : bytes :=
  (if has_slash s then [slash] else []) ++
  join (filter (fun x => negb (beqb x [])) (split s)).

(** hdf5.go:2344-2362; [fuel] bounds the depth of the tree *)
Fixpoint sgDescend (fuel : nat) (groupName : bytes) (o : otree) (group : bytes) : option otree :=
  match fuel with
  | O => None
  | S f =>
      if negb (o_group o) then None
      else if beqb group groupName then Some o
      else
        let desc := zdrop (zlen group) groupName in
        match split desc with
        | c :: _ =>
            match assoc c (o_children o) with
            | Some o' => sgDescend f groupName o' (group ++ c ++ [slash])
            | None => None
            end
        | [] => None
        end
  end.

(** A handle: hdf5.go:60-80, fields groupName and groupObject *)
Record handle : Type := mkHandle { h_name : bytes; h_obj : otree }.

Fixpoint depth (o : otree) : nat :=
  match o with ONode _ c => S (fold_right (fun p m => Nat.max (depth (snd p)) m) O c) end.

(** hdf5.go:2324-2375 *)
Definition getGroup (root : otree) (h : handle) (path : bytes) : res handle :=
  let group := canonicalizePath path in
  let '(groupName, toDescend, start) :=
    if has_slash group
    then (if beqb group [slash] then [slash] else group ++ [slash], root, [slash])
    else (h_name h ++ group ++ [slash], h_obj h, h_name h) in
  match sgDescend (depth toDescend) groupName toDescend start with
  | None => Err ENotFound
  | Some o => Ok (mkHandle groupName o)
  end.
