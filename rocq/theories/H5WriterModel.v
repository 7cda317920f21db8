(** The calls of the HDF5 writer: netcdf/hdf5/hdf5writer.go:1052-1290 and 66-118.

    The groups are kept in a list; the place in the list stands for the pointer *h5Group.  A
    writer is known by its number: 0 is what OpenWriter returned, and every successful call of
    CreateGroup returns the next number.

    Simplifications: the values, the dimension names and the attribute map handed over are taken
    as they are at the time of the call (Go keeps references to them until Close); Close works
    on a copy of the tree (Go adds the dimension scales to the tree itself, which no later
    call looks at because the writer is closed then); the result of os.File.Close is nil. *)
From Verif Require Import Prelude GoVal ValidNameModel H5MetaWrite H5Value H5FileWrite.

(** hdf5writer.go:33-40 *)
Record hgroup : Type := mkHgroup {
  hg_groups : list (bytes * nat);
  hg_vars : list (bytes * hvar);
  hg_attrs : option hattrs
}.

Record hstate : Type := mkHstate {
  st_groups : list hgroup;
  st_writers : list nat;
  st_closed : bool;
  st_file : bytes
}.

(** OpenWriter, 1258-1290: the file is created empty; the root has an empty attribute map *)
Definition open_writer : hstate := mkHstate [mkHgroup [] [] (Some [])] [0%nat] false [].

(** isSupportedType, 1183-1256 *)
Fixpoint supported (v : hval) : bool :=
  match v with
  | HNum _ _ | HStr _ | HOpaque _ => true
  | HComp fs =>
      (fix go (fs : list (bytes * hval)) : bool :=
         match fs with [] => true | (_, x) :: r => supported x && go r end) fs
  | HEnum w _ _ => supported w
  | HSlice t [] => match leaf_ty t with TOther => false | _ => true end
  | HSlice _ (x :: _) => supported x
  | HOther => false
  end.

(** hasValidNames, 1246-1256 *)
Definition hasValidNames (U : ucd) (a : option hattrs) : bool :=
  forallb (fun kv => valid_name U (fst kv)) (attr_list a).
Definition attrs_supported (a : option hattrs) : bool :=
  forallb (fun kv => supported (snd kv)) (attr_list a).

Inductive wop : Type :=
| OAttrs (w : nat) (a : option hattrs)
| OVar (w : nat) (name : bytes) (v : hval) (dims : list bytes) (a : option hattrs)
| OGroup (w : nat) (name : bytes)
| OClose (w : nat).
Definition op_writer (o : wop) : nat :=
  match o with OAttrs w _ | OVar w _ _ _ _ | OGroup w _ | OClose w => w end.

(** Replacing the group at a place *)
Fixpoint set_nth {A} (i : nat) (x : A) (l : list A) : list A :=
  match l, i with
  | [], _ => []
  | _ :: r, O => x :: r
  | y :: r, S j => y :: set_nth j x r
  end.
Definition with_group (s : hstate) (g : nat) (G : hgroup) : hstate :=
  mkHstate (set_nth g G (st_groups s)) (st_writers s) (st_closed s) (st_file s).

(** The tree below a group; children come after their parent in the list, so that the number
    of groups bounds the depth *)
Fixpoint tree_of (fuel : nat) (gs : list hgroup) (g : nat) : wtree :=
  match fuel with
  | O => WNode None [] []
  | S f =>
      match nth_error gs g with
      | None => WNode None [] []
      | Some G => WNode (hg_attrs G) (hg_vars G)
                    (map (fun c => (fst c, tree_of f gs (snd c))) (hg_groups G))
      end
  end.
Definition content (s : hstate) : wtree := tree_of (List.length (st_groups s)) (st_groups s) 0.

Section Calls.
Context (U : ucd) (big : bool) (pick : wtree -> orders).

(** AddAttributes, 1052-1066 and 1114-1128 *)
Definition add_attributes (s : hstate) (g : nat) (G : hgroup) (a : option hattrs) : hstate * res (option nat) :=
  if negb (hasValidNames U a) then (s, Err EInvalidName)
  else if negb (attrs_supported a) then (s, Err EUnsupportedType)
  else (with_group s g (mkHgroup (hg_groups G) (hg_vars G) a), Ok None).

(** AddVar, 1068-1094 and 1130-1156 *)
Definition add_var (s : hstate) (g : nat) (G : hgroup) (name : bytes) (v : hval) (dims : list bytes)
  (a : option hattrs) : hstate * res (option nat) :=
  if negb (valid_name U name) then (s, Err EInvalidName)
  else if negb (hasValidNames U a) then (s, Err EInvalidName)
  else if negb (supported v) then (s, Err EUnsupportedType)
  else if negb (attrs_supported a) then (s, Err EUnsupportedType)
  else (with_group s g (mkHgroup (hg_groups G) (assoc_set name (mkHvar v dims a false) (hg_vars G))
                          (hg_attrs G)), Ok None).

(** CreateGroup, 1096-1110 and 1158-1172 *)
Definition create_group (s : hstate) (g : nat) (G : hgroup) (name : bytes) : hstate * res (option nat) :=
  if negb (valid_name U name) then (s, Err EInvalidName)
  else
    let w := List.length (st_writers s) in
    match assoc name (hg_groups G) with
    | Some i => (mkHstate (st_groups s) (st_writers s ++ [i]) (st_closed s) (st_file s), Ok (Some w))
    | None =>
        let i := List.length (st_groups s) in
        let G' := mkHgroup (assoc_set name i (hg_groups G)) (hg_vars G) (hg_attrs G) in
        (mkHstate (set_nth g G' (st_groups s) ++ [mkHgroup [] [] None]) (st_writers s ++ [i])
           (st_closed s) (st_file s), Ok (Some w))
    end.

(** HDF5Writer.Close, 66-118 *)
Definition close_root (s : hstate) : hstate * res (option nat) :=
  if st_closed s then (s, Ok None)
  else
    let closed f := mkHstate (st_groups s) (st_writers s) true f in
    match render big pick (content s) with
    | Ok b => (closed b, Ok None)
    | Err e => (closed (st_file s), Err e)
    | Panic => (closed (st_file s), Panic)
    end.

(** One call.  A number that no call returned stands for no writer: such a call cannot be
    made. *)
Definition step (s : hstate) (o : wop) : hstate * res (option nat) :=
  match nth_error (st_writers s) (op_writer o) with
  | None => (s, Err ENotModelled)
  | Some g =>
      match nth_error (st_groups s) g with
      | None => (s, Err ENotModelled)
      | Some G =>
          match o with
          | OAttrs _ a => add_attributes s g G a
          | OVar _ name v dims a => add_var s g G name v dims a
          | OGroup _ name => create_group s g G name
          | OClose O => close_root s
          | OClose _ => (s, Ok None)
          end
      end
  end.

Fixpoint run (s : hstate) (ops : list wop) : hstate * list (res (option nat)) :=
  match ops with
  | [] => (s, [])
  | o :: r =>
      let (s1, x) := step s o in
      let (s2, xs) := run s1 r in
      (s2, x :: xs)
  end.
End Calls.
