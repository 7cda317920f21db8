(** What a history of calls on an HDF5 writer means, in terms of paths.  Only the calls and
    what they returned are used: a call that returned no error has its effect at the path of
    the writer it was made on. *)
From Verif Require Import Prelude GoVal H5Value H5FileWrite H5WriterModel.
From Coq Require Import Permutation.

Inductive event : Type :=
| EGroup (p : path)
| EVar (p : path) (name : bytes) (v : hvar)
| EAttrs (p : path) (a : option hattrs).

(** The path of every writer so far and the events so far, after one more call *)
Definition observe (x : list path * list event) (c : wop * res (option nat)) : list path * list event :=
  let (ps, es) := x in
  match c with
  | (o, Ok _) =>
      match nth_error ps (op_writer o) with
      | None => x
      | Some p =>
          match o with
          | OAttrs _ a => (ps, es ++ [EAttrs p a])
          | OVar _ n v dims a => (ps, es ++ [EVar p n (mkHvar v dims a false)])
          | OGroup _ n => (ps ++ [p ++ [n]], es ++ [EGroup (p ++ [n])])
          | OClose _ => x
          end
      end
  | _ => x
  end.
Definition history (ops : list wop) (outs : list (res (option nat))) : list path * list event :=
  fold_left observe (combine ops outs) ([[]], []).
Definition events ops outs : list event := snd (history ops outs).

(** The groups there are *)
Definition group_made (es : list event) (p : path) : Prop := p = [] \/ In (EGroup p) es.

(** The last value given; the root starts with no attributes, other groups without a map *)
Definition path_eqb (p q : path) : bool := if list_eq_dec (list_eq_dec Z.eq_dec) p q then true else false.
Definition name_eqb (a b : bytes) : bool := if list_eq_dec Z.eq_dec a b then true else false.
Definition last_attrs (es : list event) (p : path) : option hattrs :=
  fold_left (fun cur e => match e with
                          | EAttrs q a => if path_eqb p q then a else cur
                          | _ => cur
                          end) es (match p with [] => Some [] | _ => None end).
Definition last_var (es : list event) (p : path) (n : bytes) : option hvar :=
  fold_left (fun cur e => match e with
                          | EVar q m v => if path_eqb p q && name_eqb n m then Some v else cur
                          | _ => cur
                          end) es None.

(** The group at a path of a tree *)
Fixpoint walk (t : wtree) (p : path) : option wtree :=
  match p with
  | [] => Some t
  | n :: r => match assoc n (w_groups t) with Some t' => walk t' r | None => None end
  end.

(** [t] is the tree that the events describe *)
Definition described (es : list event) (t : wtree) : Prop :=
  forall p,
    match walk t p with
    | None => ~ group_made es p
    | Some g =>
        group_made es p /\ w_attrs g = last_attrs es p /\
        (forall n, assoc n (w_vars g) = last_var es p n) /\
        NoDup (map fst (w_vars g)) /\ NoDup (map fst (w_groups g))
    end.

(** Values that can be stored: numbers, strings, opaque values, and compounds, enumerations
    and slices of them.  Of a slice only the first element is looked at, or the Go type of its
    elements if there is none. *)
Inductive storable : hval -> Prop :=
| st_num k z : storable (HNum k z)
| st_str s : storable (HStr s)
| st_opaque b : storable (HOpaque b)
| st_comp fs : Forall (fun f => storable (snd f)) fs -> storable (HComp fs)
| st_enum w ns vs : storable w -> storable (HEnum w ns vs)
| st_empty t : leaf_ty t <> TOther -> storable (HSlice t [])
| st_slice t x r : storable x -> storable (HSlice t (x :: r)).

(** Go ranges over maps in any order: any order of all the variables, of all the attributes
    and of all the values is possible. *)
Definition all_values (t : wtree) : list hval :=
  map (fun v => hv_val (snd v)) (all_vars [] t) ++ map snd (all_attrs [] t).
Definition orders_ok (t : wtree) (o : orders) : Prop :=
  Permutation (o_strings o) (all_values t) /\ Permutation (o_vlen o) (all_vars [] t) /\
  Permutation (o_attrs o) (all_attrs [] t) /\ Permutation (o_dims o) (all_vars [] t).
Definition in_order (t : wtree) : orders :=
  mkOrders (all_values t) (all_vars [] t) (all_attrs [] t) (all_vars [] t).
