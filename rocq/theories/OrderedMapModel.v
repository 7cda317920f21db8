(** Model of netcdf/util/orderedmap.go (map part; the type strings are in TypeStrModel). *)
From Verif Require Import Prelude.

Section OM.
Context {V : Type}.

(** orderedmap.go:15-22.  [om_vals] models the Go map (unique keys), [om_hidden] the
    set hiddenKeys; the type callbacks are omitted. *)
Record omap : Type := mkOM {
  om_keys : list bytes;
  om_vals : list (bytes * V);
  om_visible : list bytes;
  om_hidden : list bytes
}.

(** Insertion sort on byte strings, standing for slices.Sort (orderedmap.go:38,42):
    any correct sort gives the same list because the order is total. *)
Fixpoint ble (a b : bytes) : bool :=
  match a, b with
  | [], _ => true
  | _ :: _, [] => false
  | x :: a', y :: b' => (x <? y) || ((x =? y) && ble a' b')
  end.
Fixpoint binsert (x : bytes) (l : list bytes) : list bytes :=
  match l with
  | [] => [x]
  | y :: r => if ble x y then x :: y :: r else y :: binsert x r
  end.
Fixpoint bsort (l : list bytes) : list bytes :=
  match l with
  | [] => []
  | x :: r => binsert x (bsort r)
  end.
Fixpoint keys_eqb (a b : list bytes) : bool :=
  match a, b with
  | [], [] => true
  | x :: a', y :: b' => beqb x y && keys_eqb a' b'
  | _, _ => false
  end.

(** orderedmap.go:30-61.  [vals] is the Go map as an association list with distinct
    keys (in the arbitrary order of `for k := range values`).  The element-wise
    comparison at 44-48 runs over equal lengths, so it is list equality. *)
Definition new_ordered_map (keys : list bytes) (vals : list (bytes * V)) : res omap :=
  if negb (zlen keys =? zlen vals) then Err EKeysDontMatch
  else if negb (keys_eqb (bsort (map fst vals)) (bsort keys)) then Err EKeysDontMatch
  else Ok (mkOM keys vals keys []).

(** orderedmap.go:64-70 *)
Definition om_add (m : omap) (name : bytes) (v : V) : omap :=
  if mem name (om_hidden m)
  then mkOM (om_keys m) (assoc_set name v (om_vals m)) (om_visible m) (om_hidden m)
  else mkOM (om_keys m ++ [name]) (assoc_set name v (om_vals m))
            (om_visible m ++ [name]) (om_hidden m).

(** orderedmap.go:73-76 *)
Definition om_get (m : omap) (key : bytes) : option V := assoc key (om_vals m).

(** orderedmap.go:88-99 *)
Definition om_hide (m : omap) (key : bytes) : omap :=
  let hidden := if mem key (om_hidden m) then om_hidden m else key :: om_hidden m in
  mkOM (om_keys m) (om_vals m)
       (filter (fun k => negb (mem k hidden)) (om_keys m)) hidden.

(** orderedmap.go:103-105 *)
Definition om_keys_visible (m : omap) : list bytes := om_visible m.

End OM.
Arguments omap : clear implicits.
