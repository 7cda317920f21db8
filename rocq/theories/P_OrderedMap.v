(** Properties C18 and C19: the ordered map. *)
From Coq Require Import Permutation.
From Verif Require Import Prelude BaseLemmas OrderedMapModel OrderedMapProofs.

(** C18, construction: a key list and a Go map are accepted exactly when the key list
    enumerates the keys of the map without repetition. *)
Theorem C18_construct {V} (keys : list bytes) (vals : list (bytes * V)) :
  NoDup (map fst vals) ->
  ((exists m, new_ordered_map keys vals = Ok m) <->
   (NoDup keys /\ forall k, In k keys <-> In k (map fst vals))) /\
  (~ (NoDup keys /\ forall k, In k keys <-> In k (map fst vals)) ->
   new_ordered_map keys vals = Err EKeysDontMatch).
Proof. exact (new_ordered_map_exactly keys vals). Qed.

(** C18, use: start from any accepted construction and run any Adds and Hides.  Get is the
    lookup of the specification (an insertion-ordered association list plus a
    set of hidden keys), Keys() has the first occurrences prescribed by it, and is
    exactly the prescribed list when every Add is of a key that is new or hidden. *)
Theorem C18_history {V} (keys : list bytes) (vals : list (bytes * V)) m ops :
  NoDup (map fst vals) -> new_ordered_map keys vals = Ok m ->
  exists ents, map fst ents = keys /\ Permutation ents vals /\
    let s := spec_run ops (mkSpec ents []) in
    (forall k, om_get (om_run ops m) k = spec_get s k) /\
    firsts [] (om_keys_visible (om_run ops m)) = spec_keys s /\
    (adds_ok (mkSpec ents []) ops -> om_keys_visible (om_run ops m) = spec_keys s).
Proof. exact (om_history keys vals m ops). Qed.

Example C18_example :
  let vals := [(bs "b", 1); (bs "a", 2)] in
  let keys := [bs "a"; bs "b"] in
  let ops := [MAdd (bs "c") 3; MHide (bs "a"); MAdd (bs "a") 4] in
  NoDup (map fst vals) /\
  exists m, new_ordered_map keys vals = Ok m /\ adds_ok (mkSpec [(bs "a", 2); (bs "b", 1)] []) ops /\
    om_keys_visible (om_run ops m) = [bs "b"; bs "c"] /\ om_get (om_run ops m) (bs "a") = Some 4.
Proof. exact om_example. Qed.

(** C19, the general claim is false: adding a present key lists it twice. *)
Theorem C19_refuted : exists (m : omap Z) ops,
  new_ordered_map [] [] = Ok m /\ ~ NoDup (om_keys_visible (om_run ops m)).
Proof. exact om_dup_witness. Qed.

(** C19, guarded: Keys() is free of duplicates if no Add repeats a visible key. *)
Theorem C19_keys_nodup_partial {V} (keys : list bytes) (vals : list (bytes * V)) m ops :
  NoDup (map fst vals) -> new_ordered_map keys vals = Ok m ->
  (forall ents, map fst ents = keys -> adds_ok (mkSpec ents []) ops) ->
  NoDup (om_keys_visible (om_run ops m)).
Proof. exact (om_nodup keys vals m ops). Qed.

Example C19_example :
  forall ents : list (bytes * Z), map fst ents = [bs "a"] ->
  adds_ok (mkSpec ents []) [MAdd (bs "c") 3; MHide (bs "a"); MAdd (bs "a") 4].
Proof. exact om_nodup_example. Qed.

Print Assumptions C18_construct.
Print Assumptions C18_history.
Print Assumptions C19_refuted.
Print Assumptions C19_keys_nodup_partial.
