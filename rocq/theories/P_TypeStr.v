(** C67, C68: the type strings of CDF variables and attributes. *)
From Coq Require Import Lia.
From Verif Require Import Prelude GoVal BaseLemmas OrderedMapModel ArraySpec CdfFormat CdfFormatEx CdfWriterModel CdfReaderModel
  CdfConvert CdfSliceEx CdfTypes TypeStrModel TypeStrSpec TypeStrProofs.

(** C67.  Full statement: for every variable of an opened file Type is the CDL name of its type and
    GoType names the element type of whatever Values, GetSlice and GetSliceMD return, so that the Go
    type of the result is that name behind as many brackets as the variable has dimensions (one less
    for characters).  Missing: an empty result of a char variable of rank three or more, for which
    it is false, see C67_refuted. *)
Theorem C67_variable_types_partial : forall c name g, get_var_getter c name = Ok g ->
  exists ty cdl, getter_go_type g = Ok ty /\ getter_type g = Ok (bs cdl) /\ In (v_type (g_var g), cdl) cdl_names /\
  forall v, values g = Ok v \/ (exists b e, get_slice g b e = Ok v) \/ (exists b e, get_slice_md g b e = Ok v) ->
    v_type (g_var g) <> 2 \/ (List.length (shape g) <= 2)%nat \/ (forall t, v <> VSlice t []) ->
    spelled (type_of v) = brackets (levels (v_type (g_var g) =? 2) (List.length (shape g))) ty.
Proof.
  intros c name g H. pose proof (getter_code c name g H) as E.
  destruct (cdl_type_base _ _ E) as (cdl & E1 & E2).
  exists (spelled (arr_type (elt_of (g_ty g)) 0)), cdl.
  split; [exact (go_type_base _ _ E)|]. split; [exact E1|]. split; [exact E2|].
  assert (EC : chars_of (g_ty g) = (v_type (g_var g) =? 2)).
  { unfold ty_of_code in E. clear - E.
    repeat match type of E with match ?c with _ => _ end = _ => destruct c; try discriminate end; injection E as <-; reflexivity. }
  assert (EC2 : v_type (g_var g) <> 2 -> g_ty g <> TChar).
  { intros N G. rewrite G in EC. cbn [chars_of] in EC. symmetry in EC. apply Z.eqb_eq in EC. exact (N EC). }
  assert (S1 : forall b e v, get_slice g b e = Ok v ->
    v_type (g_var g) <> 2 \/ (List.length (shape g) <= 2)%nat \/ (forall t, v <> VSlice t []) ->
    spelled (type_of v) = brackets (levels (v_type (g_var g) =? 2) (List.length (shape g))) (spelled (arr_type (elt_of (g_ty g)) 0))).
  { intros b e v G C. unfold get_slice in G. destruct (get_slice_c g b e) as [p|?|] eqn:EP; [|discriminate|discriminate].
    injection G as <-. rewrite type_of_erase.
    rewrite (get_slice_type g b e p EP), arr_spelled, EC; [unfold shape; rewrite map_length; reflexivity|].
    destruct C as [C|[C|C]]; [left; exact (EC2 C)|right; left; unfold shape in C; rewrite map_length in C; exact C|right; right].
    intros t ->. exact (C t eq_refl). }
  intros v [G|[(b & e & G)|(b & e & G)]] C; [exact (S1 _ _ v G C)|exact (S1 _ _ v G C)|].
  unfold get_slice_md in G. destruct (_ || _); [discriminate|]. destruct (negb _); [discriminate|].
  destruct b as [|b0 b]; [discriminate|]. destruct e as [|e0 e]; [discriminate|].
  destruct (get_slice_c g b0 e0) as [p|?|] eqn:EP; [|discriminate|discriminate]. cbn [rbind] in G.
  destruct (slice_rec _ _ _ p) as [w|?|] eqn:EW; [|discriminate|discriminate]. injection G as <-.
  apply slice_rec_type in EW. destruct EW as [W1 W2]. rewrite type_of_erase, W1.
  rewrite (get_slice_type g b0 e0 p EP), arr_spelled, EC; [unfold shape; rewrite map_length; reflexivity|].
  destruct C as [C|[C|C]]; [left; exact (EC2 C)|right; left; unfold shape in C; rewrite map_length in C; exact C|right; right].
  intros t ->. destruct W2 as (t' & s' & ->); [eauto|]. exact (C t' eq_refl).
Qed.

(** C68.  The types told for an attribute are those of its value, for every attribute of an opened
    file. *)
Theorem C68_file_attributes : forall f c, cdf_open f = Ok c ->
  forall m, m = c_gattrs c \/ (exists name x, om_get (c_vars c) name = Some x /\ m = v_attrs x) ->
  forall k v, om_get m k = Some v ->
    om_go_type m k = Some (spelled (type_of v)) /\ om_type m k = Some (cdl_attr v).
Proof.
  intros f c H m M k v G. destruct (opened_all attr_form get_attr_form f c H) as [A B].
  assert (F : attr_form v).
  { destruct M as [->|(name & x & X & ->)]; [exact (A k v G)|exact (B name x X k v G)]. }
  destruct (attr_form_types v F) as (E1 & E2 & E3). unfold om_go_type, om_type. rewrite G, E1, E2, E3. split; reflexivity.
Qed.

(** The same for maps of the caller: any value made of numbers, texts and slices *)
Theorem C68_go_type : forall m k v, om_get m k = Some v -> wt v = true -> plain (type_of v) ->
  om_go_type m k = Some (spelled (type_of v)).
Proof. intros m k v G W P. unfold om_go_type. rewrite G. exact (pGoType_spelled v W P). Qed.

Theorem C68_cdl_type : forall m k v ds, om_get m k = Some v -> wt v = true -> rectangular ds v ->
  Forall (fun d => 0 < d) ds ->
  om_type m k = Some (with_extents (cdl_of (base_of (type_of v))) ds).
Proof.
  intros m k v ds G W R P. unfold om_type. rewrite G, (pType_extents ds v R P W), (commas_extents _ ds P). reflexivity.
Qed.

(** A matrix of int16, one of characters and a vector of int32, read whole and in part *)
Example C67_example :
  getter_go_type (var_of grid_file (bs "a")) = Ok (bs "int16") /\ getter_type (var_of grid_file (bs "a")) = Ok (bs "short") /\
  (exists v, values (var_of grid_file (bs "a")) = Ok v /\ spelled (type_of v) = bs "[][]int16") /\
  (exists v, get_slice_md (var_of grid_file (bs "a")) [0; 1] [2; 3] = Ok v /\ spelled (type_of v) = bs "[][]int16") /\
  getter_go_type (var_of grid_file (bs "w")) = Ok (bs "string") /\ getter_type (var_of grid_file (bs "w")) = Ok (bs "char") /\
  (exists v, values (var_of grid_file (bs "w")) = Ok v /\ spelled (type_of v) = bs "[]string").
Proof. repeat apply conj; try (eexists; apply conj); vm_compute; reflexivity. Qed.

Example C68_example :
  om_go_type (v_attrs (g_var (var_of grid_file (bs "a")))) (bs "_FillValue") = Some (bs "int16") /\
  om_type (v_attrs (g_var (var_of grid_file (bs "a")))) (bs "_FillValue") = Some (bs "short") /\
  (let m := om_add (om_add (om_add empty_om (bs "a") (VSlice (GNum F64) (map (VNum F64) (map Z.of_nat (seq 0 12)))))
     (bs "b") (VSlice (GSlice (GNum I32)) [VSlice (GNum I32) (map (VNum I32) [1; 2; 3]); VSlice (GNum I32) (map (VNum I32) [4; 5; 6])]))
     (bs "c") (VSlice GString []) in
   om_go_type m (bs "a") = Some (bs "[]float64") /\ om_type m (bs "a") = Some (bs "double(12)") /\
   om_go_type m (bs "b") = Some (bs "[][]int32") /\ om_type m (bs "b") = Some (bs "int(2,3)") /\
   om_go_type m (bs "c") = Some (bs "[]string") /\ om_type m (bs "c") = Some (bs "string(*)") /\ om_type m (bs "d") = None).
Proof. cbv zeta. repeat apply conj; vm_compute; reflexivity. Qed.

(** A char variable of rank three along the record dimension, no record written: Values returns a
    [][][]uint8 though GoType says string. *)
Definition norec_header : fheader :=
  mkFheader 1 0 [(bs "t", 0); (bs "y", 1); (bs "x", 2)] [] [mkFvar (bs "a") [0; 1; 2] [] EChar 4 112].
Theorem C67_refuted : exists f c g v, cdf_open f = Ok c /\ get_var_getter c (bs "a") = Ok g /\
  getter_go_type g = Ok (bs "string") /\ values g = Ok v /\ spelled (type_of v) = bs "[][][]uint8".
Proof.
  exists (put_header norec_header), (opened (put_header norec_header)), (var_of (put_header norec_header) (bs "a")).
  eexists. repeat apply conj; vm_compute; reflexivity.
Qed.

Print Assumptions C67_variable_types_partial.
Print Assumptions C67_refuted.
Print Assumptions C68_file_attributes.
Print Assumptions C68_go_type.
Print Assumptions C68_cdl_type.
