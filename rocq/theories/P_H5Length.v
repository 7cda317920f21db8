(** C66: the lengths of the dimensions of a file that the HDF5 writer wrote. *)
From Verif Require Import Prelude GoVal ValidNameModel OrderedMapModel ArraySpec H5Base H5MetaWrite H5MetaRead H5Value H5TypeRead
  H5FileWrite H5PathModel H5RecordModel H5FileRead H5WriterModel PathSpec WriterSpec TypeSpec FileSpec BaseLemmas
  ValidNameProofs H5PathProofs H5TreeProofs H5SizeProofs H5PrepareProofs H5GoodProofs H5WholeProofs H5WriterProofs H5ApiPath H5ApiProofs
  H5ApiValues H5FileProofs H5CallsProofs H5LengthProofs P_H5File P_H5FileEx LengthSpec.
From Coq Require Import Lia ZifyBool ZifyNat Permutation.

Section File.
Variables (f : bytes) (c : wctx) (D S : list bytes) (t t1 : wtree) (root : robj).
Hypothesis TF : tree_fine D S t.
Hypothesis CL : tall (fun _ g => Forall (fun x => clean (fst x)) (w_groups g)) [] t.
Hypothesis CO : forall n v, assoc n (w_vars t) = Some v -> dim_of t n -> hasPrefix n dimMarker = false.
Hypothesis EP : prepare t = Ok t1.
Hypothesis RO : group_obj f c (sort_tree t1) root.
Hypothesis IX : forall d, dim_of t d -> zassoc (addr_of c d) (addrIndex root) = Some d.
Let T := sort_tree t1.
Let h := mkRh (str []) root.

Lemma root_dimension d : dim_of t d -> exists o v, assoc d (r_children root) = Some o /\ isDimension o = true /\
  assoc d (w_vars t1) = Some v /\ var_obj f c (d, v) o.
Proof.
  intros Hd. pose proof (list_dimensions f c D S t t1 root TF CL CO EP RO IX [] t T root eq_refl eq_refl RO) as [_ L].
  assert (Hi : In d (listDimensions h)) by (apply L; auto). unfold listDimensions, h in Hi. cbn [rh_obj] in Hi.
  apply in_flat_map in Hi. destruct Hi as ([n o] & Hi & Hx). cbn [fst snd] in Hx. destruct (isDimension o) eqn:Eo; [|contradiction].
  destruct Hx as [->|[]]. destruct (children f c _ _ RO) as (_ & _ & _ & CN & C).
  pose proof (group_api f c D S t t1 root TF CL CO EP RO IX [] T eq_refl) as (N' & _).
  assert (NC : NoDup (map fst (r_children root))) by (rewrite CN; exact N').
  apply (In_assoc _ _ _ NC) in Hi. specialize (C d).
  destruct (prepare_spec D S t TF t1 EP) as (D1 & vs1 & E1 & N1 & _).
  assert (EV : assoc d (w_vars T) = assoc d (w_vars t1)).
  { unfold T. rewrite E1, sort_tree_eq. cbn [w_vars]. apply assoc_nsort. exact N1. }
  fold T in C. rewrite EV in C. destruct (assoc d (w_vars t1)) as [v|].
  - destruct C as (o' & C1 & C2). assert (o' = o) by congruence. subst o'. exists o, v. auto.
  - destruct (assoc d (w_groups T)) as [gg|]; [|congruence]. destruct C as (o' & C1 & C2).
    assert (o' = o) by congruence. subst o'. destruct (children f c _ _ C2) as (C3 & _). unfold isDimension in Eo. rewrite C3 in Eo. discriminate.
Qed.
Lemma no_dimension d : ~ dim_of t d -> getDimension h d = Ok None.
Proof.
  intros Hd. pose proof (list_dimensions f c D S t t1 root TF CL CO EP RO IX [] t T root eq_refl eq_refl RO) as [_ L].
  unfold getDimension, h. cbn [rh_obj]. destruct (assoc d (r_children root)) as [o|] eqn:E; [|reflexivity].
  destruct (isDimension o) eqn:Eo; [|reflexivity]. elim Hd. apply (L d). unfold listDimensions. cbn [rh_obj]. apply in_flat_map.
  exists (d, o). split; [apply assoc_Some_In; exact E|]. cbn [fst snd]. rewrite Eo. left. reflexivity.
Qed.
Lemma get_dimension d : (forall x, In x (all_vars [] t) -> fine_var (snd x)) -> dim_of t d ->
  (forall v, assoc d (w_vars t) = Some v -> exists r, hv_dims v = d :: r) ->
  exists n x i dims, getDimension h d = Ok (Some n) /\ In x (all_vars [] t) /\
    var_value dims (hv_val (snd x)) /\ shape_told dims /\ List.length dims = List.length (hv_dims (snd x)) /\
    nth_error (hv_dims (snd x)) i = Some d /\ nth_error dims i = Some n.
Proof.
  intros FV Hd Hr. destruct (root_dimension d Hd) as (o & v & E1 & E2 & E3 & E4).
  destruct (var_parts f c _ _ _ E4) as (dims & dt & DM & _ & _ & _ & GD & LD & _).
  assert (G : forall n r, dims = n :: r -> getDimension h d = Ok (Some n)).
  { intros n r ->. unfold getDimension, h. cbn [rh_obj]. rewrite E1, E2, DM. reflexivity. }
  destruct (assoc d (w_vars t)) as [w|] eqn:Ew.
  - destruct (prepare_spec D S t TF t1 EP) as (D1 & vs1 & F1 & N1 & M1 & P1 & X1 & _). rewrite F1 in E3. cbn [w_vars] in E3.
    assert (Iw : In (([], d), w) (all_vars [] t)).
    { destruct t as [a vs gs]. rewrite all_vars_eq. apply in_or_app. left. apply in_map_iff. exists (d, w).
      split; [reflexivity|]. apply assoc_Some_In. exact Ew. }
    destruct (FV _ Iw) as [(dims0 & L0 & _ & _ & S0 & T0) _]. cbn [snd] in L0, T0.
    destruct (Hr w eq_refl) as (r & Er).
    assert (Dv : dims = dims0).
    { rewrite <- GD, <- (fine_dims dims0 _ T0 S0), L0. destruct (P1 d v E3) as [u Eu Nn|u i Eu In1 Nd|i size Eu _ _]; [| |congruence].
      - assert (u = w) by congruence. subst u. reflexivity.
      - assert (u = w) by congruence. subst u. reflexivity. }
    rewrite Er in L0. destruct dims0 as [|n ds]; [discriminate|]. exists n, (([], d), w), 0%nat, (n :: ds). cbn [snd].
    split; [exact (G _ _ Dv)|]. split; [exact Iw|]. split; [exact T0|]. split; [exact S0|]. rewrite Er.
    split; [exact L0|]. split; reflexivity.
  - destruct (prepare_size t t1 d v EP Ew E3) as (j & s & Ev & Hs & x & X1 & X2 & i & X3 & X4). subst v.
    cbn [bare hv_dims hv_val List.length] in GD. 
    assert (Dv : dims = [s]).
    { rewrite <- GD. cbn [getDimsLimited]. destruct (zrep s (HNum I8 0)) as [|y l] eqn:Ez.
      - assert (Z0 : s = 0); [|rewrite Z0; reflexivity]. apply (f_equal (fun l => zlen l)) in Ez. rewrite zlen_zrep in Ez. change (zlen (@nil hval)) with 0 in Ez. lia.
      - rewrite <- Ez, zlen_zrep. rewrite Z.max_l by lia. f_equal. assert (Hy : In y (zrep s (HNum I8 0))) by (rewrite Ez; left; reflexivity).
        unfold zrep in Hy. apply repeat_spec in Hy. subst y. reflexivity. }
    destruct (FV x X1) as [(dims0 & L0 & _ & _ & S0 & T0) _].
    exists s, x, i, dims0. split; [exact (G _ _ Dv)|]. split; [exact X1|]. split; [exact T0|]. split; [exact S0|]. split; [exact L0|].
    split; [exact X3|]. destruct (getDims_fine _ _ T0 S0) as (tl & Eg). rewrite Eg in X4.
    assert (Li : (i < List.length dims0)%nat) by (rewrite L0; apply nth_error_Some; congruence).
    rewrite X4, app_nth1 by exact Li. apply nth_error_nth'. exact Li.
Qed.
End File.

(** C66: if a variable in the root that is named like a dimension has that dimension first, then
    GetDimension returns for a dimension the length of one of the variables that have it -- so of
    all of them, if they agree -- and for any other name that there is no such dimension.

    What is missing is refuted below: variables that do not agree are accepted, and so is a root
    variable named like a dimension that has another one or none. *)
Theorem C66_lengths_partial U pick ops s outs s1 x D S :
  ucd_ascii U -> ucd_disjoint U -> (forall t, orders_ok t (pick t)) ->
  run U false pick open_writer ops = (s, outs) -> st_closed s = false -> step U false pick s (OClose 0) = (s1, Ok x) ->
  zlen (st_file s1) < 2 ^ 63 -> calls_fine D S (events ops outs) ->
  exists root h, openFile (st_file s1) = Ok root /\ (forall h0, rgetGroup root h0 (bs "/") = Ok h) /\
  forall d,
    (~ dimension (events ops outs) d -> getDimension h d = Ok None) /\
    (dimension (events ops outs) d ->
     (forall v, last_var (events ops outs) [] d = Some v -> exists r, hv_dims v = d :: r) ->
     (exists n, length_along (events ops outs) d n /\ getDimension h d = Ok (Some n)) /\
     ((forall m n, length_along (events ops outs) d m -> length_along (events ops outs) d n -> m = n) ->
      forall n, length_along (events ops outs) d n -> getDimension h d = Ok (Some n))).
Proof.
  intros UA UD Hpick Hrun Hc Hclose Hf CF.
  destruct (closed_parts U pick ops s outs s1 x D S UA UD Hpick Hrun Hc Hclose Hf CF)
    as (t & t1 & c & root & DE & CV & NM & TF & CL & CO & EP & OF & RO & IX).
  set (es := events ops outs) in *. set (f := st_file s1) in *. exists root, (mkRh (str []) root). split; [exact OF|].
  pose proof (dim_of_iff U D S es t DE CV NM CF) as DI. split.
  - intros h0. pose proof (get_group f c D S t t1 root TF CL CO EP RO IX h0 (bs "/") [] eq_refl eq_refl) as GG. cbn [walk] in GG.
    destruct GG as (o & g' & GR & W' & GO). rewrite GR. f_equal. f_equal. rewrite rgetGroup_follow in GR by (left; reflexivity).
    change (absolute (bs "/")) with true in GR. change (components (bs "/")) with (@nil bytes) in GR. cbn [rfollow] in GR.
    destruct root as [ri rc]. destruct (ri_group ri); [|discriminate GR]. injection GR as GR. symmetry. exact GR.
  - intros d. split.
    + intros Hd. apply (no_dimension f c D S t t1 root TF CL CO EP RO IX). rewrite (DI d). exact Hd.
    + intros Hd Hv. assert (G : exists n, length_along es d n /\ getDimension (mkRh (str []) root) d = Ok (Some n)).
      { destruct (get_dimension f c D S t t1 root TF CL CO EP RO IX d) as (n & [[p m] v] & i & dims & A1 & A2 & A3).
        - intros [[p m] v] Hx. apply (all_vars_last es t DE) in Hx. exact (proj2 (cf_vars _ _ _ CF _ _ _ Hx)).
        - apply DI. exact Hd.
        - intros v E. apply Hv. rewrite <- E. symmetry. destruct (node_of es t DE [] t eq_refl) as (_ & _ & EV & _). apply EV.
        - exists n. split; [|exact A1]. apply (all_vars_last es t DE) in A2. exists p, m, v, dims, i. split; [exact A2|exact A3]. }
      split; [exact G|]. intros U1 n Hn. destruct G as (m & M1 & M2). rewrite M2. rewrite (U1 m n M1 Hn). reflexivity.
Qed.

(** In the example, where the length of [t] is 2 and that of [y] is 3 *)
Example C66_example :
  let f := written ex_ops in
  getDimension (handle_of f) (bs "t") = Ok (Some 2) /\ getDimension (handle_of f) (bs "y") = Ok (Some 3) /\
  getDimension (handle_of f) (bs "v") = Ok None /\
  (forall d v, last_var ex_events [] d = Some v -> dimension ex_events d -> exists r, hv_dims v = d :: r).
Proof.
  split; [vm_compute; reflexivity|]. split; [vm_compute; reflexivity|]. split; [vm_compute; reflexivity|].
  intros d v H Hd. apply ex_dimension in Hd. destruct Hd as [->| ->]; [|discriminate H]. vm_compute in H. injection H as <-.
  exists []. reflexivity.
Qed.

(** Two lengths for one dimension are accepted. *)
Theorem C66_two_lengths_refuted : exists f,
  file_of [OVar 0 (bs "x") (i16s [1; 2]) [bs "y"] None; OVar 0 (bs "z") (i16s [1; 2; 3]) [bs "y"] None] = Some f /\
  getDimension (handle_of f) (bs "y") = Ok (Some 2) /\
  rmap (fun v => (rv_val v, rv_dims v)) (getVariable f (root_of f) (handle_of f) (bs "z")) = Ok (i16s [1; 2; 3], [bs "y"]).
Proof.
  exists (written [OVar 0 (bs "x") (i16s [1; 2]) [bs "y"] None; OVar 0 (bs "z") (i16s [1; 2; 3]) [bs "y"] None]).
  split; [|split]; vm_compute; reflexivity.
Qed.
(** A scalar variable named like a dimension takes its place, and GetDimension panics. *)
Theorem C66_scalar_refuted : exists f,
  file_of [OVar 0 (bs "x") (i16s [1; 2]) [bs "y"] None; OVar 0 (bs "y") (HNum I16 7) [] None] = Some f /\
  In (bs "y") (listDimensions (handle_of f)) /\ getDimension (handle_of f) (bs "y") = Panic.
Proof.
  exists (written [OVar 0 (bs "x") (i16s [1; 2]) [bs "y"] None; OVar 0 (bs "y") (HNum I16 7) [] None]).
  split; [vm_compute; reflexivity|]. split; [vm_compute; left; reflexivity|]. vm_compute. reflexivity.
Qed.

Print Assumptions C66_lengths_partial.
Print Assumptions C66_two_lengths_refuted.
Print Assumptions C66_scalar_refuted.
