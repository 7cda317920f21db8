(** C50, C51 and the HDF5 parts of C23 and C26: a file that the HDF5 writer wrote, when it is opened. *)
From Verif Require Import Prelude GoVal ValidNameModel OrderedMapModel ArraySpec H5Base H5MetaWrite H5MetaRead H5Value H5TypeRead
  H5FileWrite H5PathModel H5RecordModel H5FileRead H5WriterModel DispatchModel PathSpec WriterSpec TypeSpec FileSpec BaseLemmas
  ValidNameProofs H5PathProofs H5TreeProofs H5SizeProofs H5PrepareProofs H5WholeProofs H5WriterProofs P_H5Writer H5ApiPath H5ApiProofs
  H5FileProofs H5CallsProofs H5MetaProofs H5PlaceProofs P_H5Meta P_Dispatch.
From Coq Require Import Lia ZifyBool ZifyNat Permutation.

(** ** C50 *)

(** The group at path [p], reached by the handle [h], is as the calls described it.  The name of
    a variable at the root that is also the name of a dimension is told as the only dimension of
    that variable. *)
Record group_as (f : bytes) (root : robj) (h : rhandle) (es : list event) (p : path) : Prop := {
  ga_groups : exists l, listSubgroups root h = Ok l /\ NoDup l /\ forall n, In n l <-> group_made es (p ++ [n]);
  ga_vars : NoDup (listVariables root h) /\ forall n, In n (listVariables root h) <-> last_var es p n <> None;
  ga_var : forall n v, last_var es p n = Some v ->
    exists ds m, getVariable f root h n = Ok (mkRvar (hv_val v) ds m) /\ attrs_as (attr_list (hv_attrs v)) m /\
      (p = [] /\ dimension es n -> ds = [n]) /\ (~ (p = [] /\ dimension es n) -> ds = hv_dims v);
  ga_no_var : forall n, last_var es p n = None -> getVariable f root h n = Err ENotFound;
  ga_attrs : exists m, groupAttributes f h = Ok m /\ attrs_as (attr_list (last_attrs es p)) m;
  ga_dims : NoDup (listDimensions h) /\ forall d, In d (listDimensions h) <-> p = [] /\ dimension es d }.

(** What is known when Close has succeeded *)
Lemma closed_parts U pick ops s outs s1 x D S :
  ucd_ascii U -> ucd_disjoint U -> (forall t, orders_ok t (pick t)) ->
  run U false pick open_writer ops = (s, outs) -> st_closed s = false -> step U false pick s (OClose 0) = (s1, Ok x) ->
  zlen (st_file s1) < 2 ^ 63 -> calls_fine D S (events ops outs) ->
  let es := events ops outs in let f := st_file s1 in
  exists t t1 c root, described es t /\ covered es /\ Forall (event_names U) es /\ tree_fine D S t /\
    tall (fun _ g => Forall (fun x => clean (fst x)) (w_groups g)) [] t /\
    (forall n v, assoc n (w_vars t) = Some v -> dim_of t n -> hasPrefix n dimMarker = false) /\
    prepare t = Ok t1 /\ openFile f = Ok root /\ group_obj f c (sort_tree t1) root /\
    (forall d, dim_of t d -> zassoc (addr_of c d) (addrIndex root) = Some d).
Proof.
  intros UA UD Hpick Hrun Hc Hclose Hf CF.
  destruct (C62_first_close_partial U false pick ops s outs s1 x Hrun Hc Hclose) as [DE RE].
  set (es := events ops outs) in *. set (t := content s) in *. set (f := st_file s1) in *.
  pose proof (events_covered U false pick ops s outs Hrun) as CV. pose proof (events_names U false pick ops s outs Hrun) as NM.
  fold es in CV, NM.
  assert (HA : w_attrs t <> None).
  { intros E. clear - RE E. unfold render, prepare in RE. destruct t as [a vs gs]. cbn [w_attrs] in E. subst a.
    cbn [w_attrs rbind] in RE. revert RE. repeat match goal with |- context [match ?y with _ => _ end] => destruct y end; try discriminate. }
  pose proof (calls_tree_fine U D S es t DE CV NM CF HA) as TF.
  pose proof (calls_clean U es t UA UD DE NM) as CL.
  destruct (whole_read D S pick t f RE Hf TF (fun t1 _ => Hpick t1)) as (t1 & c & root & EP & OF & RO & _ & IX).
  exists t, t1, c, root. split; [exact DE|]. split; [exact CV|]. split; [exact NM|]. split; [exact TF|]. split; [exact CL|].
  split; [exact (calls_marked U D S es t DE CV NM CF)|]. auto.
Qed.

Lemma closed_file U pick ops s outs s1 x D S :
  ucd_ascii U -> ucd_disjoint U -> (forall t, orders_ok t (pick t)) ->
  run U false pick open_writer ops = (s, outs) -> st_closed s = false -> step U false pick s (OClose 0) = (s1, Ok x) ->
  zlen (st_file s1) < 2 ^ 63 -> calls_fine D S (events ops outs) ->
  exists root, openFile (st_file s1) = Ok root /\
  forall h0 path, absolute path = true ->
    (~ group_made (events ops outs) (components path) -> rgetGroup root h0 path = Err ENotFound) /\
    (group_made (events ops outs) (components path) ->
     exists h, rgetGroup root h0 path = Ok h /\ group_as (st_file s1) root h (events ops outs) (components path)).
Proof.
  intros UA UD Hpick Hrun Hc Hclose Hf CF.
  destruct (closed_parts U pick ops s outs s1 x D S UA UD Hpick Hrun Hc Hclose Hf CF)
    as (t & t1 & c & root & DE & CV & NM & TF & CL & CO & EP & OF & RO & IX).
  set (es := events ops outs) in *. set (f := st_file s1) in *.
  exists root. split; [exact OF|]. intros h0 path Ha.
  pose proof (dim_of_iff U D S es t DE CV NM CF) as DI.
  pose proof (get_group f c D S t t1 root TF CL CO EP RO IX h0 path (components path) Ha eq_refl) as GG.
  set (p := components path) in *. split.
  - intros HN. destruct (walk t p) as [g|] eqn:W; [|exact GG]. elim HN. apply (made_walk es t DE). exists g. exact W.
  - intros HM. apply (made_walk es t DE) in HM. destruct HM as (g & W). rewrite W in GG. destruct GG as (o & g' & GR & W' & GO).
    exists (mkRh (str p) o). split; [exact GR|]. destruct (node_of es t DE p g W) as (_ & EA & EV & NV & NG). constructor.
    + destruct (list_subgroups f c D S t t1 root TF CL CO EP RO IX p g g' o W W') as (l & L1 & L2). exists l. split; [exact L1|].
      split; [exact (Permutation_NoDup L2 NG)|]. intros n. rewrite <- (sub_walk es t DE p g n W).
      split; apply Permutation_in; [apply Permutation_sym|]; exact L2.
    + destruct (list_variables f c D S t t1 root TF CL CO EP RO IX p g g' o W W' GO) as [V1 V2]. split; [exact V1|].
      intros n. rewrite (V2 n), <- EV. split.
      * intros Hn E. apply assoc_None in E. contradiction.
      * intros Hn. destruct (assoc n (w_vars g)) as [v|] eqn:E; [|congruence]. apply assoc_Some_In in E. apply in_map_iff. exists (n, v). auto.
    + intros n v E. rewrite <- EV in E.
      destruct (get_var f c D S t t1 root TF CL CO EP RO IX p g g' o W W' GO n v E) as (ds & m & A1 & A2 & A3 & A4).
      exists ds, m. split; [exact A1|]. split; [exact A2|]. rewrite <- (DI n). split; assumption.
    + intros n E. rewrite <- EV in E. exact (get_var_none f c D S t t1 root TF CL CO EP RO IX p g g' o W W' GO n E).
    + rewrite <- EA. exact (group_attrs f c D S t t1 root TF CL CO EP RO IX p g g' o W W' GO).
    + destruct (list_dimensions f c D S t t1 root TF CL CO EP RO IX p g g' o W W' GO) as [L1 L2]. split; [exact L1|].
      intros d. rewrite (L2 d), (DI d). reflexivity.
Qed.

(** C50: whatever order Go gives to its maps, if the first Close succeeds then the file opens, and
    an absolute path leads to a group if and only if a group was created there; the groups,
    variables and attributes listed there are those that were given, with the values, the
    dimension names and the attributes last given.

    What is missing: [calls_fine] leaves out what is refuted below (a variable and a group of one
    name, attributes without elements, reserved attribute names, strings like [__dimref:...],
    scales named like [marker]), and what is refuted in P_H5Composed (names of 256 bytes or more, attributes too large for
    one message, and attributes that are opaque, a compound of one member, an array of sequences with an even row, or
    compounds with certain sequences), and more than 30000 attributes of one object; an
    attribute that is a slice of one element is read as the element ([read_back]), and
    a root variable named like a dimension is told to have that dimension only. *)
Theorem C50_tree_partial U pick ops s outs s1 x D S :
  ucd_ascii U -> ucd_disjoint U -> (forall t, orders_ok t (pick t)) ->
  run U false pick open_writer ops = (s, outs) -> st_closed s = false -> step U false pick s (OClose 0) = (s1, Ok x) ->
  zlen (st_file s1) < 2 ^ 63 -> calls_fine D S (events ops outs) ->
  exists root, openFile (st_file s1) = Ok root /\
  forall h0 path, absolute path = true ->
    (~ group_made (events ops outs) (components path) -> rgetGroup root h0 path = Err ENotFound) /\
    (group_made (events ops outs) (components path) ->
     exists h, rgetGroup root h0 path = Ok h /\ group_as (st_file s1) root h (events ops outs) (components path)).
Proof. exact (closed_file U pick ops s outs s1 x D S). Qed.

(** ** C51 *)

(** C51: in the root of the file, ListDimensions lists every dimension of every variable, each once,
    and ListVariables lists what was given by AddVar there: so a dimension without a variable is not
    listed as one, and a variable named like a dimension is.  A group other than the root has no
    dimensions of its own. *)
Theorem C51_lists_partial U pick ops s outs s1 x D S :
  ucd_ascii U -> ucd_disjoint U -> (forall t, orders_ok t (pick t)) ->
  run U false pick open_writer ops = (s, outs) -> st_closed s = false -> step U false pick s (OClose 0) = (s1, Ok x) ->
  zlen (st_file s1) < 2 ^ 63 -> calls_fine D S (events ops outs) ->
  exists root, openFile (st_file s1) = Ok root /\
  (forall h0, exists h, rgetGroup root h0 (bs "/") = Ok h /\ NoDup (listDimensions h) /\ NoDup (listVariables root h) /\
     forall d, dimension (events ops outs) d ->
       In d (listDimensions h) /\ (In d (listVariables root h) <-> last_var (events ops outs) [] d <> None)) /\
  (forall h0 path h, absolute path = true -> rgetGroup root h0 path = Ok h -> forall d,
     (In d (listDimensions h) -> components path = [] /\ dimension (events ops outs) d) /\
     (In d (listVariables root h) <-> last_var (events ops outs) (components path) d <> None)).
Proof.
  intros UA UD Hp Hr Hc Hs Hz CF. destruct (closed_file U pick ops s outs s1 x D S UA UD Hp Hr Hc Hs Hz CF) as (root & OF & H).
  exists root. split; [exact OF|]. split.
  - intros h0. destruct (H h0 (bs "/") eq_refl) as [_ G]. change (components (bs "/")) with (@nil bytes) in G.
    destruct (G (or_introl eq_refl)) as (h & GR & GA). exists h. split; [exact GR|].
    split; [exact (proj1 (ga_dims _ _ _ _ _ GA))|]. split; [exact (proj1 (ga_vars _ _ _ _ _ GA))|].
    intros d Hd. split; [apply (ga_dims _ _ _ _ _ GA); auto|apply (ga_vars _ _ _ _ _ GA)].
  - intros h0 path h Ha GR d. destruct (H h0 path Ha) as [GN GG].
    assert (M : group_made (events ops outs) (components path)).
    { assert (Dc : group_made (events ops outs) (components path) \/ ~ group_made (events ops outs) (components path)).
      { unfold group_made. destruct (components path) as [|a q] eqn:E; [left; left; reflexivity|].
        destruct (in_dec (list_eq_dec (list_eq_dec Z.eq_dec)) (a :: q)
          (flat_map (fun e => match e with EGroup p => [p] | _ => [] end) (events ops outs))) as [I|I].
        - left. right. apply in_flat_map in I. destruct I as (e & Ie & I). destruct e as [p| |]; try contradiction.
          destruct I as [<-|[]]. exact Ie.
        - right. intros [I'|I']; [discriminate|]. apply I. apply in_flat_map. exists (EGroup (a :: q)). split; [exact I'|left; reflexivity]. }
      destruct Dc as [Y|Y]; [exact Y|]. rewrite (GN Y) in GR. discriminate. }
    destruct (GG M) as (h' & GR' & GA). rewrite GR in GR'. injection GR' as <-.
    split; [intros Hd; apply (ga_dims _ _ _ _ _ GA); exact Hd|apply (ga_vars _ _ _ _ _ GA)].
Qed.

(** ** C23 and C26 *)

(** A file that the HDF5 writer made is offered to the HDF5 reader; so is every file that the HDF5
    reader accepts. *)
Lemma put_at_hd off b d r : put_at off b d = Ok r -> 0 < off -> hd_error r = hd_error d.
Proof.
  unfold put_at. destruct (off + zlen b <=? zlen d) eqn:E; [|discriminate]. intros H H0.
  assert (r = ztake off d ++ b ++ zdrop (off + zlen b) d) by congruence. subst r.
  pose proof (zlen_nonneg b). destruct d as [|x d]; [change (zlen (@nil Z)) with 0 in E; lia|].
  unfold ztake. destruct (Z.to_nat off) as [|k] eqn:Ek; [lia|]. reflexivity.
Qed.
Lemma render_finalize big pick t f : render big pick t = Ok f ->
  exists body root, finalize (superblockV2 ++ body) root = Ok f /\ 0 <= root <= zlen f.
Proof.
  unfold render. intros E.
  destruct (prepare t) as [t1| |]; try discriminate. cbn [rbind] in E. cbv zeta in E.
  destruct (writeVars _ _ _ _ _) as [[b1 dimAddrs]| |]; try discriminate. cbn [rbind] in E.
  destruct (buildHeap _ _ _ _) as [[b2 c]| |]; try discriminate. cbn [rbind] in E.
  destruct (groupContents _ _ _ _ _) as [[[b3 va] ga]| |]; try discriminate. cbn [rbind] in E.
  destruct (groupMessages _ _ _ _ _ _) as [ms| |]; try discriminate. cbn [rbind] in E.
  destruct (objectHeaderV2 ms) as [oh| |]; try discriminate. cbn [rbind] in E.
  eexists _, _. split; [exact E|]. apply finalize_len in E. rewrite E, !zlen_app. change (zlen superblockV2) with 48.
  pose proof (zlen_nonneg b1). pose proof (zlen_nonneg b2). pose proof (zlen_nonneg b3). pose proof (zlen_nonneg oh). lia.
Qed.
Theorem C23_hdf5_writer {C} (cdf : bytes -> res C) big pick t f : render big pick t = Ok f ->
  nc_open cdf openFile f = rmap GHdf (openFile f).
Proof.
  intros E. destruct (render_finalize big pick t f E) as (body & root & F & _). unfold finalize in F. cbv zeta in F.
  destruct (put_at 28 _ _) as [d1| |] eqn:E1; try discriminate. cbn [rbind] in F.
  destruct (put_at 36 _ d1) as [d2| |] eqn:E2; try discriminate. cbn [rbind] in F.
  destruct (H5ChecksumModel.checksum _) as [k| |]; try discriminate. cbn [rbind] in F.
  apply put_at_hd in E1; [|lia]. apply put_at_hd in E2; [|lia]. apply put_at_hd in F; [|lia].
  assert (H : hd_error f = Some 137) by (rewrite F, E2, E1; reflexivity).
  destruct f as [|x f]; [discriminate|]. cbn [hd_error] in H. injection H as ->. reflexivity.
Qed.
Theorem C23_hdf5_accepts {C} (cdf : bytes -> res C) f o : openFile f = Ok o -> nc_open cdf openFile f = Ok (GHdf o).
Proof.
  intros E. apply (C23_dispatch cdf openFile f). split; [|exact E]. unfold openFile in E. cbv zeta in E.
  generalize dependent (S (S (List.length f))). intros fu E.
  destruct (readSuperblock _ f) as [a| |] eqn:R; try discriminate. clear E. unfold readSuperblock in R.
  destruct (48 <=? zlen f) eqn:L; [|discriminate]. cbn [negb] in R.
  unfold newSeek in R at 1. change (i64 0) with 0 in R. change (i64 (0 + 48)) with 48 in R. rewrite L in R.
  change (0 <? 0) with false in R. change (48 =? 0) with false in R. cbv iota zeta in R. cbn [rbind] in R.
  destruct f as [|x f]; [discriminate|]. destruct (checkMagic h5_magic (ztake 48 (zdrop 0 (x :: f)))) as [[u b]| |] eqn:M; try discriminate.
  clear R. unfold checkMagic, rd, pbind in M. change (zlen h5_magic) with 8 in M.
  destruct (8 <=? zlen (ztake 48 (zdrop 0 (x :: f)))); [|discriminate M]. unfold passert in M. cbn [rbind] in M.
  destruct (beqb (ztake 8 (ztake 48 (zdrop 0 (x :: f)))) h5_magic) eqn:B; [|discriminate M]. apply beqb_eq in B.
  cbn in B. cbn [hd_error]. unfold h5_magic in B. injection B as -> _. reflexivity.
Qed.

(** A file that the HDF5 writer made, cut off anywhere, does not open. *)
Theorem C26_file big pick t f n : render big pick t = Ok f -> zlen f < 2 ^ 63 -> 0 <= n < zlen f ->
  openFile (ztake n f) = Err (if n <? 48 then ECorrupted else ETruncated).
Proof.
  intros E Hf Hn. destruct (render_finalize big pick t f E) as (body & root & F & Hr).
  pose proof (finalize_len _ _ _ F) as L. rewrite zlen_app in L. change (zlen superblockV2) with 48 in L.
  unfold openFile. cbv zeta. rewrite (C26_truncated _ body root f n); [reflexivity|lia|lia|exact F|exact Hn].
Qed.
