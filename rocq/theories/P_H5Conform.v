(** C81: a file that the HDF5 writer wrote conforms to the file format. *)
From Verif Require Import Prelude GoVal ValidNameModel OrderedMapModel ArraySpec H5Base H5MetaWrite H5MetaRead H5Value H5TypeRead
  H5FileWrite H5PathModel H5RecordModel H5FileRead H5WriterModel DispatchModel PathSpec WriterSpec TypeSpec FileSpec BaseLemmas
  ValidNameProofs H5PathProofs H5TreeProofs H5SizeProofs H5PrepareProofs H5WholeProofs H5WriterProofs P_H5Writer H5ApiPath H5ApiProofs
  H5FileProofs H5CallsProofs H5MetaProofs H5PlaceProofs P_H5File P_H5FileEx P_H5Types P_H5Composed LengthSpec H5GoodProofs H5LengthProofs H5DimProofs.
From Verif Require Import MetaSpec ForeignSpec ForeignMsgSpec ForeignAttrSpec FormatSpec ConformSpec H5ConfTree H5ConfFile.
From Coq Require Import Lia ZifyBool ZifyNat Permutation.

Lemma note_ok size : 0 <= size -> no_variable size (scale_note size).
Proof.
  intros Hs. unfold scale_note, dec10. cbv zeta. set (t := dec size). exists (Z.max 0 (10 - zlen t)), t.
  assert (E : zrep (10 - zlen t) 32 = zrep (Z.max 0 (10 - zlen t)) 32).
  { unfold zrep. f_equal. lia. }
  rewrite E. split; [reflexivity|]. split; [exact (dec_ok size Hs)|]. lia.
Qed.
Lemma small_i32 z : 0 <= z < 2 ^ 31 -> i32 z = z.
Proof. intros H. unfold i32, signed. rewrite Z.mod_small by lia. destruct (z <? 2 ^ (32 - 1)) eqn:E; lia. Qed.
Lemma bare_dims i n size : 0 <= size -> dims_of (bare i n size) = [size].
Proof.
  intros Hs. unfold dims_of, bare. cbn [hv_dims hv_val List.length].
  assert (L : zlen (zrep size (HNum I8 0)) = size) by (rewrite zlen_zrep; lia).
  unfold zrep in *. destruct (Z.to_nat size) as [|k]; cbn [repeat getDimsLimited] in *; [rewrite <- L; reflexivity|].
  rewrite L. reflexivity.
Qed.

Lemma closed_conform U pick ops s outs s1 x D S :
  ucd_ascii U -> ucd_disjoint U -> (forall t, orders_ok t (pick t)) ->
  run U false pick open_writer ops = (s, outs) -> st_closed s = false -> step U false pick s (OClose 0) = (s1, Ok x) ->
  zlen (st_file s1) < 2 ^ 63 -> calls_fine D S (events ops outs) ->
  exists ds root kids, file_is (st_file s1) (events ops outs) ds root kids /\
    forall p a dims, located root (FGroup kids) p a (FData dims) -> no_fill (st_file s1) a.
Proof.
  intros UA UD Hpick Hrun Hc Hclose Hf CF.
  destruct (C62_first_close_partial U false pick ops s outs s1 x Hrun Hc Hclose) as [DE RE].
  set (es := events ops outs) in *. set (t := content s) in *. set (f := st_file s1) in *.
  pose proof (events_covered U false pick ops s outs Hrun) as CV. pose proof (events_names U false pick ops s outs Hrun) as NM.
  fold es in CV, NM.
  assert (HA : w_attrs t <> None).
  { intros E. clear - RE E. unfold render, prepare in RE. destruct t as [a vs gs]. cbn [w_attrs] in E. subst a.
    cbn [w_attrs rbind] in RE. revert RE. repeat match goal with |- context [match ?y with _ => _ end] => destruct y end; try discriminate. }
  pose proof (calls_tree_fine U D S es t DE CV NM CF HA) as TF.
  pose proof (calls_clean U es t UA UD DE NM) as CL.
  pose proof (calls_marked U D S es t DE CV NM CF) as CO.
  pose proof (dim_of_iff U D S es t DE CV NM CF) as DI.
  destruct (whole_read D S pick t f RE Hf TF (fun t1 _ => Hpick t1)) as (t1 & c' & ro & EP & _ & RO & _ & IX).
  pose proof (walk_T f c' D S t t1 ro TF CL CO EP RO IX) as WT. clear c' ro RO IX.
  destruct (whole_conf D S pick t f RE Hf TF (fun t1 _ => Hpick t1)) as (t1' & c & root & kids & EP' & SB & SH & ND & OB & GN & DM).
  assert (t1' = t1) by congruence. subst t1'. clear EP'. set (T := sort_tree t1) in *.
  pose proof (fun p a u H => shows_located f c p _ _ a u T [] H SH GN) as SL.
  assert (SC : Forall (fun x => hv_scale (snd x) = false) (w_vars t)).
  { pose proof (tf_nodes _ _ _ TF) as H. destruct (tall_here _ _ _ H) as (_ & H1 & _).
    revert H1. apply Forall_impl. intros y (_ & _ & _ & H1). exact H1. }
  destruct (prepare_nth t t1 EP SC) as (ds & DN & DD & DP).
  assert (EVT : forall n, assoc n (w_vars T) = assoc n (w_vars t1)).
  { intros n. destruct (prepare_spec D S t TF t1 EP) as (D1 & vs1 & E1 & N1 & _).
    unfold T. rewrite E1, sort_tree_eq. cbn [w_vars]. apply assoc_nsort. exact N1. }
  assert (KB : forall k n, nth_error (map fst ds) k = Some n -> Z.of_nat k < 2 ^ 31).
  { intros k n Hk. assert (L : (List.length (map fst ds) <= List.length D)%nat).
    { apply NoDup_incl_length; [exact DN|]. intros d Hd. apply (tf_dims _ _ _ TF). apply DD. exact Hd. }
    assert (Lk : (k < List.length (map fst ds))%nat) by (apply nth_error_Some; congruence).
    pose proof (cf_size _ _ _ CF) as Z1. assert (Z2 : 0 <= zlen es) by (unfold zlen; lia).
    clear - L Lk Z1 Z2. unfold zlen in *. lia. }
  (* what is at a path *)
  assert (AtGroup : forall p a ks, located root (FGroup kids) p a (FGroup ks) ->
            exists g g' D1, walk t p = Some g /\ walk T p = Some g' /\ shows f c g' a (FGroup ks) /\
              attr_list (w_attrs g') = attr_list (w_attrs g) ++ match p with [] => [ncp] | _ => [] end /\ (forall d, In d D1 <-> dim_of t d)).
  { intros p a ks HL. destruct (SL _ _ _ HL) as [(g' & W & Sh)|(r & n & g & v & _ & _ & _ & X & _)]; [|discriminate X].
    specialize (WT p). destruct (walk t p) as [g|]; [|congruence].
    destruct WT as (g2 & D1 & W2 & _ & Ea & _ & _ & _ & HD). rewrite W in W2. injection W2 as <-.
    exists g, g', D1. auto. }
  assert (AtData : forall p n a dims, located root (FGroup kids) (p ++ [n]) a (FData dims) ->
            exists g v D1, walk t p = Some g /\ prepared (at_root p D1) (w_vars g) n v /\ (forall d, In d D1 <-> dim_of t d) /\
              (p = [] -> assoc n (w_vars t1) = Some v) /\ dims = dims_of v /\ dataset_as f a (dims_of v) (hv_val v) (attr_list (hv_attrs v) ++ dim_attr c v)).
  { intros p n a dims HL. destruct (SL _ _ _ HL) as [(g' & W & Sh)|(r & m & g' & v & Er & W & Hin & Ed & Ds)].
    - destruct (shows_attrs f c _ _ _ Sh) as (_ & ks & X). discriminate X.
    - apply app_inj_tail in Er. destruct Er as [<- <-]. specialize (WT p). destruct (walk t p) as [g|]; [|congruence].
      destruct WT as (g2 & D1 & W2 & _ & _ & Nv & _ & Pv & HD). rewrite W in W2. injection W2 as <-.
      exists g, v, D1. split; [reflexivity|]. split; [apply Pv, In_assoc; assumption|]. split; [exact HD|].
      split; [|split; [congruence|exact (proj1 Ds)]].
      intros ->. cbn [walk] in W. injection W as <-. rewrite <- EVT. apply In_assoc; assumption. }
  assert (DimAt : forall d, dimension es d -> exists ds, located root (FGroup kids) [d] (addr_of c d) (FData ds)).
  { intros d Hd. destruct (DM d (proj2 (DI d) Hd)) as (u & Hu).
    assert (HL : located root (FGroup kids) [d] (addr_of c d) u) by (eapply located_below; [exact Hu|constructor]).
    destruct (SL _ _ _ HL) as [(g' & W & Sh)|(r & m & g' & v & _ & _ & _ & Ed & _)].
    - exfalso. apply (proj2 (proj2 (cf_dims _ _ _ CF d Hd))). apply (made_walk es t DE).
      specialize (WT [d]). destruct (walk t [d]) as [g|]; [exists g; reflexivity|congruence].
    - exists (dims_of v). rewrite <- Ed. exact HL. }
  exists (map fst ds), root, kids. split.
  2:{ intros p a dims L. destruct (SL _ _ _ L) as [(g' & W & Sh)|(r & m & g' & v & Er & W & Hin & Ed & Ds)]; [|exact (proj2 Ds)].
      destruct (shows_attrs f c _ _ _ Sh) as (_ & ks & X). discriminate X. }
  constructor.
  - split; [exact DN|]. intros d. rewrite DD. apply DI.
  - exact SB.
  - exact OB.
  - exact ND.
  - intros p. rewrite (made_walk es t DE p). split.
    + intros (g & W). specialize (WT p). rewrite W in WT. destruct WT as (g' & D1 & W' & _).
      destruct (walk_located f c p T root (FGroup kids) g' SH W') as (a & u & L & Sh).
      destruct (shows_attrs f c _ _ _ Sh) as (_ & ks & ->). exists a, ks. exact L.
    + intros (a & ks & L). destruct (AtGroup p a ks L) as (g & _ & _ & W & _). exists g. exact W.
  - intros p n. split.
    + intros H.
      assert (G : exists g, walk t p = Some g /\ (In n (map fst (w_vars g)) \/ (p = [] /\ dimension es n))).
      { destruct H as [H|[-> H]]; [|exists t; split; [reflexivity|right; auto]].
        destruct (last_var es p n) as [v|] eqn:E; [|congruence].
        destruct (var_made es t DE CV p n v E) as (g & W & A). exists g. split; [exact W|]. left.
        apply assoc_Some_In in A. apply (in_map fst) in A. exact A. }
      destruct G as (g & W & Hn). specialize (WT p). rewrite W in WT. destruct WT as (g' & D1 & W' & _ & _ & _ & Vn & _ & HD).
      assert (Hn' : In n (map fst (w_vars g'))).
      { apply Vn. destruct Hn as [Hn|[-> Hn]]; [left; exact Hn|right; apply HD, DI; exact Hn]. }
      apply in_map_iff in Hn'. destruct Hn' as ([m v] & Em & Hin). cbn [fst] in Em. subst m.
      destruct (var_located f c p T root (FGroup kids) g' n v SH W' Hin) as (a & L). exists a, (dims_of v). exact L.
    + intros (a & dims & L). destruct (AtData p n a dims L) as (g & v & D1 & W & HP & HD & _).
      destruct (node_of es t DE p g W) as (_ & _ & EV & _). rewrite <- EV.
      destruct HP as [v A _|v i A _ _|i size _ A _]; [left; congruence|left; congruence|].
      destruct p as [|q p]; [right; split; [reflexivity|]; apply DI, HD; exact A|destruct A].
  - intros p a L. destruct (SL _ _ _ L) as [(g' & _ & Sh)|(r & m & g' & v & _ & _ & _ & X & _)]; [|discriminate X].
    destruct (shows_attrs f c _ _ _ Sh) as (_ & ks & X). discriminate X.
  - intros p a ks L. destruct (AtGroup p a ks L) as (g & g' & D1 & W & W' & Sh & Ea & _).
    destruct (node_of es t DE p g W) as (_ & EA & _). destruct (shows_attrs f c _ _ _ Sh) as (HA' & _). rewrite Ea, EA in HA'.
    exists (match p with [] => [ncp] | _ => [] end). split; [exact HA'|]. split.
    + intros Hp. destruct p; [congruence|reflexivity].
    + intros ->. eexists. reflexivity.
  - intros p n v a dims EV Hnd L. destruct (AtData p n a dims L) as (g & v' & D1 & W & HP & HD & _ & -> & Ds).
    destruct (node_of es t DE p g W) as (_ & _ & EV' & _). rewrite <- EV' in EV.
    assert (Hn : ~ In n (at_root p D1)).
    { destruct p; [|intros []]. cbn [at_root]. intros Hi. apply (Hnd eq_refl). apply DI, HD. exact Hi. }
    destruct HP as [v' A _|v' i A B _|i size A B _]; [|contradiction|contradiction].
    assert (v' = v) by congruence. subst v'. exists (map (addr_of c) (hv_dims v)). split.
    + assert (Hd : Forall (dimension es) (hv_dims v)).
      { apply Forall_forall. intros d Hd. exists p, n, v. rewrite <- EV'. auto. }
      clear - Hd DimAt. induction Hd as [|d l H _ IH]; [constructor|]. cbn [map]. constructor; [exact (DimAt d H)|exact IH].
    + unfold dim_attr in Ds. rewrite EV' in EV. apply last_var_event in EV. rewrite Forall_forall in NM. destruct (NM _ EV) as [_ Es].
      rewrite Es in Ds. destruct (hv_dims v); exact Ds.
  - intros k n v a dims Hk EV L. destruct (AtData [] n a dims L) as (g & v' & D1 & W & HP & HD & A1 & -> & Ds).
    destruct (node_of es t DE [] t eq_refl) as (_ & _ & EV' & _). rewrite <- EV' in EV. pose proof (KB k n Hk) as Hb.
    rewrite nth_error_map in Hk. destruct (nth_error ds k) as [[d sz]|] eqn:Ek; [|discriminate Hk]. cbn [option_map fst] in Hk. injection Hk as <-.
    destruct (DP k d sz Ek) as [_ A2]. rewrite (A1 eq_refl), EV in A2. injection A2 as ->.
    unfold dim_attr, coordinate in Ds. cbn [hv_scale hv_attrs attr_list hv_val] in Ds.
    rewrite app_nil_r in Ds. unfold scale_attrs in Ds. rewrite small_i32 in Ds by lia. exact Ds.
  - intros k n a dims Hk EV L. destruct (AtData [] n a dims L) as (g & v' & D1 & W & HP & HD & A1 & -> & Ds).
    destruct (node_of es t DE [] t eq_refl) as (_ & _ & EV' & _). rewrite <- EV' in EV. pose proof (KB k n Hk) as Hb.
    rewrite nth_error_map in Hk. destruct (nth_error ds k) as [[d sz]|] eqn:Ek; [|discriminate Hk]. cbn [option_map fst] in Hk. injection Hk as <-.
    destruct (DP k d sz Ek) as [(x0 & X1 & _ & X3) A2]. rewrite (A1 eq_refl), EV in A2. injection A2 as ->.
    assert (LA : length_along es d sz /\ 0 <= sz).
    { destruct x0 as [[p m] w]. cbn [snd] in *. apply (all_vars_last es t DE) in X1. destruct X3 as (i & X3 & X4).
      destruct (cf_vars _ _ _ CF _ _ _ X1) as [_ [(dims0 & L0 & _ & B0 & S0 & T0) _]].
      destruct (getDims_fine _ _ T0 S0) as (tl & Eg). rewrite Eg in X4.
      assert (Li : (i < List.length dims0)%nat) by (rewrite L0; apply nth_error_Some; congruence).
      rewrite app_nth1 in X4 by exact Li. assert (X5 : nth_error dims0 i = Some sz) by (rewrite X4; apply nth_error_nth'; exact Li).
      split; [exists p, m, w, dims0, i; auto 10|]. apply nth_error_In in X5. rewrite Forall_forall in B0. exact (proj1 (B0 _ X5)). }
    destruct LA as [LA Hs].
    exists sz, (scale_note sz). split; [exact LA|]. split; [apply bare_dims; exact Hs|]. split; [apply note_ok; exact Hs|].
    unfold dim_attr in Ds. cbn [bare hv_scale hv_attrs attr_list hv_val] in Ds.
    rewrite app_nil_r in Ds. unfold scale_attrs in Ds. rewrite small_i32 in Ds by lia. exact Ds.
Qed.

(** C81: whatever order Go gives to its maps, if the first Close succeeds then the file is of the HDF5 file
    format, version 3.0, and its objects are those that the calls described: [file_is].

    What is missing: what [calls_fine] leaves out, as for C50; and datasets have no fill value message,
    see below. *)
Theorem C81_conform_partial U pick ops s outs s1 x D S :
  ucd_ascii U -> ucd_disjoint U -> (forall t, orders_ok t (pick t)) ->
  run U false pick open_writer ops = (s, outs) -> st_closed s = false -> step U false pick s (OClose 0) = (s1, Ok x) ->
  zlen (st_file s1) < 2 ^ 63 -> calls_fine D S (events ops outs) ->
  exists ds root kids, file_is (st_file s1) (events ops outs) ds root kids.
Proof.
  intros UA UD Hpick Hrun Hc Hclose Hf CF.
  destruct (closed_conform U pick ops s outs s1 x D S UA UD Hpick Hrun Hc Hclose Hf CF) as (ds & root & kids & H & _). exists ds, root, kids. exact H.
Qed.
(** "Fill Value Message: Required for dataset objects" (IV.A.2.f): no dataset of such a file has it. *)
Theorem C81_fill_refuted U pick ops s outs s1 x D S :
  ucd_ascii U -> ucd_disjoint U -> (forall t, orders_ok t (pick t)) ->
  run U false pick open_writer ops = (s, outs) -> st_closed s = false -> step U false pick s (OClose 0) = (s1, Ok x) ->
  zlen (st_file s1) < 2 ^ 63 -> calls_fine D S (events ops outs) ->
  exists ds root kids, file_is (st_file s1) (events ops outs) ds root kids /\
    forall p a dims, located root (FGroup kids) p a (FData dims) ->
      exists c l, messages_are (st_file s1) c a l /\ of_type 5 l = [].
Proof.
  intros UA UD Hpick Hrun Hc Hclose Hf CF.
  destruct (closed_conform U pick ops s outs s1 x D S UA UD Hpick Hrun Hc Hclose Hf CF) as (ds & root & kids & H & N). exists ds, root, kids.
  split; [exact H|]. intros p a dims L. destruct (N p a dims L) as (l & N1 & N2). exists 0%nat, l. split; assumption.
Qed.

Lemma ex_length n : length_along ex_events (bs "y") n -> n = 3.
Proof.
  intros (p & m & v & dims & i & H & V & T & L & N1 & N2). pose proof (fine_dims dims _ V T) as G. rewrite L in G.
  apply last_var_event in H. unfold ex_events in H. cbn [In] in H.
  destruct H as [H|[H|[H|[H|[H|[H|[]]]]]]]; try discriminate H; injection H as _ _ <-; cbn [hv_dims hv_val] in *;
    vm_compute in G; subst dims; repeat (destruct i as [|i]; cbn [nth_error] in N1, N2; try discriminate; try congruence).
Qed.
(** The files of P_H5FileEx and of P_H5Composed are such files: so in the first there is a dataset for the
    variable "v" in the root and one for each of its dimensions, which it refers to; "y" has no variable. *)
Example C81_example : exists s1 ds root kids a dims t y,
  step ucd_example false in_order ex_state (OClose 0) = (s1, Ok None) /\ file_is (st_file s1) ex_events ds root kids /\
  located root (FGroup kids) [bs "v"] a (FData dims) /\
  dataset_as (st_file s1) a dims
    (HSlice (TSlice (TNum F64)) [HSlice (TNum F64) [HNum F64 1; HNum F64 2; HNum F64 3];
                                 HSlice (TNum F64) [HNum F64 4; HNum F64 5; HNum F64 6]])
    [dimension_list [t; y]] /\
  (exists k dt, nth_error ds k = Some (bs "t") /\ located root (FGroup kids) [bs "t"] t (FData dt) /\
     dataset_as (st_file s1) t dt (HSlice (TNum I32) [HNum I32 10; HNum I32 20]) (scale_is (bs "t") (Z.of_nat k) ++ [(bs "units", HStr (bs "s"))])) /\
  (exists k s, nth_error ds k = Some (bs "y") /\ located root (FGroup kids) [bs "y"] y (FData [3]) /\ no_variable 3 s /\
     dataset_as (st_file s1) y [3] (HSlice (TNum I8) [HNum I8 0; HNum I8 0; HNum I8 0]) (scale_is s (Z.of_nat k))).
Proof.
  destruct C50_example_hypotheses as (H1 & H2 & (s1 & H3 & H4) & H5 & H6).
  destruct (C81_conform_partial ucd_example in_order ex_ops ex_state ex_outs s1 None ex_dims P_H5FileEx.ex_strings ucd_example_ascii ucd_example_disjoint
    H6 H1 H2 H3 H4 H5) as (ds & root & kids & H). rewrite ex_events_eq in H.
  assert (Dt : dimension ex_events (bs "t")).
  { exists [], (bs "t"), (mkHvar (HSlice (TNum I32) [HNum I32 10; HNum I32 20]) [bs "t"] (Some [(bs "units", HStr (bs "s"))]) false).
    split; [vm_compute; reflexivity|left; reflexivity]. }
  set (w := mkHvar (HSlice (TSlice (TNum F64)) [HSlice (TNum F64) [HNum F64 1; HNum F64 2; HNum F64 3];
                                 HSlice (TNum F64) [HNum F64 4; HNum F64 5; HNum F64 6]]) [bs "t"; bs "y"] None false).
  assert (Dy : dimension ex_events (bs "y")).
  { exists [], (bs "v"), w. split; [vm_compute; reflexivity|right; left; reflexivity]. }
  assert (Ev : last_var ex_events [] (bs "v") = Some w) by (vm_compute; reflexivity).
  assert (Nd : ~ dimension ex_events (bs "v")).
  { intros Hd. assert (X : In (bs "v") ex_dims) by (apply (cf_dims _ _ _ ex_calls_fine _ Hd)). destruct X as [X|[X|[]]]; discriminate X. }
  assert (Vv : last_var ex_events [] (bs "v") <> None) by (rewrite Ev; discriminate).
  destruct (proj1 (fi_data _ _ _ _ _ H [] (bs "v")) (or_introl Vv)) as (a & dims & La).
  destruct (fi_vars _ _ _ _ _ H [] (bs "v") w a dims Ev (fun _ => Nd) La) as (refs & R & DS).
  inversion R as [|? t0 ? ? (dt & Rt) R1]; subst. inversion R1 as [|? y0 ? ? (dy & Ry) R2]; subst. inversion R2; subst.
  exists s1, ds, root, kids, a, dims, t0, y0. split; [exact H3|]. split; [exact H|]. split; [exact La|]. split; [exact DS|]. split.
  - destruct (In_nth_error ds (bs "t") (proj2 (proj2 (fi_dims _ _ _ _ _ H) (bs "t")) Dt)) as (k & Ek).
    pose proof (fi_coords _ _ _ _ _ H k (bs "t") _ t0 dt Ek (eq_refl : last_var ex_events [] (bs "t") = Some _) Rt) as C.
    exists k, dt. split; [exact Ek|]. split; [exact Rt|exact C].
  - assert (Ny : last_var ex_events [] (bs "y") = None) by (vm_compute; reflexivity).
    destruct (In_nth_error ds (bs "y") (proj2 (proj2 (fi_dims _ _ _ _ _ H) (bs "y")) Dy)) as (k & Ek).
    destruct (fi_bare _ _ _ _ _ H k (bs "y") y0 dy Ek Ny Ry) as (n & s & LA & -> & NV & C).
    assert (n = 3) by (apply (ex_length n LA)). subst n.
    exists k, s. split; [exact Ek|]. split; [exact Ry|]. split; [exact NV|exact C].
Qed.
Example C81_composed_example : exists s1 ds root kids,
  step ucd_example false in_order cx_state (OClose 0) = (s1, Ok None) /\ file_is (st_file s1) (events cx_ops cx_outs) ds root kids.
Proof.
  destruct C50_composed_hypotheses as (H1 & H2 & (s1 & H3 & H4) & H5 & H6).
  destruct (C81_conform_partial ucd_example in_order cx_ops cx_state cx_outs s1 None cx_dims cx_strings ucd_example_ascii ucd_example_disjoint
    H6 H1 H2 H3 H4 H5) as (ds & root & kids & H). exists s1, ds, root, kids. split; assumption.
Qed.

Print Assumptions C81_conform_partial.
Print Assumptions C81_fill_refuted.
