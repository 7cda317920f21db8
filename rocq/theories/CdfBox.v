(** Boxes of fixed-size variables: GetSliceMD. *)
From Coq Require Import ZifyBool ZifyNat.
From Verif Require Import Prelude GoVal BaseLemmas OrderedMapModel FillModel FillProofs
  ArraySpec ArrayProofs SliceSpec CdfWriterModel CdfReaderModel CdfConvert CdfFixed CdfLocal CdfBounds CdfSlice.
Ltac Zify.zify_post_hook ::= Z.div_mod_to_equations.

Fixpoint subbox (b e : list Z) (v : gval) {struct b} : gval :=
  match b, e, v with
  | b0 :: b', e0 :: e', VSlice t l => VSlice t (map (subbox b' e') (ztake (e0 - b0) (zdrop b0 l)))
  | _, _, _ => v
  end.

Lemma has_shape_slice_inv d ds t l : has_shape (d :: ds) (VSlice t l) -> d = zlen l /\ Forall (has_shape ds) l.
Proof. intros H. inversion H; subst. split; [reflexivity|assumption]. Qed.
Lemma in_take {A} n (l : list A) x : In x (ztake n l) -> In x l.
Proof. intros H. rewrite <- (ztake_zdrop n l). apply in_app_iff. now left. Qed.
Lemma in_drop {A} n (l : list A) x : In x (zdrop n l) -> In x l.
Proof. intros H. rewrite <- (ztake_zdrop n l). apply in_app_iff. now right. Qed.

Lemma slice_rec_sub ds b e : box_in ds b e -> forall v, has_shape ds (erase v) ->
  exists v', slice_rec (List.length ds) b e v = Ok v' /\ erase v' = subbox b e (erase v).
Proof.
  induction 1 as [|d b e ds bs es H1 H2 H3 HB IH]; intros v HS.
  - exists v. split; [reflexivity|]. reflexivity.
  - cbn [List.length slice_rec]. destruct v as [k z|s|t l spare].
    + inversion HS.
    + exists (CStr s). split; reflexivity.
    + cbn [erase] in HS. apply has_shape_slice_inv in HS. destruct HS as [HD HF]. rewrite zlen_map in HD.
      pose proof (zlen_nonneg spare).
      replace ((b <? 0) || (e <? b) || (zlen l + zlen spare <? e)) with false by lia.
      assert (ES : ztake (e - b) (zdrop b (l ++ spare)) = ztake (e - b) (zdrop b l)).
      { rewrite zdrop_app_l by lia. apply ztake_app_l. rewrite zlen_zdrop. lia. }
      rewrite ES. cbn [erase subbox]. rewrite zdrop_map, ztake_map.
      destruct ds as [|d2 ds].
      * cbn [List.length]. eexists. split; [reflexivity|]. inversion HB; subst. cbn [erase]. f_equal.
        rewrite map_map. reflexivity.
      * cbn [List.length]. change (S (List.length ds)) with (List.length (d2 :: ds)).
        assert (G : forall l0, Forall (fun x => has_shape (d2 :: ds) (erase x)) l0 ->
          exists l1, rmapM (slice_rec (List.length (d2 :: ds)) bs es) l0 = Ok l1 /\
            map erase l1 = map (subbox bs es) (map erase l0)).
        { induction 1 as [|x l0 Hx _ IHl]; [exists []; split; reflexivity|].
          destruct (IH x Hx) as (x' & X1 & X2). destruct IHl as (l1 & L1 & L2).
          exists (x' :: l1). cbn [rmapM]. rewrite X1. cbn [rbind]. rewrite L1. cbn [rbind map].
          rewrite X2, L2. split; reflexivity. }
        destruct (G (ztake (e - b) (zdrop b l))) as (l1 & L1 & L2).
        { apply Forall_forall. intros x Hx. rewrite Forall_forall in HF. apply HF. apply in_map.
          exact (in_drop b l x (in_take (e - b) _ x Hx)). }
        rewrite L1. cbn [rbind]. eexists. split; [reflexivity|]. cbn [erase]. now rewrite L2.
Qed.

(** Bounds as they act on the inner dimensions *)
Definition in_b (t : elt) (b : list Z) : list Z := match t with EChar => set_last [0] b | ENum _ => b end.
Definition in_e (t : elt) (x e : list Z) : list Z := match t with EChar => set_last x e | ENum _ => e end.
Lemma in_b_cons t b b1 bs : in_b t (b :: b1 :: bs) = b :: in_b t (b1 :: bs).
Proof. destruct t; reflexivity. Qed.
Lemma in_e_cons t x e e1 es : in_e t x (e :: e1 :: es) = e :: in_e t x (e1 :: es).
Proof. destruct t; reflexivity. Qed.

Lemma nth_take_drop {A} (l : list A) b n i : 0 <= b -> 0 <= i < n -> nth_error (ztake n (zdrop b l)) (Z.to_nat i) = nth_error l (Z.to_nat (b + i)).
Proof.
  intros Hb Hi. unfold ztake, zdrop. rewrite nth_error_firstn_lt by lia. rewrite nth_error_skipn_add. f_equal. lia.
Qed.
Lemma last_cons {A} (x y : A) l d : last (x :: y :: l) d = last (y :: l) d. Proof. reflexivity. Qed.

Lemma box_index t : forall ds b e, box_in ds b e -> ds <> [] -> Forall (fun d => 0 < d) ds -> forall data x,
  volume ds = zlen data -> last x 0 = last ds 0 ->
  has_shape (zsub (in_e t x e) (in_b t b)) (subbox b e (nest t ds data)) /\
  (forall idx, in_shape (zsub (in_e t x e) (in_b t b)) idx ->
     vindex (subbox b e (nest t ds data)) idx = vindex (nest t ds data) (zadd (in_b t b) idx)).
Proof.
  induction 1 as [|d b e ds bs es H1 H2 H3 HB IH]; intros NE P data x HV HL; [contradiction|].
  apply Forall_cons_iff in P. destruct P as [P1 P2]. destruct ds as [|d2 ds].
  - inversion HB; subst. cbn [volume] in HV. rewrite Z.mul_1_r in HV. cbn [nest]. rewrite ztake_all by lia.
    destruct t as [|k].
    + cbn [row subbox in_e in_b set_last]. cbn [last] in HL. rewrite HL. cbn [last zsub]. rewrite Z.sub_0_r. split.
      * rewrite HV. constructor.
      * intros idx HI. inversion HI as [|? i ? r Hi Hr]; subst. inversion Hr; subst. cbn [zadd]. rewrite Z.add_0_l. reflexivity.
    + cbn [row subbox in_e in_b zsub].
      assert (EZ : e - b = zlen (map (subbox [] []) (ztake (e - b) (zdrop b (map (VNum k) data))))).
      { rewrite zlen_map. symmetry. apply zlen_ztake; [lia|]. rewrite zlen_zdrop, zlen_map. lia. }
      split.
      * rewrite EZ at 1. constructor. apply Forall_forall. intros y Hy. apply in_map_iff in Hy. destruct Hy as (y' & <- & Hy).
        apply in_take, in_drop in Hy. apply in_map_iff in Hy. destruct Hy as (z & <- & _). cbn [subbox]. constructor.
      * intros idx HI. inversion HI as [|? i ? r Hi Hr]; subst. inversion Hr; subst. cbn [zadd vindex].
        replace (i <? 0) with false by lia. replace (b + i <? 0) with false by lia.
        rewrite nth_error_map_full, nth_take_drop by lia. rewrite nth_error_map_full.
        destruct (nth_error data (Z.to_nat (b + i))); reflexivity.
  - assert (exists b1 bs', bs = b1 :: bs') as (b1 & bs' & ->) by (inversion HB; subst; eauto).
    assert (exists e1 es', es = e1 :: es') as (e1 & es' & ->) by (inversion HB; subst; eauto).
    set (ds2 := d2 :: ds) in *.
    rewrite in_b_cons, in_e_cons. cbn [zsub].
    change (nest t (d :: ds2) data) with (VSlice (arr_type t (List.length ds2)) (map (nest t ds2) (chunks (Z.to_nat d) (volume ds2) data))).
    change (volume (d :: ds2)) with (d * volume ds2) in HV. pose proof (volume_pos ds2 P2) as HP.
    set (bs2 := b1 :: bs') in *. set (es2 := e1 :: es') in *. cbn [subbox].
    set (ch := chunks (Z.to_nat d) (volume ds2) data) in *.
    assert (LC : zlen ch = d) by (unfold ch, zlen; rewrite chunks_length; lia).
    assert (FC : Forall (fun c => zlen c = volume ds2) ch) by (apply chunks_len; lia).
    rewrite Forall_forall in FC.
    assert (HL2 : last x 0 = last ds2 0) by (rewrite HL; reflexivity).
    split.
    + match goal with |- has_shape (_ :: _) (VSlice _ ?l) => assert (EZ : e - b = zlen l) end.
      { rewrite zlen_map. symmetry. apply zlen_ztake; [lia|]. rewrite zlen_zdrop, zlen_map. lia. }
      rewrite EZ at 1. constructor. apply Forall_forall. intros y Hy. apply in_map_iff in Hy. destruct Hy as (y' & <- & Hy).
      apply in_take, in_drop in Hy. apply in_map_iff in Hy. destruct Hy as (c & <- & Hc).
      apply IH; [discriminate|exact P2|symmetry; now apply FC|exact HL2].
    + intros idx HI. inversion HI as [|? i ? r Hi Hr]; subst idx. cbn [zadd vindex].
      replace (i <? 0) with false by lia. replace (b + i <? 0) with false by lia.
      rewrite nth_error_map_full, nth_take_drop by lia. rewrite nth_error_map_full.
      destruct (nth_error ch (Z.to_nat (b + i))) as [c|] eqn:Ec; cbn [option_map]; [|reflexivity].
      refine (proj2 (IH _ P2 c x _ HL2) r Hr); [discriminate|]. symmetry. apply FC. exact (nth_error_In _ _ Ec).
Qed.

Lemma box_cons_inv d ds b e : box_in (d :: ds) b e -> exists b0 b' e0 e', b = b0 :: b' /\ e = e0 :: e' /\
  0 <= b0 /\ b0 <= e0 /\ e0 <= d /\ box_in ds b' e'.
Proof. intros H. inversion H; subst. repeat eexists; assumption. Qed.
Lemma box_len ds b e : box_in ds b e -> zlen b = zlen ds /\ zlen e = zlen ds.
Proof. induction 1 as [|d b e ds bs es H1 H2 H3 HB IH]; [split; reflexivity|]. rewrite !zlen_cons. lia. Qed.
Lemma box_ordered ds b e : box_in ds b e -> md_ordered b e = true.
Proof. induction 1 as [|d b e ds bs es H1 H2 H3 HB IH]; [reflexivity|]. cbn [md_ordered]. rewrite IH. lia. Qed.

Lemma vindex_vslice b e v i r : (exists t l, v = VSlice t l) \/ (exists s, v = VStr s) -> 0 <= b -> 0 <= i < e - b ->
  vindex (vslice b e v) (i :: r) = vindex v ((b + i) :: r).
Proof.
  intros H Hb Hi. destruct H as [(t & l & ->)|(s & ->)]; cbn [vslice vindex];
    replace (i <? 0) with false by lia; replace (b + i <? 0) with false by lia; rewrite nth_take_drop by lia; reflexivity.
Qed.
Lemma nest_is_slice t d ds data : (exists T l, nest t (d :: ds) data = VSlice T l) \/ (exists s, nest t (d :: ds) data = VStr s).
Proof.
  destruct ds as [|d2 ds].
  - cbn [nest]. destruct t; cbn [row]; eauto.
  - left. eexists. eexists. reflexivity.
Qed.

Lemma slice_md g pat b e : fixed_getter g -> fill_pattern (g_var g) (g_ty g) = Ok pat ->
  hd 0 b = 0 \/ aligned (c_file (g_cdf g)) (v_begin (g_var g)) (g_bytes g) (tysize (g_ty g)) ->
  g_lens g <> [] -> box_in (g_lens g) b e ->
  let t := elt_of (g_ty g) in let lo := box_begin t (g_lens g) b in let hi := box_end t (g_lens g) e in
  exists w r, values g = Ok w /\ get_slice_md g b e = Ok r /\ has_shape (zsub hi lo) r /\
    forall idx, in_shape (zsub hi lo) idx -> vindex r idx = vindex w (zadd lo idx).
Proof.
  intros HG HP HA NE HB t lo hi. unfold get_slice_md, values, get_slice.
  destruct (box_len _ _ _ HB) as [LB LE]. rewrite LB, LE, Z.eqb_refl. cbn [negb orb].
  rewrite (box_ordered _ _ _ HB). cbn [negb].
  pose proof (fg_pos g HG) as P. pose proof (fg_vol g HG) as V. pose proof (fg_len g HG) as L.
  pose proof (zlen_g_data g pat HG) as ZD. unfold g_total in ZD.
  destruct (g_lens g) as [|n ds] eqn:EL; [contradiction|].
  destruct (box_cons_inv _ _ _ _ HB) as (b0 & b' & e0 & e' & -> & -> & H1 & H2 & H3 & HB'). cbn [hd] in HA.
  destruct (slice_whole g pat b0 e0 HG HP HA) as (w & p & W1 & W2 & S1 & S2); [rewrite EL; discriminate|exact H1|exact H2|lia|].
  rewrite W1, S1. cbn [rmap rbind]. exists (erase w).
  apply Forall_cons_iff in P. destruct P as [P1 P2]. pose proof (volume_head_le n ds P1 P2) as VH.
  change (volume (n :: ds)) with (n * volume ds) in *. pose proof (volume_pos ds P2) as VP.
  rewrite (i64_small (e0 - b0)) by lia. rewrite EL in W2.
  assert (FZ : forall a c, zlen a = zlen c -> exists y, zsub ((e0 : Z) :: a) (b0 :: c) = (e0 - b0) :: y) by (intros; eexists; reflexivity).
  destruct S2 as [[_ S2]|[(-> & ET & LN) (T & ->)]].
  - rewrite W2 in S2. rewrite (vslice_nest (elt_of (g_ty g)) n ds (g_data g pat) b0 e0) in S2 by (try exact P2; lia).
    fold t in S2, W2. set (data' := ztake ((e0 - b0) * volume ds) (zdrop (b0 * volume ds) (g_data g pat))) in *.
    assert (ZR : zlen data' = (e0 - b0) * volume ds) by (apply (nest_slice_rows b0 e0 n ds (g_data g pat) P2 H1 H2 H3); lia).
    assert (P0 : Forall (fun d => 0 <= d) ((e0 - b0) :: ds)).
    { constructor; [lia|]. eapply Forall_impl; [|exact P2]. cbv beta. lia. }
    assert (HS : has_shape ((e0 - b0) :: ds) (erase p)) by (rewrite S2; apply nest_shape; [exact P0|cbn [volume]; lia]).
    assert (HB2 : box_in ((e0 - b0) :: ds) (0 :: b') ((e0 - b0) :: e')) by (constructor; [lia|lia|lia|exact HB']).
    destruct (slice_rec_sub _ _ _ HB2 p HS) as (v' & R1 & R2).
    cbn [List.length] in R1 |- *. rewrite R1. cbn [rmap]. exists (erase v'). split; [reflexivity|]. split; [reflexivity|].
    rewrite R2, S2.
    assert (WS : nest t ((e0 - b0) :: ds) data' = vslice b0 e0 (nest t (n :: ds) (g_data g pat)))
      by (symmetry; apply vslice_nest; [exact P2|exact H1|exact H2|exact H3|lia]).
    destruct ds as [|d2 ds].
    + inversion HB'; subst b' e'.
      assert (ELo : lo = [b0]) by (unfold lo, box_begin, whole_rows; destruct t; reflexivity).
      assert (EHi : hi = [e0]) by (unfold hi, box_end, whole_rows; destruct t; reflexivity).
      rewrite ELo, EHi. cbn [zsub].
      assert (ESB : subbox [0] [e0 - b0] (nest t [e0 - b0] data') = nest t [e0 - b0] data').
      { cbn [volume] in ZR. rewrite Z.mul_1_r in ZR. cbn [nest]. rewrite ztake_all by lia. destruct t; cbn [row subbox]; [reflexivity|].
        f_equal. rewrite Z.sub_0_r, zdrop_0, ztake_all by (rewrite ?zlen_map; lia). rewrite map_map. reflexivity. }
      rewrite ESB. split; [apply nest_shape; [exact P0|cbn [volume] in *; lia]|].
      intros idx HI. inversion HI as [|? i ? r Hi Hr]; subst idx. inversion Hr; subst r. cbn [zadd]. rewrite WS, W2.
      apply vindex_vslice; [apply nest_is_slice|exact H1|exact Hi].
    + set (ds2 := d2 :: ds) in *.
      assert (exists b1 bs', b' = b1 :: bs') as (b1 & bs' & ->) by (inversion HB'; subst; eauto).
      assert (exists e1 es', e' = e1 :: es') as (e1 & es' & ->) by (inversion HB'; subst; eauto).
      assert (EW : forall tt, whole_rows tt (n :: ds2) = match tt with EChar => true | ENum _ => false end).
      { intros tt. destruct tt; [|reflexivity]. unfold whole_rows, ds2. rewrite !zlen_cons. pose proof (zlen_nonneg ds). lia. }
      assert (ELo : lo = b0 :: in_b t (b1 :: bs')).
      { unfold lo, box_begin. rewrite EW. destruct t; reflexivity. }
      assert (EHi : hi = e0 :: in_e t (n :: ds2) (e1 :: es')).
      { unfold hi, box_end. rewrite EW. destruct t; reflexivity. }
      rewrite ELo, EHi. cbn [zsub].
      cbn [subbox]. set (bs2 := b1 :: bs') in *. set (es2 := e1 :: es') in *.
      assert (HLast : last (n :: ds2) 0 = last ds2 0) by reflexivity.
      change (nest t ((e0 - b0) :: ds2) data') with
        (VSlice (arr_type t (List.length ds2)) (map (nest t ds2) (chunks (Z.to_nat (e0 - b0)) (volume ds2) data'))) in *.
      set (ch := chunks (Z.to_nat (e0 - b0)) (volume ds2) data') in *.
      assert (LC : zlen ch = e0 - b0) by (unfold ch, zlen; rewrite chunks_length; lia).
      assert (FC : Forall (fun c => zlen c = volume ds2) ch) by (apply chunks_len; lia).
      rewrite Forall_forall in FC.
      cbn [subbox]. rewrite Z.sub_0_r, zdrop_0 by lia.
      rewrite (ztake_all (e0 - b0)) by (rewrite zlen_map; lia). rewrite map_map. split.
      * match goal with |- has_shape (_ :: _) (VSlice _ ?l) => assert (EZ : e0 - b0 = zlen l) by (rewrite zlen_map; lia) end.
        rewrite EZ at 1. constructor. apply Forall_forall. intros y Hy. apply in_map_iff in Hy. destruct Hy as (c & <- & Hc).
        apply (box_index t ds2 bs2 es2 HB'); [discriminate|exact P2|symmetry; now apply FC|exact HLast].
      * intros idx HI. inversion HI as [|? i ? r Hi Hr]; subst idx. cbn [zadd].
        rewrite W2. rewrite <- (vindex_vslice b0 e0) by (try apply nest_is_slice; assumption). rewrite <- WS.
        cbn [vindex]. replace (i <? 0) with false by lia. rewrite !nth_error_map_full.
        destruct (nth_error ch (Z.to_nat i)) as [c|] eqn:Ec; cbn [option_map]; [|reflexivity].
        refine (proj2 (box_index t ds2 bs2 es2 HB' _ P2 c (n :: ds2) _ HLast) r Hr); [discriminate|].
        symmetry. apply FC. exact (nth_error_In _ _ Ec).
  - rewrite Z.sub_diag.
    assert (EQ : slice_rec (List.length (n :: ds)) (0 :: b') (0 :: e') (CSlice T [] []) = Ok (CSlice T [] [])).
    { cbn [List.length slice_rec]. destruct ds; reflexivity. }
    rewrite EQ. cbn [rmap]. eexists. split; [reflexivity|]. split; [reflexivity|].
    assert (EZ : exists y, zsub hi lo = 0 :: y).
    { unfold hi, lo, box_begin, box_end. destruct (whole_rows t (n :: ds)) eqn:EWR.
      - destruct b' as [|b1 b']; [rewrite !zlen_cons in LB; rewrite zlen_nil in LB; rewrite EL, zlen_cons in LN; lia|].
        destruct e' as [|e1 e']; [rewrite !zlen_cons in LE; rewrite zlen_nil in LE; rewrite EL, zlen_cons in LN; lia|].
        cbn [set_last zsub]. rewrite Z.sub_diag. eexists. reflexivity.
      - cbn [zsub]. rewrite Z.sub_diag. eexists. reflexivity. }
    destruct EZ as (y & EZ). rewrite EZ. split.
    + cbn [erase map]. change 0 with (zlen (@nil gval)). constructor. constructor.
    + intros idx HI. inversion HI as [|? i ? r Hi Hr]; subst. lia.
Qed.
