(** Missing data, and files cut short. *)
From Coq Require Import ZifyBool ZifyNat.
From Verif Require Import Prelude GoVal BaseLemmas OrderedMapModel FillModel FillProofs
  ArraySpec ArrayProofs SliceSpec CdfFormat CdfWriterModel CdfReaderModel CdfConvert CdfHeader CdfFile CdfFixed CdfRound CdfLocal CdfParse CdfOpened
  CdfBounds CdfSlice CdfBox CdfRecord CdfVersion.
Ltac Zify.zify_post_hook ::= Z.div_mod_to_equations.

(** The fill value of a variable *)
Definition has_fill (v : rvar) (t : elt) (fill : Z) : Prop :=
  (om_get (v_attrs v) (bs "_FillValue") = None /\ fill = nc_fill t) \/
  om_get (v_attrs v) (bs "_FillValue") = Some (VNum (elt_kind t) fill).

Lemma has_fill_pattern v t fill : has_fill v t fill -> attrs_wt (v_attrs v) ->
  fill_pattern v (cty_of t) = Ok (enc_be (elt_kind t) fill) /\ in_range (elt_kind t) fill = true.
Proof.
  intros [[H ->]|H] W; unfold fill_pattern; rewrite H.
  - split; destruct t as [|[]]; reflexivity.
  - cbn [rbind]. assert (EK : nk_eqb (elt_kind t) (fill_kind (cty_of t)) = true) by (destruct t as [|[]]; reflexivity). rewrite EK.
    split; [reflexivity|]. specialize (W _ _ H). exact W.
Qed.

Lemma ends_aligned f off n t : 0 <= off -> 0 <= n -> ends_between f off n t -> aligned f off (n * esize t) (esize t).
Proof.
  intros H0 HN H. unfold aligned, avail. pose proof (zlen_nonneg f). assert (ES : 1 <= esize t <= 8) by (unfold esize; apply BaseLemmas.ksize_pos).
  assert (0 <= n * esize t) by (apply Z.mul_nonneg_nonneg; lia).
  destruct H as [H|[H|H]].
  - left. lia.
  - right. rewrite Z.max_l by lia. apply Z.mod_0_l. lia.
  - destruct (Z.le_ge_cases (zlen f - off) 0).
    + right. rewrite Z.max_l by lia. apply Z.mod_0_l. lia.
    + right. rewrite Z.max_r by lia. exact H.
Qed.

Lemma data_or_fill g t fill : fixed_getter g -> g_ty g = cty_of t -> in_range (elt_kind t) fill = true ->
  ends_between (c_file (g_cdf g)) (v_begin (g_var g)) (volume (g_lens g)) t ->
  g_data g (enc_be (elt_kind t) fill) =
  map (stored_or fill t (c_file (g_cdf g)) (v_begin (g_var g))) (iota (volume (g_lens g))).
Proof.
  intros FG ET IR EB. unfold g_data, g_bytes, g_total. rewrite ET. destruct (cty_elt t) as (T1 & T2 & T3). rewrite T2, T3.
  set (f := c_file (g_cdf g)) in *. set (off := v_begin (g_var g)) in *. set (n := volume (g_lens g)) in *.
  pose proof (fg_begin g FG) as BG. fold off in BG.
  assert (N0 : 0 < n) by (apply volume_pos; exact (fg_pos g FG)).
  assert (ES : 1 <= esize t <= 8) by (unfold esize; apply BaseLemmas.ksize_pos).
  rewrite dec_list_iota. unfold iota. apply map_ext_in. intros j Hj. apply in_map_iff in Hj. destruct Hj as (i & <- & Hi). apply in_seq in Hi.
  set (j := Z.of_nat i). assert (J : 0 <= j < n) by lia. clearbody j. clear Hi i.
  set (pat := enc_be (elt_kind t) fill). assert (PL : zlen pat = esize t) by apply zlen_enc_be.
  assert (PN : pat <> []) by (intros X; rewrite X in PL; rewrite zlen_nil in PL; lia).
  change (ksize (elt_kind t)) with (esize t).
  assert (A0 : 0 <= j * esize t) by (apply Z.mul_nonneg_nonneg; lia).
  assert (A1 : (j + 1) * esize t <= n * esize t) by (apply Z.mul_le_mono_nonneg_r; lia).
  rewrite <- (stream_slice f off pat (n * esize t) (j * esize t) (esize t)).
  - unfold stream, stored_or, stored. assert (E1 : off + (j + 1) * esize t = off + j * esize t + esize t) by lia.
    destruct (off + (j + 1) * esize t <=? zlen f) eqn:EC.
    + rewrite (zlen_ztake (esize t)); [|lia|rewrite zlen_zdrop; lia]. rewrite Z.sub_diag. change (fill_stream pat (Z.to_nat 0)) with (@nil Z).
      rewrite app_nil_r. reflexivity.
    + assert (Hz : zlen f <= off + j * esize t).
      { destruct EB as [EB|[EB|EB]]; [lia|lia|]. apply Z.mod_divide in EB; [|lia]. destruct EB as [q Hq].
        assert (q < j + 1) by (apply (Z.mul_lt_mono_pos_r (esize t)); lia).
        assert (q * esize t <= j * esize t) by (apply Z.mul_le_mono_nonneg_r; lia). lia. }
      rewrite (zdrop_all (off + j * esize t) f) by exact Hz. rewrite (ztake_all (esize t) (@nil Z)) by (rewrite zlen_nil; lia).
      rewrite zlen_nil, Z.sub_0_r. cbn [app]. rewrite fill_stream_cyc by exact PN.
      replace (cyc pat 0 (Z.to_nat (esize t))) with pat.
      2:{ symmetry. rewrite <- PL. unfold zlen. rewrite Nat2Z.id. apply cyc_whole; [apply Nat.mod_0_l; destruct pat; [contradiction|discriminate]|exact PN]. }
      apply dec_enc_be. exact IR.
  - exact PN.
  - lia.
  - exact A0.
  - lia.
  - lia.
  - rewrite PL. apply Z.mod_mul. lia.
  - right. rewrite PL. apply ends_aligned; [lia|lia|exact EB].
Qed.

Lemma missing_filled f c n g t fill : cdf_open f = Ok c -> are_bytes f -> get_var_getter c n = Ok g -> g_unl g = false ->
  24 * volume (g_lens g) <= 2 ^ 48 -> v_begin (g_var g) < 2 ^ 62 -> g_ty g = cty_of t -> has_fill (g_var g) t fill ->
  ends_between f (v_begin (g_var g)) (volume (g_lens g)) t ->
  (t = EChar -> g_lens g = [] -> stored_or fill t f (v_begin (g_var g)) 0 < 128) ->
  values g = Ok (nest t (g_lens g) (map (stored_or fill t f (v_begin (g_var g))) (iota (volume (g_lens g))))).
Proof.
  intros OP AB GG NU HV HB ET HF EB HC. destruct (getter_fixed f c n g OP AB GG NU HV HB) as (FG & CF & WT).
  destruct (has_fill_pattern _ _ _ HF WT) as [FP IR]. rewrite <- ET in FP. destruct (cty_elt t) as (T1 & T2 & T3).
  assert (DE : g_data g (enc_be (elt_kind t) fill) = map (stored_or fill t f (v_begin (g_var g))) (iota (volume (g_lens g)))).
  { rewrite <- CF. apply data_or_fill; [exact FG|exact ET|exact IR|rewrite CF; exact EB]. }
  destruct (values_fixed g (enc_be (elt_kind t) fill) FG FP) as (x & X1 & X2).
  { intros TC LN. rewrite DE, LN. rewrite ET in TC. assert (EC : t = EChar) by (destruct t; [reflexivity|discriminate]).
    change (iota (volume [])) with [0]. cbn [map]. constructor; [|constructor]. split; [|exact (HC EC LN)].
    subst t. unfold stored_or, stored. destruct (_ <=? _).
    - pose proof (dec_be_range U8 (ztake (esize EChar) (zdrop (v_begin (g_var g) + 0 * esize EChar) f))) as X.
      cbn [elt_kind]. enough (Y : in_range U8 (dec_be U8 (ztake (esize EChar) (zdrop (v_begin (g_var g) + 0 * esize EChar) f))) = true) by (unfold in_range in Y; change (kmin U8) with 0 in Y; lia).
      apply X; [apply are_bytes_take, are_bytes_drop, AB|]. rewrite zlen_ztake_min. change (esize EChar) with 1. cbn [ksize]. lia.
    - unfold in_range in IR. change (kmin (elt_kind EChar)) with 0 in IR. lia. }
  unfold values, get_slice. rewrite X1. cbn [rmap]. rewrite X2, ET, T1, DE. reflexivity.
Qed.

(** ** A file cut short *)
Definition with_file (c : cdf) (f : bytes) : cdf :=
  mkCdf f (c_ver c) (c_numrecs c) (c_recsize c) (c_dims c) (c_gattrs c) (c_vars c) (c_special c).

Lemma cut_opens f c n : cdf_open f = Ok c -> 0 <= n ->
  cdf_open (ztake n f) = Err EEOF \/ cdf_open (ztake n f) = Ok (with_file c (ztake n f)).
Proof.
  intros OP HN. destruct (open_header f c OP) as (head & data & -> & H1 & H2).
  destruct (Z.lt_ge_cases n (zlen head)).
  - left. rewrite ztake_prefix by lia. apply (H2 (ztake n head) (zdrop n head)); [symmetry; apply ztake_zdrop|]. apply zdrop_nonempty. lia.
  - right. rewrite ztake_app_r by lia. apply H1.
Qed.

Lemma var_dims_file c f ids : forall first, var_dims (with_file c f) first ids = var_dims c first ids.
Proof.
  induction ids as [|i ids IH]; intros first; [reflexivity|]. cbn [var_dims with_file c_dims c_numrecs]. fold (with_file c f). rewrite IH. reflexivity.
Qed.
Lemma getter_file c f name : get_var_getter (with_file c f) name =
  rmap (fun g => mkGetter (with_file c f) (g_var g) (g_lens g) (g_names g) (g_unl g) (g_chunk g) (g_len g) (g_ty g)) (get_var_getter c name).
Proof.
  unfold get_var_getter. cbn [with_file c_vars]. fold (with_file c f). destruct (om_get (c_vars c) name) as [v|]; [|reflexivity].
  rewrite var_dims_file. destruct (var_dims c true (v_ids v)) as [l| |]; cbn [rbind rmap]; try reflexivity. cbv zeta.
  destruct (match map _ l with [] => _ | _ => _ end) as [chunk len]. destruct (ty_of_code (v_type v)); reflexivity.
Qed.
Lemma take_within {A} (a o n : Z) (f : list A) : 0 <= a -> 0 <= o -> o + a <= n -> ztake a (zdrop o (ztake n f)) = ztake a (zdrop o f).
Proof.
  intros HA HO HN. rewrite (ztake_zdrop_comm a o (ztake n f)) by lia. rewrite ztake_ztake, Z.min_l by lia.
  rewrite <- ztake_zdrop_comm by lia. reflexivity.
Qed.

Lemma cut_keeps f c n name g : cdf_open f = Ok c -> are_bytes f -> get_var_getter c name = Ok g -> g_unl g = false ->
  24 * volume (g_lens g) <= 2 ^ 48 -> v_begin (g_var g) < 2 ^ 62 ->
  v_begin (g_var g) + volume (g_lens g) * tysize (g_ty g) <= n ->
  get_variable (with_file c (ztake n f)) name = get_variable c name.
Proof.
  intros OP AB GG NU HV HB HN. destruct (getter_fixed f c name g OP AB GG NU HV HB) as (FG & CF & _).
  unfold get_variable. rewrite getter_file, GG. cbn [rmap rbind g_len g_names g_var].
  enough (E : forall k, get_slice_c (mkGetter (with_file c k) (g_var g) (g_lens g) (g_names g) (g_unl g) (g_chunk g) (g_len g) (g_ty g)) 0 (g_len g) =
     let* pat := fill_pattern (g_var g) (g_ty g) in
     let got := ztake (volume (g_lens g) * tysize (g_ty g)) (zdrop (v_begin (g_var g)) k) in
     convert false (g_ty g) (g_lens g) (dec_list (fill_kind (g_ty g)) (Z.to_nat (volume (g_lens g)))
        (got ++ fill_stream pat (Z.to_nat (volume (g_lens g) * tysize (g_ty g) - zlen got))))).
  { assert (EG : g = mkGetter (with_file c f) (g_var g) (g_lens g) (g_names g) (g_unl g) (g_chunk g) (g_len g) (g_ty g)).
    { assert (g_cdf g = c).
      { clear - GG. unfold get_var_getter in GG. destruct (om_get _ _) as [v|]; [|discriminate]. destruct (var_dims _ _ _); try discriminate.
        cbn [rbind] in GG. cbv zeta in GG. destruct (match map _ _ with [] => _ | _ => _ end) as [chunk len].
        destruct (ty_of_code _); [|discriminate]. apply Ok_inj in GG. rewrite <- GG. reflexivity. }
      assert (with_file c f = c) as ->.
      { rewrite <- CF. rewrite H. destruct c; reflexivity. }
      rewrite <- H at 1. destruct g; reflexivity. }
    pose proof (E f) as EF. rewrite <- EG in EF. unfold get_slice. rewrite E, EF.
    assert (V0 : 0 < volume (g_lens g)) by (apply volume_pos; exact (fg_pos g FG)).
    pose proof (tysize_pos (g_ty g)). pose proof (fg_begin g FG).
    rewrite take_within; [reflexivity|apply Z.mul_nonneg_nonneg; lia|lia|exact HN]. }
  intros k. unfold get_slice_c. cbn [g_lens g_chunk g_ty g_var g_cdf g_unl with_file c_file]. rewrite NU. cbn [andb].
  pose proof (fg_pos g FG) as P. pose proof (fg_len g FG) as L. pose proof (fg_chunk g FG) as CH. pose proof (fg_begin g FG) as BG.
  pose proof (volume_pos _ P) as V0. pose proof (tysize_pos (g_ty g)) as TS.
  set (vol := volume (g_lens g)) in *. set (sz := tysize (g_ty g)) in *.
  assert (VS : 0 < vol * sz <= vol * 8) by (split; [apply Z.mul_pos_pos|apply Z.mul_le_mono_nonneg_l]; lia).
  assert (LN : 0 < g_len g /\ (match g_lens g with [] => 1 | n0 :: _ => if n0 =? 0 then 0 else i64 (g_len g - 0) end) * g_chunk g = vol /\
    (match g_lens g with [] => [] | _ :: r => (match g_lens g with [] => 1 | n0 :: _ => if n0 =? 0 then 0 else i64 (g_len g - 0) end) :: r end) = g_lens g).
  { unfold vol in *. destruct (g_lens g) as [|n0 r]; cbn [volume tl] in *; [rewrite L, CH; repeat split; lia|].
    apply Forall_cons_iff in P. destruct P as [P0 P1]. pose proof (volume_pos _ P1).
    assert (n0 * 1 <= n0 * volume r) by (apply Z.mul_le_mono_nonneg_l; lia).
    rewrite L, CH, Z.sub_0_r. replace (n0 =? 0) with false by lia. rewrite i64_small by lia. repeat split; lia. }
  destruct LN as (L0 & L1 & L2). replace (g_len g <? 0) with false by lia. rewrite L1. rewrite (i64_small vol) by lia.
  rewrite Z.mul_0_l. change (i64 0) with 0. change (0 * sz) with 0. change (i64 0) with 0. cbv zeta. rewrite Z.add_0_r.
  rewrite (i64_small (v_begin (g_var g))) by lia. rewrite (i64_small (v_begin (g_var g))) by lia. replace (_ <? 0) with false by lia.
  destruct (fill_pattern _ _) as [pat| |]; cbn [rbind]; try reflexivity. rewrite go_make_ok by lia. cbn [rbind].
  rewrite L2. reflexivity.
Qed.

(** A fixed-size variable of an opened file.  The bounds say that its data fit into
    memory and that its offset is not near the end of the range of int64. *)
Record fixed_var (f : bytes) (c : cdf) (n : bytes) (g : getter) (t : elt) (fill : Z) : Prop := mkFv {
  fv_open : cdf_open f = Ok c;
  fv_are_bytes : are_bytes f;
  fv_getter : get_var_getter c n = Ok g;
  fv_fixed : g_unl g = false;
  fv_memory : 24 * volume (g_lens g) <= 2 ^ 48;
  fv_offset : v_begin (g_var g) < 2 ^ 62;
  fv_elt : g_ty g = cty_of t;
  fv_fill : has_fill (g_var g) t fill
}.

Lemma fixed_var_parts f c n g t fill : fixed_var f c n g t fill ->
  fixed_getter g /\ c_file (g_cdf g) = f /\ fill_pattern (g_var g) (g_ty g) = Ok (enc_be (elt_kind t) fill) /\ elt_of (g_ty g) = t /\
  tysize (g_ty g) = esize t.
Proof.
  intros H. destruct (getter_fixed f c n g (fv_open _ _ _ _ _ _ H) (fv_are_bytes _ _ _ _ _ _ H) (fv_getter _ _ _ _ _ _ H)
    (fv_fixed _ _ _ _ _ _ H) (fv_memory _ _ _ _ _ _ H) (fv_offset _ _ _ _ _ _ H)) as (A & B & C).
  destruct (has_fill_pattern _ _ _ (fv_fill _ _ _ _ _ _ H) C) as [D _]. destruct (cty_elt t) as (T1 & T2 & T3).
  rewrite (fv_elt _ _ _ _ _ _ H). repeat split; try assumption; apply A.
Qed.

Lemma fixed_slice f c n g t fill b e : fixed_var f c n g t fill -> g_lens g <> [] ->
  b = 0 \/ ends_between f (v_begin (g_var g)) (volume (g_lens g)) t ->
  ~ (t = EChar /\ b = e /\ 3 <= zlen (g_lens g)) -> 0 <= b -> b <= e -> e <= g_len g ->
  exists w, values g = Ok w /\ get_slice g b e = Ok (vslice b e w).
Proof.
  intros H NE HA HE H1 H2 H3. destruct (fixed_var_parts _ _ _ _ _ _ H) as (FG & CF & FP & TE & TS).
  destruct (slice_whole g _ b e FG FP) as (w & x & W1 & W2 & W3 & W4).
  - destruct HA as [HA|HA]; [left; exact HA|right]. unfold g_bytes, g_total. rewrite CF, TS. apply ends_aligned; [apply (fg_begin g FG)| |exact HA].
    apply Z.lt_le_incl, volume_pos, (fg_pos g FG).
  - exact NE.
  - exact H1.
  - exact H2.
  - exact H3.
  - exists (erase w). unfold values, get_slice. rewrite W1, W3. cbn [rmap]. split; [reflexivity|].
    destruct W4 as [[_ ->]|[(A & B & C) _]]; [reflexivity|]. exfalso. apply HE. split; [|split; assumption].
    rewrite <- TE, B. reflexivity.
Qed.

Lemma fixed_slice_md f c n g t fill b e : fixed_var f c n g t fill -> g_lens g <> [] ->
  hd 0 b = 0 \/ ends_between f (v_begin (g_var g)) (volume (g_lens g)) t -> box_in (g_lens g) b e ->
  let lo := box_begin t (g_lens g) b in let hi := box_end t (g_lens g) e in
  exists w r, values g = Ok w /\ get_slice_md g b e = Ok r /\ has_shape (zsub hi lo) r /\
    forall idx, in_shape (zsub hi lo) idx -> vindex r idx = vindex w (zadd lo idx).
Proof.
  intros H NE HA HB. destruct (fixed_var_parts _ _ _ _ _ _ H) as (FG & CF & FP & TE & TS).
  rewrite <- TE. apply (CdfBox.slice_md g _ b e FG FP); [|exact NE|exact HB].
  destruct HA as [HA|HA]; [left; exact HA|right]. unfold g_bytes, g_total. rewrite CF, TS. apply ends_aligned; [apply (fg_begin g FG)| |exact HA].
  apply Z.lt_le_incl, volume_pos, (fg_pos g FG).
Qed.
