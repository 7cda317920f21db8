(** Record variables whose data end early: lemmas for C85. *)
From Coq Require Import ZifyBool ZifyNat.
From Verif Require Import Prelude GoVal BaseLemmas OrderedMapModel FillModel FillProofs
  ArraySpec ArrayProofs SliceSpec CdfFormat CdfWriterModel CdfReaderModel CdfConvert CdfHeader CdfFile CdfFixed CdfRound CdfLocal CdfParse CdfOpened CdfBounds CdfSlice CdfRecord CdfMissing.

(** More is asked for than is there: the readers are at an end, or the next one is missing *)
Lemma short_records f v rs m : 0 < v_vsize v -> 0 <= rs < 2 ^ 63 -> 0 <= v_begin v ->
  forall n i need, (m <= n)%nat -> 0 <= i ->
  Z.of_nat m * v_vsize v < 2 ^ 62 -> v_begin v + (i + Z.of_nat m) * rs < 2 ^ 62 ->
  Z.of_nat m * v_vsize v <= need ->
  Z.of_nat m * v_vsize v < need \/ (m <> O /\ zlen f < v_begin v + (i + Z.of_nat m - 1) * rs + v_vsize v) ->
  multi_read f (record_readers v rs n i 0 (Z.of_nat m * v_vsize v)) need = if Nat.eqb n m then Err EEOF else Panic.
Proof.
  intros HV HR HB. induction m as [|m IH]; intros n i need Hn Hi H1 H2 H3 H4.
  - cbn [Z.of_nat Z.mul] in *. destruct H4 as [H4|[[] _]]; [|reflexivity]. destruct n as [|n].
    + cbn [record_readers multi_read]. replace (need <=? 0) with false by lia. reflexivity.
    + cbn [record_readers multi_read]. change (0 <=? 0) with true. cbv iota. cbn [multi_read]. replace (need <=? 0) with false by lia. reflexivity.
  - destruct n as [|n]; [lia|]. set (rb := v_vsize v) in *.
    assert (M0 : 0 <= Z.of_nat m * rb) by (apply Z.mul_nonneg_nonneg; lia).
    assert (EM : Z.of_nat (S m) * rb = rb + Z.of_nat m * rb) by lia. rewrite EM in *.
    assert (I0 : 0 <= i * rs) by (apply Z.mul_nonneg_nonneg; lia).
    assert (I1 : (i + 1) * rs <= (i + Z.of_nat (S m)) * rs) by (apply Z.mul_le_mono_nonneg_r; lia).
    assert (I2 : i * rs <= (i + 1) * rs) by (apply Z.mul_le_mono_nonneg_r; lia).
    cbn [record_readers]. replace (rb + Z.of_nat m * rb <=? 0) with false by lia.
    rewrite (i64_small rs) by lia. rewrite (i64_small (i * rs)) by lia. cbv zeta.
    replace (i * rs <? 0) with false by lia.
    rewrite (i64_small (v_begin v)) by lia. rewrite (i64_small (v_begin v + i * rs)) by lia.
    rewrite Z.add_0_r. rewrite (i64_small (v_begin v + i * rs)) by lia. fold rb.
    replace (rb + Z.of_nat m * rb - rb) with (Z.of_nat m * rb) by lia. rewrite (i64_small (Z.of_nat m * rb)) by lia.
    cbn [multi_read]. replace (need <=? 0) with false by lia.
    replace (rb <=? 0) with false by lia. replace (v_begin v + i * rs <? 0) with false by lia.
    rewrite Z.min_l by lia.
    set (got := ztake rb (zdrop (v_begin v + i * rs) f)).
    assert (LG : zlen got = Z.min rb (Z.max 0 (zlen f - (v_begin v + i * rs)))).
    { unfold got. rewrite zlen_ztake_min, zlen_zdrop. lia. }
    rewrite (IH n (i + 1) (need - zlen got)).
    + cbn [Nat.eqb]. destruct (Nat.eqb n m); reflexivity.
    + lia.
    + lia.
    + lia.
    + replace (i + 1 + Z.of_nat m) with (i + Z.of_nat (S m)) by lia. exact H2.
    + lia.
    + destruct H4 as [H4|[_ H4]]; [left; lia|]. destruct m as [|m].
      * left. replace (i + Z.of_nat 1 - 1) with i in H4 by lia. lia.
      * destruct (Z.lt_ge_cases (zlen got) rb) as [L|L]; [left; lia|right]. split; [discriminate|].
        replace (i + 1 + Z.of_nat (S m) - 1) with (i + Z.of_nat (S (S m)) - 1) by lia. exact H4.
Qed.

Section Cut.
Variables (h : fheader) (b d : bytes) (v : fvar).
Hypothesis RR : record_file h b v.
Hypothesis LS : lone_small h = false.
Notation R := (fh_numrecs h).
Notation ds := (tl (fvar_shape h v)).
Notation rb := (record_bytes (fh_dims h) v).

(** What a slice from the first record asks of the file *)
Lemma first_records y : 0 < y <= R ->
  exists c g, cdf_open (b ++ d) = Ok c /\ get_var_getter c (fv_name v) = Ok g /\ g_len g = R /\
    v_vsize (rvar_f (fh_dims h) v) = rb /\ rb = volume ds * esize (fv_type v) /\ 0 < rb /\ y * rb < 2 ^ 62 /\ 0 <= record_step h /\
    Forall (fun n => 0 < n) ds /\ 0 <= fv_begin v /\
    get_slice_c g 0 y =
      (let* raw := multi_read (b ++ d) (record_readers (rvar_f (fh_dims h) v) (record_step h) (Z.to_nat R) 0 0 (Z.of_nat (Z.to_nat y) * rb)) (Z.of_nat (Z.to_nat y) * rb) in
       convert false (cty_of (fv_type v)) (y :: ds) (dec_list (elt_kind (fv_type v)) (Z.to_nat y * Z.to_nat (volume ds))%nat raw)).
Proof.
  intros [Y0 YR]. destruct (file_getter h b d v RR) as (c & g & OP & GG & CF & CN & CS & CR & EG & PD & EV & RB & BG & R0 & ST).
  exists c, g. split; [exact OP|]. split; [exact GG|]. split; [rewrite EG; reflexivity|]. split; [exact EV|]. split; [exact RB|].
  pose proof (rf_small _ _ _ RR) as SM. pose proof (volume_pos ds PD) as VP. set (sz := esize (fv_type v)) in *.
  destruct (cty_elt (fv_type v)) as (T1 & T2 & T3). fold sz in T3.
  assert (ES : 1 <= sz <= 8) by (unfold sz, esize; apply BaseLemmas.ksize_pos).
  rewrite (Z.max_r 1 R) in SM by lia.
  assert (V2 : R * 1 <= R * volume ds) by (apply Z.mul_le_mono_nonneg_l; lia).
  assert (YV : 0 < y * volume ds <= R * volume ds) by (split; [apply Z.mul_pos_pos|apply Z.mul_le_mono_nonneg_r]; lia).
  assert (YS : 0 < y * volume ds * sz <= y * volume ds * 8) by (split; [apply Z.mul_pos_pos|apply Z.mul_le_mono_nonneg_l]; lia).
  assert (ERB : y * rb = y * volume ds * sz) by (rewrite RB; ring).
  split; [rewrite RB; apply Z.mul_pos_pos; lia|]. split; [lia|]. split; [exact ST|]. split; [exact PD|]. split; [lia|].
  rewrite EG. unfold get_slice_c. cbn [g_lens g_chunk g_ty g_var g_cdf g_unl].
  replace (y <? 0) with false by lia. rewrite Z.sub_0_r. rewrite Z.mul_0_l. change (i64 0) with 0. change (0 * tysize (cty_of (fv_type v))) with 0. change (i64 0) with 0.
  replace (R =? 0) with false by lia. rewrite (i64_small y) by lia. rewrite (i64_small (y * volume ds)) by lia. rewrite T3.
  rewrite (i64_small (y * volume ds * sz)) by lia. cbv zeta. rewrite CF, CS, CN, LS, (CR LS). cbn [andb negb].
  rewrite (go_make_ok R 16) by lia. rewrite (go_make_ok (y * volume ds)) by lia. cbn [rbind].
  rewrite <- ERB, T2. rewrite Z2Nat.id by lia. rewrite (Z2Nat.inj_mul y (volume ds)) by lia. reflexivity.
Qed.

(** The records are there *)
Lemma there y : 0 < y <= R -> fv_begin v + (y - 1) * record_step h + rb <= zlen (b ++ d) ->
  exists c g, cdf_open (b ++ d) = Ok c /\ get_var_getter c (fv_name v) = Ok g /\ g_len g = R /\
    get_slice g 0 y = Ok (nest (fv_type v) (y :: ds) (record_numbers (fv_type v) (b ++ d) (fv_begin v) (record_step h) (volume ds) y)).
Proof.
  intros HY HP. destruct (first_records y HY) as (c & g & OP & GG & GL & EV & RB & RP & YB & ST & PD & BG & GS).
  exists c, g. split; [exact OP|]. split; [exact GG|]. split; [exact GL|]. pose proof (volume_pos ds PD) as VP.
  pose proof (rf_range _ _ _ RR) as [RG1 RG2]. pose proof (rf_small _ _ _ RR) as SM. rewrite (Z.max_r 1 R) in SM by lia.
  assert (YV : y * volume ds <= R * volume ds) by (apply Z.mul_le_mono_nonneg_r; lia).
  assert (M1 : y * record_step h <= R * record_step h) by (apply Z.mul_le_mono_nonneg_r; lia).
  set (nums := record_numbers (fv_type v) (b ++ d) (fv_begin v) (record_step h) (volume ds) y).
  assert (NY : zlen nums = y * volume ds) by (apply zlen_record_numbers; lia).
  destruct (cty_elt (fv_type v)) as (T1 & _ & _).
  destruct (convert_nest (cty_of (fv_type v)) (y :: ds) nums) as (s & S1 & S2).
  { constructor; [lia|exact PD]. } { cbn [volume]. lia. } { cbn [volume]. lia. } { discriminate. }
  rewrite T1 in S2. unfold get_slice. rewrite GS. rewrite <- EV.
  rewrite read_records.
  - cbn [rbind]. cbn [rvar_f v_begin]. rewrite EV, RB. rewrite map_of_nat_seq.
    rewrite record_dec; [|lia|lia|lia|right; rewrite Z2Nat.id by lia; rewrite <- RB; lia].
    rewrite Z2Nat.id by lia. fold nums. rewrite S1. cbn [rmap]. rewrite S2. reflexivity.
  - rewrite EV. exact RP.
  - lia.
  - cbn [rvar_f v_begin]. lia.
  - lia.
  - lia.
  - rewrite EV, Z2Nat.id by lia. exact YB.
  - rewrite Z2Nat.id by lia. cbn [rvar_f v_begin]. lia.
  - right. rewrite EV, Z2Nat.id by lia. cbn [rvar_f v_begin]. lia.
Qed.

(** The file ends in them, or before them *)
Lemma cut y : 0 < y <= R -> zlen (b ++ d) < fv_begin v + (y - 1) * record_step h + rb ->
  exists c g, cdf_open (b ++ d) = Ok c /\ get_var_getter c (fv_name v) = Ok g /\ g_len g = R /\
    get_slice g 0 y = if y =? R then Err EEOF else Panic.
Proof.
  intros HY HP. destruct (first_records y HY) as (c & g & OP & GG & GL & EV & RB & RP & YB & ST & PD & BG & GS).
  exists c, g. split; [exact OP|]. split; [exact GG|]. split; [exact GL|].
  pose proof (rf_range _ _ _ RR) as [RG1 RG2].
  assert (M1 : y * record_step h <= R * record_step h) by (apply Z.mul_le_mono_nonneg_r; lia).
  unfold get_slice. rewrite GS. rewrite <- EV. rewrite short_records.
  - replace (Nat.eqb (Z.to_nat R) (Z.to_nat y)) with (y =? R) by (destruct (Nat.eqb_spec (Z.to_nat R) (Z.to_nat y)); lia).
    destruct (y =? R); reflexivity.
  - rewrite EV. exact RP.
  - lia.
  - cbn [rvar_f v_begin]. lia.
  - lia.
  - lia.
  - rewrite EV, Z2Nat.id by lia. exact YB.
  - rewrite Z2Nat.id by lia. cbn [rvar_f v_begin]. lia.
  - lia.
  - right. split; [lia|]. rewrite EV, Z2Nat.id by lia. cbn [rvar_f v_begin]. lia.
Qed.
End Cut.

(** The fill value that a header gives a variable *)
Definition header_fill (v : fvar) (fill : Z) : Prop :=
  ((forall a, In a (fv_atts v) -> fa_name a <> bs "_FillValue") /\ fill = nc_fill (fv_type v)) \/
  (exists a, In a (fv_atts v) /\ fa_name a = bs "_FillValue" /\ fa_val a = ANums (elt_kind (fv_type v)) [fill] /\ in_range (elt_kind (fv_type v)) fill = true).
Lemma header_pattern ds v fill : keys_distinct (fv_atts v) -> header_fill v fill ->
  fill_pattern (rvar_f ds v) (cty_of (fv_type v)) = Ok (enc_be (elt_kind (fv_type v)) fill) /\ in_range (elt_kind (fv_type v)) fill = true.
Proof.
  intros KD [[H ->]|(a & H1 & H2 & H3 & H4)]; unfold fill_pattern; cbn [rvar_f v_attrs].
  - destruct (om_get (om_of (rattrs (fv_atts v))) (bs "_FillValue")) as [u|] eqn:EG.
    + exfalso. unfold om_get in EG. cbn [om_of om_vals] in EG. apply assoc_Some_In in EG. unfold rattrs in EG. apply in_map_iff in EG.
      destruct EG as (a & EA & HA). injection EA as EN EV. exact (H a HA EN).
    + split; destruct (fv_type v) as [|[]]; reflexivity.
  - assert (EG : om_get (om_of (rattrs (fv_atts v))) (bs "_FillValue") = Some (aval_value (fa_val a))).
    { apply om_of_get; [rewrite rattrs_keys; exact KD|]. apply in_map_iff. exists a. rewrite H2. split; [reflexivity|exact H1]. }
    rewrite EG, H3. cbn [aval_value rbind].
    assert (EK : nk_eqb (elt_kind (fv_type v)) (fill_kind (cty_of (fv_type v))) = true) by (destruct (fv_type v) as [|[]]; reflexivity).
    rewrite EK. split; [reflexivity|exact H4].
Qed.

(** The lone record variable of a small type is read as other variables are *)
Lemma lone_cut h b d v fill x y : record_file h b v -> lone_small h = true -> header_fill v fill -> 0 <= x < y -> y <= fh_numrecs h ->
  ends_between (b ++ d) (fv_begin v) (fh_numrecs h * volume (tl (fvar_shape h v))) (fv_type v) ->
  exists c g, cdf_open (b ++ d) = Ok c /\ get_var_getter c (fv_name v) = Ok g /\ g_len g = fh_numrecs h /\
    get_slice g x y = Ok (vslice x y (nest (fv_type v) (fh_numrecs h :: tl (fvar_shape h v))
      (map (stored_or fill (fv_type v) (b ++ d) (fv_begin v)) (iota (fh_numrecs h * volume (tl (fvar_shape h v))))))).
Proof.
  intros RR LS HF HX HY EB. destruct (file_getter h b d v RR) as (c & g & OP & GG & CF & CN & CS & CR & EG & PD & EV & RB & BG & R0 & ST).
  exists c, g. split; [exact OP|]. split; [exact GG|]. split; [rewrite EG; reflexivity|].
  pose proof (rf_small _ _ _ RR) as SM. set (ds := tl (fvar_shape h v)) in *. set (R := fh_numrecs h) in *.
  rewrite (Z.max_r 1 R) in SM by lia. pose proof (volume_pos ds PD) as VP.
  assert (KD : keys_distinct (fv_atts v)).
  { pose proof (rf_names _ _ _ RR) as (_ & N & _). rewrite Forall_forall in N. apply N.
    pose proof (rf_in _ _ _ RR) as HIN. unfold record_vars in HIN. apply filter_In in HIN. apply HIN. }
  destruct (header_pattern (fh_dims h) v fill KD HF) as [FP IR]. set (pat := enc_be (elt_kind (fv_type v)) fill) in *.
  set (g' := mkGetter c (rvar_f (fh_dims h) v) (R :: ds) (fvar_names h v) false (volume ds) R (cty_of (fv_type v))).
  assert (EGS : get_slice_c g x y = get_slice_c g' x y).
  { rewrite EG. unfold get_slice_c, g'. cbn [g_lens g_chunk g_ty g_var g_cdf g_unl]. rewrite CS, LS.
    replace (R =? 0) with false by lia. reflexivity. }
  assert (FG : fixed_getter g').
  { constructor; unfold g'; cbn [g_unl g_lens g_chunk g_len g_var rvar_f v_begin tl volume]; try reflexivity.
    - constructor; [lia|exact PD].
    - exact SM.
    - lia. }
  destruct (cty_elt (fv_type v)) as (T1 & T2 & T3).
  assert (N0 : 0 <= R * volume ds) by (apply Z.mul_nonneg_nonneg; lia).
  destruct (slice_whole g' pat x y FG FP) as (w & s & W1 & W2 & W3 & W4).
  { right. unfold g_bytes, g_total, g'. cbn [g_lens g_ty g_cdf g_var rvar_f v_begin volume]. rewrite CF, T3. apply ends_aligned; [lia|lia|exact EB]. }
  { discriminate. } { lia. } { lia. } { exact HY. }
  unfold get_slice. rewrite EGS, W3. cbn [rmap]. f_equal.
  destruct W4 as [[_ W4]|[[W4 _] _]]; [|exfalso; clear -HX W4; lia]. rewrite W4, W2. unfold g' at 1 2. cbn [g_ty g_lens]. rewrite T1. do 2 f_equal.
  change (R * volume ds) with (volume (g_lens g')). rewrite <- CF. apply (data_or_fill g' (fv_type v) fill FG eq_refl IR).
  unfold g'. cbn [g_lens g_cdf g_var rvar_f v_begin volume]. rewrite CF. exact EB.
Qed.
