(** C14: slices of CDF record variables beyond the last record. *)
From Coq Require Import ZifyBool ZifyNat.
From Verif Require Import Prelude GoVal BaseLemmas OrderedMapModel ArraySpec ArrayProofs SliceSpec CdfFormat CdfWriterModel CdfReaderModel
  CdfConvert CdfParse CdfOpened CdfRecord CdfCut CdfFormatEx CdfSliceEx P_CdfRecord P_CdfCut.

(** All readers are there, and all of them together are too short *)
Lemma all_readers f v rs : 0 < v_vsize v -> 0 <= rs < 2 ^ 63 -> 0 <= v_begin v -> forall n i size need,
  0 <= i -> v_begin v + (i + Z.of_nat n) * rs < 2 ^ 62 -> Z.of_nat n * v_vsize v < size < 2 ^ 62 -> Z.of_nat n * v_vsize v < need ->
  multi_read f (record_readers v rs n i 0 size) need = Err EEOF.
Proof.
  intros HV HR HB. induction n as [|n IH]; intros i size need Hi H1 H2 H3.
  - cbn [record_readers multi_read]. replace (need <=? 0) with false by lia. reflexivity.
  - set (rb := v_vsize v) in *.
    assert (M0 : 0 <= Z.of_nat n * rb) by (apply Z.mul_nonneg_nonneg; lia).
    assert (EM : Z.of_nat (S n) * rb = rb + Z.of_nat n * rb) by lia. rewrite EM in *.
    assert (I0 : 0 <= i * rs) by (apply Z.mul_nonneg_nonneg; lia).
    assert (I2 : i * rs <= (i + Z.of_nat (S n)) * rs) by (apply Z.mul_le_mono_nonneg_r; lia).
    cbn [record_readers]. replace (size <=? 0) with false by lia.
    rewrite (i64_small rs) by lia. rewrite (i64_small (i * rs)) by lia. cbv zeta. replace (i * rs <? 0) with false by lia.
    rewrite (i64_small (v_begin v)) by lia. rewrite (i64_small (v_begin v + i * rs)) by lia.
    rewrite Z.add_0_r. rewrite (i64_small (v_begin v + i * rs)) by lia. fold rb. rewrite (i64_small (size - rb)) by lia.
    cbn [multi_read]. replace (need <=? 0) with false by lia.
    replace (rb <=? 0) with false by lia. replace (v_begin v + i * rs <? 0) with false by lia.
    pose proof (zlen_ztake_min (Z.min rb need) (zdrop (v_begin v + i * rs) f)) as LG. set (got := ztake (Z.min rb need) (zdrop (v_begin v + i * rs) f)) in *.
    pose proof (zlen_nonneg (zdrop (v_begin v + i * rs) f)).
    rewrite (IH (i + 1) (size - rb) (need - zlen got)); [reflexivity|lia| |lia|lia].
    replace (i + 1 + Z.of_nat n) with (i + Z.of_nat (S n)) by lia. exact H1.
Qed.

(** From the first record on it is an error, whatever the file has. *)
Theorem C14_records_past h b d v y : record_file h b v -> lone_small h = false -> 0 < fh_numrecs h < y ->
  8 * (y * volume (tl (fvar_shape h v))) <= 2 ^ 48 ->
  exists c g, cdf_open (b ++ d) = Ok c /\ get_var_getter c (fv_name v) = Ok g /\ g_len g = fh_numrecs h /\ get_slice g 0 y = Err EEOF.
Proof.
  intros RR LS HY BY. destruct (file_getter h b d v RR) as (c & g & OP & GG & CF & CN & CS & CR & EG & PD & EV & RB & BG & R0 & ST).
  exists c, g. split; [exact OP|]. split; [exact GG|]. split; [rewrite EG; reflexivity|].
  set (ds := tl (fvar_shape h v)) in *. set (R := fh_numrecs h) in *. set (rb := record_bytes (fh_dims h) v) in *.
  pose proof (rf_small _ _ _ RR) as SM. fold ds R in SM. pose proof (volume_pos ds PD) as VP. set (sz := esize (fv_type v)) in *.
  pose proof (rf_range _ _ _ RR) as [RG1 RG2]. fold R in RG2.
  destruct (cty_elt (fv_type v)) as (T1 & T2 & T3). fold sz in T3.
  assert (ES : 1 <= sz <= 8) by (unfold sz, esize; apply BaseLemmas.ksize_pos).
  rewrite (Z.max_r 1 R) in SM by lia.
  assert (V2 : R * 1 <= R * volume ds) by (apply Z.mul_le_mono_nonneg_l; lia).
  assert (V3 : y * 1 <= y * volume ds) by (apply Z.mul_le_mono_nonneg_l; lia).
  assert (YS : 0 < y * volume ds * sz <= y * volume ds * 8) by (split; [apply Z.mul_pos_pos|apply Z.mul_le_mono_nonneg_l]; lia).
  assert (ERB : y * volume ds * sz = y * rb) by (rewrite RB; ring).
  assert (RP : 0 < rb) by (rewrite RB; apply Z.mul_pos_pos; lia).
  assert (RY : R * rb < y * rb) by (apply Z.mul_lt_mono_pos_r; lia).
  rewrite EG. unfold get_slice, get_slice_c. cbn [g_lens g_chunk g_ty g_var g_cdf g_unl].
  replace (y <? 0) with false by lia. rewrite Z.sub_0_r. rewrite Z.mul_0_l. change (i64 0) with 0. change (0 * tysize (cty_of (fv_type v))) with 0. change (i64 0) with 0.
  replace (R =? 0) with false by lia. rewrite (i64_small y) by lia. rewrite (i64_small (y * volume ds)) by lia. rewrite T3.
  rewrite (i64_small (y * volume ds * sz)) by lia. cbv zeta. rewrite CF, CS, CN, LS, (CR LS). cbn [andb negb].
  rewrite (go_make_ok R 16) by lia. rewrite (go_make_ok (y * volume ds)) by lia. cbn [rbind]. rewrite ERB in *.
  rewrite all_readers; [reflexivity|rewrite EV; exact RP|lia|cbn [rvar_f v_begin]; lia|lia|rewrite Z2Nat.id by lia; cbn [rvar_f v_begin]; lia
    |rewrite EV, Z2Nat.id by lia; fold rb; lia|rewrite EV, Z2Nat.id by lia; exact RY].
Qed.

(** From any other record on it is a crash. *)
Theorem C14_records_refuted h b d v x y : record_file h b v -> lone_small h = false -> 0 < fh_numrecs h -> 0 < x < y ->
  8 * (y * volume (tl (fvar_shape h v))) <= 2 ^ 48 ->
  exists c g, cdf_open (b ++ d) = Ok c /\ get_var_getter c (fv_name v) = Ok g /\ g_len g = fh_numrecs h /\ get_slice g x y = Panic.
Proof.
  intros RR LS HR HX BY. destruct (file_getter h b d v RR) as (c & g & OP & GG & CF & CN & CS & CR & EG & PD & EV & RB & BG & R0 & ST).
  exists c, g. split; [exact OP|]. split; [exact GG|]. split; [rewrite EG; reflexivity|].
  pose proof (rf_small _ _ _ RR) as SM. set (ds := tl (fvar_shape h v)) in *. set (R := fh_numrecs h) in *.
  pose proof (volume_pos ds PD) as VP. set (sz := esize (fv_type v)) in *.
  destruct (cty_elt (fv_type v)) as (T1 & T2 & T3). fold sz in T3.
  assert (ES : 1 <= sz <= 8) by (unfold sz, esize; apply BaseLemmas.ksize_pos).
  rewrite (Z.max_r 1 R) in SM by lia.
  assert (V2 : R * 1 <= R * volume ds) by (apply Z.mul_le_mono_nonneg_l; lia).
  assert (V3 : y * 1 <= y * volume ds) by (apply Z.mul_le_mono_nonneg_l; lia).
  assert (BV : 0 < x * volume ds <= y * volume ds) by (split; [apply Z.mul_pos_pos|apply Z.mul_le_mono_nonneg_r]; lia).
  assert (NV : 0 < (y - x) * volume ds <= y * volume ds) by (split; [apply Z.mul_pos_pos|apply Z.mul_le_mono_nonneg_r]; lia).
  assert (BS : 0 < x * volume ds * sz <= x * volume ds * 8) by (split; [apply Z.mul_pos_pos|apply Z.mul_le_mono_nonneg_l]; lia).
  assert (NS : 0 < (y - x) * volume ds * sz <= (y - x) * volume ds * 8) by (split; [apply Z.mul_pos_pos|apply Z.mul_le_mono_nonneg_l]; lia).
  rewrite EG. unfold get_slice, get_slice_c. cbn [g_lens g_chunk g_ty g_var g_cdf g_unl].
  replace (y <? x) with false by lia. replace (R =? 0) with false by lia.
  rewrite (i64_small (y - x)) by lia. rewrite (i64_small ((y - x) * volume ds)) by lia. rewrite (i64_small (x * volume ds)) by lia.
  rewrite T3. rewrite (i64_small (x * volume ds * sz)) by lia. rewrite (i64_small ((y - x) * volume ds * sz)) by lia. cbv zeta.
  rewrite CS, CN, LS. cbn [andb negb]. rewrite (go_make_ok R 16) by lia. rewrite (go_make_ok ((y - x) * volume ds)) by lia. cbn [rbind].
  destruct (Z.to_nat R) as [|n] eqn:EN; [lia|]. cbn [record_readers]. replace ((y - x) * volume ds * sz <=? 0) with false by lia.
  rewrite Z.mul_0_l. change (i64 0) with 0. cbv zeta. replace (0 <? x * volume ds * sz) with true by lia.
  cbn [multi_read]. replace ((y - x) * volume ds * sz <=? 0) with false by lia. reflexivity.
Qed.

Example C14_records_example : record_file rec_header (put_header rec_header) rec_r /\ lone_small rec_header = false /\ fh_numrecs rec_header = 2 /\
  8 * (5 * volume (tl (fvar_shape rec_header rec_r))) <= 2 ^ 48 /\
  get_slice (var_of (put_header rec_header ++ rec_data) (bs "r")) 0 3 = Err EEOF /\
  get_slice (var_of (put_header rec_header ++ rec_data) (bs "r")) 1 5 = Panic /\
  get_slice (var_of (put_header rec_header ++ rec_data) (bs "r")) 3 4 = Panic.
Proof. split; [exact rec_file|]. split; [reflexivity|]. split; [reflexivity|]. split; [vm_compute; discriminate|]. repeat split; vm_compute; reflexivity. Qed.

(** ** Before the first record *)

Lemma pieces_shift f off step rb m : flat_map (rec_piece f off step rb) (map (fun j => 1 + Z.of_nat j) (seq 0 m)) =
  flat_map (rec_piece f (off + step) step rb) (map Z.of_nat (seq 0 m)).
Proof.
  rewrite !flat_map_concat_map, !map_map. f_equal. apply map_ext. intros j. unfold rec_piece. do 2 f_equal. ring.
Qed.

(** The first row is what lies that far before the first record, the others are the records
    after the first. *)
Theorem C14_records_before_refuted h b d v x y : record_file h b v -> lone_small h = false -> x < 0 -> 0 < y - x <= fh_numrecs h ->
  0 <= fv_begin v + x * record_bytes (fh_dims h) v ->
  fv_begin v + (y - x - 1) * record_step h + record_bytes (fh_dims h) v <= zlen (b ++ d) ->
  exists c g, cdf_open (b ++ d) = Ok c /\ get_var_getter c (fv_name v) = Ok g /\ g_len g = fh_numrecs h /\
    get_slice g x y = Ok (nest (fv_type v) (y - x :: tl (fvar_shape h v))
      (record_numbers (fv_type v) (b ++ d) (fv_begin v + x * record_bytes (fh_dims h) v) 0 (volume (tl (fvar_shape h v))) 1 ++
       record_numbers (fv_type v) (b ++ d) (fv_begin v + record_step h) (record_step h) (volume (tl (fvar_shape h v))) (y - x - 1))).
Proof.
  intros RR LS HX HY HO HP. destruct (file_getter h b d v RR) as (c & g & OP & GG & CF & CN & CS & CR & EG & PD & EV & RB & BG & R0 & ST).
  exists c, g. split; [exact OP|]. split; [exact GG|]. split; [rewrite EG; reflexivity|].
  set (ds := tl (fvar_shape h v)) in *. set (R := fh_numrecs h) in *. set (rb := record_bytes (fh_dims h) v) in *. set (m := y - x) in *.
  pose proof (rf_small _ _ _ RR) as SM. fold ds R in SM. pose proof (volume_pos ds PD) as VP. set (sz := esize (fv_type v)) in *.
  pose proof (rf_range _ _ _ RR) as [RG1 RG2]. fold R in RG2.
  destruct (cty_elt (fv_type v)) as (T1 & T2 & T3). fold sz in T3.
  assert (ES : 1 <= sz <= 8) by (unfold sz, esize; apply BaseLemmas.ksize_pos).
  rewrite (Z.max_r 1 R) in SM by lia.
  assert (V2 : R * 1 <= R * volume ds) by (apply Z.mul_le_mono_nonneg_l; lia).
  assert (YV : 0 < m * volume ds <= R * volume ds) by (split; [apply Z.mul_pos_pos|apply Z.mul_le_mono_nonneg_r]; lia).
  assert (YS : 0 < m * volume ds * sz <= m * volume ds * 8) by (split; [apply Z.mul_pos_pos|apply Z.mul_le_mono_nonneg_l]; lia).
  assert (ERB : m * volume ds * sz = m * rb) by (rewrite RB; ring).
  assert (RP : 0 < rb) by (rewrite RB; apply Z.mul_pos_pos; lia).
  assert (XR : x * rb < 0) by (apply Z.mul_neg_pos; lia).
  assert (EX : x * volume ds * sz = x * rb) by (rewrite RB; ring).
  assert (XV : x * rb <= x * volume ds < 0).
  { split; [rewrite <- EX; rewrite <- (Z.mul_1_r (x * volume ds)) at 2; apply Z.mul_le_mono_nonpos_l; [|lia]|]; [|apply Z.mul_neg_pos; lia].
    apply Z.lt_le_incl, Z.mul_neg_pos; lia. }
  assert (EM : m * rb = rb + (m - 1) * rb) by ring.
  assert (M0 : 0 <= (m - 1) * rb) by (apply Z.mul_nonneg_nonneg; lia).
  assert (M1 : (m - 1) * record_step h <= R * record_step h) by (apply Z.mul_le_mono_nonneg_r; lia).
  assert (M2 : m * record_step h <= R * record_step h) by (apply Z.mul_le_mono_nonneg_r; lia).
  assert (M3 : 0 <= (m - 1) * record_step h) by (apply Z.mul_nonneg_nonneg; lia).
  set (nums := record_numbers _ _ _ 0 _ 1 ++ record_numbers _ _ _ _ _ _).
  assert (NY : zlen nums = m * volume ds) by (unfold nums; rewrite zlen_app, !zlen_record_numbers by lia; ring).
  destruct (convert_nest (cty_of (fv_type v)) (m :: ds) nums) as (s & S1 & S2).
  { constructor; [lia|exact PD]. } { cbn [volume]. lia. } { cbn [volume]. lia. } { discriminate. }
  rewrite T1 in S2.
  rewrite EG. unfold get_slice, get_slice_c. cbn [g_lens g_chunk g_ty g_var g_cdf g_unl].
  replace (y <? x) with false by lia. replace (R =? 0) with false by lia. fold m.
  rewrite (i64_small m) by lia. rewrite (i64_small (m * volume ds)) by lia. rewrite T3. rewrite (i64_small (x * volume ds)) by lia.
  rewrite EX. rewrite (i64_small (x * rb)) by lia.
  rewrite (i64_small (m * volume ds * sz)) by lia. cbv zeta. rewrite CF, CS, CN, LS, (CR LS). cbn [andb negb].
  rewrite (go_make_ok R 16) by lia. rewrite (go_make_ok (m * volume ds)) by lia. cbn [rbind]. rewrite ERB in *.
  destruct (Z.to_nat R) as [|n] eqn:EN; [lia|].
  assert (MR : multi_read (b ++ d) (record_readers (rvar_f (fh_dims h) v) (record_step h) (S n) 0 (x * rb) (m * rb)) (m * rb) =
    Ok (ztake rb (zdrop (fv_begin v + x * rb) (b ++ d)) ++ flat_map (rec_piece (b ++ d) (fv_begin v + record_step h) (record_step h) rb) (map Z.of_nat (seq 0 (Z.to_nat (m - 1)))))).
  { cbn [record_readers]. replace (m * rb <=? 0) with false by lia. rewrite Z.mul_0_l. change (i64 0) with 0. cbv zeta.
    replace (0 <? x * rb) with false by lia. rewrite EV. fold rb. cbn [rvar_f v_begin]. rewrite (i64_small (fv_begin v)) by lia. rewrite Z.add_0_r.
    rewrite (i64_small (fv_begin v)), (i64_small (fv_begin v + x * rb)) by lia. rewrite (i64_small (m * rb - rb)) by lia.
    cbn [multi_read]. replace (m * rb <=? 0) with false by lia. replace (rb <=? 0) with false by lia. replace (fv_begin v + x * rb <? 0) with false by lia.
    rewrite Z.min_l by lia. set (got := ztake rb (zdrop (fv_begin v + x * rb) (b ++ d))).
    assert (LG : zlen got = rb) by (unfold got; rewrite zlen_ztake_min, zlen_zdrop; lia).
    rewrite LG. replace (m * rb - rb) with (Z.of_nat (Z.to_nat (m - 1)) * v_vsize (rvar_f (fh_dims h) v)) by (rewrite EV, Z2Nat.id by lia; fold rb; lia).
    change (0 + 1) with 1. rewrite read_records.
    - cbn [rbind]. rewrite EV. fold rb. cbn [rvar_f v_begin]. rewrite pieces_shift. reflexivity.
    - rewrite EV. exact RP.
    - lia.
    - cbn [rvar_f v_begin]. lia.
    - lia.
    - lia.
    - rewrite EV, Z2Nat.id by lia. fold rb. lia.
    - rewrite Z2Nat.id by lia. cbn [rvar_f v_begin]. replace (1 + (m - 1)) with m by ring. lia.
    - right. rewrite EV, Z2Nat.id by lia. fold rb. cbn [rvar_f v_begin]. replace (1 + (m - 1) - 1) with (m - 1) by ring. exact HP. }
  rewrite MR. cbn [rbind].
  assert (DE : dec_list (elt_kind (fv_type v)) (Z.to_nat (m * volume ds))
    (ztake rb (zdrop (fv_begin v + x * rb) (b ++ d)) ++ flat_map (rec_piece (b ++ d) (fv_begin v + record_step h) (record_step h) rb) (map Z.of_nat (seq 0 (Z.to_nat (m - 1))))) = nums).
  { replace (Z.to_nat (m * volume ds)) with (1 * Z.to_nat (volume ds) + Z.to_nat (m - 1) * Z.to_nat (volume ds))%nat
      by (rewrite <- (Z2Nat.inj_mul (m - 1)) by lia; replace (m * volume ds) with (volume ds + (m - 1) * volume ds) by ring;
        rewrite Z2Nat.inj_add by (try apply Z.mul_nonneg_nonneg; lia); lia).
    rewrite dec_list_app.
    - unfold nums. f_equal.
      + pose proof (record_dec (fv_type v) (b ++ d) (fv_begin v + x * rb) 0 (volume ds) 1 ltac:(lia) ltac:(lia) ltac:(lia)) as D1.
        change (Z.of_nat 1) with 1 in D1. rewrite <- D1; [|right; fold sz; rewrite <- RB; lia]. fold sz. rewrite <- RB. f_equal. cbn [seq map flat_map]. rewrite app_nil_r. unfold rec_piece.
        do 2 f_equal. lia.
      + pose proof (record_dec (fv_type v) (b ++ d) (fv_begin v + record_step h) (record_step h) (volume ds) (Z.to_nat (m - 1)) ltac:(lia) ltac:(lia) ltac:(lia)) as D2.
        rewrite Z2Nat.id in D2 by lia. fold sz in D2. rewrite <- RB in D2. apply D2.
        destruct (Z.eq_dec m 1) as [Q|Q]; [left; lia|right]. replace (fv_begin v + record_step h + (m - 1 - 1) * record_step h) with (fv_begin v + (m - 1) * record_step h) by ring. lia.
    - rewrite zlen_ztake_min, zlen_zdrop. change (ksize (elt_kind (fv_type v))) with sz.
      replace (Z.of_nat (1 * Z.to_nat (volume ds)) * sz) with rb by (rewrite RB; lia). lia. }
  rewrite T2. rewrite DE. rewrite S1. cbn [rmap]. rewrite S2. reflexivity.
Qed.

Example C14_records_before_example :
  0 <= fv_begin rec_r + (-1) * record_bytes (fh_dims rec_header) rec_r /\
  get_slice (var_of (put_header rec_header ++ rec_data) (bs "r")) (-1) 1 =
    Ok (nest (fv_type rec_r) [2; 3] (record_numbers (fv_type rec_r) (put_header rec_header ++ rec_data) (fv_begin rec_r - 6) 0 3 1 ++
      record_numbers (fv_type rec_r) (put_header rec_header ++ rec_data) (fv_begin rec_r + record_step rec_header) (record_step rec_header) 3 1)) /\
  get_slice (var_of (put_header rec_header ++ rec_data) (bs "r")) 0 2 <> get_slice (var_of (put_header rec_header ++ rec_data) (bs "r")) (-1) 1.
Proof. split; [vm_compute; discriminate|]. split; [vm_compute; reflexivity|]. vm_compute. discriminate. Qed.

(** It is an error where this would start before the file, and where it has more rows than the variable. *)
Theorem C14_records_before h b d v x y : record_file h b v -> lone_small h = false -> 0 < fh_numrecs h -> x < 0 -> x < y ->
  - 2 ^ 48 <= 8 * (x * volume (tl (fvar_shape h v))) -> 8 * ((y - x) * volume (tl (fvar_shape h v))) <= 2 ^ 48 ->
  fv_begin v + x * record_bytes (fh_dims h) v < 0 \/ fh_numrecs h < y - x ->
  exists c g, cdf_open (b ++ d) = Ok c /\ get_var_getter c (fv_name v) = Ok g /\ g_len g = fh_numrecs h /\
    get_slice g x y = Err (if fv_begin v + x * record_bytes (fh_dims h) v <? 0 then EBadSeek else EEOF).
Proof.
  intros RR LS HR HX HY BX BY HC. destruct (file_getter h b d v RR) as (c & g & OP & GG & CF & CN & CS & CR & EG & PD & EV & RB & BG & R0 & ST).
  exists c, g. split; [exact OP|]. split; [exact GG|]. split; [rewrite EG; reflexivity|].
  set (ds := tl (fvar_shape h v)) in *. set (R := fh_numrecs h) in *. set (rb := record_bytes (fh_dims h) v) in *. set (m := y - x) in *.
  pose proof (rf_small _ _ _ RR) as SM. fold ds R in SM. pose proof (volume_pos ds PD) as VP. set (sz := esize (fv_type v)) in *.
  pose proof (rf_range _ _ _ RR) as [RG1 RG2]. fold R in RG2.
  destruct (cty_elt (fv_type v)) as (T1 & T2 & T3). fold sz in T3.
  assert (ES : 1 <= sz <= 8) by (unfold sz, esize; apply BaseLemmas.ksize_pos).
  rewrite (Z.max_r 1 R) in SM by lia. assert (MP : 0 < m) by (unfold m; lia).
  assert (V2 : R * 1 <= R * volume ds) by (apply Z.mul_le_mono_nonneg_l; lia).
  assert (V3 : m * 1 <= m * volume ds) by (apply Z.mul_le_mono_nonneg_l; lia).
  assert (YS : 0 < m * volume ds * sz <= m * volume ds * 8) by (split; [apply Z.mul_pos_pos|apply Z.mul_le_mono_nonneg_l]; lia).
  assert (ERB : m * volume ds * sz = m * rb) by (rewrite RB; ring).
  assert (RP : 0 < rb) by (rewrite RB; apply Z.mul_pos_pos; lia).
  assert (XR : x * rb < 0) by (apply Z.mul_neg_pos; lia).
  assert (XN : x * volume ds < 0) by (apply Z.mul_neg_pos; lia).
  assert (EX : x * volume ds * sz = x * rb) by (rewrite RB; ring).
  assert (XV : x * volume ds * 8 <= x * rb) by (rewrite <- EX; apply Z.mul_le_mono_nonpos_l; lia).
  assert (M1 : rb <= m * rb) by (rewrite <- (Z.mul_1_l rb) at 1; apply Z.mul_le_mono_nonneg_r; lia).
  assert (RS : 0 <= R * record_step h) by (apply Z.mul_nonneg_nonneg; lia).
  rewrite EG. unfold get_slice, get_slice_c. cbn [g_lens g_chunk g_ty g_var g_cdf g_unl].
  replace (y <? x) with false by lia. replace (R =? 0) with false by lia. fold m.
  rewrite (i64_small m) by lia. rewrite (i64_small (m * volume ds)) by lia. rewrite T3. rewrite (i64_small (x * volume ds)) by lia.
  rewrite EX. rewrite (i64_small (x * rb)) by lia.
  rewrite (i64_small (m * volume ds * sz)) by lia. cbv zeta. rewrite CF, CS, CN, LS, (CR LS). cbn [andb negb].
  rewrite (go_make_ok R 16) by lia. rewrite (go_make_ok (m * volume ds)) by lia. cbn [rbind]. rewrite ERB in *.
  destruct (Z.to_nat R) as [|n] eqn:EN; [lia|].
  cbn [record_readers]. replace (m * rb <=? 0) with false by lia. rewrite Z.mul_0_l. change (i64 0) with 0. cbv zeta.
  replace (0 <? x * rb) with false by lia. rewrite EV. fold rb. cbn [rvar_f v_begin]. rewrite (i64_small (fv_begin v)) by lia. rewrite Z.add_0_r.
  rewrite (i64_small (fv_begin v)), (i64_small (fv_begin v + x * rb)) by lia. rewrite (i64_small (m * rb - rb)) by lia.
  cbn [multi_read]. replace (m * rb <=? 0) with false by lia. replace (rb <=? 0) with false by lia.
  destruct (fv_begin v + x * rb <? 0) eqn:EB; [reflexivity|].
  assert (MR : R < m) by (destruct HC; [lia|assumption]).
  assert (RY : R * rb < m * rb) by (apply Z.mul_lt_mono_pos_r; lia).
  assert (ENR : Z.of_nat n * rb = R * rb - rb) by (replace (Z.of_nat n) with (R - 1) by lia; ring).
  rewrite Z.min_l by lia. pose proof (zlen_ztake_min rb (zdrop (fv_begin v + x * rb) (b ++ d))) as LG.
  set (got := ztake rb (zdrop (fv_begin v + x * rb) (b ++ d))) in *.
  change (0 + 1) with 1.
  rewrite all_readers; [reflexivity|rewrite EV; exact RP|lia|cbn [rvar_f v_begin]; lia|lia| |rewrite EV; fold rb; lia|rewrite EV; fold rb; lia].
  cbn [rvar_f v_begin]. replace (1 + Z.of_nat n) with R by lia. lia.
Qed.

Example C14_records_before_errors :
  let g := var_of (put_header rec_header ++ rec_data) (bs "r") in
  get_slice g (-1) 2 = Err EEOF /\ get_slice g (-1000) 2 = Err EBadSeek /\ get_slice g (-1000) (-999) = Err EBadSeek.
Proof. split; [vm_compute; reflexivity|]. split; vm_compute; reflexivity. Qed.

Print Assumptions C14_records_before.
Print Assumptions C14_records_before_refuted.
Print Assumptions C14_records_past.
Print Assumptions C14_records_refuted.
