(** Record variables. *)
From Coq Require Import ZifyBool ZifyNat.
From Verif Require Import Prelude GoVal BaseLemmas OrderedMapModel FillModel FillProofs
  ArraySpec ArrayProofs SliceSpec CdfFormat CdfWriterModel CdfReaderModel CdfConvert CdfHeader CdfFile CdfFixed CdfRound CdfLocal CdfParse CdfOpened CdfBounds CdfSlice.
Ltac Zify.zify_post_hook ::= Z.div_mod_to_equations.

Lemma multi_read_0 f rs : multi_read f rs 0 = Ok [].
Proof. destruct rs; reflexivity. Qed.

Definition rec_piece (f : bytes) (begin rs rb r : Z) : bytes := ztake rb (zdrop (begin + r * rs) f).

Lemma read_records f v rs m : 0 < v_vsize v -> 0 <= rs < 2 ^ 63 -> 0 <= v_begin v ->
  forall n i, (m <= n)%nat -> 0 <= i ->
  Z.of_nat m * v_vsize v < 2 ^ 62 ->
  v_begin v + (i + Z.of_nat m) * rs < 2 ^ 62 ->
  (m = O \/ v_begin v + (i + Z.of_nat m - 1) * rs + v_vsize v <= zlen f) ->
  multi_read f (record_readers v rs n i 0 (Z.of_nat m * v_vsize v)) (Z.of_nat m * v_vsize v) =
  Ok (flat_map (rec_piece f (v_begin v) rs (v_vsize v)) (map (fun j => i + Z.of_nat j) (seq 0 m))).
Proof.
  intros HV HR HB. induction m as [|m IH]; intros n i Hn Hi H1 H2 H3.
  - cbn [Z.of_nat Z.mul]. apply multi_read_0.
  - destruct n as [|n]; [lia|]. set (rb := v_vsize v) in *.
    assert (M0 : 0 <= Z.of_nat m * rb) by (apply Z.mul_nonneg_nonneg; lia).
    assert (EM : Z.of_nat (S m) * rb = rb + Z.of_nat m * rb) by lia. rewrite EM in *.
    assert (I0 : 0 <= i * rs) by (apply Z.mul_nonneg_nonneg; lia).
    assert (I1 : (i + 1) * rs <= (i + Z.of_nat (S m)) * rs) by (apply Z.mul_le_mono_nonneg_r; lia).
    assert (I2 : i * rs <= (i + Z.of_nat (S m) - 1) * rs) by (apply Z.mul_le_mono_nonneg_r; lia).
    cbn [record_readers]. replace (rb + Z.of_nat m * rb <=? 0) with false by lia.
    rewrite (i64_small rs) by lia. rewrite (i64_small (i * rs)) by lia. cbv zeta.
    replace (i * rs <? 0) with false by lia.
    rewrite (i64_small (v_begin v)) by lia. rewrite (i64_small (v_begin v + i * rs)) by lia.
    rewrite Z.add_0_r. rewrite (i64_small (v_begin v + i * rs)) by lia. fold rb.
    replace (rb + Z.of_nat m * rb - rb) with (Z.of_nat m * rb) by lia. rewrite (i64_small (Z.of_nat m * rb)) by lia.
    cbn [multi_read]. replace (rb + Z.of_nat m * rb <=? 0) with false by lia.
    replace (rb <=? 0) with false by lia. replace (v_begin v + i * rs <? 0) with false by lia.
    rewrite Z.min_l by lia.
    assert (LG : zlen (ztake rb (zdrop (v_begin v + i * rs) f)) = rb).
    { apply zlen_ztake; [lia|]. rewrite zlen_zdrop. lia. }
    rewrite LG. replace (rb + Z.of_nat m * rb - rb) with (Z.of_nat m * rb) by lia.
    rewrite (IH n (i + 1)).
    + cbn [rbind seq map flat_map]. f_equal. rewrite Z.add_0_r. unfold rec_piece at 2. f_equal.
      rewrite <- seq_shift, map_map. f_equal. apply map_ext. intros j. lia.
    + lia.
    + lia.
    + lia.
    + replace (i + 1 + Z.of_nat m) with (i + Z.of_nat (S m)) by lia. exact H2.
    + destruct m as [|m]; [left; reflexivity|right].
      destruct H3 as [H3|H3]; [lia|].
      replace (i + 1 + Z.of_nat (S m) - 1) with (i + Z.of_nat (S (S m)) - 1) by lia. exact H3.
Qed.

(** ** Decoding records *)
Lemma dec_list_app k a b x y : zlen x = Z.of_nat a * ksize k -> dec_list k (a + b) (x ++ y) = dec_list k a x ++ dec_list k b y.
Proof.
  pose proof (ksize_pos k) as K. revert x. induction a as [|a IH]; intros x L.
  - cbn [Z.of_nat Z.mul] in L. apply zlen_zero in L. subst x. reflexivity.
  - assert (0 <= Z.of_nat a * ksize k) by (apply Z.mul_nonneg_nonneg; lia).
    assert (L2 : zlen x = ksize k + Z.of_nat a * ksize k) by lia.
    cbn [Nat.add dec_list app]. rewrite ztake_app_l, zdrop_app_l by lia. f_equal. apply IH. rewrite zlen_zdrop. lia.
Qed.
Lemma dec_list_iota k n : forall b, dec_list k n b = map (fun j => dec_be k (ztake (ksize k) (zdrop (j * ksize k) b))) (map Z.of_nat (seq 0 n)).
Proof.
  induction n as [|n IH]; intros b; [reflexivity|]. cbn [dec_list seq map Z.of_nat Z.mul]. rewrite (zdrop_0 0 b) by lia. f_equal.
  rewrite IH. rewrite <- seq_shift, !map_map. apply map_ext. intros j. pose proof (ksize_pos k).
  rewrite zdrop_zdrop by (try apply Z.mul_nonneg_nonneg; lia). replace (ksize k + Z.of_nat j * ksize k) with (Z.of_nat (S j) * ksize k) by lia. reflexivity.
Qed.
Lemma map_of_nat_seq n m : map (fun j => 0 + Z.of_nat j) (seq n m) = map Z.of_nat (seq n m).
Proof. apply map_ext. reflexivity. Qed.

Lemma record_piece_dec t f off step per r : 0 <= per -> 0 <= off + r * step ->
  off + r * step + per * esize t <= zlen f ->
  dec_list (elt_kind t) (Z.to_nat per) (rec_piece f off step (per * esize t) r) =
  map (fun j => dec_be (elt_kind t) (ztake (esize t) (zdrop (off + r * step + j * esize t) f))) (iota per).
Proof.
  intros HP H0 H1. rewrite dec_list_iota. unfold iota. rewrite !map_map. apply map_ext_in. intros j Hj. apply in_seq in Hj.
  unfold rec_piece, esize in *. pose proof (ksize_pos (elt_kind t)) as K. set (k := ksize (elt_kind t)) in *.
  assert (J0 : 0 <= Z.of_nat j * k) by (apply Z.mul_nonneg_nonneg; lia).
  assert (J1 : (Z.of_nat j + 1) * k <= per * k) by (apply Z.mul_le_mono_nonneg_r; lia).
  f_equal. rewrite <- (zdrop_zdrop (Z.of_nat j * k) (off + r * step)) by lia.
  set (F := zdrop (off + r * step) f).
  rewrite ztake_zdrop_comm by lia. rewrite ztake_ztake, Z.min_l by lia. rewrite <- ztake_zdrop_comm by lia. reflexivity.
Qed.

Lemma record_dec t f off step per n : 0 < per -> 0 <= off -> 0 <= step ->
  (n = O \/ off + (Z.of_nat n - 1) * step + per * esize t <= zlen f) ->
  dec_list (elt_kind t) (n * Z.to_nat per)%nat
    (flat_map (rec_piece f off step (per * esize t)) (map Z.of_nat (seq 0 n))) =
  record_numbers t f off step per (Z.of_nat n).
Proof.
  intros HP HO HS HF. unfold record_numbers. unfold iota at 2. rewrite Nat2Z.id.
  assert (G : forall m s, (forall j, In j (seq s m) -> off + Z.of_nat j * step + per * esize t <= zlen f) ->
    dec_list (elt_kind t) (m * Z.to_nat per)%nat
      (flat_map (rec_piece f off step (per * esize t)) (map Z.of_nat (seq s m))) =
    flat_map (fun r => map (fun j => dec_be (elt_kind t) (ztake (esize t) (zdrop (off + r * step + j * esize t) f))) (iota per))
      (map Z.of_nat (seq s m))).
  { induction m as [|m IH]; intros s HH; [reflexivity|]. cbn [seq map flat_map Nat.mul].
    assert (S0 : 0 <= Z.of_nat s * step) by (apply Z.mul_nonneg_nonneg; lia).
    assert (P0 : 0 <= per * esize t) by (unfold esize; pose proof (ksize_pos (elt_kind t)); apply Z.mul_nonneg_nonneg; lia).
    pose proof (HH s (or_introl eq_refl)) as HH0. unfold esize in *.
    rewrite dec_list_app.
    - rewrite <- IH by (intros j Hj; apply HH; right; exact Hj). f_equal. apply record_piece_dec; unfold esize; lia.
    - unfold rec_piece. rewrite Z2Nat.id by lia. apply zlen_ztake; [lia|]. rewrite zlen_zdrop. lia. }
  apply G. intros j Hj. apply in_seq in Hj. destruct HF as [->|HF]; [lia|].
  assert (Z.of_nat j * step <= (Z.of_nat n - 1) * step) by (apply Z.mul_le_mono_nonneg_r; lia). lia.
Qed.

Lemma zlen_record_numbers t f off step per n : 0 <= per -> 0 <= n -> zlen (record_numbers t f off step per n) = n * per.
Proof.
  intros HP HN. unfold record_numbers, iota. set (m := Z.to_nat n). rewrite <- (Z2Nat.id n HN). fold m. clearbody m.
  assert (G : forall m s, zlen (flat_map (fun r => map (fun j => dec_be (elt_kind t) (ztake (esize t) (zdrop (off + r * step + j * esize t) f))) (map Z.of_nat (seq 0 (Z.to_nat per)))) (map Z.of_nat (seq s m))) = Z.of_nat m * per).
  { induction m0 as [|m0 IH]; intros s; [reflexivity|]. cbn [seq map flat_map]. rewrite zlen_app, IH, !zlen_map.
    unfold zlen. rewrite seq_length. lia. }
  apply G.
Qed.
Lemma record_numbers_take t f off step per n m : 0 <= per -> 0 <= m <= n ->
  ztake (m * per) (record_numbers t f off step per n) = record_numbers t f off step per m.
Proof.
  intros HP HM. pose proof (zlen_record_numbers t f off step per m HP ltac:(lia)) as LZ.
  unfold record_numbers at 1. unfold iota at 2.
  replace (Z.to_nat n) with (Z.to_nat m + (Z.to_nat n - Z.to_nat m))%nat by lia.
  rewrite seq_app, map_app, flat_map_app.
  apply ztake_app_exact. symmetry. exact LZ.
Qed.

(** ** Record size of a conforming header *)
Lemma pad_size_mod n : 0 <= n -> pad_size n mod 4 = 0 /\ 0 <= pad_size n.
Proof. intros H. unfold pad_size. split; lia. Qed.
Lemma sum_sizes ds l : Forall (fun v => 0 <= record_bytes ds v) l -> Forall (fun v => fv_size v = pad_size (record_bytes ds v)) l ->
  fold_right (fun v a => fv_size v + a) 0 l = fold_right (fun v a => pad_size (record_bytes ds v) + a) 0 l /\
  fold_right (fun v a => pad_size (record_bytes ds v) + a) 0 l mod 4 = 0 /\
  0 <= fold_right (fun v a => pad_size (record_bytes ds v) + a) 0 l.
Proof.
  intros N S. induction l as [|v l IH]; [cbn; lia|]. apply Forall_cons_iff in N. destruct N as [N1 N2].
  apply Forall_cons_iff in S. destruct S as [S1 S2]. destruct (IH N2 S2) as (I1 & I2 & I3). cbn [fold_right].
  destruct (pad_size_mod _ N1). rewrite I1, S1. split; [reflexivity|]. split; lia.
Qed.

Definition lone_small (h : fheader) : bool :=
  match record_vars h with [v] => small_type (fv_type v) | _ => false end.

Lemma finish_special h : let st := fold_left (add_f (fh_dims h)) (fh_vars h) (mkVl 0 empty_om 0 None) in
  snd (finish_rec st) = lone_small h.
Proof.
  cbv zeta. destruct (fold_add_rec (fh_dims h) (fh_vars h) (mkVl 0 empty_om 0 None) eq_refl) as (F1 & F2 & F3).
  unfold finish_rec. rewrite F2, F3. cbn [vl_nrec vl_first]. unfold lone_small, record_vars.
  destruct (filter (is_record (fh_dims h)) (fh_vars h)) as [|v [|w l]].
  - reflexivity.
  - change (0 + zlen [v] =? 0) with false. change (0 + zlen [v] =? 1) with true. cbn [hd_error option_map].
    change (v_type (rvar_f (fh_dims h) v)) with (type_code (fv_type v)). rewrite ty_of_type_code.
    destruct (fv_type v) as [|[]]; reflexivity.
  - rewrite !zlen_cons. pose proof (zlen_nonneg l). replace (0 + _ =? 0) with false by lia.
    replace (0 + _ =? 1) with false by lia. reflexivity.
Qed.

Lemma finish_step h : lone_small h = false -> sizes_right h -> Forall (fun v => 0 <= record_bytes (fh_dims h) v) (record_vars h) ->
  record_vars h <> [] -> record_step h < 2 ^ 62 ->
  fst (finish_rec (fold_left (add_f (fh_dims h)) (fh_vars h) (mkVl 0 empty_om 0 None))) = record_step h.
Proof.
  intros LS SR NN NE LT. destruct (fold_add_rec (fh_dims h) (fh_vars h) (mkVl 0 empty_om 0 None) eq_refl) as (F1 & F2 & F3).
  unfold finish_rec. rewrite F1, F2, F3. cbn [vl_nrec vl_first vl_rec].
  pose proof (sum_sizes _ _ NN SR) as (S1 & S2 & S3). rewrite !Z.add_0_l.
  unfold lone_small, record_step, sizes_right, record_vars in *.
  destruct (filter (is_record (fh_dims h)) (fh_vars h)) as [|v [|w l]] eqn:EF; [contradiction| |].
  - change (zlen [v] =? 0) with false. change (zlen [v] =? 1) with true. cbn [hd_error option_map].
    change (v_type (rvar_f (fh_dims h) v)) with (type_code (fv_type v)). rewrite ty_of_type_code. rewrite S1. clear F1 F2 F3.
    rewrite LS in LT |- *. cbn [fold_right] in *. rewrite Z.add_0_r in *. rewrite (u64_small (pad_size (record_bytes (fh_dims h) v))) by lia.
    destruct (fv_type v) as [|[]]; try discriminate; reflexivity.
  - rewrite !zlen_cons. pose proof (zlen_nonneg l). replace (1 + (1 + zlen l) =? 0) with false by lia.
    replace (1 + (1 + zlen l) =? 1) with false by lia. cbn [fst]. rewrite S1.
    set (s := fold_right (fun v0 a => pad_size (record_bytes (fh_dims h) v0) + a) 0 (v :: w :: l)) in *.
    rewrite u64_small by lia. unfold round32. rewrite u64_small by lia. cbv zeta. lia.
Qed.

(** ** The getter *)
Record reads_records (h : fheader) (b d : bytes) (v : fvar) : Prop := mkRr {
  rr_ok : header_ok h;
  rr_names : names_distinct h;
  rr_bytes : header_bytes h b;
  rr_in : In v (record_vars h);
  rr_unl : Forall (unlimited_first (fh_dims h)) (record_vars h);
  rr_sizes : sizes_right h;
  rr_small : 24 * (Z.max 1 (fh_numrecs h) * volume (tl (fvar_shape h v))) <= 2 ^ 48;
  rr_range : record_step h < 2 ^ 62 /\ fv_begin v + fh_numrecs h * record_step h < 2 ^ 62;
  rr_present : fh_numrecs h = 0 \/
    fv_begin v + (fh_numrecs h - 1) * record_step h + record_bytes (fh_dims h) v <= zlen (b ++ d);
  rr_fill : forall a, In a (fv_atts v) -> fa_name a = bs "_FillValue" -> exists z, fa_val a = ANums (elt_kind (fv_type v)) [z]
}.

(** The same without the data *)
Record record_file (h : fheader) (b : bytes) (v : fvar) : Prop := mkRf {
  rf_ok : header_ok h;
  rf_names : names_distinct h;
  rf_bytes : header_bytes h b;
  rf_in : In v (record_vars h);
  rf_unl : Forall (unlimited_first (fh_dims h)) (record_vars h);
  rf_sizes : sizes_right h;
  rf_small : 24 * (Z.max 1 (fh_numrecs h) * volume (tl (fvar_shape h v))) <= 2 ^ 48;
  rf_range : record_step h < 2 ^ 62 /\ fv_begin v + fh_numrecs h * record_step h < 2 ^ 62
}.
Lemma rr_file h b d v : reads_records h b d v -> record_file h b v.
Proof. intros []. constructor; assumption. Qed.

Lemma fill_conforming h b d v : reads_records h b d v ->
  exists pat, fill_pattern (rvar_f (fh_dims h) v) (cty_of (fv_type v)) = Ok pat.
Proof.
  intros H. unfold fill_pattern. cbn [rvar_f v_attrs].
  destruct (om_get (om_of (rattrs (fv_atts v))) (bs "_FillValue")) as [u|] eqn:EG; [|eexists; reflexivity].
  unfold om_get in EG. cbn [om_of om_vals] in EG. apply assoc_Some_In in EG. unfold rattrs in EG. apply in_map_iff in EG.
  destruct EG as (a & EA & HA). injection EA as EN EV. destruct (rr_fill h b d v H a HA EN) as (z & Hz). subst u. rewrite Hz.
  cbn [aval_value rbind]. assert (EK : nk_eqb (elt_kind (fv_type v)) (fill_kind (cty_of (fv_type v))) = true) by (destruct (fv_type v) as [|[]]; reflexivity).
  rewrite EK. eexists. reflexivity.
Qed.

Lemma file_getter h b d v : record_file h b v ->
  exists c g, cdf_open (b ++ d) = Ok c /\ get_var_getter c (fv_name v) = Ok g /\
    c_file c = b ++ d /\ c_numrecs c = fh_numrecs h /\ c_special c = lone_small h /\
    (lone_small h = false -> c_recsize c = record_step h) /\
    g = mkGetter c (rvar_f (fh_dims h) v) (fh_numrecs h :: tl (fvar_shape h v)) (fvar_names h v) true
          (if fh_numrecs h =? 0 then 0 else volume (tl (fvar_shape h v))) (fh_numrecs h) (cty_of (fv_type v)) /\
    Forall (fun n => 0 < n) (tl (fvar_shape h v)) /\ v_vsize (rvar_f (fh_dims h) v) = record_bytes (fh_dims h) v /\
    record_bytes (fh_dims h) v = volume (tl (fvar_shape h v)) * esize (fv_type v) /\ 0 <= fv_begin v < 2 ^ 62 /\
    0 <= fh_numrecs h /\ 0 <= record_step h.
Proof.
  intros RR. destruct (parse_any h b d (rf_ok _ _ _ RR) (rf_bytes _ _ _ RR)) as [PA _]. specialize (PA (rf_names _ _ _ RR)).
  pose proof (rf_in _ _ _ RR) as HIN. unfold record_vars in HIN. apply filter_In in HIN. destruct HIN as [HIN HREC].
  pose proof (rf_ok _ _ _ RR) as HO. pose proof HO as HO'. destruct HO as [_ O2 O3 O4 _ _ _ O8]. rewrite Forall_forall in O8.
  assert (DN : forall i, 0 <= dim_length (fh_dims h) i < 2 ^ 63).
  { intros i. unfold dim_length. destruct (nth_error (fh_dims h) (Z.to_nat i)) as [[nm n]|] eqn:E; [|lia].
    rewrite Forall_forall in O4. destruct (O4 _ (nth_error_In _ _ E)) as [_ X]. cbn [snd] in X.
    assert (nlimit (fh_ver h) <= 2 ^ 63) by (unfold nlimit; destruct (_ =? 5); lia). lia. }
  assert (RB0 : Forall (fun w => 0 <= record_bytes (fh_dims h) w) (record_vars h)).
  { apply Forall_forall. intros w Hw. unfold record_bytes. apply Z.mul_nonneg_nonneg; [|destruct (fv_type w) as [|[]]; cbn; lia].
    apply volume_nonneg. apply Forall_forall. intros n Hn. apply in_map_iff in Hn. destruct Hn as (i & <- & _). apply DN. }
  specialize (O8 v HIN). pose proof (rf_unl _ _ _ RR) as HUA. rewrite Forall_forall in HUA. pose proof (HUA v (rf_in _ _ _ RR)) as HU.
  pose proof (rf_names _ _ _ RR) as (D1 & D2 & D3).
  pose proof (fold_add_vars (fh_dims h) (fh_vars h) (mkVl 0 empty_om 0 None) [] eq_refl) as FV. cbn [map app] in FV. specialize (FV D3).
  assert (SH : fvar_shape h v = fh_numrecs h :: tl (fvar_shape h v) /\ tl (fvar_shape h v) = map (dim_length (fh_dims h)) (tl (fv_dims v)) /\
    Forall (fun n => 0 < n) (tl (fvar_shape h v))).
  { unfold is_record in HREC. unfold fvar_shape, unlimited_first in *. destruct (fv_dims v) as [|i ids]; [discriminate|]. cbn [map tl] in *.
    destruct (nth_error (fh_dims h) (Z.to_nat i)) as [[nm n]|] eqn:E; [|discriminate].
    assert (EI : dim_length (fh_dims h) i = 0) by (unfold dim_length; rewrite E; lia). rewrite EI. cbn [Z.eqb].
    assert (EM : map (fun i => if dim_length (fh_dims h) i =? 0 then fh_numrecs h else dim_length (fh_dims h) i) ids = map (dim_length (fh_dims h)) ids).
    { apply map_ext_in. intros j Hj. rewrite Forall_forall in HU. specialize (HU j Hj). replace (_ =? 0) with false by lia. reflexivity. }
    rewrite EM. split; [reflexivity|]. split; [reflexivity|]. apply Forall_forall. intros n0 Hn. apply in_map_iff in Hn.
    destruct Hn as (j & <- & Hj). rewrite Forall_forall in HU. exact (HU j Hj). }
  destruct SH as (SH1 & SH2 & SH3). set (ds := tl (fvar_shape h v)) in *. pose proof (volume_pos ds SH3) as VP.
  assert (RBE : record_bytes (fh_dims h) v = volume ds * esize (fv_type v)).
  { unfold record_bytes. rewrite <- SH2. destruct (fv_type v) as [|[]]; reflexivity. }
  pose proof (rf_small _ _ _ RR) as SM. fold ds in SM. pose proof (rf_range _ _ _ RR) as [RG1 RG2].
  assert (V1 : 1 * volume ds <= Z.max 1 (fh_numrecs h) * volume ds) by (apply Z.mul_le_mono_nonneg_r; lia).
  assert (V2 : Z.max 1 (fh_numrecs h) * 1 <= Z.max 1 (fh_numrecs h) * volume ds) by (apply Z.mul_le_mono_nonneg_l; lia).
  assert (ES : 1 <= esize (fv_type v) <= 8) by (unfold esize; apply BaseLemmas.ksize_pos).
  assert (RBB : 0 <= record_bytes (fh_dims h) v <= volume ds * 8).
  { rewrite RBE. split; [apply Z.mul_nonneg_nonneg; lia|apply Z.mul_le_mono_nonneg_l; lia]. }
  assert (ST0 : 0 <= record_step h).
  { unfold record_step. destruct (sum_sizes _ _ RB0 (rf_sizes _ _ _ RR)) as (_ & _ & S3).
    destruct (record_vars h) as [|w [|w2 l]]; [cbn; lia| |exact S3]. cbn [fold_right] in S3.
    apply Forall_cons_iff in RB0. destruct RB0 as [RB0 _]. destruct (small_type (fv_type w)); lia. }
  exists (cdf_of_hdr (b ++ d) (hdr_f h)). eexists. split; [rewrite open_parse, PA; reflexivity|]. split.
  - unfold get_var_getter. change (c_vars (cdf_of_hdr (b ++ d) (hdr_f h))) with (vl_vars (fold_left (add_f (fh_dims h)) (fh_vars h) (mkVl 0 empty_om 0 None))). rewrite FV.
    assert (EG : om_get (om_of (map (fun v => (fv_name v, rvar_f (fh_dims h) v)) (fh_vars h))) (fv_name v) = Some (rvar_f (fh_dims h) v)).
    { apply om_of_get; [rewrite map_map; exact D3|]. apply in_map_iff. exists v. split; [reflexivity|exact HIN]. }
    rewrite EG.
    destruct (var_dims_f h (cdf_of_hdr (b ++ d) (hdr_f h)) v HO' eq_refl eq_refl (fo_dims _ _ _ O8) HU) as (l & L1 & L2 & L3 & L4).
    cbn [rvar_f v_ids]. rewrite L1. cbn [rbind]. cbv zeta. rewrite L2, L3, L4, HREC, SH1.
    change (v_type (rvar_f (fh_dims h) v)) with (type_code (fv_type v)).
    match goal with |- (let '(_, _) := ?p in _) = _ =>
      assert (EP : p = (if fh_numrecs h =? 0 then 0 else volume ds, fh_numrecs h)) end.
    { destruct (fh_numrecs h =? 0) eqn:E0.
      - assert (ER : fh_numrecs h = 0) by lia. rewrite ER. f_equal. unfold total_size. cbn [fold_left].
        change (i64 (1 * i64 0)) with 0. clear. induction ds as [|x ds IH]; [reflexivity|]. cbn [fold_left].
        rewrite Z.mul_0_l. exact IH.
      - assert (PP : Forall (fun n => 0 < n) (fh_numrecs h :: ds)) by (constructor; [lia|exact SH3]).
        rewrite (Z.max_r 1 (fh_numrecs h)) in SM, V1, V2 by lia.
        rewrite total_size_ok; [|exact PP|cbn [volume]; lia]. cbn [volume].
        rewrite (i64_small (fh_numrecs h)) by lia. rewrite Z.mul_comm, Z.quot_mul by lia. rewrite i64_small by lia. reflexivity. }
    rewrite EP. rewrite ty_of_type_code. reflexivity.
  - unfold cdf_of_hdr, hdr_f. cbn [c_file c_numrecs c_special c_recsize h_loop h_numrecs].
    split; [reflexivity|]. split; [reflexivity|]. split; [apply finish_special|]. split.
    { intros LS. apply finish_step; [exact LS|exact (rf_sizes _ _ _ RR)|exact RB0| |lia].
      intros X. pose proof (rf_in _ _ _ RR) as Y. rewrite X in Y. destruct Y. }
    split; [reflexivity|]. split; [exact SH3|]. split.
    { cbn [rvar_f v_vsize]. rewrite HREC. apply i64_small. lia. }
    split; [exact RBE|]. split; [|split; [lia|exact ST0]].
    split; [destruct (fo_begin _ _ _ O8); lia|]. assert (0 <= fh_numrecs h * record_step h) by (apply Z.mul_nonneg_nonneg; lia). lia.
Qed.

Lemma record_getter h b d v : reads_records h b d v ->
  exists c g, cdf_open (b ++ d) = Ok c /\ get_var_getter c (fv_name v) = Ok g /\
    c_file c = b ++ d /\ c_numrecs c = fh_numrecs h /\ c_special c = lone_small h /\
    (lone_small h = false -> c_recsize c = record_step h) /\
    g = mkGetter c (rvar_f (fh_dims h) v) (fh_numrecs h :: tl (fvar_shape h v)) (fvar_names h v) true
          (if fh_numrecs h =? 0 then 0 else volume (tl (fvar_shape h v))) (fh_numrecs h) (cty_of (fv_type v)) /\
    Forall (fun n => 0 < n) (tl (fvar_shape h v)) /\ v_vsize (rvar_f (fh_dims h) v) = record_bytes (fh_dims h) v /\
    record_bytes (fh_dims h) v = volume (tl (fvar_shape h v)) * esize (fv_type v) /\ 0 <= fv_begin v < 2 ^ 62 /\
    0 <= fh_numrecs h /\ 0 <= record_step h.
Proof. intros H. exact (file_getter h b d v (rr_file _ _ _ _ H)). Qed.

Lemma contiguous f off rb m : 0 <= off -> 0 <= rb -> forall s,
  flat_map (rec_piece f off rb rb) (map Z.of_nat (seq s m)) = ztake (Z.of_nat m * rb) (zdrop (off + Z.of_nat s * rb) f).
Proof.
  intros HO HR. induction m as [|m IH]; intros s.
  - cbn [Z.of_nat Z.mul]. symmetry. apply ztake_0. lia.
  - cbn [seq map flat_map]. rewrite IH. unfold rec_piece.
    assert (M0 : 0 <= Z.of_nat m * rb) by (apply Z.mul_nonneg_nonneg; lia).
    assert (S0 : 0 <= Z.of_nat s * rb) by (apply Z.mul_nonneg_nonneg; lia).
    replace (off + Z.of_nat (S s) * rb) with (off + Z.of_nat s * rb + rb) by lia.
    rewrite <- (zdrop_zdrop rb (off + Z.of_nat s * rb) f) by lia.
    set (F := zdrop (off + Z.of_nat s * rb) f). replace (Z.of_nat (S m) * rb) with (rb + Z.of_nat m * rb) by lia.
    rewrite ztake_zdrop_comm by lia. replace (ztake rb F) with (ztake rb (ztake (rb + Z.of_nat m * rb) F)).
    2:{ rewrite ztake_ztake, Z.min_l by lia. reflexivity. }
    apply ztake_zdrop.
Qed.

Lemma cty_elt t : elt_of (cty_of t) = t /\ fill_kind (cty_of t) = elt_kind t /\ tysize (cty_of t) = esize t.
Proof. destruct t as [|[]]; repeat split. Qed.

Definition rec_nums (h : fheader) (f : bytes) (v : fvar) (n : Z) : list Z :=
  record_numbers (fv_type v) f (fv_begin v) (record_step h) (volume (tl (fvar_shape h v))) n.

Lemma record_slice h b d v x y : reads_records h b d v ->
  0 <= x -> x <= y -> y <= fh_numrecs h -> x = 0 \/ x = y \/ lone_small h = true ->
  ~ (fv_type v = EChar /\ x = y /\ 3 <= zlen (fvar_shape h v)) ->
  exists c g s, cdf_open (b ++ d) = Ok c /\ get_var_getter c (fv_name v) = Ok g /\ g_len g = fh_numrecs h /\
    get_slice_c g x y = Ok s /\
    erase s = vslice x y (nest (fv_type v) (fvar_shape h v) (rec_nums h (b ++ d) v (fh_numrecs h))).
Proof.
  intros RR HX HXY HY HC HE. destruct (record_getter h b d v RR) as (c & g & OP & GG & CF & CN & CS & CR & EG & PD & EV & RB & BG & R0 & ST).
  exists c, g. destruct (fill_conforming h b d v RR) as (pat & FP).
  pose proof (rr_small _ _ _ _ RR) as SM. pose proof (rr_range _ _ _ _ RR) as [RG1 RG2]. pose proof (rr_present _ _ _ _ RR) as PR.
  assert (ESH : fvar_shape h v = fh_numrecs h :: tl (fvar_shape h v)).
  { pose proof (rr_in _ _ _ _ RR) as HIN. unfold record_vars in HIN. apply filter_In in HIN. destruct HIN as [_ HREC].
    unfold is_record in HREC. unfold fvar_shape. destruct (fv_dims v) as [|i ids]; [discriminate|]. cbn [map tl]. f_equal.
    destruct (nth_error (fh_dims h) (Z.to_nat i)) as [[nm n]|] eqn:E; [|discriminate].
    assert (EI : dim_length (fh_dims h) i = 0) by (unfold dim_length; rewrite E; lia). rewrite EI. reflexivity. }
  set (ds := tl (fvar_shape h v)) in *. rewrite ESH in HE |- *. unfold rec_nums. fold ds. set (R := fh_numrecs h) in *.
  pose proof (volume_pos ds PD) as VP. set (sz := esize (fv_type v)) in *.
  destruct (cty_elt (fv_type v)) as (T1 & T2 & T3). fold sz in T3.
  assert (ES : 1 <= sz <= 8) by (unfold sz, esize; apply BaseLemmas.ksize_pos).
  assert (V2 : Z.max 1 R * 1 <= Z.max 1 R * volume ds) by (apply Z.mul_le_mono_nonneg_l; lia).
  assert (BV : 0 <= x * volume ds <= R * volume ds) by (split; [apply Z.mul_nonneg_nonneg|apply Z.mul_le_mono_nonneg_r]; lia).
  assert (RV : 24 * (R * volume ds) <= 2 ^ 48).
  { assert (R * volume ds <= Z.max 1 R * volume ds) by (apply Z.mul_le_mono_nonneg_r; lia). lia. }
  assert (NL : zlen (record_numbers (fv_type v) (b ++ d) (fv_begin v) (record_step h) (volume ds) R) = R * volume ds)
    by (apply zlen_record_numbers; lia).
  destruct (Z.eq_dec x y) as [EXY|NXY].
  - (* an empty slice *)
    subst y. rewrite vslice_nest; [|exact PD|lia|lia|lia|symmetry; exact NL].
    replace (x - x) with 0 by lia. rewrite Z.mul_0_l. rewrite ztake_0 by lia.
    destruct (convert_empty (cty_of (fv_type v)) 0 ds eq_refl) as (s & S1 & S2).
    { destruct ds as [|d1 [|d2 ds']]; [left; reflexivity|right; right; reflexivity|right; left].
      intros X. apply HE. split; [destruct (fv_type v); [reflexivity|discriminate]|]. split; [reflexivity|].
      rewrite !zlen_cons. pose proof (zlen_nonneg ds'). lia. }
    rewrite T1 in S2. exists s. split; [exact OP|]. split; [exact GG|]. split; [rewrite EG; reflexivity|]. split; [|exact S2].
    rewrite EG. unfold get_slice_c. cbn [g_lens g_chunk g_ty g_var g_cdf g_unl].
    replace (x <? x) with false by lia. rewrite Z.sub_diag. change (i64 0) with 0.
    assert (E0 : (if R =? 0 then 0 else 0) = 0) by (destruct (R =? 0); reflexivity). rewrite E0. rewrite Z.mul_0_l. change (i64 0) with 0.
    cbv zeta. rewrite CF, CS, CN. rewrite Z.mul_0_l. change (i64 0) with 0. rewrite (go_make_ok 0) by lia.
    rewrite (go_make_ok R 16) by lia.
    destruct (lone_small h); cbn [andb negb rbind].
    + assert (EC : 0 <= x * (if R =? 0 then 0 else volume ds) <= R * volume ds) by (destruct (R =? 0) eqn:E; lia).
      set (q := x * (if R =? 0 then 0 else volume ds)) in *. rewrite (i64_small q) by lia. rewrite T3.
      assert (0 <= q * sz <= q * 8) by (split; [apply Z.mul_nonneg_nonneg|apply Z.mul_le_mono_nonneg_l]; lia).
      rewrite (i64_small (q * sz)) by lia. cbn [rvar_f v_begin]. rewrite (i64_small (fv_begin v)) by lia. rewrite i64_small by lia.
      replace (_ <? 0) with false by lia. rewrite FP. cbn [rbind]. change (Z.to_nat 0) with O. cbn [dec_list].
      exact S1.
    + rewrite multi_read_0. cbn [rbind Z.to_nat dec_list]. exact S1.
  - destruct (lone_small h) eqn:LS.
    + (* the special case: the records follow each other without padding *)
      assert (STE : record_step h = record_bytes (fh_dims h) v).
      { unfold record_step. unfold lone_small in LS. pose proof (rr_in _ _ _ _ RR) as HIN.
        destruct (record_vars h) as [|w [|w2 l]]; [discriminate| |discriminate]. destruct HIN as [->|[]]. rewrite LS. reflexivity. }
      rewrite STE, RB in *. fold sz in PR.
      set (g' := mkGetter c (rvar_f (fh_dims h) v) (R :: ds) (fvar_names h v) false (volume ds) R (cty_of (fv_type v))).
      assert (EGS : forall p q, get_slice_c g p q = get_slice_c g' p q).
      { intros p q. rewrite EG. unfold get_slice_c, g'. cbn [g_lens g_chunk g_ty g_var g_cdf g_unl]. rewrite CS.
        replace (R =? 0) with false by lia. reflexivity. }
      assert (FG : fixed_getter g').
      { constructor; unfold g'; cbn [g_unl g_lens g_chunk g_len g_var rvar_f v_begin tl volume]; try reflexivity.
        - constructor; [lia|exact PD].
        - exact RV.
        - lia. }
      destruct PR as [PR|PR]; [lia|].
      assert (ER : R * (volume ds * sz) = (R - 1) * (volume ds * sz) + volume ds * sz) by lia.
      assert (VS0 : 0 < volume ds * sz) by (apply Z.mul_pos_pos; lia).
      assert (RS0 : 0 < R * (volume ds * sz)) by (apply Z.mul_pos_pos; lia).
      destruct (slice_whole g' pat x y FG FP) as (w & s & W1 & W2 & W3 & W4).
      { right. left. unfold g_bytes, g_total, g', avail. cbn [g_lens g_ty g_cdf g_var rvar_f v_begin volume]. rewrite CF, T3. lia. }
      { discriminate. } { exact HX. } { exact HXY. } { exact HY. }
      exists s. split; [exact OP|]. split; [exact GG|]. split; [rewrite EG; reflexivity|]. split; [rewrite EGS; exact W3|].
      destruct W4 as [[_ W4]|[[W4 _] _]]; [|contradiction]. rewrite W4, W2. unfold g' at 1 2. cbn [g_ty g_lens]. rewrite T1. do 2 f_equal.
      unfold g_data, g_total, g_bytes, g_total, g'. cbn [g_ty g_lens g_cdf g_var rvar_f v_begin volume]. rewrite T2, T3, CF.
      rewrite <- (Z2Nat.id R) at 3 by lia. rewrite <- record_dec; [|lia|lia|fold sz; lia|right; fold sz; lia].
      fold sz. rewrite contiguous by lia. rewrite Z2Nat.id by lia. cbn [Z.of_nat]. rewrite Z.mul_0_l, !Z.add_0_r.
      unfold stream. rewrite Z.add_0_r.
      replace (R * volume ds * sz) with (R * (volume ds * sz)) by lia.
      assert (LT : zlen (ztake (R * (volume ds * sz)) (zdrop (fv_begin v) (b ++ d))) = R * (volume ds * sz)).
      { apply zlen_ztake; [lia|]. rewrite zlen_zdrop. lia. }
      rewrite LT. rewrite Z.sub_diag. cbn [Z.to_nat]. change (fill_stream pat 0) with (@nil Z). rewrite app_nil_r. f_equal. lia.
    + (* interleaved records *)
      destruct HC as [->|[HC|HC]]; [|contradiction|discriminate].
      assert (NR : R <> 0) by lia. assert (Y0 : 0 < y) by lia.
      assert (YV : 0 < y * volume ds <= R * volume ds) by (split; [apply Z.mul_pos_pos|apply Z.mul_le_mono_nonneg_r]; lia).
      assert (YS : 0 < y * volume ds * sz <= y * volume ds * 8) by (split; [apply Z.mul_pos_pos|apply Z.mul_le_mono_nonneg_l]; lia).
      rewrite vslice_nest; [|exact PD|lia|lia|lia|symmetry; exact NL].
      rewrite Z.sub_0_r, Z.mul_0_l. rewrite zdrop_0 by lia. rewrite record_numbers_take by lia.
      set (nums := record_numbers (fv_type v) (b ++ d) (fv_begin v) (record_step h) (volume ds) y).
      assert (NY : zlen nums = y * volume ds) by (apply zlen_record_numbers; lia).
      destruct (convert_nest (cty_of (fv_type v)) (y :: ds) nums) as (s & S1 & S2).
      { constructor; [lia|exact PD]. } { cbn [volume]. lia. } { cbn [volume]. lia. } { discriminate. }
      rewrite T1 in S2. exists s. split; [exact OP|]. split; [exact GG|]. split; [rewrite EG; reflexivity|]. split; [|exact S2].
      rewrite EG. unfold get_slice_c. cbn [g_lens g_chunk g_ty g_var g_cdf g_unl].
      replace (y <? 0) with false by lia. rewrite Z.sub_0_r. rewrite Z.mul_0_l. change (i64 0) with 0. change (0 * tysize (cty_of (fv_type v))) with 0. change (i64 0) with 0.
      replace (R =? 0) with false by lia. rewrite (i64_small y) by lia. rewrite (i64_small (y * volume ds)) by lia. rewrite T3.
      rewrite (i64_small (y * volume ds * sz)) by lia. cbv zeta. rewrite CF, CS, CN, (CR eq_refl). cbn [andb negb].
      rewrite (go_make_ok R 16) by lia. rewrite (go_make_ok (y * volume ds)) by lia. cbn [rbind].
      replace (y * volume ds * sz) with (Z.of_nat (Z.to_nat y) * v_vsize (rvar_f (fh_dims h) v)) by (rewrite Z2Nat.id by lia; rewrite EV, RB; fold sz; lia).
      destruct PR as [PR|PR]; [contradiction|].
      assert (M1 : y * record_step h <= R * record_step h) by (apply Z.mul_le_mono_nonneg_r; lia).
      assert (M2 : (y - 1) * record_step h <= (R - 1) * record_step h) by (apply Z.mul_le_mono_nonneg_r; lia).
      rewrite read_records.
      * cbn [rbind]. cbn [rvar_f v_begin]. rewrite EV, RB. rewrite map_of_nat_seq. rewrite T2.
        replace (Z.to_nat (y * volume ds)) with (Z.to_nat y * Z.to_nat (volume ds))%nat by (rewrite Z2Nat.inj_mul by lia; reflexivity).
        rewrite record_dec; [|lia|lia|lia|right; rewrite Z2Nat.id by lia; fold sz; fold sz in RB; rewrite <- RB; lia].
        rewrite Z2Nat.id by lia. exact S1.
      * rewrite EV, RB. fold sz. apply Z.mul_pos_pos; lia.
      * lia.
      * cbn [rvar_f v_begin]. lia.
      * lia.
      * lia.
      * rewrite EV, RB, Z2Nat.id by lia. fold sz. lia.
      * rewrite Z2Nat.id by lia. cbn [rvar_f v_begin]. lia.
      * right. rewrite EV, Z2Nat.id by lia. cbn [rvar_f v_begin]. lia.
Qed.

(** The whole variable *)
Lemma record_values h b d v : reads_records h b d v ->
  ~ (fv_type v = EChar /\ fh_numrecs h = 0 /\ 3 <= zlen (fvar_shape h v)) ->
  exists c g, cdf_open (b ++ d) = Ok c /\ get_var_getter c (fv_name v) = Ok g /\ g_len g = fh_numrecs h /\
    values g = Ok (nest (fv_type v) (fvar_shape h v) (rec_nums h (b ++ d) v (fh_numrecs h))).
Proof.
  intros RR HE. destruct (record_getter h b d v RR) as (c0 & g0 & _ & _ & _ & _ & _ & _ & _ & PD & _ & _ & _ & R0 & _).
  destruct (record_slice h b d v 0 (fh_numrecs h) RR) as (c & g & s & OP & GG & GL & GS & ES); [lia|lia|lia|left; reflexivity| |].
  { intros (A & B & C). apply HE. split; [exact A|]. split; [lia|exact C]. }
  exists c, g. split; [exact OP|]. split; [exact GG|]. split; [exact GL|]. unfold values, get_slice. rewrite GL, GS. cbn [rmap].
  f_equal. rewrite ES.
  assert (ESH : fvar_shape h v = fh_numrecs h :: tl (fvar_shape h v)).
  { pose proof (rr_in _ _ _ _ RR) as HIN. unfold record_vars in HIN. apply filter_In in HIN. destruct HIN as [_ HREC].
    unfold is_record in HREC. unfold fvar_shape. destruct (fv_dims v) as [|i ids]; [discriminate|]. cbn [map tl]. f_equal.
    destruct (nth_error (fh_dims h) (Z.to_nat i)) as [[nm n]|] eqn:E; [|discriminate].
    assert (EI : dim_length (fh_dims h) i = 0) by (unfold dim_length; rewrite E; lia). rewrite EI. reflexivity. }
  pose proof (volume_pos _ PD) as VP. unfold rec_nums.
  pose proof (zlen_record_numbers (fv_type v) (b ++ d) (fv_begin v) (record_step h) (volume (tl (fvar_shape h v))) (fh_numrecs h) ltac:(lia) R0) as NL.
  rewrite ESH. cbn [tl]. rewrite vslice_nest; [|exact PD|lia|lia|lia|symmetry; exact NL].
  rewrite Z.sub_0_r, Z.mul_0_l. rewrite zdrop_0 by lia. rewrite ztake_all by lia. reflexivity.
Qed.

(** Any slice of interleaved records that does not start at the first record crashes *)
Lemma record_crash h b d v x y : reads_records h b d v -> lone_small h = false -> 0 < x -> x < y -> y <= fh_numrecs h ->
  exists c g, cdf_open (b ++ d) = Ok c /\ get_var_getter c (fv_name v) = Ok g /\ g_len g = fh_numrecs h /\
    get_slice g x y = Panic.
Proof.
  intros RR LS HX HXY HY. destruct (record_getter h b d v RR) as (c & g & OP & GG & CF & CN & CS & CR & EG & PD & EV & RB & BG & R0 & ST).
  exists c, g. split; [exact OP|]. split; [exact GG|]. split; [rewrite EG; reflexivity|].
  pose proof (rr_small _ _ _ _ RR) as SM. set (ds := tl (fvar_shape h v)) in *. set (R := fh_numrecs h) in *.
  pose proof (volume_pos ds PD) as VP. set (sz := esize (fv_type v)) in *.
  destruct (cty_elt (fv_type v)) as (T1 & T2 & T3). fold sz in T3.
  assert (ES : 1 <= sz <= 8) by (unfold sz, esize; apply BaseLemmas.ksize_pos).
  rewrite (Z.max_r 1 R) in SM by lia.
  assert (V2 : R * 1 <= R * volume ds) by (apply Z.mul_le_mono_nonneg_l; lia).
  assert (BV : 0 < x * volume ds <= R * volume ds) by (split; [apply Z.mul_pos_pos|apply Z.mul_le_mono_nonneg_r]; lia).
  assert (NV : 0 < (y - x) * volume ds <= R * volume ds) by (split; [apply Z.mul_pos_pos|apply Z.mul_le_mono_nonneg_r]; lia).
  assert (BS : 0 < x * volume ds * sz <= x * volume ds * 8) by (split; [apply Z.mul_pos_pos|apply Z.mul_le_mono_nonneg_l]; lia).
  assert (NS : 0 < (y - x) * volume ds * sz <= (y - x) * volume ds * 8) by (split; [apply Z.mul_pos_pos|apply Z.mul_le_mono_nonneg_l]; lia).
  rewrite EG. unfold get_slice, get_slice_c. cbn [g_lens g_chunk g_ty g_var g_cdf g_unl].
  replace (y <? x) with false by lia. replace (R =? 0) with false by lia.
  rewrite (i64_small (y - x)) by lia. rewrite (i64_small ((y - x) * volume ds)) by lia. rewrite (i64_small (x * volume ds)) by lia.
  rewrite T3. rewrite (i64_small (x * volume ds * sz)) by lia. rewrite (i64_small ((y - x) * volume ds * sz)) by lia. cbv zeta.
  rewrite CS, CN, LS. cbn [andb negb]. rewrite (go_make_ok R 16) by lia. rewrite (go_make_ok ((y - x) * volume ds)) by lia. cbn [rbind].
  destruct (Z.to_nat R) as [|n] eqn:EN; [lia|]. cbn [record_readers]. replace ((y - x) * volume ds * sz <=? 0) with false by lia.
  rewrite Z.mul_0_l. change (i64 0) with 0. cbv zeta. replace (0 <? x * volume ds * sz) with true by lia.
  cbn [multi_read]. replace ((y - x) * volume ds * sz <=? 0) with false by lia. reflexivity.
Qed.
