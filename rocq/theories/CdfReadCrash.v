(** When reading a variable of a file that opens as CDF crashes: the sizes of the variables of any such file, and
    the reading of all of a variable by cases. *)
From Coq Require Import Lia ZifyBool ZifyNat.
From Verif Require Import Prelude GoVal BaseLemmas OrderedMapModel OrderedMapProofs FillModel FillProofs CdfWriterModel CdfReaderModel
  ArraySpec ArrayProofs CdfConvert CdfFixed CdfHeader CdfFile CdfLocal CdfStore CdfParse CdfBounds CdfSlice.
Ltac Zify.zify_post_hook ::= Z.div_mod_to_equations.

(** ** The size kept of a record variable *)
Definition sized (dims : list rdim) (v : rvar) : Prop :=
  match v_ids v with
  | [] => True
  | i :: r => forall d, dim_at dims i = Ok d -> d_len d = 0 ->
      exists p t, dims_prod dims r 1 = Ok p /\ ty_of_code (v_type v) = Some t /\ v_vsize v = i64 (u64 (p * tysize t))
  end.
Lemma get_var_sized ver dims rs s v rs' r : get_var ver dims rs s = Ok ((v, rs'), r) -> 0 <= rs -> sized dims v /\ 0 <= rs'.
Proof.
  unfold get_var. intros E RS.
  destruct (read_name ver s) as [[nm s1]| |]; cbn [rbind] in E; try discriminate.
  destruct (read_number ver s1) as [[nd s2]| |]; cbn [rbind] in E; try discriminate.
  destruct (_ <? nd); [discriminate|].
  destruct (read_numbers ver _ s2) as [[ids s3]| |]; cbn [rbind] in E; try discriminate.
  destruct (get_attr_list ver s3) as [[at_ s4]| |]; cbn [rbind] in E; try discriminate.
  destruct (read32 s4) as [[vt s5]| |]; cbn [rbind] in E; try discriminate.
  destruct (read_number ver s5) as [[vs s6]| |]; cbn [rbind] in E; try discriminate.
  destruct (has_unlimited dims ids) as [u| |] eqn:EU; cbn [rbind] in E; try discriminate.
  destruct u.
  - destruct (dims_prod dims (tl ids) 1) as [p| |] eqn:EP; cbn [rbind] in E; try discriminate.
    destruct (ty_of_code vt) as [t|] eqn:ET; cbn [rbind] in E; try discriminate.
    match type of E with (let* _ := ?x in _) = _ => destruct x as [[off s7]| |]; cbn [rbind] in E; try discriminate end.
    injection E as <- <- _. unfold sized. cbn [v_ids v_type v_vsize]. split; [|unfold u64; apply Z.mod_pos_bound; lia].
    destruct ids as [|i ids]; [exact I|]. intros d _ _. cbn [tl] in EP. exists p, t. split; [exact EP|]. split; [exact ET|reflexivity].
  - cbn [rbind] in E.
    match type of E with (let* _ := ?x in _) = _ => destruct x as [[off s7]| |]; cbn [rbind] in E; try discriminate end.
    injection E as <- <- _. unfold sized. cbn [v_ids v_type v_vsize]. split; [|exact RS].
    destruct ids as [|i ids]; [exact I|]. intros d D1 D2. cbn [has_unlimited] in EU. rewrite D1 in EU. cbn [rbind] in EU.
    rewrite D2 in EU. discriminate.
Qed.
Lemma vars_loop_sized ver dims fuel : forall n st s st' r,
  get_vars_loop ver dims fuel n st s = Ok (st', r) -> 0 <= vl_rec st ->
  (forall k v, om_get (vl_vars st) k = Some v -> sized dims v) ->
  0 <= vl_rec st' /\ forall k v, om_get (vl_vars st') k = Some v -> sized dims v.
Proof.
  induction fuel as [|fuel IH]; intros n st s st' r E B H; cbn [get_vars_loop] in E.
  - destruct (n <=? 0); [|discriminate]. injection E as <- _. split; assumption.
  - destruct (n <=? 0); [injection E as <- _; split; assumption|].
    destruct (get_var _ _ _ _) as [[[v rs] s1]| |] eqn:EG; cbn [rbind] in E; try discriminate.
    destruct (get_var_sized _ _ _ _ _ _ _ EG B) as [SV RS].
    destruct (om_get (vl_vars st) (v_name v)) eqn:EO; [discriminate|].
    destruct (has_unlimited _ _) as [u| |]; cbn [rbind] in E; try discriminate.
    refine (IH _ _ _ _ _ E _ _); cbn [vl_vars vl_rec]; [exact RS|].
    intros k w. unfold om_get, om_add. destruct (mem _ _); cbn [om_vals];
    (intros X; destruct (bytes_dec k (v_name v)) as [->|N];
      [rewrite assoc_set_same in X; injection X as <-; exact SV|rewrite assoc_set_other in X by exact N; exact (H k w X)]).
Qed.
Lemma opened_sized f c : cdf_open f = Ok c -> 0 <= c_recsize c /\ forall k v, om_get (c_vars c) k = Some v -> sized (c_dims c) v.
Proof.
  unfold cdf_open, read_header. intros E.
  destruct (read_bytes 4 f) as [[m s0]| |]; cbn [rbind] in E; try discriminate.
  destruct (negb _); [discriminate|]. cbv zeta in E. destruct (negb _); [discriminate|].
  destruct (read_number _ _) as [[nr s1]| |]; cbn [rbind] in E; try discriminate.
  destruct (nr =? _); [discriminate|].
  destruct (get_nelems _ fieldDimension _) as [[nd s2]| |]; cbn [rbind] in E; try discriminate.
  destruct (_ <? nd); [discriminate|].
  destruct (get_dims _ _ _) as [[ds s3]| |]; cbn [rbind] in E; try discriminate.
  destruct (get_attr_list _ _) as [[ga s4]| |]; cbn [rbind] in E; try discriminate.
  destruct (get_nelems _ fieldVariable _) as [[nv s5]| |]; cbn [rbind] in E; try discriminate.
  destruct (get_vars_loop _ _ _ _ _ _) as [[vl s6]| |] eqn:EV; cbn [rbind] in E; try discriminate.
  apply vars_loop_sized in EV; [|cbn [vl_rec]; lia|intros k v H; discriminate]. destruct EV as [V1 V2].
  destruct (finish_rec vl) as [rs sp] eqn:EF. injection E as <-. cbn [c_recsize c_vars c_dims]. split; [|exact V2].
  assert (U : forall z, 0 <= u64 z) by (intros z; unfold u64; apply Z.mod_pos_bound; lia).
  assert (R : forall z, 0 <= round32 z).
  { intros z. unfold round32. cbv zeta. pose proof (U (z + 3)). pose proof (Z.mod_le (u64 (z + 3)) 4). lia. }
  unfold finish_rec in EF. destruct (vl_nrec vl =? 0); [injection EF as <- _; exact V1|].
  destruct (vl_nrec vl =? 1); [|injection EF as <- _; apply R].
  destruct (vl_first vl) as [w|]; [|injection EF as <- _; exact V1].
  destruct (ty_of_code (v_type w)) as [[|[]]|]; injection EF as <- _; first [apply U|exact V1].
Qed.

(** ** The dimensions of a variable *)
Lemma var_dims_tail c ids : Forall (fun d => 0 <= d_len d < 2 ^ 64) (c_dims c) -> forall l,
  var_dims c false ids = Ok l -> Forall (fun d => 0 < d) (map (fun x => fst (fst x)) l) /\ existsb snd l = false /\
    forall acc, 0 < acc -> acc * volume (map (fun x => fst (fst x)) l) < 2 ^ 64 ->
      dims_prod (c_dims c) ids acc = Ok (acc * volume (map (fun x => fst (fst x)) l)).
Proof.
  intros HD. induction ids as [|i ids IH]; intros l E; cbn [var_dims] in E.
  - injection E as <-. cbn [map volume existsb dims_prod]. split; [constructor|]. split; [reflexivity|]. intros acc _ _. f_equal. lia.
  - destruct (i <? zlen (c_dims c)); [|discriminate].
    destruct (dim_at (c_dims c) i) as [d| |] eqn:Ed; cbn [rbind] in E; try discriminate.
    pose proof (dim_at_in _ _ _ Ed) as Hd. rewrite Forall_forall in HD. pose proof (HD d Hd) as Rd.
    destruct (d_len d =? 0) eqn:Ez; [discriminate|].
    destruct (var_dims c false ids) as [l'| |]; cbn [rbind] in E; try discriminate. injection E as <-.
    destruct (IH l' eq_refl) as (A & B & C). cbn [map fst snd existsb volume dims_prod orb]. rewrite Ed. cbn [rbind].
    split; [constructor; [lia|exact A]|]. split; [exact B|]. intros acc Ha Hv.
    pose proof (volume_pos _ A) as VP.
    assert (0 < acc * d_len d) by (apply Z.mul_pos_pos; lia).
    assert (acc * d_len d * 1 <= acc * d_len d * volume (map (fun x => fst (fst x)) l')) by (apply Z.mul_le_mono_nonneg_l; lia).
    rewrite (u64_small (acc * d_len d)) by lia. rewrite C; [f_equal; ring|lia|lia].
Qed.
Lemma var_dims_fine c ids : Forall (fun i => 0 <= i) ids -> forall first, var_dims c first ids <> Panic.
Proof.
  induction 1 as [|i ids Hi _ IH]; intros first; cbn [var_dims]; [discriminate|].
  destruct (i <? zlen (c_dims c)) eqn:E; [|discriminate]. unfold dim_at. rewrite E.
  destruct (nth_error (c_dims c) (Z.to_nat i)) as [d|] eqn:N.
  - cbn [rbind]. specialize (IH false). destruct (d_len d =? 0); [destruct first; [|discriminate]|];
      destruct (var_dims c false ids); cbn [rbind]; first [discriminate|contradiction].
  - apply nth_error_None in N. unfold zlen in E. lia.
Qed.

(** A variable of any opened file: fixed or with records *)
Lemma getter_kinds f c n g : cdf_open f = Ok c -> are_bytes f -> get_var_getter c n = Ok g ->
  g_cdf g = c /\ c_file c = f /\ 0 <= c_numrecs c /\ 0 <= c_recsize c /\
  (g_unl g = false /\ Forall (fun d => 0 < d) (g_lens g) \/
   g_unl g = true /\ exists ds, g_lens g = c_numrecs c :: ds /\ Forall (fun d => 0 < d) ds /\
     (8 * volume ds < 2 ^ 63 -> v_vsize (g_var g) = volume ds * tysize (g_ty g))) /\
  g_chunk g = match g_lens g with [] => 1 | x :: _ => if x =? 0 then total_size (g_lens g) else i64 (Z.quot (total_size (g_lens g)) (i64 x)) end /\
  g_len g = match g_lens g with [] => 1 | x :: _ => if x =? 0 then 0 else i64 x end.
Proof.
  intros EO B EG. destruct (opened_in f c EO B) as (F1 & F2 & F3 & F4). destruct (opened_sized f c EO) as [S1 S2]. unfold get_var_getter in EG.
  destruct (om_get (c_vars c) n) as [v|] eqn:Ev; [|discriminate]. destruct (F4 n v Ev) as (V1 & V2 & V3). specialize (S2 n v Ev).
  destruct (var_dims c true (v_ids v)) as [l| |] eqn:El; cbn [rbind] in EG; try discriminate. cbv zeta in EG.
  destruct (match map (fun x => fst (fst x)) l with [] => _ | _ => _ end) as [chunk len] eqn:EC.
  destruct (ty_of_code (v_type v)) as [t|] eqn:Et; [|discriminate]. injection EG as <-.
  cbn [g_cdf g_unl g_lens g_var g_ty g_chunk g_len].
  split; [reflexivity|]. split; [exact F1|]. split; [lia|]. split; [exact S1|]. split.
  - unfold sized in S2. destruct (v_ids v) as [|i ids]; cbn [var_dims] in El.
    + injection El as <-. left. split; [reflexivity|constructor].
    + destruct (i <? zlen (c_dims c)); [|discriminate].
      destruct (dim_at (c_dims c) i) as [d| |] eqn:Ed; cbn [rbind] in El; try discriminate.
      destruct (d_len d =? 0) eqn:Ez; destruct (var_dims c false ids) as [l'| |] eqn:El'; cbn [rbind] in El; try discriminate;
        injection El as <-; destruct (var_dims_tail c ids F3 l' El') as (T1 & T2 & T3); cbn [map fst snd existsb orb].
      * right. split; [reflexivity|]. eexists. split; [reflexivity|]. split; [exact T1|]. intros HV.
        destruct (S2 d eq_refl ltac:(lia)) as (p & t' & P1 & P2 & P3). pose proof (volume_pos _ T1) as VP.
        rewrite (T3 1) in P1 by lia. rewrite Z.mul_1_l in P1. injection P1 as <-. rewrite Et in P2. injection P2 as <-. rewrite P3.
        pose proof (tysize_pos t) as TS.
        assert (0 < volume (map (fun x => fst (fst x)) l') * tysize t <= volume (map (fun x => fst (fst x)) l') * 8)
          by (split; [apply Z.mul_pos_pos|apply Z.mul_le_mono_nonneg_l]; lia).
        rewrite u64_small by lia. apply i64_small. lia.
      * left. split; [exact T2|]. constructor; [|exact T1]. pose proof (dim_at_in _ _ _ Ed) as Hd.
        rewrite Forall_forall in F3. specialize (F3 d Hd). lia.
  - destruct (map (fun x => fst (fst x)) l) as [|x r]; [injection EC as <- <-; split; reflexivity|].
    destruct (x =? 0); injection EC as <- <-; split; reflexivity.
Qed.

(** ** Reading all of it *)
Lemma convert_fine t ds data : Forall (fun d => 0 < d) ds -> 24 * volume ds <= 2 ^ 48 -> volume ds = zlen data -> convert false t ds data <> Panic.
Proof.
  intros P V L. destruct ds as [|d ds].
  - destruct data as [|z data]; [cbn in L; discriminate|]. cbn [convert]. destruct t; discriminate.
  - destruct (convert_nest t (d :: ds) data P V L) as (x & X & _); [discriminate|]. rewrite X. discriminate.
Qed.
Lemma convert_none t ds : convert false t (0 :: ds) [] <> Panic.
Proof.
  destruct ds as [|d1 [|d2 ds]].
  - cbn [convert]. discriminate.
  - rewrite convert_rank2. destruct t; cbn; discriminate.
  - rewrite convert_generic by (right; discriminate). cbn [empty_slice]. discriminate.
Qed.
Lemma total_size_zero ds : total_size (0 :: ds) = 0.
Proof.
  unfold total_size. cbn [fold_left]. change (i64 (1 * i64 0)) with 0. induction ds as [|d ds IH]; [reflexivity|].
  cbn [fold_left]. rewrite Z.mul_0_l. change (i64 0) with 0. exact IH.
Qed.

Definition all_some (rs : list (option (Z * Z))) : Prop := Forall (fun r => r <> None) rs.
Lemma multi_fine f rs : all_some rs -> forall need, multi_read f rs need <> Panic.
Proof.
  induction 1 as [|r rs H _ IH]; intros need; cbn [multi_read]; destruct (need <=? 0); try discriminate.
  destruct r as [[off lim]|]; [|contradiction]. destruct (lim <=? 0); [apply IH|]. destruct (off <? 0); [discriminate|].
  cbv zeta. match goal with |- context[multi_read f rs ?x] => specialize (IH x); destruct (multi_read f rs x) end; cbn [rbind]; first [discriminate|contradiction].
Qed.
Lemma readers_some v rs m : 0 < v_vsize v -> 0 <= rs -> forall i, 0 <= i -> (i + Z.of_nat m) * rs < 2 ^ 63 -> Z.of_nat m * v_vsize v < 2 ^ 63 ->
  all_some (record_readers v rs m i 0 (Z.of_nat m * v_vsize v)).
Proof.
  intros VS RS. induction m as [|m IH]; intros i I0 IB SB; cbn [record_readers]; [constructor|].
  assert (M0 : 0 <= Z.of_nat m * v_vsize v) by (apply Z.mul_nonneg_nonneg; lia).
  assert (ES : Z.of_nat (S m) * v_vsize v = Z.of_nat m * v_vsize v + v_vsize v) by (rewrite Nat2Z.inj_succ; ring).
  replace (Z.of_nat (S m) * v_vsize v <=? 0) with false by lia.
  assert (I1 : 0 <= i * rs) by (apply Z.mul_nonneg_nonneg; lia).
  assert (I2 : (i + 1) * rs <= (i + Z.of_nat (S m)) * rs) by (apply Z.mul_le_mono_nonneg_r; lia).
  assert (I3 : (i + 1) * rs = i * rs + rs) by ring.
  rewrite (i64_small rs) by lia. rewrite (i64_small (i * rs)) by lia. cbv zeta.
  replace (i * rs <? 0) with false by lia. constructor; [discriminate|].
  replace (i64 (Z.of_nat (S m) * v_vsize v - v_vsize v)) with (Z.of_nat m * v_vsize v) by (rewrite i64_small; lia).
  apply IH; [lia| |lia]. replace (i + 1 + Z.of_nat m) with (i + Z.of_nat (S m)) by lia. exact IB.
Qed.
Lemma multi_length f rs : forall need b, 0 <= need -> multi_read f rs need = Ok b -> zlen b = need.
Proof.
  induction rs as [|r rs IH]; intros need b N E; cbn [multi_read] in E; destruct (need <=? 0) eqn:Z0;
    try (injection E as <-; rewrite zlen_nil; lia); try discriminate.
  destruct r as [[off lim]|]; [|discriminate]. destruct (lim <=? 0); [exact (IH _ _ N E)|]. destruct (off <? 0); [discriminate|].
  cbv zeta in E. destruct (multi_read f rs _) as [rest| |] eqn:ER; cbn [rbind] in E; try discriminate. injection E as <-.
  assert (L : zlen (ztake (Z.min lim need) (zdrop off f)) <= need) by (rewrite zlen_ztake_min; lia).
  apply IH in ER; [|lia]. rewrite zlen_app, ER. lia.
Qed.

(** Whether the value is read as one piece that is filled up *)
Definition one_piece (g : getter) : Prop := g_unl g = false \/ c_special (g_cdf g) = true.

Lemma all_fine f c n g : cdf_open f = Ok c -> are_bytes f -> get_var_getter c n = Ok g -> 24 * volume (g_lens g) <= 2 ^ 48 ->
  (one_piece g -> fill_pattern (g_var g) (g_ty g) <> Panic) ->
  (g_unl g = true -> c_numrecs c * c_recsize c < 2 ^ 63) ->
  get_slice_c g 0 (g_len g) <> Panic.
Proof.
  intros EO B EG HV HF HR. destruct (getter_kinds f c n g EO B EG) as (GC & CF & N0 & R0 & K & CH & LN).
  pose proof (tysize_pos (g_ty g)) as TS.
  assert (D : (exists ds, g_lens g = 0 :: ds /\ g_unl g = true /\ c_numrecs c = 0) \/ Forall (fun d => 0 < d) (g_lens g)).
  { destruct K as [[_ K]|[KU (ds & K1 & K2 & _)]]; [right; exact K|]. destruct (c_numrecs c =? 0) eqn:E.
    - left. exists ds. rewrite K1. split; [f_equal; lia|]. split; [exact KU|lia].
    - right. rewrite K1. constructor; [lia|exact K2]. }
  destruct D as [(ds & D & DU & D0)|D].
  - rewrite D in CH, LN. change (0 =? 0) with true in CH, LN. cbn [rbind] in CH, LN. rewrite total_size_zero in CH.
    unfold get_slice_c. rewrite LN, CH, D, GC, DU, D0. change (0 <? 0) with false. change (0 =? 0) with true. cbv iota zeta.
    rewrite ?Z.mul_0_l. change (i64 0) with 0. rewrite ?Z.mul_0_l. change (i64 0) with 0.
    assert (DL : forall raw, dec_list (fill_kind (g_ty g)) (Z.to_nat 0) raw = []) by reflexivity.
    destruct (true && negb (c_special c)) eqn:E.
    + change (go_make 0 16) with (@Ok unit tt). cbn [rbind]. change (Z.to_nat 0) with 0%nat. cbn [record_readers].
      replace (go_make 0 (tysize (g_ty g))) with (@Ok unit tt) by (symmetry; apply go_make_ok; lia). cbn [rbind multi_read dec_list]. apply convert_none.
    + destruct (_ <? 0); [discriminate|].
      assert (OP : one_piece g) by (right; rewrite GC; cbn [andb] in E; destruct (c_special c); [reflexivity|discriminate]).
      specialize (HF OP). destruct (fill_pattern (g_var g) (g_ty g)) as [pat| |]; cbn [rbind]; [|discriminate|contradiction].
      rewrite go_make_ok by lia. cbn [rbind]. rewrite DL. apply convert_none.
  - pose proof (volume_pos _ D) as VP. rewrite total_size_ok in CH by (try exact D; lia).
    assert (S : exists size nch, (nch = match g_lens g with [] => 1 | x :: _ => if x =? 0 then 0 else i64 (g_len g - 0) end) /\
      size = i64 (nch * g_chunk g) /\ size = volume (g_lens g) /\ (match g_lens g with [] => [] | _ :: r => nch :: r end) = g_lens g /\ 0 <= g_len g /\
      (forall x r, g_lens g = x :: r -> x = nch)).
    { destruct (g_lens g) as [|x r] eqn:EL.
      - exists 1, 1. rewrite CH, LN. cbn [volume]. repeat split; try reflexivity; try lia. intros x r X. discriminate.
      - apply Forall_cons_iff in D. destruct D as [D1 D2]. replace (x =? 0) with false in * by lia.
        pose proof (volume_tail_le x r D1 D2) as W1. pose proof (volume_head_le x r D1 D2) as W2. cbn [volume] in *.
        pose proof (volume_pos _ D2) as W3.
        rewrite (i64_small x) in CH, LN by lia. rewrite (Z.mul_comm x), Z.quot_mul in CH by lia. rewrite (i64_small (volume r)) in CH by lia.
        exists (x * volume r), x. rewrite CH, LN, Z.sub_0_r. rewrite (i64_small x) by lia. rewrite (i64_small (x * volume r)) by lia.
        repeat split; try reflexivity; try lia. intros y s X. injection X as -> ->. reflexivity. }
    destruct S as (size & nch & S1 & S2 & S3 & S4 & S5 & S6).
    unfold get_slice_c. replace (g_len g <? 0) with false by lia. rewrite <- S1. cbv zeta. rewrite <- S2, S4.
    rewrite ?Z.mul_0_l. change (i64 0) with 0. rewrite ?Z.mul_0_l. change (i64 0) with 0. rewrite GC, CF.
    assert (SB : 0 < size * tysize (g_ty g) <= size * 8) by (split; [apply Z.mul_pos_pos|apply Z.mul_le_mono_nonneg_l]; lia).
    rewrite (i64_small (size * tysize (g_ty g))) by lia.
    assert (CV : forall raw, convert false (g_ty g) (g_lens g) (dec_list (fill_kind (g_ty g)) (Z.to_nat size) raw) <> Panic).
    { intros raw. apply convert_fine; [exact D|exact HV|]. rewrite zlen_dec_list by lia. lia. }
    destruct (g_unl g && negb (c_special c)) eqn:E.
    + apply andb_true_iff in E. destruct E as [EU ES]. destruct K as [[K _]|[_ (ds & K1 & K2 & K3)]]; [congruence|].
      specialize (HR EU). pose proof (volume_pos _ K2) as W3. rewrite K1 in S3, D, HV. cbn [volume] in S3, HV.
      apply Forall_cons_iff in D. destruct D as [D1 _].
      pose proof (volume_tail_le _ ds D1 K2) as W1. pose proof (volume_head_le _ ds D1 K2) as W2.
      rewrite go_make_ok by lia. cbn [rbind]. rewrite go_make_ok by lia. cbn [rbind].
      assert (VS : v_vsize (g_var g) = volume ds * tysize (g_ty g)) by (apply K3; lia).
      assert (NB : size * tysize (g_ty g) = Z.of_nat (Z.to_nat (c_numrecs c)) * v_vsize (g_var g)).
      { rewrite VS, Z2Nat.id by lia. rewrite S3. ring. }
      rewrite NB.
      assert (AS : all_some (record_readers (g_var g) (c_recsize c) (Z.to_nat (c_numrecs c)) 0 0 (Z.of_nat (Z.to_nat (c_numrecs c)) * v_vsize (g_var g)))).
      { apply readers_some; [rewrite VS; apply Z.mul_pos_pos; lia|exact R0|lia| |lia]. rewrite Z2Nat.id by lia. exact HR. }
      match goal with |- context[multi_read ?a ?b ?d] => pose proof (multi_fine a b AS d) as MF; destruct (multi_read a b d) as [raw| |] end;
        cbn [rbind]; [apply CV|discriminate|contradiction].
    + destruct (_ <? 0); [discriminate|].
      assert (OP : one_piece g) by (unfold one_piece; rewrite GC; destruct (g_unl g), (c_special c); cbn [andb negb] in E; auto; discriminate).
      specialize (HF OP). destruct (fill_pattern (g_var g) (g_ty g)) as [pat| |]; cbn [rbind]; [|discriminate|contradiction].
      rewrite go_make_ok by lia. cbn [rbind]. apply CV.
Qed.
