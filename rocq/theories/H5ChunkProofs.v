(** Chunk placement: proofs. *)
From Coq Require Import ZifyBool ZifyNat.
From Verif Require Import Prelude BaseLemmas ArraySpec ArrayProofs ChunkSpec H5LayoutModel.

Lemma u64_mul_l a b : u64 (u64 a * b) = u64 (a * b).
Proof. unfold u64. now rewrite Z.mul_mod_idemp_l by lia. Qed.
Lemma u64_mul_r a b : u64 (a * u64 b) = u64 (a * b).
Proof. unfold u64. now rewrite Z.mul_mod_idemp_r by lia. Qed.
Lemma u64_add_l a b : u64 (u64 a + b) = u64 (a + b).
Proof. unfold u64. now rewrite Z.add_mod_idemp_l by lia. Qed.
Lemma u64_add_r a b : u64 (a + u64 b) = u64 (a + b).
Proof. unfold u64. now rewrite Z.add_mod_idemp_r by lia. Qed.
Lemma u64_u64 a : u64 (u64 a) = u64 a.
Proof. unfold u64. now rewrite Z.mod_mod by lia. Qed.

Lemma prod64_fold l : forall a, u64 a = a -> fold_left (fun a x => u64 (a * x)) l a = u64 (a * volume l).
Proof.
  induction l as [|x l IH]; intros a Ha; cbn [fold_left volume]; [now rewrite Z.mul_1_r|].
  rewrite IH by apply u64_u64. rewrite u64_mul_l. f_equal. lia.
Qed.
Lemma prod64_volume l : prod64 l = u64 (volume l).
Proof. unfold prod64. rewrite prod64_fold by reflexivity. now rewrite Z.mul_1_l. Qed.

(** Extents and chunk extents: positive chunks, and no wrap-around in the rounding up *)
Definition ext_ok (dims layout : list Z) : Prop :=
  Forall2 (fun d l => 0 <= d /\ 1 <= l /\ d + l <= 2 ^ 64) dims layout.

Lemma grid_eq dims layout : ext_ok dims layout -> zip cdiv dims layout = chunk_grid dims layout.
Proof.
  induction 1 as [|d l ds ls (Hd & Hl & Hs) _ IH]; [reflexivity|]. cbn [zip chunk_grid]. rewrite IH.
  unfold cdiv. rewrite u64_small by lia. reflexivity.
Qed.

Lemma grid_nonneg dims layout : ext_ok dims layout -> Forall (fun g => 0 <= g) (chunk_grid dims layout).
Proof.
  induction 1 as [|d l ds ls (Hd & Hl & _) _ IH]; cbn [chunk_grid]; constructor; [|exact IH].
  apply Z.div_pos; lia.
Qed.

Lemma flatIndex_eq offs : forall dims layout, ext_ok dims layout -> List.length offs = List.length dims ->
  flatIndex offs dims layout = u64 (offset (chunk_grid dims layout) (chunk_of layout offs)).
Proof.
  induction offs as [|o os IH]; intros dims layout H E; destruct H as [|d l ds ls Hh Ht]; try discriminate; [reflexivity|].
  cbn [flatIndex chunk_grid chunk_of offset]. rewrite (IH ds ls Ht) by (cbn [List.length] in E; lia).
  rewrite grid_eq, prod64_volume by exact Ht. rewrite u64_mul_r, u64_add_l, u64_add_r. reflexivity.
Qed.

Lemma flat_eq offs dims layout dt : ext_ok dims layout -> List.length offs = List.length dims ->
  calculateFlatOffset offs dims layout dt =
  u64 (offset (chunk_grid dims layout) (chunk_of layout offs) * volume layout * dt).
Proof.
  intros H E. unfold calculateFlatOffset. rewrite flatIndex_eq, prod64_volume by assumption.
  rewrite u64_mul_r, (u64_mul_l (offset _ _) (volume layout)), u64_mul_l. reflexivity.
Qed.

Lemma size_eq dims layout dt : ext_ok dims layout -> dims <> [] ->
  calcAttrSize dims layout dt = u64 (volume (chunk_grid dims layout) * volume layout * dt).
Proof.
  intros H Hne. unfold calcAttrSize, calcChunkSize.
  destruct layout as [|l ls]; [inversion H; subst; contradiction|].
  rewrite grid_eq, !prod64_volume by exact H.
  rewrite u64_mul_r, (u64_mul_l (volume _) (volume _)), u64_mul_l. reflexivity.
Qed.

Lemma offset_range ds idx : in_shape ds idx -> 0 <= offset ds idx < volume ds.
Proof.
  induction 1 as [|d i ds idx Hi Hr IH]; cbn [offset volume]; [lia|]. nia.
Qed.

Lemma in_shape_nonneg ds idx : in_shape ds idx -> Forall (fun d => 0 < d) ds.
Proof. induction 1; constructor; [lia|assumption]. Qed.

Lemma offset_lex ds : forall a b, in_shape ds a -> in_shape ds b -> lex_lt a b -> offset ds a + 1 <= offset ds b.
Proof.
  induction ds as [|d ds IH]; intros a b Ha Hb Hl.
  - inversion Ha; subst. inversion Hl.
  - inversion Ha as [|? i ? x Hi Hx]; subst. inversion Hb as [|? j ? y Hj Hy]; subst. cbn [offset].
    pose proof (offset_range _ _ Hx). pose proof (offset_range _ _ Hy).
    inversion Hl as [? ? ? ? Hab Hlen|? ? ? Hlt]; subst.
    + nia.
    + specialize (IH _ _ Hx Hy Hlt). lia.
Qed.

Lemma layout_pos dims layout : ext_ok dims layout -> 0 < volume layout.
Proof. intros H. apply volume_pos. induction H; constructor; [lia|assumption]. Qed.

Lemma in_shape_length ds idx : in_shape ds idx -> List.length ds = List.length idx.
Proof. induction 1; cbn [List.length]; lia. Qed.

Lemma chunk_of_length ls : forall idx, List.length ls = List.length idx -> List.length (chunk_of ls idx) = List.length ls.
Proof. induction ls; intros [|i idx] E; cbn [chunk_of List.length] in *; try lia. rewrite IHls; lia. Qed.

Lemma placement dims layout dt : ext_ok dims layout -> dims <> [] -> 0 <= dt ->
  volume (chunk_grid dims layout) * volume layout * dt < 2 ^ 64 ->
  forall o, List.length o = List.length dims -> in_shape (chunk_grid dims layout) (chunk_of layout o) ->
  calculateFlatOffset o dims layout dt =
    offset (chunk_grid dims layout) (chunk_of layout o) * (volume layout * dt) /\
  0 <= calculateFlatOffset o dims layout dt /\
  calculateFlatOffset o dims layout dt + volume layout * dt <= calcAttrSize dims layout dt /\
  calcAttrSize dims layout dt = volume (chunk_grid dims layout) * volume layout * dt.
Proof.
  intros H Hne Hdt Ht o El Hin. pose proof (offset_range _ _ Hin) as R. pose proof (layout_pos _ _ H) as Lp.
  rewrite flat_eq, size_eq by assumption.
  set (G := volume (chunk_grid dims layout)) in *. set (V := volume layout) in *.
  set (x := offset _ _) in *.
  assert (HV : 0 <= V * dt) by (apply Z.mul_nonneg_nonneg; lia).
  assert (E1 : (x + 1) * (V * dt) <= G * (V * dt)) by (apply Z.mul_le_mono_nonneg_r; lia).
  assert (E2 : 0 <= x * (V * dt)) by (apply Z.mul_nonneg_nonneg; lia).
  rewrite !u64_small by lia. repeat split; lia.
Qed.
