(** Slices and boxes of fixed-size variables. *)
From Coq Require Import ZifyBool ZifyNat.
From Verif Require Import Prelude GoVal BaseLemmas OrderedMapModel FillModel FillProofs
  ArraySpec ArrayProofs SliceSpec CdfWriterModel CdfReaderModel CdfConvert CdfFixed CdfLocal CdfBounds.
Ltac Zify.zify_post_hook ::= Z.div_mod_to_equations.

(** ** From the public calls to [fixed_getter] *)
Lemma dim_at_in dims i d : dim_at dims i = Ok d -> In d dims.
Proof.
  unfold dim_at. destruct (i <? zlen dims); [|discriminate].
  destruct (nth_error dims (Z.to_nat i)) eqn:E; [|discriminate]. intros X. injection X as <-. exact (nth_error_In _ _ E).
Qed.
Lemma var_dims_pos c ids : Forall (fun d => 0 <= d_len d < 2 ^ 64) (c_dims c) -> forall first l,
  var_dims c first ids = Ok l -> existsb snd l = false -> Forall (fun d => 0 < d) (map (fun x => fst (fst x)) l).
Proof.
  intros HD. induction ids as [|i ids IH]; intros first l E U; cbn [var_dims] in E; [injection E as <-; constructor|].
  destruct (i <? zlen (c_dims c)); [|discriminate].
  destruct (dim_at (c_dims c) i) as [d| |] eqn:Ed; cbn [rbind] in E; try discriminate.
  apply dim_at_in in Ed. rewrite Forall_forall in HD. pose proof (HD d Ed) as Hd.
  destruct (d_len d =? 0) eqn:E0.
  - destruct first; [|discriminate]. destruct (var_dims c false ids); cbn [rbind] in E; try discriminate.
    injection E as <-. cbn [existsb snd] in U. discriminate.
  - destruct (var_dims c false ids) as [l'| |] eqn:El; cbn [rbind] in E; try discriminate.
    injection E as <-. cbn [existsb snd orb] in U. cbn [map fst]. constructor; [lia|]. exact (IH false l' El U).
Qed.

Lemma getter_fixed f c n g : cdf_open f = Ok c -> are_bytes f -> get_var_getter c n = Ok g -> g_unl g = false ->
  24 * volume (g_lens g) <= 2 ^ 48 -> v_begin (g_var g) < 2 ^ 62 ->
  fixed_getter g /\ c_file (g_cdf g) = f /\ attrs_wt (v_attrs (g_var g)).
Proof.
  intros EO B EG U V HB. destruct (opened_in f c EO B) as (F1 & F2 & F3 & F4). unfold get_var_getter in EG.
  destruct (om_get (c_vars c) n) as [v|] eqn:Ev; [|discriminate]. destruct (F4 n v Ev) as (V1 & V2 & V3).
  destruct (var_dims c true (v_ids v)) as [l| |] eqn:El; cbn [rbind] in EG; try discriminate. cbv zeta in EG.
  destruct (match map _ l with [] => _ | _ => _ end) as [chunk len] eqn:EC.
  destruct (ty_of_code (v_type v)) as [t|]; [|discriminate]. injection EG as <-.
  cbn [g_unl g_lens g_var g_cdf] in *. split; [|split; [exact F1|exact V2]].
  pose proof (var_dims_pos c _ F3 _ _ El U) as P. set (lens := map (fun x => fst (fst x)) l) in *.
  constructor; cbn [g_unl g_lens g_chunk g_len g_var]; [exact U|exact P| | |exact V|lia].
  - rewrite total_size_ok in EC by (try exact P; lia). destruct lens as [|d ds].
    + injection EC as <- _. reflexivity.
    + apply Forall_cons_iff in P. destruct P as [P1 P2]. replace (d =? 0) with false in EC by lia.
      pose proof (volume_tail_le d ds P1 P2). pose proof (volume_head_le d ds P1 P2). cbn [volume] in *.
      injection EC as <- _. rewrite (i64_small d) by lia. rewrite Z.mul_comm, Z.quot_mul by lia.
      cbn [tl]. pose proof (volume_pos _ P2). apply i64_small. lia.
  - rewrite total_size_ok in EC by (try exact P; lia). destruct lens as [|d ds].
    + injection EC as _ <-. reflexivity.
    + apply Forall_cons_iff in P. destruct P as [P1 P2]. replace (d =? 0) with false in EC by lia.
      pose proof (volume_head_le d ds P1 P2). cbn [volume] in *.
      injection EC as _ <-. apply i64_small. lia.
Qed.

(** ** Slices of a row-major array *)
Lemma ztake_map {A B} (f : A -> B) n l : ztake n (map f l) = map f (ztake n l).
Proof. unfold ztake. apply firstn_map. Qed.
Lemma zdrop_map {A B} (f : A -> B) n l : zdrop n (map f l) = map f (zdrop n l).
Proof. unfold zdrop. apply skipn_map. Qed.

Lemma vslice_nest t n ds (data : list Z) b e : Forall (fun d => 0 < d) ds ->
  0 <= b -> b <= e -> e <= n -> n * volume ds = zlen data ->
  vslice b e (nest t (n :: ds) data) =
  nest t ((e - b) :: ds) (ztake ((e - b) * volume ds) (zdrop (b * volume ds) data)).
Proof.
  intros P Hb He Hn Hv. pose proof (volume_pos ds P) as HV. destruct ds as [|d2 ds].
  - cbn [volume] in *. rewrite !Z.mul_1_r in *. cbn [nest].
    rewrite ztake_ztake, Z.min_id, ztake_all with (n := n) by lia.
    destruct t; cbn [row vslice]; [reflexivity|]. now rewrite zdrop_map, ztake_map.
  - set (ds2 := d2 :: ds) in *.
    change (nest t (n :: ds2) data) with (VSlice (arr_type t (List.length ds2)) (map (nest t ds2) (chunks (Z.to_nat n) (volume ds2) data))).
    match goal with |- _ = nest t (?m :: ds2) ?x => change (nest t (m :: ds2) x) with
      (VSlice (arr_type t (List.length ds2)) (map (nest t ds2) (chunks (Z.to_nat m) (volume ds2) x))) end.
    cbn [vslice]. f_equal. rewrite zdrop_map, ztake_map. f_equal. unfold ztake at 1. unfold zdrop at 1.
    replace (Z.to_nat n) with (Z.to_nat b + (Z.to_nat (e - b) + Z.to_nat (n - e)))%nat by lia.
    rewrite chunks_skip by lia. rewrite chunks_first. rewrite Z2Nat.id by lia.
    assert (b * volume ds2 + (e - b) * volume ds2 <= n * volume ds2).
    { rewrite <- Z.mul_add_distr_r. apply Z.mul_le_mono_nonneg_r; lia. }
    assert (0 <= b * volume ds2) by (apply Z.mul_nonneg_nonneg; lia).
    symmetry. apply chunks_take; [lia| |rewrite zlen_zdrop; lia]. rewrite Z2Nat.id by lia. lia.
Qed.

Definition char_empty (g : getter) (b e : Z) : Prop := b = e /\ g_ty g = TChar /\ 3 <= zlen (g_lens g).

Lemma slice_whole g pat b e : fixed_getter g -> fill_pattern (g_var g) (g_ty g) = Ok pat ->
  b = 0 \/ aligned (c_file (g_cdf g)) (v_begin (g_var g)) (g_bytes g) (tysize (g_ty g)) ->
  g_lens g <> [] -> 0 <= b -> b <= e -> e <= g_len g ->
  exists w x, get_slice_c g 0 (g_len g) = Ok w /\ erase w = nest (elt_of (g_ty g)) (g_lens g) (g_data g pat) /\
    get_slice_c g b e = Ok x /\
    ((~ char_empty g b e /\ erase x = vslice b e (erase w)) \/ (char_empty g b e /\ exists t, x = CSlice t [] [])).
Proof.
  intros HG HP HA NE H1 H2 H3. destruct (values_fixed g pat HG HP) as (w & W1 & W2); [intros _ X; contradiction|].
  exists w. pose proof (get_slice_fixed g pat b e HG HP HA NE H1 H2 H3) as GS.
  pose proof (fg_pos g HG) as P. pose proof (fg_vol g HG) as V. pose proof (fg_len g HG) as L.
  pose proof (zlen_g_data g pat HG) as ZD. rewrite (fg_chunk g HG) in GS. unfold g_total in ZD.
  unfold char_empty. rewrite W2.
  destruct (g_lens g) as [|n ds] eqn:EL; [contradiction|]. cbn [tl volume] in *.
  apply Forall_cons_iff in P. destruct P as [P1 P2]. pose proof (volume_pos ds P2) as HV. rewrite L in H3.
  rewrite (vslice_nest (elt_of (g_ty g)) n ds (g_data g pat) b e) by (try exact P2; lia).
  destruct (Z.eq_dec b e) as [->|N].
  - rewrite Z.sub_diag in *. cbn [Z.mul] in *. rewrite ztake_0 in * by lia.
    destruct ds as [|d2 [|d3 ds]].
    + destruct (convert_empty (g_ty g) 0 [] eq_refl) as (x & X1 & X2); [now left|].
      exists x. rewrite GS. split; [exact W1|]. split; [reflexivity|]. split; [exact X1|]. left. split; [|exact X2].
      rewrite !zlen_cons, zlen_nil. lia.
    + destruct (convert_empty (g_ty g) 0 [d2] eq_refl) as (x & X1 & X2); [now right; right|].
      exists x. rewrite GS. split; [exact W1|]. split; [reflexivity|]. split; [exact X1|]. left. split; [|exact X2].
      rewrite !zlen_cons, zlen_nil. lia.
    + destruct (g_ty g) as [|k] eqn:ET.
      * eexists. rewrite GS. split; [exact W1|]. split; [reflexivity|]. rewrite convert_generic by (right; discriminate).
        cbn [empty_slice List.length]. split; [reflexivity|]. right. split; [|eexists; reflexivity].
        split; [reflexivity|]. split; [reflexivity|]. rewrite !zlen_cons. pose proof (zlen_nonneg ds). lia.
      * destruct (convert_empty (TNum k) 0 (d2 :: d3 :: ds) eq_refl) as (x & X1 & X2); [right; left; discriminate|].
        exists x. rewrite GS. split; [exact W1|]. split; [reflexivity|]. split; [exact X1|]. left. split; [|exact X2].
        intros (_ & X & _). discriminate.
  - pose proof (nest_slice_rows b e n ds (g_data g pat) P2 H1 H2 H3 ltac:(lia)) as ZR.
    destruct (convert_nest (g_ty g) ((e - b) :: ds) (ztake ((e - b) * volume ds) (zdrop (b * volume ds) (g_data g pat))))
      as (x & X1 & X2).
    + constructor; [lia|exact P2].
    + cbn [volume]. assert ((e - b) * volume ds <= n * volume ds) by (apply Z.mul_le_mono_nonneg_r; lia). lia.
    + cbn [volume]. symmetry. exact ZR.
    + intros _ X. discriminate.
    + exists x. rewrite GS. split; [exact W1|]. split; [reflexivity|]. split; [exact X1|]. left. split; [|exact X2]. intros (X & _). contradiction.
Qed.
