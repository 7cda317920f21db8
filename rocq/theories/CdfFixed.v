(** Reading fixed-size variables. *)
From Coq Require Import ZifyBool ZifyNat.
From Verif Require Import Prelude GoVal BaseLemmas OrderedMapModel FillModel FillProofs
  ArraySpec ArrayProofs CdfWriterModel CdfReaderModel CdfConvert.
Ltac Zify.zify_post_hook ::= Z.div_mod_to_equations.

(** ** The byte stream of a fixed-size variable *)
Definition avail (f : bytes) (off : Z) : Z := Z.max 0 (zlen f - off).

Definition stream (f : bytes) (off : Z) (pat : bytes) (start n : Z) : bytes :=
  let got := ztake n (zdrop (off + start) f) in
  got ++ fill_stream pat (Z.to_nat (n - zlen got)).

Lemma fill_stream_cyc pat n : pat <> [] -> fill_stream pat n = cyc pat 0 n.
Proof.
  intros H. unfold fill_stream, new_fvr. rewrite fv_read_spec; auto.
  destruct pat; [easy|cbn; lia].
Qed.
Lemma zlen_cyc pat i n : zlen (cyc pat i n) = Z.of_nat n.
Proof. unfold zlen. now rewrite cyc_length. Qed.

Lemma zlen_stream f off pat start n : pat <> [] -> 0 <= n -> zlen (stream f off pat start n) = n.
Proof.
  intros Hp Hn. unfold stream. rewrite zlen_app, fill_stream_cyc, zlen_cyc by easy.
  pose proof (zlen_ztake_min n (zdrop (off + start) f)) as E.
  pose proof (zlen_nonneg (zdrop (off + start) f)). lia.
Qed.

Lemma cyc_drop pat i n m : (m <= n)%nat -> skipn m (cyc pat i n) = cyc pat (i + m) (n - m).
Proof.
  intros H. replace n with (m + (n - m))%nat at 1 by lia. rewrite cyc_app.
  rewrite skipn_app, cyc_length, Nat.sub_diag, skipn_all2 by (rewrite cyc_length; lia). reflexivity.
Qed.
Lemma cyc_take pat i n m : (m <= n)%nat -> firstn m (cyc pat i n) = cyc pat i m.
Proof.
  intros H. replace n with (m + (n - m))%nat by lia. rewrite cyc_app.
  rewrite firstn_app, cyc_length, Nat.sub_diag. cbn. rewrite app_nil_r.
  apply firstn_all2. rewrite cyc_length. lia.
Qed.

(** Aligned: the file does not end in the middle of an element of the variable. *)
Definition aligned (f : bytes) (off total sz : Z) : Prop :=
  total <= avail f off \/ avail f off mod sz = 0.

Lemma zlen_zdrop_off f off : 0 <= off -> zlen (zdrop off f) = avail f off.
Proof. intros. unfold avail. rewrite zlen_zdrop. lia. Qed.

Lemma stream_slice f off pat total start n :
  pat <> [] -> 0 <= off -> 0 <= start -> 0 <= n -> start + n <= total ->
  start mod zlen pat = 0 -> start = 0 \/ aligned f off total (zlen pat) ->
  stream f off pat start n = ztake n (zdrop start (stream f off pat 0 total)).
Proof.
  intros Hp Ho Hs Hn Ht Hm Ha. unfold stream. rewrite Z.add_0_r.
  set (F := zdrop off f). assert (HF : zlen F = avail f off) by (apply zlen_zdrop_off; lia).
  assert (EF : zdrop (off + start) f = zdrop start F).
  { unfold F. rewrite zdrop_zdrop by lia. reflexivity. }
  rewrite EF. set (L := avail f off) in *. unfold aligned in Ha. fold L in Ha.
  assert (0 <= L) by (unfold L, avail; lia).
  assert (Hpl : 0 < zlen pat).
  { destruct pat; [easy|]. rewrite zlen_cons. pose proof (zlen_nonneg pat). lia. }
  rewrite !fill_stream_cyc by easy.
  pose proof (zlen_ztake_min total F) as E1. pose proof (zlen_ztake_min n (zdrop start F)) as E2.
  rewrite zlen_zdrop in E2. rewrite HF in *.
  destruct (Z.le_gt_cases total L) as [C|C].
  - (* everything is in the file *)
    replace (Z.to_nat (total - zlen (ztake total F))) with 0%nat by lia.
    replace (Z.to_nat (n - zlen (ztake n (zdrop start F)))) with 0%nat by lia.
    change (cyc pat 0 0) with (@nil Z). rewrite !app_nil_r.
    rewrite !ztake_zdrop_comm by lia. rewrite ztake_ztake. do 2 f_equal. lia.
  - rewrite (ztake_all total F) by lia.
    replace (Z.to_nat (total - zlen F)) with (Z.to_nat (total - L)) by (rewrite HF; reflexivity).
    destruct (Z.le_gt_cases L start) as [D|D].
    + (* everything is fill *)
      assert (Ha' : L mod zlen pat = 0).
      { destruct Ha as [Ha|[Ha|Ha]]; [|lia|easy]. replace L with 0 by lia. apply Z.mod_0_l. lia. }
      clear Ha. rename Ha' into Ha.
      rewrite (zdrop_all start F) by lia.
      replace (ztake n (@nil Z)) with (@nil Z) by (unfold ztake; now rewrite firstn_nil).
      cbn [app]. rewrite zlen_nil, Z.sub_0_r.
      rewrite zdrop_app_r by lia. rewrite HF.
      unfold ztake, zdrop. rewrite cyc_drop by lia. rewrite cyc_take by lia.
      rewrite <- (cyc_period pat (0 + Z.to_nat (start - L))) by easy.
      f_equal. 
      assert (M : (start - L) mod zlen pat = 0) by (rewrite Zminus_mod, Hm, Ha; apply Z.mod_0_l; lia).
      unfold zlen in M. rewrite <- (Z2Nat.id (start - L)) in M by lia. rewrite <- Nat2Z.inj_mod in M by (unfold zlen in Hpl; lia).
      change (0 + Z.to_nat (start - L))%nat with (Z.to_nat (start - L)). lia.
    + rewrite zdrop_app_l by lia.
      destruct (Z.le_gt_cases (start + n) L) as [G|G].
      * rewrite ztake_app_l by (rewrite zlen_zdrop; lia).
        replace (Z.to_nat (n - zlen (ztake n (zdrop start F)))) with 0%nat by lia.
        change (cyc pat 0 0) with (@nil Z). now rewrite app_nil_r.
      * rewrite ztake_app_r by (rewrite zlen_zdrop; lia).
        rewrite (ztake_all n (zdrop start F)) by (rewrite zlen_zdrop; lia).
        f_equal. unfold ztake. rewrite cyc_take.
        { f_equal. }
        { rewrite zlen_zdrop. lia. }
Qed.

(** ** Decoding *)
Lemma dec_list_chunks k n b : dec_list k n b = map (dec_be k) (chunks n (ksize k) b).
Proof. revert b; induction n; intros; cbn; [reflexivity|]. now rewrite IHn. Qed.
Lemma dec_list_length k n b : List.length (dec_list k n b) = n.
Proof. rewrite dec_list_chunks, map_length. apply chunks_length. Qed.
Lemma zlen_dec_list k n b : 0 <= n -> zlen (dec_list k (Z.to_nat n) b) = n.
Proof. intros. unfold zlen. rewrite dec_list_length. lia. Qed.
Lemma chunks_skip {A} m n sz (l : list A) : 0 <= sz ->
  skipn m (chunks (m + n) sz l) = chunks n sz (zdrop (Z.of_nat m * sz) l).
Proof.
  intros Hs. revert l; induction m as [|m IH]; intros l.
  - cbn [skipn Nat.add]. now rewrite zdrop_0 by lia.
  - cbn [Nat.add chunks skipn]. rewrite IH. rewrite zdrop_zdrop by lia. do 2 f_equal. lia.
Qed.
Lemma chunks_first {A} m n sz (l : list A) : firstn m (chunks (m + n) sz l) = chunks m sz l.
Proof. revert l; induction m as [|m IH]; intros l; [reflexivity|]. cbn. now rewrite IH. Qed.

Lemma dec_list_slice k (total b n : Z) s : 0 <= b -> 0 <= n -> b + n <= total ->
  total * ksize k <= zlen s ->
  dec_list k (Z.to_nat n) (ztake (n * ksize k) (zdrop (b * ksize k) s)) =
  ztake n (zdrop b (dec_list k (Z.to_nat total) s)).
Proof.
  intros Hb Hn Ht Hs. rewrite !dec_list_chunks.
  pose proof (ksize_pos k).
  match goal with |- _ = ztake n (zdrop b ?x) =>
    change (ztake n (zdrop b x)) with (firstn (Z.to_nat n) (skipn (Z.to_nat b) x)) end.
  rewrite skipn_map, firstn_map. f_equal.
  replace (Z.to_nat total) with (Z.to_nat b + (Z.to_nat n + Z.to_nat (total - b - n)))%nat by lia.
  change bytes with (list Z). rewrite chunks_skip by lia. rewrite chunks_first.
  replace (Z.of_nat (Z.to_nat b) * ksize k) with (b * ksize k) by lia.
  assert (b * ksize k + n * ksize k <= total * ksize k).
  { rewrite <- Z.mul_add_distr_r. apply Z.mul_le_mono_nonneg_r; lia. }
  assert (0 <= b * ksize k) by (apply Z.mul_nonneg_nonneg; lia).
  apply chunks_take; [lia|lia|]. rewrite zlen_zdrop. lia.
Qed.

(** ** Getters of fixed-size variables *)
Lemma fill_pattern_len v t pat : fill_pattern v t = Ok pat -> zlen pat = tysize t.
Proof.
  assert (E : forall k z, zlen (enc_be k z) = ksize k) by (intros; apply zlen_enc_be).
  unfold fill_pattern. destruct (om_get _ _) as [u|].
  - destruct (match u with VSlice _ [x] => Ok x | VSlice _ _ => Err EFillValue | _ => Ok u end)
      as [u'| |]; cbn [rbind]; try easy.
    destruct u' as [k z| | |]; try easy. destruct (nk_eqb k (fill_kind t)) eqn:Ek; [|easy].
    intros [= <-]. rewrite E. destruct t as [|k0]; cbn [fill_kind tysize] in *.
    + destruct k; easy.
    + destruct k, k0; easy.
  - intros [= <-]. rewrite E. destruct t; reflexivity.
Qed.

(** A getter of a fixed-size variable of a sane size *)
Record fixed_getter (g : getter) : Prop := mkFg {
  fg_unl : g_unl g = false;
  fg_pos : Forall (fun d => 0 < d) (g_lens g);
  fg_chunk : g_chunk g = volume (tl (g_lens g));
  fg_len : g_len g = match g_lens g with [] => 1 | n :: _ => n end;
  fg_vol : 24 * volume (g_lens g) <= 2 ^ 48;
  fg_begin : 0 <= v_begin (g_var g) < 2 ^ 62
}.

Definition g_total (g : getter) : Z := volume (g_lens g).
Definition g_bytes (g : getter) : Z := g_total g * tysize (g_ty g).
(** All the data of the variable, decoded *)
Definition g_data (g : getter) (pat : bytes) : list Z :=
  dec_list (fill_kind (g_ty g)) (Z.to_nat (g_total g))
    (stream (c_file (g_cdf g)) (v_begin (g_var g)) pat 0 (g_bytes g)).

Lemma tysize_pos t : 1 <= tysize t <= 8.
Proof. destruct t as [|[]]; cbn; lia. Qed.
Lemma tysize_kind t : tysize t = ksize (fill_kind t).
Proof. destruct t; reflexivity. Qed.

Lemma get_slice_fixed g pat b e :
  fixed_getter g -> fill_pattern (g_var g) (g_ty g) = Ok pat ->
  b = 0 \/ aligned (c_file (g_cdf g)) (v_begin (g_var g)) (g_bytes g) (tysize (g_ty g)) ->
  g_lens g <> [] -> 0 <= b -> b <= e -> e <= g_len g ->
  get_slice_c g b e =
    convert false (g_ty g) ((e - b) :: tl (g_lens g))
      (ztake ((e - b) * g_chunk g) (zdrop (b * g_chunk g) (g_data g pat))).
Proof.
  intros HG Hpat Hal Hne Hb Hbe He. unfold get_slice_c.
  replace (e <? b) with false by lia.
  pose proof (fg_pos g HG) as Hp. pose proof (fg_vol g HG) as Hvol. pose proof (fg_begin g HG) as Hbeg.
  rewrite (fg_len g HG) in He. rewrite (fg_chunk g HG), (fg_unl g HG).
  pose proof (fill_pattern_len _ _ _ Hpat) as Hpl. pose proof (tysize_pos (g_ty g)) as Hts.
  unfold g_data, g_bytes, g_total in *.
  destruct (g_lens g) as [|n ds] eqn:El; [easy|]. inversion Hp; subst. cbn [tl volume] in *.
  set (V := volume ds) in *. assert (HV : 0 < V) by (apply volume_pos; easy).
  replace (n =? 0) with false by lia.
  assert (B1 : (e - b) * V <= n * V) by (apply Z.mul_le_mono_nonneg_r; lia).
  assert (B2 : b * V <= n * V) by (apply Z.mul_le_mono_nonneg_r; lia).
  assert (B3 : 0 <= (e - b) * V) by (apply Z.mul_nonneg_nonneg; lia).
  assert (B4 : 0 <= b * V) by (apply Z.mul_nonneg_nonneg; lia).
  assert (B5 : n * 1 <= n * V) by (apply Z.mul_le_mono_nonneg_l; lia).
  set (sz := tysize (g_ty g)) in *.
  assert (C1 : (e - b) * V * sz <= n * V * 8) by (apply Z.mul_le_mono_nonneg; lia).
  assert (C2 : b * V * sz <= n * V * 8) by (apply Z.mul_le_mono_nonneg; lia).
  assert (C3 : n * V * sz <= n * V * 8) by (apply Z.mul_le_mono_nonneg; lia).
  assert (C4 : 0 <= b * V * sz) by (apply Z.mul_nonneg_nonneg; lia).
  assert (C5 : 0 <= (e - b) * V * sz) by (apply Z.mul_nonneg_nonneg; lia).
  assert (C6 : b * V * sz + (e - b) * V * sz <= n * V * sz).
  { rewrite <- Z.mul_add_distr_r, <- Z.mul_add_distr_r. apply Z.mul_le_mono_nonneg_r; [lia|].
    apply Z.mul_le_mono_nonneg_r; lia. }
  rewrite (i64_small (e - b)) by lia. rewrite (i64_small ((e - b) * V)) by lia.
  rewrite (i64_small (b * V)) by lia. rewrite (i64_small (b * V * sz)) by lia.
  rewrite (i64_small (v_begin (g_var g))) by lia.
  rewrite (i64_small (v_begin (g_var g) + b * V * sz)) by lia.
  cbn [andb]. replace (v_begin (g_var g) + b * V * sz <? 0) with false by lia.
  rewrite Hpat. cbn [rbind]. rewrite go_make_ok by lia. cbn [rbind].
  change (ztake ((e - b) * V * sz) (zdrop (v_begin (g_var g) + b * V * sz) (c_file (g_cdf g))) ++
    fill_stream pat (Z.to_nat ((e - b) * V * sz -
      zlen (ztake ((e - b) * V * sz) (zdrop (v_begin (g_var g) + b * V * sz) (c_file (g_cdf g)))))))
  with (stream (c_file (g_cdf g)) (v_begin (g_var g)) pat (b * V * sz) ((e - b) * V * sz)).
  assert (Hpne : pat <> []) by (intros ->; rewrite zlen_nil in Hpl; lia).
  rewrite (stream_slice _ _ _ (n * V * sz)); auto; try lia.
  - f_equal. unfold sz. rewrite !(tysize_kind (g_ty g)).
    apply dec_list_slice; [lia|lia| |].
    + rewrite <- Z.mul_add_distr_r. apply Z.mul_le_mono_nonneg_r; lia.
    + rewrite zlen_stream by (try easy; rewrite <- (tysize_kind (g_ty g)); lia). lia.
  - rewrite Hpl. fold sz. apply Z.mod_mul. lia.
  - rewrite Hpl. destruct Hal as [->|Hal]; [left; reflexivity|right; exact Hal].
Qed.

Lemma get_slice_scalar g pat :
  fixed_getter g -> fill_pattern (g_var g) (g_ty g) = Ok pat -> g_lens g = [] ->
  forall b e, b <= e -> b * 8 < 2 ^ 62 -> 0 <= b ->
  get_slice_c g b e = convert false (g_ty g) []
    (dec_list (fill_kind (g_ty g)) 1
       (stream (c_file (g_cdf g)) (v_begin (g_var g)) pat (b * tysize (g_ty g)) (tysize (g_ty g)))).
Proof.
  intros HG Hpat El b e Hbe Hb8 Hb. unfold get_slice_c. replace (e <? b) with false by lia.
  pose proof (fg_begin g HG). rewrite (fg_unl g HG), (fg_chunk g HG), El. cbn [tl volume andb].
  pose proof (tysize_pos (g_ty g)). set (sz := tysize (g_ty g)) in *.
  assert (b * sz <= b * 8) by (apply Z.mul_le_mono_nonneg_l; lia).
  assert (0 <= b * sz) by (apply Z.mul_nonneg_nonneg; lia).
  change (i64 (1 * 1)) with 1. rewrite Z.mul_1_r, Z.mul_1_l.
  rewrite (i64_small b) by lia. rewrite (i64_small (b * sz)) by lia.
  rewrite (i64_small (v_begin (g_var g))) by lia.
  rewrite (i64_small (v_begin (g_var g) + b * sz)) by lia.
  replace (v_begin (g_var g) + b * sz <? 0) with false by lia.
  rewrite Hpat. cbn [rbind]. rewrite go_make_ok by lia. reflexivity.
Qed.

Lemma zlen_g_data g pat : fixed_getter g -> zlen (g_data g pat) = g_total g.
Proof.
  intros H. unfold g_data. apply zlen_dec_list. unfold g_total.
  pose proof (volume_pos _ (fg_pos g H)). lia.
Qed.

Lemma nest_slice_rows b e n ds (data : list Z) : Forall (fun d => 0 < d) ds ->
  0 <= b -> b <= e -> e <= n -> n * volume ds = zlen data ->
  zlen (ztake ((e - b) * volume ds) (zdrop (b * volume ds) data)) = (e - b) * volume ds.
Proof.
  intros Hp Hb He Hn Hv. pose proof (volume_pos _ Hp).
  assert (0 <= (e - b) * volume ds) by (apply Z.mul_nonneg_nonneg; lia).
  assert (b * volume ds + (e - b) * volume ds <= n * volume ds).
  { rewrite <- Z.mul_add_distr_r. apply Z.mul_le_mono_nonneg_r; lia. }
  assert (0 <= b * volume ds) by (apply Z.mul_nonneg_nonneg; lia).
  apply zlen_ztake; [lia|]. rewrite zlen_zdrop. lia.
Qed.

(** Values(): the row-major reconstruction of all the data *)
Lemma values_fixed g pat :
  fixed_getter g -> fill_pattern (g_var g) (g_ty g) = Ok pat ->
  (g_ty g = TChar -> g_lens g = [] -> Forall (fun z => 0 <= z < 128) (g_data g pat)) ->
  exists x, get_slice_c g 0 (g_len g) = Ok x /\
    erase x = nest (elt_of (g_ty g)) (g_lens g) (g_data g pat).
Proof.
  intros HG Hpat Hc. pose proof (zlen_g_data g pat HG) as Hz.
  destruct (g_lens g) as [|n ds] eqn:El.
  - rewrite (get_slice_scalar g pat HG Hpat El 0 (g_len g)) by (rewrite ?(fg_len g HG), ?El; lia).
    assert (E : g_data g pat = dec_list (fill_kind (g_ty g)) 1
      (stream (c_file (g_cdf g)) (v_begin (g_var g)) pat (0 * tysize (g_ty g)) (tysize (g_ty g)))).
    { unfold g_data, g_bytes, g_total. rewrite El. cbn [volume]. rewrite Z.mul_1_l. reflexivity. }
    rewrite <- E. apply convert_nest.
    + constructor.
    + cbn. lia.
    + rewrite Hz. unfold g_total. now rewrite El.
    + intros Ht _. now apply Hc.
  - assert (Hlen : g_len g = n) by (rewrite (fg_len g HG), El; reflexivity).
    pose proof (fg_pos g HG) as Hp. rewrite El in Hp.
    assert (0 < n) by (now inversion Hp).
    rewrite (get_slice_fixed g pat 0 (g_len g) HG Hpat); [|now left|congruence|lia|lia|lia].
    rewrite (fg_chunk g HG), El, Hlen. cbn [tl]. rewrite Z.sub_0_r, Z.mul_0_l, zdrop_0 by lia.
    unfold g_total in Hz. rewrite El in Hz. cbn [volume] in Hz.
    rewrite ztake_all by lia. apply convert_nest; auto.
    pose proof (fg_vol g HG) as X. now rewrite El in X.
Qed.

(** Construction of the getter *)
Lemma total_size_ok lens : Forall (fun d => 0 < d) lens -> volume lens < 2 ^ 63 ->
  total_size lens = volume lens.
Proof.
  unfold total_size. intros Hp Hv.
  assert (G : forall acc, 0 < acc -> acc * volume lens < 2 ^ 63 ->
    fold_left (fun acc n => i64 (acc * i64 n)) lens acc = acc * volume lens).
  { clear Hv. induction Hp as [|d lens Hd Hp IH]; intros acc Ha Hv.
    - cbn. lia.
    - cbn [fold_left volume] in *. pose proof (volume_pos _ Hp).
      assert (acc * d * 1 <= acc * d * volume lens) by (apply Z.mul_le_mono_nonneg_l; [apply Z.mul_nonneg_nonneg|]; lia).
      assert (1 * d <= acc * d) by (apply Z.mul_le_mono_nonneg_r; lia).
      assert (0 < acc * d) by (apply Z.mul_pos_pos; lia).
      rewrite (i64_small d) by lia. rewrite (i64_small (acc * d)) by lia.
      rewrite IH by lia. lia. }
  rewrite G by lia. lia.
Qed.
