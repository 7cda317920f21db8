(** The written file conforms to the grammar of [CdfFormat]; cuts of its header. *)
From Coq Require Import ZifyBool ZifyNat Permutation.
From Verif Require Import Prelude GoVal BaseLemmas OrderedMapModel OrderedMapProofs ValidNameModel ValidNameProofs ArraySpec ArrayProofs
  CdfSpec CdfCalls CdfFormat
  CdfWriterModel CdfReaderModel CdfCodec CdfHeader CdfConvert CdfFile CdfFixed CdfStore CdfInv CdfRound CdfLayout CdfLocal CdfParse.
Ltac Zify.zify_post_hook ::= Z.div_mod_to_equations.

Definition num_of (v : gval) : Z := match v with VNum _ z => z | _ => 0 end.
Definition aval_of (v : gval) : aval :=
  match v with
  | VStr s => AText s
  | VNum k z => ANums k [z]
  | VSlice (GNum k) l => ANums k (map num_of l)
  | _ => AText []
  end.
Definition fatt_of (kv : bytes * gval) : fatt := mkFatt (fst kv) (aval_of (snd kv)).
Fixpoint fvars_of (ids : list (bytes * Z)) (off : Z) (vs : list svar) : list fvar :=
  match vs with
  | [] => []
  | s :: r => mkFvar (sv_name s) (var_ids ids s) (map fatt_of (sv_attrs s)) (elt_of (sv_ty s)) (psize s) off
              :: fvars_of ids (off + psize s) r
  end.
Definition header_of (st : wst) : fheader :=
  mkFheader (w_ver st) 0 (dims_of st) (map fatt_of (w_gattrs st)) (fvars_of (w_dimids st) (data_start st) (w_vars st)).

Lemma wver_fver ver : wver ver -> fver ver.
Proof. intros [-> | ->]; [right; left|right; right]; reflexivity. Qed.
Lemma pad4_padded b : padded b (pad4 b).
Proof.
  exists (zrep (round4 (zlen b) - zlen b) 0). split; [reflexivity|]. pose proof (round4_bounds (zlen b)).
  rewrite zlen_zrep. split; [lia|]. apply pad4_mod.
Qed.
Lemma enc_name_bytes ver nm : wver ver -> name_bytes ver nm (enc_name ver nm).
Proof.
  intros V. exists (pad4 nm). split; [apply pad4_padded|]. rewrite non_neg_enc by now apply wver_fver. reflexivity.
Qed.
Lemma num_of_nums k l : Forall (fun v => exists z, v = VNum k z) l -> map (VNum k) (map num_of l) = l.
Proof. induction 1 as [|v l (z & ->) _ IH]; [reflexivity|]. cbn [map num_of]. now rewrite IH. Qed.
Lemma slice_nums k l : wt (VSlice (GNum k) l) = true ->
  Forall (fun v => exists z, v = VNum k z /\ in_range k z = true) l.
Proof. apply wt_slice_num. Qed.
Lemma enc_attr_bytes ver kv : wver ver -> wt (snd kv) = true -> attr_version (snd kv) <> 0 ->
  att_bytes ver (fatt_of kv) (enc_attr ver kv).
Proof.
  intros V W S. destruct kv as [k v]. cbn [snd] in *. unfold enc_attr, att_bytes, fatt_of. cbn [fst snd fa_name fa_val].
  exists (enc_name ver k), (pad4 (aval_bytes (aval_of v))). split; [now apply enc_name_bytes|].
  split; [apply pad4_padded|]. rewrite non_neg_enc by now apply wver_fver. rewrite type_code_tcode.
  destruct v as [k0 z|s|t l|]; cbn [attr_payload aval_of aval_type aval_count aval_bytes].
  - rewrite zlen_cons. cbn [zlen List.length flat_map]. rewrite app_nil_r. reflexivity.
  - reflexivity.
  - destruct t as [k0| | |]; try (cbn in S; congruence). cbn [aval_type aval_count aval_bytes].
    rewrite zlen_map. rewrite aval_enc, num_of_nums; [reflexivity|].
    eapply Forall_impl; [|exact (slice_nums _ _ W)]. intros x (z & -> & _). eauto.
  - cbn in S. congruence.
Qed.
Lemma enc_attrs_bytes ver a : wver ver -> attrs_ok ver a -> att_list ver (map fatt_of a) (enc_attrs ver a).
Proof.
  intros V (HF & _ & _). unfold enc_attrs. destruct a as [|kv a].
  - right. split; [reflexivity|]. rewrite non_neg_enc by now apply wver_fver. reflexivity.
  - left. exists (map (enc_attr ver) (kv :: a)). split.
    + clear - V HF. induction HF as [|x l (W & (S & _) & _) _ IH]; [constructor|]. cbn [map]. constructor; [|exact IH].
      now apply enc_attr_bytes.
    + rewrite zlen_map, non_neg_enc by now apply wver_fver. rewrite flat_map_concat_map. reflexivity.
Qed.
Lemma enc_dims_bytes ver ds : wver ver -> list_bytes (dim_bytes ver) 10 ver ds (enc_dims ver ds).
Proof.
  intros V. unfold enc_dims. destruct ds as [|d ds].
  - right. split; [reflexivity|]. rewrite non_neg_enc by now apply wver_fver. reflexivity.
  - left. exists (map (enc_dim ver) (d :: ds)). split.
    + induction (d :: ds) as [|x l IH]; [constructor|]. cbn [map]. constructor; [|exact IH].
      exists (enc_name ver (fst x)). split; [now apply enc_name_bytes|]. rewrite non_neg_enc by now apply wver_fver. reflexivity.
    + rewrite non_neg_enc by now apply wver_fver. rewrite flat_map_concat_map. reflexivity.
Qed.
Lemma zlen_var_ids ids s : dims_long s -> zlen (var_ids ids s) = zlen (sv_lens s).
Proof. unfold dims_long, var_ids, zlen. intros H. rewrite map_length, firstn_length_le by exact H. reflexivity. Qed.
Lemma enc_var_bytes ver ds ids s off : wver ver -> var_rok ver ds ids s ->
  var_bytes ver (mkFvar (sv_name s) (var_ids ids s) (map fatt_of (sv_attrs s)) (elt_of (sv_ty s)) (psize s) off)
    (enc_var ids ver s (psize s) off).
Proof.
  intros V (_ & _ & L & _ & A). exists (enc_name ver (sv_name s)), (enc_attrs ver (sv_attrs s)).
  cbn [fv_name fv_atts fv_dims fv_type fv_size fv_begin].
  split; [now apply enc_name_bytes|]. split; [now apply enc_attrs_bytes|].
  unfold enc_var. rewrite zlen_var_ids by exact L. rewrite !non_neg_enc by now apply wver_fver.
  assert (flat_map (non_neg ver) (var_ids ids s) = flat_map (enc_number ver) (var_ids ids s)) as ->.
  { apply flat_map_ext. intros x. apply non_neg_enc. now apply wver_fver. }
  assert (type_code (elt_of (sv_ty s)) = tcode (sv_ty s)) as -> by (destruct (sv_ty s) as [|[]]; reflexivity).
  assert (offs ver off = be 8 off) as -> by (destruct V as [-> | ->]; reflexivity). reflexivity.
Qed.
Lemma enc_vars_bytes ver ds ids vs : wver ver -> Forall (var_rok ver ds ids) vs -> forall off,
  exists bs, Forall2 (var_bytes ver) (fvars_of ids off vs) bs /\ enc_vars ids ver off vs = List.concat bs.
Proof.
  intros V. induction 1 as [|s vs Hs _ IH]; intros off; [exists []; split; [constructor|reflexivity]|].
  destruct (IH (off + psize s)) as (bs & H1 & H2). exists (enc_var ids ver s (psize s) off :: bs). cbn [fvars_of enc_vars List.concat].
  split; [constructor; [eapply enc_var_bytes; eassumption|exact H1]|]. now rewrite H2.
Qed.
Lemma fvars_len ids off vs : zlen (fvars_of ids off vs) = zlen vs.
Proof. revert off. induction vs as [|s vs IH]; intros off; [reflexivity|]. cbn [fvars_of]. rewrite !zlen_cons, IH. reflexivity. Qed.
Lemma fvars_names ids off vs : map fv_name (fvars_of ids off vs) = map sv_name vs.
Proof. revert off. induction vs as [|s vs IH]; intros off; [reflexivity|]. cbn [fvars_of map fv_name]. now rewrite IH. Qed.

Lemma header_of_bytes st : wst_ok st -> header_bytes (header_of st) (file_header st).
Proof.
  intros H. pose proof (wok_ver st H) as V.
  destruct (enc_vars_bytes _ _ _ _ V (wok_rvars st H) (data_start st)) as (bs & B1 & B2).
  exists (enc_dims (w_ver st) (dims_of st)), (enc_attrs (w_ver st) (w_gattrs st)),
    (vars_header st ++ enc_vars (w_dimids st) (w_ver st) (data_start st) (w_vars st)).
  cbn [header_of fh_ver fh_numrecs fh_dims fh_atts fh_vars].
  split; [now apply enc_dims_bytes|]. split; [apply enc_attrs_bytes; [exact V|apply (wok_gattrs st H)]|].
  split.
  - unfold vars_header. destruct (w_vars st) as [|s vs] eqn:E.
    + right. split; [reflexivity|]. cbn [enc_vars]. rewrite app_nil_r. rewrite non_neg_enc by now apply wver_fver. reflexivity.
    + rewrite <- E in *. left. exists bs. split; [exact B1|]. rewrite B2, fvars_len, non_neg_enc by now apply wver_fver.
      rewrite <- app_assoc. reflexivity.
  - unfold file_header, file_prefix. rewrite non_neg_enc by now apply wver_fver. rewrite <- !app_assoc. reflexivity.
Qed.

Lemma name_fits_ok ver nm : wver ver -> name_fits ver nm -> fname_ok ver nm.
Proof. intros V (A & B & C). split; [exact A|]. split; [|exact C]. rewrite nlimit_lim by now apply wver_fver. exact B. Qed.
Lemma fatts_ok ver a : wver ver -> attrs_ok ver a -> Forall (fatt_ok ver) (map fatt_of a) /\ keys_distinct (map fatt_of a) /\
  zlen (map fatt_of a) < nlimit ver.
Proof.
  intros V (HF & ND & L). split; [|split].
  - clear ND L. induction HF as [|[k v] l (W & (S & Vv) & (N & C & M)) _ IH]; [constructor|]. cbn [map]. constructor; [|exact IH].
    cbn [fst snd] in *. unfold fatt_ok, fatt_of. cbn [fa_name fa_val fst snd]. split; [now apply name_fits_ok|].
    rewrite nlimit_lim by now apply wver_fver.
    destruct v as [k0 z|s|t l0|]; try (cbn in S; congruence).
    + cbn [aval_of aval_count aval_type attr_count] in *. change (zlen [z]) with 1. split; [lia|]. split; [lia|]. split.
      * cbn in Vv. destruct V as [-> | ->]; [|reflexivity]. destruct k0; cbn in *; try discriminate; lia.
      * constructor; [exact W|constructor].
    + cbn [aval_of aval_count aval_type attr_count] in *. split; [lia|]. split; [lia|]. split; [discriminate|exact I].
    + destruct t as [k0| | |]; try (cbn in S; congruence).
      cbn [aval_of aval_count aval_type attr_count] in *. rewrite zlen_map. split; [lia|]. split; [lia|]. split.
      * cbn in Vv. destruct V as [-> | ->]; [|reflexivity]. destruct k0; cbn in *; try discriminate; lia.
      * pose proof (slice_nums _ _ W) as HN. clear - HN.
        induction HN as [|x l (z & -> & R) _ IH]; cbn [map num_of]; constructor; assumption.
  - unfold keys_distinct. rewrite map_map. exact ND.
  - rewrite zlen_map, nlimit_lim by now apply wver_fver. exact L.
Qed.

Definition in_field (ver : Z) (s : svar) : Prop := psize s < lim ver.

Lemma header_of_ok st : wst_ok st -> data_start st + sizes (w_vars st) < 2 ^ 63 -> Forall (in_field (w_ver st)) (w_vars st) ->
  header_ok (header_of st) /\ names_distinct (header_of st).
Proof.
  intros H SZ IF. pose proof (wok_ver st H) as V. pose proof (lim_pos (w_ver st)).
  assert (0 <= data_start st) by (rewrite <- zlen_file_header by exact V; apply zlen_nonneg).
  destruct (fatts_ok _ _ V (wok_gattrs st H)) as (G1 & G2 & G3).
  assert (ZD : zlen (dims_of st) = zlen (w_dimnames st)) by (unfold dims_of; apply zlen_map).
  assert (VS : Forall (fvar_ok (w_ver st) (dims_of st)) (fvars_of (w_dimids st) (data_start st) (w_vars st)) /\
     Forall (fun v => keys_distinct (fv_atts v)) (fvars_of (w_dimids st) (data_start st) (w_vars st))).
  { pose proof (wok_rvars st H) as HR. pose proof (wok_vars st H) as HW.
    remember (data_start st) as off. clear Heqoff. revert off SZ H1.
    induction (w_vars st) as [|s vs IH]; intros off SZ H1; [split; constructor|].
    cbn [fvars_of]. apply Forall_cons_iff in IF. destruct IF as [I1 I2]. apply Forall_cons_iff in HR. destruct HR as [R1 R2].
    apply Forall_cons_iff in HW. destruct HW as [W1 W2]. cbn [sizes fold_right] in SZ. fold (sizes vs) in SZ.
    destruct W1 as (_ & _ & Wp). pose proof (psize_nonneg s Wp).
    assert (0 <= sizes vs).
    { clear - W2. induction W2 as [|x vs (_ & _ & Hp) _ IH]; [reflexivity|]. cbn [sizes fold_right]. fold (sizes vs).
      pose proof (psize_nonneg x Hp). lia. }
    destruct (IH I2 R2 W2 (off + psize s)) as [A1 A2]; [lia|lia|].
    destruct R1 as (R11 & R12 & R13 & R14 & R15). destruct (fatts_ok _ _ V R15) as (F1 & F2 & F3).
    split; constructor; try assumption. constructor; cbn [fv_name fv_dims fv_atts fv_type fv_size fv_begin].
    - now apply name_fits_ok.
    - rewrite zlen_var_ids by exact R13. exact R12.
    - eapply Forall_impl; [|exact R14]. intros i (Hi & _). exact Hi.
    - exact F3.
    - exact F1.
    - rewrite nlimit_lim by now apply wver_fver. unfold in_field in I1. lia.
    - destruct V as [-> | ->]; cbn; lia. }
  destruct VS as [VS1 VS2]. split.
  - constructor; cbn [header_of fh_ver fh_numrecs fh_dims fh_atts fh_vars].
    + now apply wver_fver.
    + rewrite nlimit_lim by now apply wver_fver. lia.
    + rewrite ZD. apply (wok_ndims st H).
    + eapply Forall_impl; [|apply (wok_dims st H)]. intros d (N & L). split; [now apply name_fits_ok|].
      rewrite nlimit_lim by now apply wver_fver. exact L.
    + exact G3.
    + exact G1.
    + rewrite fvars_len, nlimit_lim by now apply wver_fver. apply (wok_nvars st H).
    + exact VS1.
  - split; [exact G2|]. split; [exact VS2|]. cbn [header_of fh_vars]. rewrite fvars_names. apply (wok_names st H).
Qed.
Lemma parse_header_file st d : wst_ok st -> small_file st ->
  exists x, parse_header (file_header st ++ d) = Ok (x, d).
Proof.
  intros H Hsz. pose proof (wok_ver st H) as Hv. pose proof (lim_pos (w_ver st)).
  set (f := file_header st ++ d). unfold parse_header.
  assert (Ef : f = (bs "CDF" ++ [w_ver st]) ++ enc_number (w_ver st) 0 ++ enc_dims (w_ver st) (dims_of st) ++
     enc_attrs (w_ver st) (w_gattrs st) ++ vars_header st ++
     enc_vars (w_dimids st) (w_ver st) (data_start st) (w_vars st) ++ d).
  { unfold f, file_header, file_prefix. now rewrite <- !app_assoc. }
  match type of Ef with _ = ?a ++ ?b => assert (E4 : read_bytes 4 f = Ok (a, b)) end.
  { rewrite Ef. apply read_bytes_app; [reflexivity|lia]. }
  rewrite E4. cbn [rbind].
  change (ztake 3 (bs "CDF" ++ [w_ver st])) with (bs "CDF"). rewrite (proj2 (beqb_eq _ _) eq_refl). cbn [negb].
  change (nth 3 (bs "CDF" ++ [w_ver st]) 0) with (w_ver st).
  replace (negb ((w_ver st =? 1) || (w_ver st =? 2) || (w_ver st =? 5))) with false
    by (destruct Hv as [-> | ->]; reflexivity).
  rewrite read_number_enc by lia. cbn [rbind].
  replace (0 =? 2 ^ 64 - 1) with false by lia.
  (* dimensions *)
  pose proof (wok_ndims st H) as Hnd. pose proof (zlen_nonneg (dims_of st)).
  assert (Ezd : zlen (dims_of st) = zlen (w_dimnames st)) by (unfold dims_of; apply zlen_map).
  assert (Hdims : forall r, (let* (nd, s2) := get_nelems (w_ver st) fieldDimension
        (enc_dims (w_ver st) (dims_of st) ++ r) in
      if maxDimensions <? nd then Err ETooManyDimensions else
      get_dims (w_ver st) (Z.to_nat nd) s2) = Ok (rdims (dims_of st), r)).
  { intros r. pose proof (wok_dims st H) as HF. destruct (dims_of st) as [|x l] eqn:Ed.
    - cbn [enc_dims]. rewrite <- app_assoc, get_nelems_absent. reflexivity.
    - rewrite <- Ed in *. unfold enc_dims at 1. rewrite Ed at 1.
      rewrite <- !app_assoc. rewrite get_nelems_enc by (unfold fieldDimension; lia). cbn [rbind].
      replace (maxDimensions <? zlen (dims_of st)) with false by (unfold maxDimensions; lia).
      unfold zlen at 1. rewrite Nat2Z.id. apply get_dims_enc. exact HF. }
  specialize (Hdims (enc_attrs (w_ver st) (w_gattrs st) ++ vars_header st ++
     enc_vars (w_dimids st) (w_ver st) (data_start st) (w_vars st) ++ d)).
  destruct (get_nelems (w_ver st) fieldDimension _) as [[nd s2]| |]; cbn [rbind] in Hdims; try discriminate.
  cbn [rbind]. destruct (maxDimensions <? nd); [discriminate|]. rewrite Hdims. cbn [rbind].
  rewrite get_attr_list_enc by first [exact Hv | apply (wok_gattrs st H)]. cbn [rbind].
  (* variables *)
  pose proof (wok_stores st H) as Hst.
  unfold small_file, file_of in Hsz. rewrite zlen_app, zlen_file_header, zlen_sdatas in Hsz by assumption.
  assert (0 <= data_start st) by (rewrite <- zlen_file_header by exact Hv; apply zlen_nonneg).
  pose proof (enc_vars_long (w_dimids st) (w_ver st) (data_start st) (w_vars st) Hv) as Hlong.
  destruct (get_vars_loop_enc (w_ver st) (dims_of st) (w_dimids st) (w_vars st) Hv (data_start st) [] d
    (S (List.length (enc_vars (w_dimids st) (w_ver st) (data_start st) (w_vars st) ++ d))))
    as (rvs & R & E).
  - apply (wok_rvars st H).
  - apply (wok_vars st H).
  - cbn [map app]. apply (wok_names st H).
  - assumption.
  - assumption.
  - rewrite app_length. unfold zlen in Hlong. lia.
  - eexists. cbn [app] in E.
    assert (En : get_nelems (w_ver st) fieldVariable (vars_header st ++
        enc_vars (w_dimids st) (w_ver st) (data_start st) (w_vars st) ++ d) =
      Ok (zlen (w_vars st), enc_vars (w_dimids st) (w_ver st) (data_start st) (w_vars st) ++ d)).
    { unfold vars_header. destruct (w_vars st) as [|s vs] eqn:Evs.
      - rewrite <- app_assoc. apply get_nelems_absent.
      - rewrite <- Evs. rewrite <- app_assoc. apply get_nelems_enc.
        + pose proof (wok_nvars st H). pose proof (zlen_nonneg (w_vars st)). lia.
        + unfold fieldVariable. lia. }
    rewrite En. cbn [rbind]. change (@empty_om rvar) with (om_of (@nil (bytes * rvar))).
    rewrite E. reflexivity.
Qed.