(** Files of a writer with variables of length zero: the file in closed form, and what is read of the
    variables before the first empty one. *)
From Coq Require Import ZifyBool ZifyNat Permutation.
From Verif Require Import Prelude GoVal BaseLemmas OrderedMapModel OrderedMapProofs ValidNameModel ValidNameProofs ArraySpec ArrayProofs
  CdfSpec CdfCalls CdfEmptySpec CdfFormat
  CdfWriterModel CdfReaderModel CdfCodec CdfHeader CdfConvert CdfFile CdfFixed CdfStore CdfInv CdfRound CdfLayout CdfLocal CdfParse
  CdfConform CdfOpened CdfSlice.
Ltac Zify.zify_post_hook ::= Z.div_mod_to_equations.

(** The size recorded for a variable: of one of length zero, that of one element *)
Definition rsize (s : svar) : Z :=
  match sv_lens s with [n] => if n =? 0 then round4 (tysize (sv_ty s)) else psize s | _ => psize s end.
Fixpoint evars (ids : list (bytes * Z)) (ver off : Z) (vs : list svar) : bytes :=
  match vs with
  | [] => []
  | s :: r => enc_var ids ver s (rsize s) off ++ evars ids ver (off + rsize s) r
  end.
Definition positive (s : svar) : Prop := Forall (fun d => 0 < d) (sv_lens s).
Definition none (s : svar) : Prop := sv_lens s = [0].
Definition attrs_wok (s : svar) : Prop :=
  Forall (fun kv => wt (snd kv) = true) (sv_attrs s) /\ Forall (fun kv => attr_version (snd kv) <> 0) (sv_attrs s).

Lemma rsize_pos s : positive s -> rsize s = psize s.
Proof.
  unfold rsize, positive. destruct (sv_lens s) as [|n [|m r]]; intros H; try reflexivity.
  apply Forall_cons_iff in H. replace (n =? 0) with false by lia. reflexivity.
Qed.
Lemma rsize_none s : none s -> rsize s = round4 (tysize (sv_ty s)).
Proof. unfold rsize, none. intros ->. reflexivity. Qed.
Lemma rsize_bound s : positive s \/ none s -> 0 <= rsize s.
Proof.
  intros [H|H]; [rewrite rsize_pos by exact H; pose proof (psize_nonneg s H); lia|]. rewrite rsize_none by exact H.
  pose proof (round4_bounds (tysize (sv_ty s))). assert (0 < tysize (sv_ty s)) by (destruct (sv_ty s) as [|[]]; cbn; lia). lia.
Qed.

Lemma evars_mod ids ver off vs : wver ver -> zlen (evars ids ver off vs) mod 4 = 0.
Proof.
  intros Hv. revert off; induction vs as [|s vs IH]; intros off; [reflexivity|].
  cbn [evars]. rewrite zlen_app. pose proof (enc_var_mod ids ver s (rsize s) off Hv).
  specialize (IH (off + rsize s)). lia.
Qed.

Lemma write_var_e ids ver out s off : wver ver -> zlen out mod 4 = 0 -> attrs_wok s -> positive s \/ none s ->
  write_var ids ver out s off = Ok (out ++ enc_var ids ver s (rsize s) off, rsize s).
Proof.
  intros Hv Ho (Hw & Ha) [Hp|Hz].
  - rewrite rsize_pos by exact Hp. apply write_var_app; try assumption. split; [exact Hw|]. split; [exact Ha|exact Hp].
  - rewrite rsize_none by exact Hz. unfold write_var, enc_var.
    pose proof (numsize_mod ver Hv). pose proof (enc_name_mod ver (sv_name s) Hv).
    rewrite write_name_app by easy.
    unfold var_ids. rewrite flat_map_map. unfold dim_id.
    set (F := flat_map _ (firstn _ _)).
    assert (HF : zlen F mod 4 = 0).
    { unfold F. rewrite <- (flat_map_map (fun x => match assoc x ids with Some i => i | None => 0 end)
                              (enc_number ver)).
      rewrite flat_enc_number_len by easy.
      destruct Hv as [-> | ->]; cbn; lia. }
    rewrite write_attributes_app; auto.
    2:{ rewrite !zlen_app, zlen_enc_number by easy. lia. }
    cbn [rbind]. replace (vsize_loop true (sv_lens s) (tysize (sv_ty s))) with (Ok (tysize (sv_ty s))) by (rewrite Hz; reflexivity).
    cbn [rbind]. rewrite <- !app_assoc. reflexivity.
Qed.
Lemma write_vars_e ids ver out vs off : wver ver -> zlen out mod 4 = 0 -> Forall attrs_wok vs ->
  Forall (fun s => positive s \/ none s) vs ->
  write_vars ids ver out vs off = Ok (out ++ evars ids ver off vs).
Proof.
  intros Hv Ho H; revert out off Ho; induction H as [|s vs Hs _ IH]; intros out off Ho HL.
  - cbn. now rewrite app_nil_r.
  - apply Forall_cons_iff in HL. destruct HL as [L1 L2]. cbn [write_vars evars]. rewrite write_var_e by assumption. cbn [rbind].
    rewrite IH; [now rewrite <- app_assoc| |exact L2].
    rewrite zlen_app. pose proof (enc_var_mod ids ver s (rsize s) off Hv). lia.
Qed.
Lemma var_size_e ids ver s vsize off : wver ver -> attrs_wok s -> dims_long s ->
  var_size ver s = Ok (zlen (enc_var ids ver s vsize off)).
Proof.
  intros Hv (Hw & Ha) Hl. unfold var_size, enc_var. pose proof (numsize_mod ver Hv).
  rewrite attributes_size_ok by easy. cbn [rbind]. f_equal.
  rewrite !zlen_app, !zlen_be, !zlen_enc_number, zlen_enc_name, flat_enc_number_len, zlen_var_ids by easy.
  destruct Hv as [-> | ->]; cbn [numsize Z.eqb Pos.eqb]; lia.
Qed.
Lemma vars_size_e ids ver vs acc off : wver ver -> Forall attrs_wok vs -> Forall dims_long vs ->
  vars_size ver acc vs = Ok (acc + zlen (evars ids ver off vs)).
Proof.
  intros Hv H HL. revert acc off; induction H as [|s vs Hs _ IH]; intros acc off.
  - cbn. f_equal. lia.
  - inversion HL; subst. cbn [vars_size evars].
    rewrite (var_size_e ids ver s (rsize s) off) by easy. cbn [rbind].
    rewrite (IH H2 _ (off + rsize s)). f_equal. rewrite zlen_app. lia.
Qed.

(** Data: nothing is written of an empty variable *)
Definition stores_e (s : svar) : Prop :=
  (positive s /\ stores s) \/ (none s /\ store (sv_ty s) (sv_lens s) (sv_val s) = Ok []).
Lemma write_data1_e out s : zlen out mod 4 = 0 -> stores_e s ->
  write_data1 out s = Ok (out ++ sdata s) /\ zlen (sdata s) mod 4 = 0.
Proof.
  intros Ho [[P H]|[N E]].
  - destruct (write_data1_app out s Ho H) as [E L]. split; [exact E|]. rewrite L. apply psize_mod.
  - unfold write_data1, sdata. rewrite E. cbn [rbind]. split; [|apply pad4_mod].
    destruct (padded_ty (sv_ty s)).
    + f_equal. replace (out ++ []) with (out ++ [] ++ @nil Z) by easy. rewrite pad_out_app by (cbn; lia). reflexivity.
    + rewrite pad4_id by reflexivity. reflexivity.
Qed.
Lemma write_data_e out vs : zlen out mod 4 = 0 -> Forall stores_e vs ->
  write_data out vs = Ok (out ++ flat_map sdata vs).
Proof.
  intros Ho H; revert out Ho; induction H as [|s vs Hs _ IH]; intros out Ho.
  - cbn. now rewrite app_nil_r.
  - cbn [write_data flat_map]. destruct (write_data1_e out s Ho Hs) as [E L].
    rewrite E. cbn [rbind]. rewrite IH; [now rewrite <- app_assoc|]. rewrite zlen_app. lia.
Qed.

(** ** The file *)
Definition edata_start (st : wst) : Z :=
  zlen (file_prefix st) + zlen (vars_header st) + zlen (evars (w_dimids st) (w_ver st) 0 (w_vars st)).
Definition efile_header (st : wst) : bytes :=
  file_prefix st ++ vars_header st ++ evars (w_dimids st) (w_ver st) (edata_start st) (w_vars st).
Definition efile_of (st : wst) : bytes := efile_header st ++ flat_map sdata (w_vars st).

Lemma zlen_evars ids ver vs o1 o2 : wver ver -> zlen (evars ids ver o1 vs) = zlen (evars ids ver o2 vs).
Proof.
  intros Hv. revert o1 o2; induction vs as [|s vs IH]; intros; [reflexivity|].
  cbn [evars]. rewrite !zlen_app. rewrite (zlen_enc_var ids ver s (rsize s) o1 (rsize s) o2) by easy.
  rewrite (IH _ (o2 + rsize s)). reflexivity.
Qed.
Lemma zlen_efile_header st : wver (w_ver st) -> zlen (efile_header st) = edata_start st.
Proof.
  intros Hv. unfold efile_header, edata_start. rewrite !zlen_app.
  rewrite (zlen_evars _ _ _ (edata_start st) 0) by easy. lia.
Qed.

(** The entry of a variable fits into the header *)
Definition var_head (ver : Z) (ds ids : list (bytes * Z)) (s : svar) : Prop :=
  name_fits ver (sv_name s) /\ zlen (sv_lens s) <= 1024 /\ dims_long s /\
  Forall (fun i => 0 <= i < zlen ds) (var_ids ids s) /\ attrs_ok ver (sv_attrs s).
Record est_ok (st : wst) : Prop := mkEok {
  eok_ver : wver (w_ver st);
  eok_gver : check_v5 (w_ver st) (w_gattrs st) = Ok (w_ver st);
  eok_gattrs : attrs_ok (w_ver st) (w_gattrs st);
  eok_dimlens : zlen (w_dimlens st) = zlen (w_dimnames st);
  eok_next : w_next st = zlen (w_dimnames st);
  eok_ndims : zlen (w_dimnames st) <= 1024;
  eok_dims : Forall (dim_ok (w_ver st)) (dims_of st);
  eok_attrs : Forall attrs_wok (w_vars st);
  eok_lens : Forall (fun s => positive s \/ none s) (w_vars st);
  eok_heads : Forall (var_head (w_ver st) (dims_of st) (w_dimids st)) (w_vars st);
  eok_stores : Forall stores_e (w_vars st);
  eok_nvars : zlen (w_vars st) < lim (w_ver st);
  eok_names : NoDup (map sv_name (w_vars st))
}.

Lemma write_prologue_e st : est_ok st ->
  write_prologue st = bs "CDF" ++ [w_ver st] ++ enc_number (w_ver st) 0 ++ enc_dims (w_ver st) (dims_of st).
Proof.
  intros H. pose proof (eok_ver st H) as Hv. unfold write_prologue.
  assert (Eu : u8 (w_ver st) = w_ver st) by (destruct Hv as [-> | ->]; reflexivity).
  rewrite Eu, (eok_dimlens st H), (eok_next st H).
  pose proof (zlen_enc_number (w_ver st) 0 Hv) as EN.
  destruct (w_dimnames st) as [|nm names] eqn:En.
  - unfold dims_of. rewrite En. cbn [map enc_dims]. rewrite <- !app_assoc. reflexivity.
  - rewrite <- En. assert (0 < zlen (w_dimnames st)).
    { rewrite En, zlen_cons. pose proof (zlen_nonneg names). lia. }
    replace (0 <? zlen (w_dimnames st)) with true by lia.
    rewrite firstn_all2 by (unfold zlen; lia).
    rewrite write_dims_app; [|easy|].
    + unfold enc_dims. destruct (dims_of st) as [|x l] eqn:Ed.
      { unfold dims_of in Ed. rewrite En in Ed. easy. }
      rewrite <- Ed. unfold dims_of at 2. rewrite <- !app_assoc. do 5 f_equal.
      unfold dims_of. now rewrite zlen_map.
    + rewrite !zlen_app, zlen_be, !zlen_enc_number by easy. pose proof (numsize_mod _ Hv).
      change (zlen (bs "CDF")) with 3. change (zlen [w_ver st]) with 1. lia.
Qed.
Lemma write_all_e st : est_ok st -> write_all st = Ok (efile_of st).
Proof.
  intros H. pose proof (eok_ver st H) as Hv. unfold write_all.
  rewrite write_prologue_e by easy. rewrite (eok_gver st H). cbn [rbind].
  pose proof (eok_gattrs st H) as Hga. pose proof (numsize_mod _ Hv).
  pose proof (enc_dims_mod (w_ver st) (dims_of st) Hv) as Hd.
  pose proof (enc_attrs_mod (w_ver st) (w_gattrs st) Hv) as Ha.
  rewrite write_attributes_app.
  2:exact Hv. 2:{ rewrite !zlen_app, zlen_enc_number by easy. change (zlen (bs "CDF")) with 3. change (zlen [w_ver st]) with 1. lia. }
  2:{ eapply attrs_ok_wt; eauto. } 2:{ eapply attrs_ok_version; eauto. }
  cbn [rbind].
  replace ((bs "CDF" ++ [w_ver st] ++ enc_number (w_ver st) 0 ++ enc_dims (w_ver st) (dims_of st)) ++
      enc_attrs (w_ver st) (w_gattrs st)) with (file_prefix st).
  2:{ unfold file_prefix. now rewrite <- !app_assoc. }
  assert (Hp : zlen (file_prefix st) mod 4 = 0).
  { unfold file_prefix. rewrite !zlen_app, zlen_enc_number by easy.
    change (zlen (bs "CDF")) with 3. change (zlen [w_ver st]) with 1. lia. }
  destruct (w_vars st) as [|s vs] eqn:Evs.
  - unfold efile_of, efile_header, vars_header. rewrite Evs. cbn [evars flat_map].
    now rewrite !app_nil_r.
  - rewrite <- Evs.
    assert (Evh : vars_header st = be 4 fieldVariable ++ enc_number (w_ver st) (zlen (w_vars st))).
    { unfold vars_header. now rewrite Evs. }
    rewrite <- Evh.
    assert (Hvh : zlen (vars_header st) mod 4 = 0).
    { rewrite Evh, zlen_app, zlen_be, zlen_enc_number by easy. lia. }
    assert (Hlg : Forall dims_long (w_vars st)).
    { eapply Forall_impl; [|exact (eok_heads st H)]. intros x (_ & _ & L & _). exact L. }
    rewrite (vars_size_e (w_dimids st) _ _ _ 0) by (try easy; apply (eok_attrs st H)).
    cbn [rbind]. rewrite zlen_app.
    change (zlen (file_prefix st) + zlen (vars_header st) +
      zlen (evars (w_dimids st) (w_ver st) 0 (w_vars st))) with (edata_start st).
    rewrite write_vars_e by (first [exact Hv | apply (eok_attrs st H) | apply (eok_lens st H) | rewrite zlen_app; lia]). cbn [rbind].
    pose proof (evars_mod (w_dimids st) (w_ver st) (edata_start st) (w_vars st) Hv).
    rewrite write_data_e.
    + unfold efile_of, efile_header. now rewrite <- !app_assoc.
    + rewrite !zlen_app. lia.
    + apply (eok_stores st H).
Qed.

(** ** The header conforms to the grammar *)
Fixpoint efvars (ids : list (bytes * Z)) (off : Z) (vs : list svar) : list fvar :=
  match vs with
  | [] => []
  | s :: r => mkFvar (sv_name s) (var_ids ids s) (map fatt_of (sv_attrs s)) (elt_of (sv_ty s)) (rsize s) off
              :: efvars ids (off + rsize s) r
  end.
Definition eheader (st : wst) : fheader :=
  mkFheader (w_ver st) 0 (dims_of st) (map fatt_of (w_gattrs st)) (efvars (w_dimids st) (edata_start st) (w_vars st)).

Lemma evars_bytes ver ds ids vs : wver ver -> Forall (var_head ver ds ids) vs -> forall off,
  exists bs, Forall2 (var_bytes ver) (efvars ids off vs) bs /\ evars ids ver off vs = List.concat bs.
Proof.
  intros V. induction 1 as [|s vs (_ & _ & L & _ & A) _ IH]; intros off; [exists []; split; [constructor|reflexivity]|].
  destruct (IH (off + rsize s)) as (bs & H1 & H2). exists (enc_var ids ver s (rsize s) off :: bs). cbn [efvars evars List.concat].
  split; [|now rewrite H2]. constructor; [|exact H1].
  exists (enc_name ver (sv_name s)), (enc_attrs ver (sv_attrs s)).
  cbn [fv_name fv_atts fv_dims fv_type fv_size fv_begin].
  split; [now apply enc_name_bytes|]. split; [now apply enc_attrs_bytes|].
  unfold enc_var. rewrite zlen_var_ids by exact L. rewrite !non_neg_enc by now apply wver_fver.
  assert (flat_map (non_neg ver) (var_ids ids s) = flat_map (enc_number ver) (var_ids ids s)) as ->.
  { apply flat_map_ext. intros x. apply non_neg_enc. now apply wver_fver. }
  assert (type_code (elt_of (sv_ty s)) = tcode (sv_ty s)) as -> by (destruct (sv_ty s) as [|[]]; reflexivity).
  assert (offs ver off = be 8 off) as -> by (destruct V as [-> | ->]; reflexivity). reflexivity.
Qed.
Lemma efvars_len ids off vs : zlen (efvars ids off vs) = zlen vs.
Proof. revert off. induction vs as [|s vs IH]; intros off; [reflexivity|]. cbn [efvars]. rewrite !zlen_cons, IH. reflexivity. Qed.
Lemma efvars_names ids off vs : map fv_name (efvars ids off vs) = map sv_name vs.
Proof. revert off. induction vs as [|s vs IH]; intros off; [reflexivity|]. cbn [efvars map fv_name]. now rewrite IH. Qed.

Lemma eheader_bytes st : est_ok st -> header_bytes (eheader st) (efile_header st).
Proof.
  intros H. pose proof (eok_ver st H) as V.
  destruct (evars_bytes _ _ _ _ V (eok_heads st H) (edata_start st)) as (bs & B1 & B2).
  exists (enc_dims (w_ver st) (dims_of st)), (enc_attrs (w_ver st) (w_gattrs st)),
    (vars_header st ++ evars (w_dimids st) (w_ver st) (edata_start st) (w_vars st)).
  cbn [eheader fh_ver fh_numrecs fh_dims fh_atts fh_vars].
  split; [now apply enc_dims_bytes|]. split; [apply enc_attrs_bytes; [exact V|apply (eok_gattrs st H)]|].
  split.
  - unfold vars_header. destruct (w_vars st) as [|s vs] eqn:E.
    + right. split; [reflexivity|]. cbn [evars]. rewrite app_nil_r. rewrite non_neg_enc by now apply wver_fver. reflexivity.
    + rewrite <- E in *. left. exists bs. split; [exact B1|]. rewrite B2, efvars_len, non_neg_enc by now apply wver_fver.
      rewrite <- app_assoc. reflexivity.
  - unfold efile_header, file_prefix. rewrite non_neg_enc by now apply wver_fver. rewrite <- !app_assoc. reflexivity.
Qed.
Definition rsizes (vs : list svar) : Z := fold_right (fun s a => rsize s + a) 0 vs.
Lemma rsizes_nonneg vs : Forall (fun s => positive s \/ none s) vs -> 0 <= rsizes vs.
Proof. induction 1 as [|s vs Hs _ IH]; [reflexivity|]. cbn [rsizes fold_right]. fold (rsizes vs). pose proof (rsize_bound s Hs). lia. Qed.

Lemma eheader_ok st : est_ok st -> edata_start st + rsizes (w_vars st) < 2 ^ 63 ->
  Forall (fun s => rsize s < lim (w_ver st)) (w_vars st) ->
  header_ok (eheader st) /\ names_distinct (eheader st).
Proof.
  intros H SZ IF. pose proof (eok_ver st H) as V. pose proof (lim_pos (w_ver st)).
  assert (0 <= edata_start st) by (rewrite <- zlen_efile_header by exact V; apply zlen_nonneg).
  destruct (fatts_ok _ _ V (eok_gattrs st H)) as (G1 & G2 & G3).
  assert (ZD : zlen (dims_of st) = zlen (w_dimnames st)) by (unfold dims_of; apply zlen_map).
  assert (VS : Forall (fvar_ok (w_ver st) (dims_of st)) (efvars (w_dimids st) (edata_start st) (w_vars st)) /\
     Forall (fun v => keys_distinct (fv_atts v)) (efvars (w_dimids st) (edata_start st) (w_vars st))).
  { pose proof (eok_heads st H) as HR. pose proof (eok_lens st H) as HW.
    remember (edata_start st) as off. clear Heqoff. revert off SZ H1.
    induction (w_vars st) as [|s vs IH]; intros off SZ H1; [split; constructor|].
    cbn [efvars]. apply Forall_cons_iff in IF. destruct IF as [I1 I2]. apply Forall_cons_iff in HR. destruct HR as [R1 R2].
    apply Forall_cons_iff in HW. destruct HW as [W1 W2]. cbn [rsizes fold_right] in SZ. fold (rsizes vs) in SZ.
    pose proof (rsize_bound s W1). pose proof (rsizes_nonneg vs W2).
    destruct (IH I2 R2 W2 (off + rsize s)) as [A1 A2]; [lia|lia|].
    destruct R1 as (R11 & R12 & R13 & R14 & R15). destruct (fatts_ok _ _ V R15) as (F1 & F2 & F3).
    split; constructor; try assumption. constructor; cbn [fv_name fv_dims fv_atts fv_type fv_size fv_begin].
    - now apply name_fits_ok.
    - rewrite zlen_var_ids by exact R13. exact R12.
    - exact R14.
    - exact F3.
    - exact F1.
    - rewrite nlimit_lim by now apply wver_fver. lia.
    - destruct V as [-> | ->]; cbn; lia. }
  destruct VS as [VS1 VS2]. split.
  - constructor; cbn [eheader fh_ver fh_numrecs fh_dims fh_atts fh_vars].
    + now apply wver_fver.
    + rewrite nlimit_lim by now apply wver_fver. lia.
    + rewrite ZD. apply (eok_ndims st H).
    + eapply Forall_impl; [|apply (eok_dims st H)]. intros d (N & L). split; [now apply name_fits_ok|].
      rewrite nlimit_lim by now apply wver_fver. exact L.
    + exact G3.
    + exact G1.
    + rewrite efvars_len, nlimit_lim by now apply wver_fver. apply (eok_nvars st H).
    + exact VS1.
  - split; [exact G2|]. split; [exact VS2|]. cbn [eheader fh_vars]. rewrite efvars_names. apply (eok_names st H).
Qed.

(** ** The getter of a variable of a conforming file *)
Lemma conforming_getter h b d v : header_ok h -> names_distinct h -> header_bytes h b -> In v (fh_vars h) ->
  unlimited_first (fh_dims h) v ->
  exists c g, cdf_open (b ++ d) = Ok c /\ get_var_getter c (fv_name v) = Ok g /\ g_lens g = fvar_shape h v /\
    g_names g = fvar_names h v /\ g_unl g = is_record (fh_dims h) v /\ g_var g = rvar_f (fh_dims h) v /\ g_ty g = cty_of (fv_type v).
Proof.
  intros HO ND HB Hv HU. destruct (parse_any h b d HO HB) as [PA _]. specialize (PA ND).
  exists (cdf_of_hdr (b ++ d) (hdr_f h)). destruct ND as (D1 & D2 & D3).
  pose proof (fold_add_vars (fh_dims h) (fh_vars h) (mkVl 0 empty_om 0 None) [] eq_refl) as FV. cbn [map app] in FV. specialize (FV D3).
  unfold get_var_getter.
  assert (EG : om_get (c_vars (cdf_of_hdr (b ++ d) (hdr_f h))) (fv_name v) = Some (rvar_f (fh_dims h) v)).
  { unfold cdf_of_hdr, hdr_f. cbn [c_vars h_loop]. rewrite FV. apply om_of_get; [rewrite map_map; exact D3|].
    apply in_map_iff. exists v. split; [reflexivity|exact Hv]. }
  rewrite EG. pose proof HO as HO'. destruct HO as [_ O2 O3 O4 _ _ _ O8]. rewrite Forall_forall in O8. specialize (O8 v Hv).
  destruct (var_dims_f h (cdf_of_hdr (b ++ d) (hdr_f h)) v) as (l & L1 & L2 & L3 & L4);
    [exact HO'|reflexivity|reflexivity|apply (fo_dims _ _ _ O8)|exact HU|].
  cbn [rvar_f v_ids]. rewrite L1. cbn [rbind]. cbv zeta. rewrite L2, L3, L4.
  destruct (match fvar_shape h v with [] => _ | _ => _ end) as [chunk len] eqn:EC.
  change (v_type (rvar_f (fh_dims h) v)) with (type_code (fv_type v)). rewrite ty_of_type_code.
  eexists. split; [rewrite open_parse, PA; reflexivity|]. split; [reflexivity|]. repeat split.
Qed.

(** ** Values before the first empty variable *)
Lemma efvars_in ids a s b : forall off,
  In (mkFvar (sv_name s) (var_ids ids s) (map fatt_of (sv_attrs s)) (elt_of (sv_ty s)) (rsize s) (off + rsizes a)) (efvars ids off (a ++ s :: b)).
Proof.
  induction a as [|x a IH]; intros off; cbn [app efvars rsizes fold_right].
  - left. f_equal. lia.
  - right. fold (rsizes a). rewrite Z.add_assoc. apply IH.
Qed.
Lemma rsizes_sizes a : Forall positive a -> rsizes a = sizes a.
Proof. induction 1 as [|s a Hs _ IH]; [reflexivity|]. cbn [rsizes sizes fold_right]. fold (rsizes a) (sizes a). rewrite IH, rsize_pos by exact Hs. reflexivity. Qed.
Lemma positive_stores a : Forall positive a -> Forall stores_e a -> Forall stores a.
Proof.
  intros H. induction 1 as [|s a Hs _ IH]; [constructor|]. apply Forall_cons_iff in H. destruct H as [P H].
  constructor; [|exact (IH H)]. destruct Hs as [[_ S]|[N _]]; [exact S|]. unfold positive, none in *. rewrite N in P.
  apply Forall_cons_iff in P. lia.
Qed.

Lemma shape_of st s : reg_ok st -> registered (w_dimlens st) s -> positive s ->
  map (dim_length (dims_of st)) (var_ids (w_dimids st) s) = sv_lens s.
Proof.
  intros R Hr P. rewrite dims_of_lens by exact R. destruct (registered_spec _ _ Hr) as [_ L2]. unfold var_ids. fold (vnames s).
  revert P. unfold positive. generalize dependent (sv_lens s). generalize (vnames s) as names. intros names lens L2 _.
  induction L2 as [|nm n names lens Ha _ IH]; [reflexivity|]. cbn [map]. rewrite IH. f_equal.
  destruct (dim_id_spec st nm n R Ha) as [_ Q]. unfold dim_length. rewrite Q. reflexivity.
Qed.

Lemma value_before st a s b : let f := efile_of st in
  est_ok st -> reg_ok st -> registered (w_dimlens st) s -> good_var s ->
  edata_start st + rsizes (w_vars st) < 2 ^ 63 -> Forall (fun s => rsize s < lim (w_ver st)) (w_vars st) ->
  zlen f < 2 ^ 62 -> are_bytes f ->
  (forall kv, In kv (sv_attrs s) -> fst kv <> bs "_FillValue") ->
  w_vars st = a ++ s :: b -> Forall positive a ->
  exists c x, cdf_open f = Ok c /\ get_variable c (sv_name s) = Ok x /\ var_values x = returned (sv_val s).
Proof.
  intros f EK R Rg G SZ IF Hf AB Hfill Ev Pa.
  destruct G as ((bb & zs & D) & Hvol & Hrank). pose proof (dc_pos _ _ _ _ _ D) as P. fold (positive s) in P.
  pose proof (eok_ver st EK) as Hv. pose proof (eok_stores st EK) as Hst.
  destruct (eheader_ok st EK SZ IF) as [HO ND].
  set (v := mkFvar (sv_name s) (var_ids (w_dimids st) s) (map fatt_of (sv_attrs s)) (elt_of (sv_ty s)) (rsize s) (edata_start st + rsizes a)).
  assert (HIn : In v (fh_vars (eheader st))) by (cbn [eheader fh_vars]; rewrite Ev; apply efvars_in).
  pose proof (shape_of st s R Rg P) as SH.
  assert (PD : Forall (fun i => 0 < dim_length (dims_of st) i) (var_ids (w_dimids st) s)).
  { apply Forall_forall. intros i Hi. unfold positive in P. rewrite <- SH in P. rewrite Forall_forall in P. apply P, in_map, Hi. }
  assert (HU : unlimited_first (fh_dims (eheader st)) v).
  { unfold unlimited_first. cbn [eheader fh_dims v fv_dims]. destruct (var_ids (w_dimids st) s) as [|i l]; [constructor|].
    apply Forall_cons_iff in PD. exact (proj2 PD). }
  destruct (conforming_getter _ _ (flat_map sdata (w_vars st)) v HO ND (eheader_bytes st EK) HIn HU) as (c & g & OP & GG & GL & GN & GU & GV & GT).
  fold (efile_of st) in OP. fold f in OP. cbn [v fv_name] in GG.
  assert (FS : fvar_shape (eheader st) v = sv_lens s).
  { unfold fvar_shape. cbn [eheader fh_dims fh_numrecs v fv_dims]. rewrite <- SH. apply map_ext_in. intros i Hi.
    rewrite Forall_forall in PD. specialize (PD i Hi). replace (dim_length (dims_of st) i =? 0) with false by lia. reflexivity. }
  assert (NR : is_record (fh_dims (eheader st)) v = false).
  { unfold is_record. cbn [eheader fh_dims v fv_dims]. destruct (var_ids (w_dimids st) s) as [|i l]; [reflexivity|].
    apply Forall_cons_iff in PD. destruct PD as [PD _]. unfold dim_length in PD.
    destruct (nth_error (dims_of st) (Z.to_nat i)) as [[nm n]|]; [lia|reflexivity]. }
  rewrite FS in GL. rewrite NR in GU.
  assert (TY : cty_of (elt_of (sv_ty s)) = sv_ty s) by (destruct (sv_ty s) as [|[]]; reflexivity).
  cbn [v fv_type] in GT. rewrite TY in GT.
  assert (Esplit : f = (efile_header st ++ flat_map sdata a) ++ sdata s ++ flat_map sdata b).
  { unfold f, efile_of. rewrite Ev, flat_map_app. cbn [flat_map]. rewrite <- !app_assoc. reflexivity. }
  rewrite Ev in Hst. apply Forall_app in Hst. destruct Hst as [Hsta Hst].
  assert (Epre : zlen (efile_header st ++ flat_map sdata a) = edata_start st + rsizes a).
  { rewrite zlen_app, zlen_efile_header by exact Hv. rewrite zlen_sdatas by (apply positive_stores; assumption).
    rewrite rsizes_sizes by exact Pa. reflexivity. }
  assert (Hoff : 0 <= edata_start st + rsizes a < 2 ^ 62).
  { rewrite <- Epre. split; [apply zlen_nonneg|]. rewrite Esplit, zlen_app in Hf.
    pose proof (zlen_nonneg (sdata s ++ flat_map sdata b)). lia. }
  assert (BG : v_begin (g_var g) = edata_start st + rsizes a) by (rewrite GV; reflexivity).
  destruct (getter_fixed f c (sv_name s) g OP AB GG GU) as (FG & CF & _); [rewrite GL; exact Hvol|rewrite BG; exact (proj2 Hoff)|].
  assert (Hpat : fill_pattern (g_var g) (g_ty g) = Ok (enc_be (fill_kind (sv_ty s)) (default_fill (sv_ty s)))).
  { rewrite GT. apply fill_absent. rewrite GV. cbn [rvar_f v_attrs v fv_atts]. unfold om_get. cbn [om_of om_vals].
    apply assoc_None. rewrite rattrs_keys. intros X. rewrite map_map in X. apply in_map_iff in X.
    destruct X as (kv & K1 & K2). exact (Hfill kv K2 K1). }
  set (pat := enc_be (fill_kind (sv_ty s)) (default_fill (sv_ty s))) in *.
  assert (Hdata : g_data g pat = zs).
  { unfold g_data, g_bytes, g_total. rewrite CF, BG, GT, GL.
    unfold stream. rewrite Z.add_0_r. rewrite Esplit at 1. rewrite zdrop_app_exact by (symmetry; exact Epre).
    unfold sdata at 1. rewrite (dc_store _ _ _ _ _ D). unfold pad4. rewrite <- !app_assoc.
    pose proof (dc_len _ _ _ _ _ D) as L.
    rewrite ztake_app_exact by (rewrite L; lia). apply (dc_dec _ _ _ _ _ D). }
  destruct (values_fixed g pat FG Hpat) as (x & X1 & X2).
  { rewrite Hdata, GT, GL. apply (dc_char _ _ _ _ _ D). }
  exists c. unfold get_variable. rewrite GG. cbn [rbind]. unfold get_slice. rewrite X1. cbn [rmap rbind].
  eexists. split; [exact OP|]. split; [reflexivity|]. cbn [var_values]. rewrite X2, Hdata, GT, GL. apply (dc_nest _ _ _ _ _ D).
Qed.

(** ** From the caller's obligations *)
Lemma empty_lens v d lens ty : empty_value v -> dim_lengths v [] (nonames d) = Ok (lens, ty) ->
  lens = [0] /\ store ty lens v = Ok [].
Proof.
  intros [-> | (k & ->)] H; cbn in H; injection H as <- <-; (split; [reflexivity|]); cbn; [reflexivity|].
  rewrite (proj2 (nk_eqb_eq k k) eq_refl). reflexivity.
Qed.

Definition fine_var (s : svar) : Prop := (good_var s /\ ~ empty_value (sv_val s)) \/ (none s /\ empty_value (sv_val s)).
Lemma storable_nonempty n v : storable n v -> ~ empty_value v.
Proof.
  intros [W (ds & R) ST _ _] [-> | (k & ->)].
  - destruct (ST eq_refl) as [L _]. cbn in L. lia.
  - inversion R; subst; try discriminate; congruence.
Qed.

Lemma fits_est_ok U ops rs st : ucd_ascii U -> ucd_disjoint U ->
  wrun U open_writer ops = (st, rs) -> fits_empty ops rs st ->
  est_ok st /\ Forall fine_var (w_vars st) /\ Forall (fun s => rsize s < lim (w_ver st)) (w_vars st).
Proof.
  intros UA UD E [F1 FS F2 F3 F4 F5 F6 F7]. destruct (run_inv U ops st rs E) as ([W1 W2 W3 W4] & G & A).
  rewrite (field_limit_lim _ W1) in *. pose proof (lim_pos (w_ver st)) as HL.
  rewrite <- G in F4, F5.
  pose proof (dims_of_lens st W2) as Ed.
  assert (N : map sv_name (w_vars st) = var_names (accepted ops rs)).
  { rewrite (added_names _ _ A). apply var_names_filter. }
  assert (HV : forall s, In s (w_vars st) -> exists n v d a,
     (var_fits (lim (w_ver st)) n v d a \/ (empty_value v /\ zlen n < 2 ^ 31 /\ attrs_fit (lim (w_ver st)) a)) /\
     zlen (xdr (returned v)) + 3 < lim (w_ver st) /\
     sv_name s = n /\ sv_val s = v /\ sv_attrs s = a /\ dim_lengths v [] (nonames d) = Ok (sv_lens s, sv_ty s)).
  { intros s Hs. destruct (Forall2_in_r _ _ _ _ A Hs) as (o & Ho & (n & v & d & a & -> & X1 & X2 & X3 & X4 & _)).
    apply filter_In in Ho. destruct Ho as [Ho _]. exists n, v, d, a. split; [now apply F1|]. split; [now apply (FS n v d a)|easy]. }
  assert (HC : forall s, In s (w_vars st) -> fine_var s /\ zlen (sv_name s) < 2 ^ 31 /\ attrs_fit (lim (w_ver st)) (sv_attrs s) /\
    rsize s < lim (w_ver st) /\ stores_e s /\ zlen (sv_lens s) <= 1024).
  { intros s Hs. destruct (HV s Hs) as (n & v & d & a & [[V1 V2 V3 V4 V5]|(V1 & V4 & V5)] & Z & X1 & X2 & X3 & X4); subst.
    - pose proof (storable_nonempty _ _ V1) as NE. rewrite <- negb_nonames in X4. destruct (value_decodes _ _ _ _ V1 X4) as ((b & zs & D) & D2 & D3).
      pose proof (dc_pos _ _ _ _ _ D) as P. fold (positive s) in P.
      assert (SB : zlen b = dsize s) by (unfold dsize; rewrite zprod_volume; apply D).
      split. { left. split; [|exact NE]. split; [eauto|]. rewrite D2. split; [exact V3|lia]. }
      split; [exact V4|]. split; [exact V5|]. split.
      + rewrite rsize_pos by exact P. unfold psize. rewrite <- SB, (dc_bytes _ _ _ _ _ D). pose proof (round4_bounds (zlen (xdr (returned (sv_val s))))). lia.
      + split; [|lia]. left. split; [exact P|]. exists b. split; [apply D|exact SB].
    - destruct (empty_lens _ _ _ _ V1 X4) as [L S]. fold (none s) in L. split; [right; split; assumption|]. split; [exact V4|]. split; [exact V5|].
      split; [|split; [right; split; assumption|unfold none in L; rewrite L; cbn; lia]].
      rewrite rsize_none by exact L. assert (round4 (tysize (sv_ty s)) <= 8) by (destruct (sv_ty s) as [|[]]; vm_compute; discriminate).
      lia. }
  split; [|split; apply Forall_forall; intros s Hs; apply (HC s Hs)].
  split; auto.
  - apply check_v5_same; [apply F4|exact F5].
  - apply (attrs_fit_ok U); auto. destruct F4 as [_ _ _ _ S _]. rewrite Forall_forall in *.
    intros kv Hkv. destruct (attr_version_cases (snd kv)) as [X|[X|X]]; rewrite X.
    + destruct W1; lia.
    + destruct W1; lia.
    + rewrite (F5 kv Hkv); [lia|]. now apply attr_only_v5_version.
  - destruct W2 as [_ R2 _ _ _ _]. rewrite <- R2. now rewrite zlen_map.
  - apply W2.
  - destruct W2 as [_ R2 _ _ _ _]. rewrite <- R2. rewrite zlen_map. exact F7.
  - rewrite Ed. pose proof (rg_pos st W2) as P. rewrite Forall_forall in *. intros x Hx.
    destruct (F6 x Hx) as (Y1 & Y2 & Y3). specialize (P x Hx). destruct x as [nm n].
    cbn [fst snd] in *. split; cbn [fst snd]; [|lia]. repeat split; [easy|lia|lia].
  - apply Forall_forall. intros s Hs. destruct (HC s Hs) as (_ & _ & [_ _ _ K1 K2 _] & _). split; [exact K1|].
    eapply Forall_impl; [|exact K2]. intros kv. apply supported_version.
  - apply Forall_forall. intros s Hs. destruct (HC s Hs) as (_ & _ & _ & _ & [[P _]|[P _]] & _); auto.
  - rewrite Ed. rewrite Forall_forall in *. intros s Hs. destruct (W4 s Hs) as [I1 I2 I3 I4 I5].
    destruct (HC s Hs) as (_ & NL & AF & _ & _ & HR). destruct (registered_spec _ _ I3) as [R1 R2].
    split; [|split; [easy|split; [easy|split]]].
    + split; [|split; lia]. eapply valid_name_no_nul; eauto.
    + unfold var_ids. fold (vnames s). apply Forall_forall. intros i Hi. apply in_map_iff in Hi.
      destruct Hi as (nm & <- & Hnm). destruct (Forall2_in_l _ _ _ _ R2 Hnm) as (n & Hn & Ha).
      exact (proj1 (dim_id_spec st nm n W2 Ha)).
    + apply (attrs_fit_ok U); auto. apply I5. destruct AF as [_ _ _ _ S _].
      eapply Forall_impl; [|exact S]. intros kv. apply supported_version.
  - apply Forall_forall. intros s Hs. apply (HC s Hs).
  - rewrite <- (zlen_map sv_name), N. exact F3.
  - rewrite N. exact F2.
Qed.

(** ** Sizes and places *)
Lemma evars_len ids ver vs : forall off, 8 * zlen vs <= zlen (evars ids ver off vs).
Proof.
  induction vs as [|s vs IH]; intros off; [cbn; lia|]. cbn [evars]. specialize (IH (off + rsize s)).
  rewrite zlen_app, zlen_cons. unfold enc_var. rewrite !zlen_app.
  rewrite (zlen_be 8 off).
  pose proof (zlen_nonneg (enc_name ver (sv_name s))). pose proof (zlen_nonneg (enc_number ver (zlen (sv_lens s)))).
  pose proof (zlen_nonneg (flat_map (enc_number ver) (var_ids ids s))). pose proof (zlen_nonneg (enc_attrs ver (sv_attrs s))).
  pose proof (zlen_nonneg (be 4 (tcode (sv_ty s)))). pose proof (zlen_nonneg (enc_number ver (rsize s))). lia.
Qed.
Lemma rsizes_len vs : Forall stores_e vs -> rsizes vs <= zlen (flat_map sdata vs) + 8 * zlen vs.
Proof.
  induction 1 as [|s vs Hs _ IH]; [cbn; lia|]. cbn [rsizes fold_right flat_map]. fold (rsizes vs).
  rewrite zlen_app, zlen_cons. assert (rsize s <= zlen (sdata s) + 8); [|lia].
  destruct Hs as [[P S]|[N S]].
  - rewrite rsize_pos by exact P. rewrite (proj2 (write_data1_app [] s eq_refl S)). lia.
  - rewrite rsize_none by exact N. pose proof (zlen_nonneg (sdata s)).
    assert (round4 (tysize (sv_ty s)) <= 8) by (destruct (sv_ty s) as [|[]]; vm_compute; discriminate). lia.
Qed.
Lemma esizes st : est_ok st -> zlen (efile_of st) < 2 ^ 62 -> edata_start st + rsizes (w_vars st) < 2 ^ 63.
Proof.
  intros EK Hf. pose proof (rsizes_len _ (eok_stores st EK)) as A.
  pose proof (evars_len (w_dimids st) (w_ver st) (w_vars st) 0) as B.
  unfold efile_of in Hf. rewrite zlen_app, zlen_efile_header in Hf by apply EK.
  assert (C : zlen (evars (w_dimids st) (w_ver st) 0 (w_vars st)) <= edata_start st).
  { unfold edata_start. pose proof (zlen_nonneg (file_prefix st)). pose proof (zlen_nonneg (vars_header st)). lia. }
  pose proof (zlen_nonneg (flat_map sdata (w_vars st))) as D. clear EK.
  change (2 ^ 63) with (2 * 2 ^ 62). lia.
Qed.

Lemma accepted_before ops rs vs l1 n v d a l2 :
  Forall2 added (filter is_var (accepted ops rs)) vs -> accepted ops rs = l1 ++ WVar n v d a :: l2 ->
  exists u s w, vs = u ++ s :: w /\ Forall2 added (filter is_var l1) u /\ added (WVar n v d a) s.
Proof.
  intros A E. rewrite E, filter_app in A. cbn [filter is_var] in A. apply Forall2_app_inv_l in A.
  destruct A as (u & r & A1 & A2 & ->). inversion A2 as [|? s ? w A3 _]; subst. exists u, s, w. auto.
Qed.

Lemma values_before U ops rs st f l1 n v d a l2 : ucd_ascii U -> ucd_disjoint U ->
  wrun U open_writer ops = (st, rs) -> fits_empty ops rs st -> close_writer st = Ok f ->
  zlen f < 2 ^ 62 -> are_bytes f -> accepted ops rs = l1 ++ WVar n v d a :: l2 ->
  (forall n' v' d' a', In (WVar n' v' d' a') l1 -> ~ empty_value v') -> ~ empty_value v ->
  exists c x, cdf_open f = Ok c /\ get_variable c n = Ok x /\ var_values x = returned v.
Proof.
  intros UA UD E F C Hf AB Ea Hl Hv. destruct (fits_est_ok U ops rs st UA UD E F) as (EK & G & IF).
  unfold close_writer in C. rewrite (write_all_e st EK) in C. injection C as <-.
  destruct (run_inv U ops st rs E) as ([W1 W2 W3 W4] & _ & A).
  destruct (accepted_before _ _ _ _ _ _ _ _ _ A Ea) as (u & s & w & Ev & A1 & A2).
  destruct A2 as (n' & v' & d' & a' & Eo & X1 & X2 & X3 & _ & _). injection Eo as <- <- <- <-.
  pose proof (esizes st EK Hf) as SZ. rewrite Forall_forall in W4, G.
  assert (Hs : In s (w_vars st)) by (rewrite Ev; apply in_app_iff; right; left; reflexivity).
  rewrite <- X1, <- X2. apply (value_before st u s w); auto.
  - apply (W4 s Hs).
  - destruct (G s Hs) as [[X _]|[_ X]]; [exact X|]. exfalso. apply Hv. rewrite <- X2. exact X.
  - intros kv Hkv. pose proof (vi_anames _ _ _ (W4 s Hs)) as HN. rewrite Forall_forall in HN.
    exact (valid_not_underscore U _ _ UA (HN kv Hkv)).
  - apply Forall_forall. intros y Hy. assert (Hy' : In y (w_vars st)) by (rewrite Ev; apply in_app_iff; left; exact Hy).
    destruct (G y Hy') as [[((b & zs & D) & _) _]|[_ X]]; [exact (dc_pos _ _ _ _ _ D)|]. exfalso.
    destruct (Forall2_in_r _ _ _ _ A1 Hy) as (o & Ho & (n' & v' & d' & a' & -> & _ & Y2 & _)).
    apply filter_In in Ho. apply (Hl n' v' d' a' (proj1 Ho)). rewrite <- Y2. exact X.
Qed.
