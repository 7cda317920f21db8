(** Round trip of whole CDF files. *)
From Coq Require Import ZifyBool ZifyNat Permutation.
From Verif Require Import Prelude GoVal BaseLemmas ValidNameModel ValidNameProofs OrderedMapModel
  ArraySpec ArrayProofs CdfSpec CdfCalls CdfWriterModel CdfReaderModel CdfCodec CdfHeader CdfConvert
  CdfFile CdfFixed CdfStore CdfInv.
Ltac Zify.zify_post_hook ::= Z.div_mod_to_equations.

(** ** Storing a value and decoding what was stored *)
Lemma quiet_id z : 0 <= z -> ~ signalling32 z -> quiet32 z = z.
Proof.
  intros Hz H. unfold quiet32. destruct (f32_nan z) eqn:E; [|reflexivity].
  unfold f32_nan in E. apply andb_true_iff in E. destruct E as [E1 E2].
  apply Z.eqb_eq in E1. apply negb_true_iff, Z.eqb_neq in E2.
  assert (A : Z.land z 2139095040 = 2139095040).
  { change 2139095040 with (Z.shiftl 255 23). rewrite <- E1 at 2.
    apply Z.bits_inj'. intros n Hn. rewrite Z.land_spec.
    destruct (Z.lt_ge_cases n 23).
    - rewrite !Z.shiftl_spec_low by lia. apply andb_false_r.
    - rewrite !Z.shiftl_spec by lia. rewrite Z.land_spec, Z.shiftr_spec by lia.
      replace (n - 23 + 23) with n by lia. reflexivity. }
  destruct (Z.eq_dec (Z.land z 4194304) 0) as [B|B].
  - exfalso. apply H. split; [easy|]. split; [easy|]. intros C. apply E2.
    change 8388607 with (Z.lor 4194303 4194304). rewrite Z.land_lor_distr_r, B, C. reflexivity.
  - assert (T : Z.testbit z 22 = true).
    { destruct (Z.testbit z 22) eqn:T; [easy|]. exfalso. apply B.
      change 4194304 with (2 ^ 22). apply Z.bits_inj'. intros n Hn.
      rewrite Z.land_spec, Z.bits_0, Z.pow2_bits_eqb by lia.
      destruct (Z.eqb_spec 22 n) as [<-|]; [now rewrite T|apply andb_false_r]. }
    apply Z.bits_inj'. intros n Hn. rewrite Z.lor_spec. change 4194304 with (2 ^ 22).
    rewrite Z.pow2_bits_eqb by lia. destruct (Z.eqb_spec 22 n) as [<-|]; [now rewrite T|apply orb_false_r].
Qed.

Lemma base_cases v ds : rect ds v -> wt v = true ->
  (exists k, base_type (type_of v) = GNum k) \/ base_type (type_of v) = GString.
Proof.
  revert v; induction ds as [|d ds IH]; intros v H W.
  - rect_nil H; cbn; eauto.
  - rect_cons H HF. apply wt_slice in W. destruct l as [|x l]; [easy|].
    apply Forall_cons_iff in HF as [Hx HF']. apply Forall_cons_iff in W as [[Ht Hw] W'].
    cbn [type_of base_type]. rewrite <- Ht. now apply IH.
Qed.

Record decodes (ty : cty) (lens : list Z) (v : gval) (b : bytes) (zs : list Z) : Prop := mkDecodes {
  dc_store : store ty lens v = Ok b;
  dc_pos : Forall (fun d => 0 < d) lens;
  dc_len : zlen b = tysize ty * volume lens;
  dc_zs : zlen zs = volume lens;
  dc_dec : forall r, dec_list (fill_kind ty) (Z.to_nat (volume lens)) (b ++ r) = zs;
  dc_bytes : b = xdr (returned v);
  dc_nest : nest (elt_of ty) lens zs = returned v;
  dc_char : ty = TChar -> lens = [] -> Forall (fun z => 0 <= z < 128) zs
}.

Lemma pad_strings_num n k ds v : rect ds v -> wt v = true -> base_type (type_of v) = GNum k ->
  pad_strings n v = v.
Proof.
  revert v; induction ds as [|d ds IH]; intros v H W B.
  - rect_nil H; [reflexivity|]. cbn in B. easy.
  - rect_cons H HF. apply wt_slice in W. cbn [type_of base_type pad_strings] in *. f_equal.
    rewrite <- (map_id l) at 2. apply map_ext_in. intros x Hx. rewrite Forall_forall in *.
    destruct (W x Hx) as [Ht Hw]. apply IH; auto. now rewrite Ht.
Qed.

Lemma xdr_num k ds v : rect ds v -> wt v = true -> base_type (type_of v) = GNum k ->
  flat_map (enc_be k) (vbits v) = xdr v.
Proof.
  revert v; induction ds as [|d ds IH]; intros v H W B.
  - rect_nil H; cbn in B; [|easy]. inversion B; subst. cbn. apply app_nil_r.
  - rect_cons H HF. apply wt_slice in W. cbn [type_of base_type vbits xdr] in *. rewrite flat_map_flat.
    rewrite !flat_map_concat_map. f_equal. apply map_ext_in. intros x Hx. rewrite Forall_forall in *.
    destruct (W x Hx) as [Ht Hw]. apply IH; auto. now rewrite Ht.
Qed.
Lemma xdr_str n ds v : rect ds v -> wt v = true -> base_type (type_of v) = GString ->
  vbits (pad_strings n v) = xdr (pad_strings n v).
Proof.
  revert v; induction ds as [|d ds IH]; intros v H W B.
  - rect_nil H; cbn in B; [easy|]. reflexivity.
  - rect_cons H HF. apply wt_slice in W. cbn [type_of base_type vbits xdr pad_strings] in *.
    rewrite !flat_map_concat_map. f_equal. rewrite !map_map. apply map_ext_in. intros x Hx. rewrite Forall_forall in *.
    destruct (W x Hx) as [Ht Hw]. apply IH; auto. now rewrite Ht.
Qed.

Lemma value_decodes named v lens ty : storable named v ->
  dim_lengths v [] (negb named) = Ok (lens, ty) ->
  (exists b zs, decodes ty lens v b zs) /\ volume lens = volume (full_shape v) /\
  zlen lens <= zlen (full_shape v).
Proof.
  intros [W [ds R] ST SC SN] E. unfold full_shape. rewrite (rect_extent ds v R).
  pose proof (rect_pos _ _ R) as Hp.
  destruct (base_cases v ds R W) as [[k B]|B]; rewrite B.
  - rewrite (dl_num k ds v R W B) in E. cbn [app] in E. inversion E; subst.
    rewrite app_nil_r. split; [|split; [easy|lia]].
    destruct (nest_vbits_num k lens v R W B) as (N1 & N2 & N3).
    pose proof (volume_pos _ Hp).
    assert (HR : returned v = v) by (apply (pad_strings_num _ k lens); easy).
    assert (HD : forall r, dec_list k (Z.to_nat (volume lens)) (flat_map (enc_be k) (vbits v) ++ r) = vbits v).
    { intros r. replace (Z.to_nat (volume lens)) with (List.length (vbits v)) by (unfold zlen in N1; lia).
      now apply dec_flat_enc. }
    exists (flat_map (enc_be k) (vbits v)), (vbits v). split; auto.
    + destruct lens as [|d lens].
      * rect_nil R; cbn in B; [|easy]. inversion B; subst. cbn [store vbits flat_map].
        rewrite (proj2 (nk_eqb_eq k k) eq_refl), app_nil_r. do 2 f_equal.
        destruct k; cbn [scalar_bits]; try reflexivity. apply quiet_id; [|now apply SN].
        cbn [wt] in W. unfold in_range in W. cbn in W. lia.
      * now apply store_num.
    + rewrite zlen_flat_enc, N1. reflexivity.
    + rewrite HR. now apply (xdr_num k lens).
    + rewrite HR. exact N2.
    + easy.
  - destruct (ST B) as [L1 L2]. destruct (nest_vbits_str (longest v) ds v R W B) as (N1 & N2 & N3); [lia|].
    assert (Hpl : Forall (fun d => 0 < d) (ds ++ [longest v])).
    { apply Forall_app. split; [easy|]. now repeat constructor. }
    pose proof (volume_pos _ Hpl).
    assert (HD : forall r, dec_list U8 (Z.to_nat (volume (ds ++ [longest v])))
       (vbits (pad_strings (longest v) v) ++ r) = vbits (pad_strings (longest v) v)).
    { intros r. replace (Z.to_nat (volume (ds ++ [longest v]))) with
        (List.length (vbits (pad_strings (longest v) v))) by (unfold zlen in N1; lia).
      now apply dec_bytes. }
    assert (Hgen : (lens, ty) = (ds ++ [longest v], TChar) ->
       exists b zs, decodes ty lens v b zs).
    { intros [= -> ->]. exists (vbits (pad_strings (longest v) v)), (vbits (pad_strings (longest v) v)).
      split; auto.
      - now apply store_str.
      - cbn [tysize]. lia.
      - now apply (xdr_str (longest v) ds).
      - intros _ X. destruct ds; easy. }
    assert (C : (lens, ty) = (ds ++ [longest v], TChar) \/
                exists c, v = VStr [c] /\ named = false /\ lens = [] /\ ty = TChar).
    { destruct ds as [|d ds].
      - rect_nil R; cbn in B; [easy|]. cbn [dim_lengths longest app] in *.
        destruct (Z.eqb_spec (zlen s) 1) as [E1|E1]; cbn [andb] in E.
        + destruct named; cbn [negb] in E; inversion E; subst; [now left|].
          right. destruct s as [|c [|c2 s2]]; [easy| |rewrite !zlen_cons in E1; pose proof (zlen_nonneg s2); lia].
          exists c. easy.
        + left. inversion E; subst. reflexivity.
      - left. rewrite (dl_str (d :: ds) v R ltac:(easy) W B ltac:(lia)) in E. rewrite L2 in E. cbn [app] in E. now inversion E; subst. }
    destruct C as [C|(c & -> & -> & -> & ->)].
    + split; [now apply Hgen|]. inversion C; subst. split; [easy|lia].
    + assert (ds = []) as -> by (inversion R; easy). split; [|split; [reflexivity|cbn; lia]].
      exists [c], [c]. cbn [wt forallb] in W.
      split; [reflexivity|constructor|reflexivity|reflexivity| |reflexivity|reflexivity|].
      * intros r. cbn [volume]. change (Z.to_nat 1) with 1%nat. cbn [app fill_kind dec_list].
        change (ksize U8) with 1. change (ztake 1 (c :: r)) with [c]. f_equal.
        unfold dec_be, of_unsigned, of_be. cbn. lia.
      * intros _ _. repeat constructor; [lia|]. specialize (SC c eq_refl eq_refl). lia.
Qed.

(** ** From the writer invariant and the caller's obligations to a readable file *)
Lemma field_limit_lim ver : wver ver -> field_limit ver = lim ver.
Proof. intros [-> | ->]; reflexivity. Qed.

Lemma supported_version v : attr_supported v -> attr_version v <> 0.
Proof.
  destruct v as [k z|s|t l|]; cbn; try easy.
  - destruct (v5kind k); easy.
  - destruct t; cbn; try easy. destruct (v5kind k); easy.
Qed.
Lemma only_v5_kind k : v5kind k = true <-> only_v5 k.
Proof. unfold only_v5. destruct k; cbn; intuition congruence. Qed.
Lemma attr_only_v5_version v : attr_version v = 5 <-> attr_only_v5 v.
Proof.
  destruct v as [k z|s|t l|]; cbn; try easy.
  - rewrite <- only_v5_kind. destruct (v5kind k); easy.
  - destruct t; cbn; try easy. rewrite <- only_v5_kind. destruct (v5kind k); easy.
Qed.

Lemma attrs_fit_ok U ver a : ucd_ascii U -> ucd_disjoint U -> wver ver ->
  Forall (fun kv => valid_name U (fst kv) = true) a ->
  attrs_fit (lim ver) a ->
  Forall (fun kv => attr_version (snd kv) <= ver) a ->
  attrs_ok ver a.
Proof.
  intros UA UD Hv HN [F1 F2 F3 F4 F5 F6] HV. pose proof (lim_pos ver).
  split; [|easy]. rewrite Forall_forall in *. intros kv Hkv.
  split; [now apply F4|]. split; [split; [now apply supported_version, F5|now apply HV]|].
  specialize (F3 kv Hkv). specialize (F6 kv Hkv).
  specialize (HN kv Hkv). destruct kv as [k v]. cbn [fst snd] in *.
  split; [|split; [|]].
  - split; [|split; cbn [fst]; lia]. eapply valid_name_no_nul; eauto.
  - destruct v; cbn in *; lia.
  - destruct v; cbn in *; lia.
Qed.

Lemma check_v5_same ver a : Forall (fun kv => attr_supported (snd kv)) a ->
  Forall (fun kv => attr_only_v5 (snd kv) -> ver = 5) a -> check_v5 ver a = Ok ver.
Proof.
  induction a as [|[k v] a IH]; intros H1 H2; [reflexivity|].
  inversion H1 as [|? ? S1 S2]; subst. inversion H2 as [|? ? V1 V2]; subst. cbn [check_v5 snd] in *.
  destruct (Z.eqb_spec (attr_version v) 0); [now apply supported_version in S1|].
  destruct (Z.eqb_spec (attr_version v) 5) as [E|].
  - f_equal. symmetry. apply V1. now apply attr_only_v5_version.
  - now apply IH.
Qed.

Lemma assoc_all_keys {V} (m : list (bytes * V)) d : NoDup (map fst m) ->
  map (fun nm => (nm, match assoc nm m with Some n => n | None => d end)) (map fst m) = m.
Proof.
  intros H. rewrite map_map. rewrite <- (map_id m) at 2. apply map_ext_in. intros [k v] Hx. cbn [fst].
  now rewrite (In_assoc k v m H Hx).
Qed.
Lemma dims_of_lens st : reg_ok st -> dims_of st = w_dimlens st.
Proof.
  intros [R1 R2 _ _ _ _]. unfold dims_of. rewrite <- R2. apply assoc_all_keys. now rewrite R2.
Qed.

Lemma dim_id_spec st nm n : reg_ok st -> assoc nm (w_dimlens st) = Some n ->
  0 <= dim_id (w_dimids st) nm < zlen (w_dimlens st) /\
  nth_error (w_dimlens st) (Z.to_nat (dim_id (w_dimids st) nm)) = Some (nm, n).
Proof.
  intros [R1 R2 R3 R4 R5 _] H. pose proof (assoc_Some_In _ _ _ H) as HI.
  apply In_nth_error in HI. destruct HI as (i & Hi).
  assert (Hn : nth_error (w_dimnames st) i = Some nm).
  { rewrite <- R2. now rewrite (map_nth_error fst _ _ Hi). }
  unfold dim_id. rewrite (R4 i nm Hn), Nat2Z.id. split; [|easy].
  assert (nth_error (w_dimlens st) i <> None) by congruence. apply nth_error_Some in H0. unfold zlen. lia.
Qed.

Definition vnames (s : svar) : list bytes := firstn (List.length (sv_lens s)) (sv_dims s).

Lemma registered_spec m s : registered m s ->
  (List.length (sv_lens s) <= List.length (sv_dims s))%nat /\
  Forall2 (fun nm n => assoc nm m = Some n) (vnames s) (sv_lens s).
Proof.
  unfold registered, vnames. generalize (sv_dims s) as ds. generalize (sv_lens s) as ls.
  induction ls as [|n ls IH]; intros ds H; cbn [List.length firstn].
  - split; [lia|constructor].
  - destruct (H 0%nat n eq_refl) as (dn & D1 & D2). destruct ds as [|d ds]; [easy|].
    cbn in D1. inversion D1; subst. destruct (IH ds) as [I1 I2].
    { intros j m' Hj. destruct (H (S j) m' Hj) as (dn' & X1 & X2). exists dn'. now split. }
    cbn [List.length]. split; [lia|]. constructor; easy.
Qed.

Lemma Forall2_in_l {A B} (R : A -> B -> Prop) l l' x : Forall2 R l l' -> In x l -> exists y, In y l' /\ R x y.
Proof. induction 1; intros []; subst; [eexists; split; [now left|easy]|]. destruct IHForall2 as (y' & ? & ?); [easy|]. exists y'. split; [now right|easy]. Qed.
Lemma Forall2_in_r {A B} (R : A -> B -> Prop) l l' y : Forall2 R l l' -> In y l' -> exists x, In x l /\ R x y.
Proof. induction 1; intros []; subst; [eexists; split; [now left|easy]|]. destruct IHForall2 as (y' & ? & ?); [easy|]. exists y'. split; [now right|easy]. Qed.

Lemma var_names_filter l : var_names (filter is_var l) = var_names l.
Proof. unfold var_names. induction l as [|[ | | ] l IH]; cbn [filter is_var flat_map]; [reflexivity|exact IH|now rewrite IH|exact IH]. Qed.
Lemma added_names ops vs : Forall2 added ops vs -> map sv_name vs = var_names ops.
Proof.
  induction 1 as [|o s ops vs (n & v & d & a & -> & Hn & _) _ IH]; [reflexivity|].
  unfold var_names in *. cbn [map flat_map app]. now rewrite IH, Hn.
Qed.

Lemma negb_nonames d : negb (match d with [] => false | _ => true end) = nonames d.
Proof. destruct d; reflexivity. Qed.

Definition good_var (s : svar) : Prop :=
  (exists b zs, decodes (sv_ty s) (sv_lens s) (sv_val s) b zs) /\ 24 * volume (sv_lens s) <= 2 ^ 48 /\
  zlen (sv_lens s) <= 1024.

Lemma fits_wst_ok U ops rs st : ucd_ascii U -> ucd_disjoint U ->
  wrun U open_writer ops = (st, rs) -> fits ops rs st -> wst_ok st /\ Forall good_var (w_vars st).
Proof.
  intros UA UD E [F1 F2 F3 F4 F5 F6 F7]. destruct (run_inv U ops st rs E) as ([W1 W2 W3 W4] & G & A).
  rewrite (field_limit_lim _ W1) in *. pose proof (lim_pos (w_ver st)) as HL.
  rewrite <- G in F4, F5.
  pose proof (dims_of_lens st W2) as Ed.
  assert (N : map sv_name (w_vars st) = var_names (accepted ops rs)).
  { rewrite (added_names _ _ A). apply var_names_filter. }
  assert (HV : forall s, In s (w_vars st) -> exists n v d a, var_fits (lim (w_ver st)) n v d a /\
     sv_name s = n /\ sv_val s = v /\ sv_attrs s = a /\ dim_lengths v [] (nonames d) = Ok (sv_lens s, sv_ty s)).
  { intros s Hs. destruct (Forall2_in_r _ _ _ _ A Hs) as (o & Ho & (n & v & d & a & -> & X1 & X2 & X3 & X4 & _)).
    apply filter_In in Ho. destruct Ho as [Ho _]. exists n, v, d, a. split; [now apply F1|easy]. }
  assert (HG : Forall good_var (w_vars st)).
  { apply Forall_forall. intros s Hs. destruct (HV s Hs) as (n & v & d & a & [V1 V2 V3 V4 V5] & X1 & X2 & X3 & X4).
    rewrite <- negb_nonames in X4. destruct (value_decodes _ _ _ _ V1 X4) as (D1 & D2 & D3).
    unfold good_var. rewrite X2, D2. split; [easy|]. split; [easy|lia]. }
  split; [|exact HG].
  split; auto.
  - apply check_v5_same; [apply F4|exact F5].
  - apply (attrs_fit_ok U); auto. destruct F4 as [_ _ _ _ S _]. rewrite Forall_forall in *.
    intros kv Hkv. destruct (attr_version_cases (snd kv)) as [X|[X|X]]; rewrite X.
    + destruct W1; lia.
    + destruct W1; lia.
    + rewrite (F5 kv Hkv); [lia|]. now apply attr_only_v5_version.
  - destruct W2 as [_ R2 _ _ _ _]. rewrite <- R2. now rewrite zlen_map.
  - apply W2.
  - destruct W2 as [_ R2 _ _ _ _]. rewrite <- R2. rewrite zlen_map. exact F7.
  - rewrite Ed. pose proof (rg_pos st W2) as P. rewrite Forall_forall in *. intros x Hx.
    destruct (F6 x Hx) as (Y1 & Y2 & Y3). specialize (P x Hx). destruct x as [nm n].
    cbn [fst snd] in *. split; cbn [fst snd]; [|lia]. repeat split; [easy|lia|lia].
  - rewrite Forall_forall in *. intros s Hs.
    destruct (HV s Hs) as (n & v & d & a & [V1 V2 V3 V4 V5] & X1 & X2 & X3 & X4). subst.
    destruct (HG s Hs) as ((b & zs & D) & _). destruct V5 as [_ _ _ K1 K2 _].
    split; [easy|]. split; [|apply D]. rewrite Forall_forall in *. intros kv Hkv. apply supported_version. auto.
  - rewrite Ed. rewrite Forall_forall in *. intros s Hs. destruct (W4 s Hs) as [I1 I2 I3 I4 I5].
    destruct (HV s Hs) as (n & v & d & a & [V1 V2 V3 V4 V5] & X1 & X2 & X3 & X4). subst.
    destruct (HG s Hs) as ((b & zs & D) & _ & HR). destruct (registered_spec _ _ I3) as [R1 R2].
    split; [|split; [easy|split; [easy|split]]].
    + split; [|split; lia]. eapply valid_name_no_nul; eauto.
    + unfold var_ids. fold (vnames s). apply Forall_forall. intros i Hi. apply in_map_iff in Hi.
      destruct Hi as (nm & <- & Hnm). destruct (Forall2_in_l _ _ _ _ R2 Hnm) as (n & Hn & Ha).
      destruct (dim_id_spec st nm n W2 Ha) as [Q1 Q2]. split; [lia|]. split; [lia|].
      exists nm, n. split; [easy|]. pose proof (dc_pos _ _ _ _ _ D) as P. rewrite Forall_forall in P. now apply P.
    + apply (attrs_fit_ok U); auto. apply I5. destruct V5 as [_ _ _ _ S _].
      eapply Forall_impl; [|exact S]. intros kv. apply supported_version.
  - rewrite Forall_forall in *. intros s Hs. destruct (HG s Hs) as ((b & zs & D) & _).
    exists b. split; [apply D|]. unfold dsize. rewrite zprod_volume. apply D.
  - rewrite <- (zlen_map sv_name), N. exact F3.
  - rewrite N. exact F2.
Qed.

(** ** Reading a variable of a written file *)
Definition sizes (vs : list svar) : Z := fold_right (fun s a => psize s + a) 0 vs.

Lemma read_as_lookup ids a s b : forall off l, read_as ids off (a ++ s :: b) l ->
  NoDup (map sv_name (a ++ s :: b)) ->
  exists rv, assoc (sv_name s) l = Some (rvar_of ids s rv (off + sizes a)).
Proof.
  induction a as [|x a IH]; intros off l R ND; cbn [app] in *; inversion R; subst.
  - exists rv. cbn [assoc]. rewrite beqb_refl. cbn [sizes fold_right]. now rewrite Z.add_0_r.
  - cbn [map] in ND. inversion ND; subst. destruct (IH _ _ H3 H2) as (rv' & E).
    exists rv'. cbn [assoc]. destruct (beqb_spec (sv_name s) (sv_name x)) as [Ex|_].
    + exfalso. apply H1. rewrite <- Ex. rewrite map_app. apply in_app_iff. right. now left.
    + rewrite E. do 2 f_equal. cbn [sizes fold_right]. fold (sizes a). lia.
Qed.

Lemma read_as_names ids off vs l : read_as ids off vs l -> map fst l = map sv_name vs.
Proof. induction 1; cbn; congruence. Qed.

Definition cdf_of (st : wst) (f : bytes) (rvs : list (bytes * rvar)) : cdf :=
  mkCdf f (w_ver st) 0 0 (rdims (dims_of st)) (gattrs_read st) (om_of rvs) false.

Lemma var_dims_spec st f rvs names lens : reg_ok st ->
  Forall2 (fun nm n => assoc nm (w_dimlens st) = Some n) names lens ->
  Forall (fun d => 0 < d) lens -> forall first,
  var_dims (cdf_of st f rvs) first (map (dim_id (w_dimids st)) names) =
  Ok (map (fun x => (snd x, fst x, false)) (combine names lens)).
Proof.
  intros R H P. assert (Hc : c_dims (cdf_of st f rvs) = rdims (w_dimlens st))
    by (cbn [cdf_of c_dims]; now rewrite dims_of_lens).
  revert Hc. generalize (cdf_of st f rvs) as c. intros c Hc.
  induction H as [|nm n names lens Ha _ IH]; intros first; [reflexivity|].
  inversion P; subst. cbn [map var_dims combine]. rewrite Hc.
  destruct (dim_id_spec st nm n R Ha) as [Q1 Q2]. unfold dim_at.
  unfold rdims. rewrite !zlen_map.
  replace (dim_id (w_dimids st) nm <? zlen (w_dimlens st)) with true by lia.
  rewrite (map_nth_error _ _ _ Q2). cbn [rbind d_len d_name fst snd].
  replace (n =? 0) with false by lia. rewrite (IH H2 false). reflexivity.
Qed.

Lemma Forall2_len {A B} (R : A -> B -> Prop) l l' : Forall2 R l l' -> List.length l = List.length l'.
Proof. induction 1; cbn; congruence. Qed.
Lemma combine_fst_snd {A B} (l : list A) (l' : list B) : List.length l = List.length l' ->
  map fst (combine l l') = l /\ map snd (combine l l') = l'.
Proof.
  revert l'; induction l as [|x l IH]; intros [|y l'] H; cbn in *; try easy.
  destruct (IH l') as [-> ->]; [lia|easy].
Qed.

(** The getter of a variable of a written file *)
Lemma getter_of st f a s b rvs : reg_ok st -> registered (w_dimlens st) s -> good_var s ->
  w_vars st = a ++ s :: b -> NoDup (map sv_name (w_vars st)) ->
  read_as (w_dimids st) (data_start st) (w_vars st) rvs ->
  exists rv, get_var_getter (cdf_of st f rvs) (sv_name s) =
    Ok (mkGetter (cdf_of st f rvs) (rvar_of (w_dimids st) s rv (data_start st + sizes a))
          (sv_lens s) (vnames s) false (volume (tl (sv_lens s)))
          (match sv_lens s with [] => 1 | n :: _ => n end) (sv_ty s)).
Proof.
  intros R Hreg ((bb & zs & D) & Hvol & Hrank) Ev ND RA.
  rewrite Ev in RA, ND. destruct (read_as_lookup _ _ _ _ _ _ RA ND) as (rv & E).
  exists rv. unfold get_var_getter. unfold om_get. cbn [cdf_of c_vars om_of om_vals]. rewrite E.
  destruct (registered_spec _ _ Hreg) as [L1 L2].
  change (v_ids (rvar_of (w_dimids st) s rv (data_start st + sizes a))) with
    (map (dim_id (w_dimids st)) (vnames s)).
  fold (cdf_of st f rvs). pose proof (dc_pos _ _ _ _ _ D) as P.
  rewrite (var_dims_spec st f rvs _ _ R L2 P true). cbn [rbind].
  destruct (combine_fst_snd (vnames s) (sv_lens s)) as [C1 C2].
  { now apply Forall2_len in L2. }
  rewrite !map_map. cbn [fst snd].
  change (map (fun x : bytes * Z => snd x) (combine (vnames s) (sv_lens s))) with
     (map snd (combine (vnames s) (sv_lens s))).
  change (map (fun x : bytes * Z => fst x) (combine (vnames s) (sv_lens s))) with
     (map fst (combine (vnames s) (sv_lens s))).
  rewrite C1, C2. cbn [rvar_of v_type]. rewrite ty_of_tcode.
  replace (existsb snd (map (fun x : bytes * Z => (snd x, fst x, false)) (combine (vnames s) (sv_lens s))))
    with false.
  2:{ generalize (combine (vnames s) (sv_lens s)). induction l as [|x l IH]; [reflexivity|]. cbn. exact IH. }
  rewrite total_size_ok by (try exact P; lia).
  destruct (sv_lens s) as [|n ds] eqn:El.
  - reflexivity.
  - inversion P; subst. replace (n =? 0) with false by lia.
    pose proof (volume_pos _ H2). pose proof (volume_head_le n ds H1 H2).
    cbn [tl volume] in *. rewrite (i64_small n) by lia.
    rewrite Z.quot_div_nonneg by lia. rewrite (Z.mul_comm n), Z.div_mul by lia.
    rewrite i64_small; [reflexivity|]. pose proof (volume_tail_le n ds H1 H2). lia.
Qed.

Lemma fill_absent v t : om_get (v_attrs v) (bs "_FillValue") = None ->
  fill_pattern v t = Ok (enc_be (fill_kind t) (default_fill t)).
Proof. intros H. unfold fill_pattern. now rewrite H. Qed.

(** A valid name does not start with an underscore *)
Lemma underscore_invalid U r : ucd_ascii U -> valid_name U (95 :: r) = false.
Proof.
  intros UA. unfold valid_name, runes. cbn [List.length runes_fuel decode1].
  change (95 <? 128) with true. cbv iota. cbn [re_match].
  destruct (UA 95) as (H1 & H2 & _); [lia|]. rewrite H1, H2. reflexivity.
Qed.

Lemma written_value st a s b rvs : let f := file_of st in
  wst_ok st -> reg_ok st -> Forall (fun s => registered (w_dimlens st) s) (w_vars st) ->
  Forall good_var (w_vars st) -> zlen f < 2 ^ 62 ->
  (forall kv, In kv (sv_attrs s) -> fst kv <> bs "_FillValue") ->
  w_vars st = a ++ s :: b ->
  read_as (w_dimids st) (data_start st) (w_vars st) rvs ->
  exists x, get_variable (cdf_of st f rvs) (sv_name s) = Ok x /\ var_values x = returned (sv_val s) /\
    var_dimensions x = vnames s /\ var_attributes x = om_of (attrs_back (sv_attrs s)).
Proof.
  intros f WK R HR HG Hf Hfill Ev RA.
  assert (Hs : In s (w_vars st)) by (rewrite Ev; apply in_app_iff; right; left; reflexivity).
  rewrite Forall_forall in HR, HG. pose proof (HG s Hs) as G. pose proof (HR s Hs) as Rg.
  destruct (getter_of st f a s b rvs R Rg G Ev (wok_names st WK) RA) as (rv & E).
  unfold get_variable. rewrite E. cbn [rbind].
  set (g := mkGetter _ _ _ _ _ _ _ _) in *.
  destruct G as ((bb & zs & D) & Hvol & Hrank). pose proof (dc_pos _ _ _ _ _ D) as P.
  pose proof (wok_ver st WK) as Hv. pose proof (wok_stores st WK) as Hst.
  assert (Esplit : f = (file_header st ++ flat_map sdata a) ++ sdata s ++ flat_map sdata b).
  { unfold f, file_of. rewrite Ev, flat_map_app. cbn [flat_map]. rewrite <- !app_assoc. reflexivity. }
  assert (Hst3 : Forall stores a /\ stores s).
  { rewrite Ev in Hst. apply Forall_app in Hst. destruct Hst as [H1 H2]. apply Forall_cons_iff in H2. split; [exact H1|apply H2]. }
  destruct Hst3 as [Hsta Hss].
  assert (Epre : zlen (file_header st ++ flat_map sdata a) = data_start st + sizes a).
  { rewrite zlen_app, zlen_file_header by exact Hv. rewrite zlen_sdatas by exact Hsta. reflexivity. }
  assert (Hps : zlen (sdata s) = psize s) by (apply (write_data1_app [] s eq_refl Hss)).
  assert (Hoff : 0 <= data_start st + sizes a < 2 ^ 62).
  { rewrite <- Epre. split; [apply zlen_nonneg|]. rewrite Esplit, zlen_app in Hf.
    pose proof (zlen_nonneg (sdata s ++ flat_map sdata b)). lia. }
  assert (FG : fixed_getter g).
  { split; try reflexivity; try exact P.
    - exact Hvol.
    - exact Hoff. }
  assert (Hpat : fill_pattern (g_var g) (g_ty g) = Ok (enc_be (fill_kind (sv_ty s)) (default_fill (sv_ty s)))).
  { apply fill_absent. cbn [g g_var rvar_of v_attrs]. unfold om_get. cbn [om_of om_vals].
    apply assoc_None. rewrite attrs_back_keys. intros X. apply in_map_iff in X.
    destruct X as (kv & K1 & K2). exact (Hfill kv K2 K1). }
  set (pat := enc_be (fill_kind (sv_ty s)) (default_fill (sv_ty s))) in *.
  assert (Hdata : g_data g pat = zs).
  { unfold g_data, g_bytes, g_total. cbn [g g_lens g_ty g_cdf g_var rvar_of v_begin cdf_of c_file].
    unfold stream. rewrite Z.add_0_r. rewrite Esplit at 1. rewrite zdrop_app_exact by (symmetry; exact Epre).
    unfold sdata at 1. rewrite (dc_store _ _ _ _ _ D). unfold pad4. rewrite <- !app_assoc.
    pose proof (dc_len _ _ _ _ _ D) as L.
    rewrite ztake_app_exact by (rewrite L; lia). apply (dc_dec _ _ _ _ _ D). }
  destruct (values_fixed g pat FG Hpat) as (x & X1 & X2).
  { rewrite Hdata. apply (dc_char _ _ _ _ _ D). }
  unfold get_slice. rewrite X1. cbn [rmap rbind]. eexists. split; [reflexivity|].
  cbn [var_values var_dimensions var_attributes]. rewrite X2, Hdata.
  split; [apply (dc_nest _ _ _ _ _ D)|]. split; reflexivity.
Qed.

(** ** The round trip *)
Lemma attr_back_returned v : attr_back v = attr_returned v.
Proof. reflexivity. Qed.

Lemma om_of_get {V} (l : list (bytes * V)) k v : NoDup (map fst l) -> In (k, v) l ->
  om_get (om_of l) k = Some v.
Proof. intros. unfold om_get, om_of. cbn [om_vals]. now apply In_assoc. Qed.

Lemma valid_not_underscore U nm r : ucd_ascii U -> valid_name U nm = true -> nm <> 95 :: r.
Proof. intros UA H ->. rewrite underscore_invalid in H by exact UA. discriminate. Qed.

Lemma close_fits U ops rs st : ucd_ascii U -> ucd_disjoint U ->
  wrun U open_writer ops = (st, rs) -> fits ops rs st -> close_writer st = Ok (file_of st).
Proof.
  intros UA UD E F. destruct (fits_wst_ok U ops rs st UA UD E F) as [WK _].
  unfold close_writer. now apply write_all_file.
Qed.

Record opened (ops : list wop) (rs : list (res unit)) (st : wst) (f : bytes) (c : cdf)
  (rvs : list (bytes * rvar)) : Prop := mkOpened {
  op_file : f = file_of st;
  op_cdf : c = cdf_of st f rvs;
  op_read : read_as (w_dimids st) (data_start st) (w_vars st) rvs;
  op_ok : wst_ok st;
  op_good : Forall good_var (w_vars st);
  op_open : cdf_open f = Ok c
}.

Lemma open_fits U ops rs st f : ucd_ascii U -> ucd_disjoint U ->
  wrun U open_writer ops = (st, rs) -> fits ops rs st -> close_writer st = Ok f -> zlen f < 2 ^ 62 ->
  exists c rvs, opened ops rs st f c rvs.
Proof.
  intros UA UD E F C Hf. rewrite (close_fits U ops rs st UA UD E F) in C.
  destruct (fits_wst_ok U ops rs st UA UD E F) as [WK HG]. injection C as <-.
  destruct (read_header_file st (flat_map sdata (w_vars st)) WK) as (rvs & RA & EO).
  { unfold small_file. lia. }
  exists (cdf_of st (file_of st) rvs), rvs.
  split; [reflexivity|reflexivity|exact RA|exact WK|exact HG|exact EO].
Qed.

Lemma in_accepted_split U ops rs st n v d a : wrun U open_writer ops = (st, rs) ->
  In (WVar n v d a) (accepted ops rs) ->
  exists s l1 l2, w_vars st = l1 ++ s :: l2 /\ added (WVar n v d a) s.
Proof.
  intros E HI. destruct (run_inv U ops st rs E) as (_ & _ & A).
  destruct (Forall2_in_l _ _ _ (WVar n v d a) A) as (s & Hs & Ad).
  { apply filter_In. split; [exact HI|reflexivity]. }
  apply in_split in Hs. destruct Hs as (l1 & l2 & El). exists s, l1, l2. split; assumption.
Qed.

Lemma round_variable U ops rs st f c rvs n v d a : ucd_ascii U ->
  wrun U open_writer ops = (st, rs) -> opened ops rs st f c rvs -> zlen f < 2 ^ 62 ->
  In (WVar n v d a) (accepted ops rs) ->
  exists x s, get_variable c n = Ok x /\ var_values x = returned v /\
    var_dimensions x = vnames s /\ added (WVar n v d a) s /\ In s (w_vars st) /\
    var_attributes x = om_of (attrs_back a) /\ attrs_ok (w_ver st) a.
Proof.
  intros UA E [O1 O2 O3 O4 O5 O6] Hf HI.
  destruct (in_accepted_split U ops rs st n v d a E HI) as (s & l1 & l2 & El & Ad).
  destruct (run_inv U ops st rs E) as ([W1 W2 W3 W4] & _ & _).
  destruct (written_value st l1 s l2 rvs) as (x & X1 & X2 & X3 & X4); auto.
  - eapply Forall_impl; [|exact W4]. intros y Hy. apply Hy.
  - rewrite <- O1. exact Hf.
  - intros kv Hkv. assert (Hs : In s (w_vars st)) by (rewrite El; apply in_app_iff; right; left; reflexivity).
    rewrite Forall_forall in W4. pose proof (vi_anames _ _ _ (W4 s Hs)) as HN. rewrite Forall_forall in HN.
    exact (valid_not_underscore U _ _ UA (HN kv Hkv)).
  - exists x, s. assert (Hs : In s (w_vars st)) by (rewrite El; apply in_app_iff; right; left; reflexivity).
    destruct Ad as (n' & v' & d' & a' & Eo & A1 & A2 & A3 & A4 & A5). injection Eo as <- <- <- <-.
    assert (AK : attrs_ok (w_ver st) a).
    { pose proof (wok_rvars st O4) as V. rewrite Forall_forall in V. destruct (V s Hs) as (_ & _ & _ & _ & X).
      rewrite A3 in X. exact X. }
    subst c f. rewrite A1, A2, A3 in *.
    split; [exact X1|]. split; [exact X2|]. split; [exact X3|].
    split; [exists n, v, d, a; repeat split; assumption|].
    split; [exact Hs|]. split; assumption.
Qed.

Lemma attrs_back_entry (a : attrs) k v : NoDup (map fst a) -> In (k, v) a ->
  om_get (om_of (attrs_back a)) k = Some (attr_returned v).
Proof.
  intros ND HI. apply om_of_get; [now rewrite attrs_back_keys|].
  unfold attrs_back. apply in_map_iff. exists (k, v). split; [reflexivity|exact HI].
Qed.

(** C01 *)
Lemma round_values U ops rs st f : ucd_ascii U -> ucd_disjoint U ->
  wrun U open_writer ops = (st, rs) -> fits ops rs st -> close_writer st = Ok f -> zlen f < 2 ^ 62 ->
  exists c, cdf_open f = Ok c /\
    forall n v d a, In (WVar n v d a) (accepted ops rs) ->
      exists x, get_variable c n = Ok x /\ var_values x = returned v.
Proof.
  intros UA UD E F C Hf. destruct (open_fits U ops rs st f UA UD E F C Hf) as (c & rvs & O).
  exists c. split; [apply O|]. intros n v d a HI.
  destruct (round_variable U ops rs st f c rvs n v d a UA E O Hf HI) as (x & s & X1 & X2 & _).
  exists x. split; assumption.
Qed.

(** C02 *)
Lemma round_attributes U ops rs st f : ucd_ascii U -> ucd_disjoint U ->
  wrun U open_writer ops = (st, rs) -> fits ops rs st -> close_writer st = Ok f -> zlen f < 2 ^ 62 ->
  exists c, cdf_open f = Ok c /\
    (om_keys_visible (c_gattrs c) = map fst (last_attrs [] (accepted ops rs)) /\
     forall k y, In (k, y) (last_attrs [] (accepted ops rs)) ->
       om_get (c_gattrs c) k = Some (attr_returned y)) /\
    forall n v d a, In (WVar n v d a) (accepted ops rs) ->
      exists x, get_variable c n = Ok x /\
        om_keys_visible (var_attributes x) = map fst a /\
        forall k y, In (k, y) a -> om_get (var_attributes x) k = Some (attr_returned y).
Proof.
  intros UA UD E F C Hf. destruct (open_fits U ops rs st f UA UD E F C Hf) as (c & rvs & O).
  exists c. split; [apply O|].
  destruct (run_inv U ops st rs E) as ([W1 W2 W3 W4] & G & _).
  split.
  - rewrite <- G. rewrite (op_cdf _ _ _ _ _ _ O). cbn [cdf_of c_gattrs]. unfold gattrs_read.
    pose proof (wok_gattrs st (op_ok _ _ _ _ _ _ O)) as (_ & ND & _).
    rewrite hide_absent.
    + split; [cbn [om_keys_visible om_visible]; apply attrs_back_keys|].
      intros k y HI. exact (attrs_back_entry _ _ _ ND HI).
    + rewrite attrs_back_keys. intros X. apply in_map_iff in X. destruct X as (kv & K1 & K2).
      rewrite Forall_forall in W3. exact (valid_not_underscore U _ _ UA (W3 kv K2) K1).
  - intros n v d a HI.
    destruct (round_variable U ops rs st f c rvs n v d a UA E O Hf HI) as (x & s & X1 & X2 & X3 & X4 & X5 & X6 & X7).
    exists x. split; [exact X1|]. rewrite X6. destruct X7 as (_ & ND & _). split.
    + cbn [om_keys_visible om_of om_visible]. apply attrs_back_keys.
    + intros k y Hk. exact (attrs_back_entry _ _ _ ND Hk).
Qed.

(** C05 *)
Lemma read_as_begins ids vs : forall off l, read_as ids off vs l ->
  forall a s b, vs = a ++ s :: b -> NoDup (map sv_name vs) ->
  exists r, assoc (sv_name s) l = Some r /\ v_begin r = off + sizes a.
Proof.
  intros off l R a s b -> ND. destruct (read_as_lookup ids a s b off l R ND) as (rv & Ea).
  eexists. split; [exact Ea|reflexivity].
Qed.
