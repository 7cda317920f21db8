(** The complete written file in closed form, and reading its header. *)
From Coq Require Import ZifyBool ZifyNat Permutation.
From Verif Require Import Prelude GoVal BaseLemmas OrderedMapModel OrderedMapProofs
  ArraySpec ArrayProofs CdfWriterModel CdfReaderModel CdfCodec CdfHeader CdfConvert.
Ltac Zify.zify_post_hook ::= Z.div_mod_to_equations.

Definition psize (s : svar) : Z := round4 (dsize s).

Fixpoint enc_vars (ids : list (bytes * Z)) (ver off : Z) (vs : list svar) : bytes :=
  match vs with
  | [] => []
  | s :: r => enc_var ids ver s (psize s) off ++ enc_vars ids ver (off + psize s) r
  end.

Lemma enc_var_mod ids ver s vsize off : wver ver -> zlen (enc_var ids ver s vsize off) mod 4 = 0.
Proof.
  intros Hv. unfold enc_var. pose proof (numsize_mod ver Hv).
  pose proof (enc_name_mod ver (sv_name s) Hv). pose proof (enc_attrs_mod ver (sv_attrs s) Hv).
  rewrite !zlen_app, !zlen_be, !zlen_enc_number, flat_enc_number_len by easy.
  assert (zlen (var_ids ids s) * numsize ver mod 4 = 0) by (destruct Hv as [-> | ->]; cbn; lia).
  lia.
Qed.
Lemma enc_vars_mod ids ver off vs : wver ver -> zlen (enc_vars ids ver off vs) mod 4 = 0.
Proof.
  intros Hv. revert off; induction vs as [|s vs IH]; intros off; [reflexivity|].
  cbn [enc_vars]. rewrite zlen_app. pose proof (enc_var_mod ids ver s (psize s) off Hv).
  specialize (IH (off + psize s)). lia.
Qed.

Lemma write_vars_app ids ver out vs off : wver ver -> zlen out mod 4 = 0 -> Forall var_wok vs ->
  write_vars ids ver out vs off = Ok (out ++ enc_vars ids ver off vs).
Proof.
  intros Hv Ho H; revert out off Ho; induction H as [|s vs Hs _ IH]; intros out off Ho.
  - cbn. now rewrite app_nil_r.
  - cbn [write_vars enc_vars]. rewrite write_var_app by easy. cbn [rbind].
    rewrite IH.
    + now rewrite <- app_assoc.
    + rewrite zlen_app. pose proof (enc_var_mod ids ver s (round4 (dsize s)) off Hv). lia.
Qed.

Lemma zlen_enc_var ids ver s v1 o1 v2 o2 : wver ver ->
  zlen (enc_var ids ver s v1 o1) = zlen (enc_var ids ver s v2 o2).
Proof. intros. unfold enc_var. rewrite !zlen_app, !zlen_be, !zlen_enc_number by easy. lia. Qed.

Definition dims_long (s : svar) : Prop := (List.length (sv_lens s) <= List.length (sv_dims s))%nat.

Lemma vars_size_ok ids ver vs acc off : wver ver -> Forall var_wok vs ->
  Forall dims_long vs ->
  vars_size ver acc vs = Ok (acc + zlen (enc_vars ids ver off vs)).
Proof.
  intros Hv H HL. revert acc off; induction H as [|s vs Hs _ IH]; intros acc off.
  - cbn. f_equal. lia.
  - inversion HL; subst. cbn [vars_size enc_vars].
    rewrite (var_size_ok ids ver s (psize s) off) by easy. cbn [rbind].
    rewrite (IH H2 _ (off + psize s)). f_equal. rewrite zlen_app. lia.
Qed.

(** Data *)
Definition stores (s : svar) : Prop :=
  exists b, store (sv_ty s) (sv_lens s) (sv_val s) = Ok b /\ zlen b = dsize s.
Definition sdata (s : svar) : bytes :=
  match store (sv_ty s) (sv_lens s) (sv_val s) with Ok b => pad4 b | _ => [] end.

Lemma padded_ty_size t : padded_ty t = false -> tysize t mod 4 = 0.
Proof. destruct t as [|[]]; cbn; easy. Qed.

Lemma write_data1_app out s : zlen out mod 4 = 0 -> stores s ->
  write_data1 out s = Ok (out ++ sdata s) /\ zlen (sdata s) = psize s.
Proof.
  intros Ho (b & E & L). unfold write_data1, sdata. rewrite E. cbn [rbind].
  rewrite zlen_pad4, L. split; [|reflexivity].
  destruct (padded_ty (sv_ty s)) eqn:P.
  - f_equal. replace (out ++ b) with (out ++ [] ++ b) by easy.
    rewrite pad_out_app by (cbn; lia). reflexivity.
  - apply padded_ty_size in P. rewrite pad4_id; [reflexivity|].
    rewrite L. unfold dsize. rewrite Z.mul_mod, P by lia. reflexivity.
Qed.

Lemma psize_mod s : psize s mod 4 = 0.
Proof. apply round4_mod. Qed.

Lemma write_data_app out vs : zlen out mod 4 = 0 -> Forall stores vs ->
  write_data out vs = Ok (out ++ flat_map sdata vs).
Proof.
  intros Ho H; revert out Ho; induction H as [|s vs Hs _ IH]; intros out Ho.
  - cbn. now rewrite app_nil_r.
  - cbn [write_data flat_map]. destruct (write_data1_app out s Ho Hs) as [E L].
    rewrite E. cbn [rbind]. rewrite IH.
    + now rewrite <- app_assoc.
    + rewrite zlen_app, L. pose proof (psize_mod s). lia.
Qed.

(** ** The header part of the file *)
Definition dims_of (st : wst) : list (bytes * Z) :=
  map (fun nm => (nm, match assoc nm (w_dimlens st) with Some n => n | None => 0 end)) (w_dimnames st).

Definition file_prefix (st : wst) : bytes :=
  bs "CDF" ++ [w_ver st] ++ enc_number (w_ver st) 0 ++ enc_dims (w_ver st) (dims_of st) ++
  enc_attrs (w_ver st) (w_gattrs st).

Definition vars_header (st : wst) : bytes :=
  match w_vars st with
  | [] => be 4 0 ++ enc_number (w_ver st) 0
  | vs => be 4 fieldVariable ++ enc_number (w_ver st) (zlen vs)
  end.

(** Position of the first data byte: the length of everything before it *)
Definition data_start (st : wst) : Z :=
  zlen (file_prefix st) + zlen (vars_header st) +
  zlen (enc_vars (w_dimids st) (w_ver st) 0 (w_vars st)).

Definition file_header (st : wst) : bytes :=
  file_prefix st ++ vars_header st ++
  enc_vars (w_dimids st) (w_ver st) (data_start st) (w_vars st).
Definition file_of (st : wst) : bytes := file_header st ++ flat_map sdata (w_vars st).

Lemma zlen_enc_vars ids ver vs o1 o2 : wver ver ->
  zlen (enc_vars ids ver o1 vs) = zlen (enc_vars ids ver o2 vs).
Proof.
  intros Hv. revert o1 o2; induction vs as [|s vs IH]; intros; [reflexivity|].
  cbn [enc_vars]. rewrite !zlen_app.
  rewrite (zlen_enc_var ids ver s (psize s) o1 (psize s) o2) by easy.
  rewrite (IH _ (o2 + psize s)). reflexivity.
Qed.

Lemma zlen_file_header st : wver (w_ver st) -> zlen (file_header st) = data_start st.
Proof.
  intros Hv. unfold file_header, data_start. rewrite !zlen_app.
  rewrite (zlen_enc_vars _ _ _ (data_start st) 0) by easy. lia.
Qed.

(** What the state must satisfy for the file to be written in this form *)
Record wst_ok (st : wst) : Prop := mkWok {
  wok_ver : wver (w_ver st);
  wok_gver : check_v5 (w_ver st) (w_gattrs st) = Ok (w_ver st);
  wok_gattrs : attrs_ok (w_ver st) (w_gattrs st);
  wok_dimlens : zlen (w_dimlens st) = zlen (w_dimnames st);
  wok_next : w_next st = zlen (w_dimnames st);
  wok_ndims : zlen (w_dimnames st) <= 1024;
  wok_dims : Forall (dim_ok (w_ver st)) (dims_of st);
  wok_vars : Forall var_wok (w_vars st);
  wok_rvars : Forall (var_rok (w_ver st) (dims_of st) (w_dimids st)) (w_vars st);
  wok_stores : Forall stores (w_vars st);
  wok_nvars : zlen (w_vars st) < lim (w_ver st);
  wok_names : NoDup (map sv_name (w_vars st))
}.

Lemma var_rok_long ver ds ids s : var_rok ver ds ids s -> dims_long s.
Proof. intros (_ & _ & H & _). exact H. Qed.

Lemma write_prologue_app st : wst_ok st ->
  write_prologue st = bs "CDF" ++ [w_ver st] ++ enc_number (w_ver st) 0 ++ enc_dims (w_ver st) (dims_of st).
Proof.
  intros H. pose proof (wok_ver st H) as Hv. unfold write_prologue.
  assert (Eu : u8 (w_ver st) = w_ver st) by (destruct Hv as [-> | ->]; reflexivity).
  rewrite Eu, (wok_dimlens st H), (wok_next st H).
  pose proof (zlen_enc_number (w_ver st) 0 Hv) as EN.
  destruct (w_dimnames st) as [|nm names] eqn:En.
  - unfold dims_of. rewrite En. cbn [map enc_dims]. rewrite <- !app_assoc. reflexivity.
  - rewrite <- En. assert (0 < zlen (w_dimnames st)).
    { rewrite En, zlen_cons. pose proof (zlen_nonneg names). lia. }
    replace (0 <? zlen (w_dimnames st)) with true by lia.
    rewrite firstn_all2 by (unfold zlen; lia).
    rewrite write_dims_app; [|easy|].
    + unfold enc_dims. destruct (dims_of st) as [|x l] eqn:Ed.
      { unfold dims_of in Ed. rewrite En in Ed. easy. }
      rewrite <- Ed. unfold dims_of at 2. rewrite <- !app_assoc. do 5 f_equal.
      unfold dims_of. now rewrite zlen_map.
    + rewrite !zlen_app, zlen_be, !zlen_enc_number by easy. pose proof (numsize_mod _ Hv). 
      change (zlen (bs "CDF")) with 3. change (zlen [w_ver st]) with 1. lia.
Qed.

Lemma write_all_file st : wst_ok st -> write_all st = Ok (file_of st).
Proof.
  intros H. pose proof (wok_ver st H) as Hv. unfold write_all.
  rewrite write_prologue_app by easy. rewrite (wok_gver st H). cbn [rbind].
  pose proof (wok_gattrs st H) as Hga. pose proof (numsize_mod _ Hv).
  pose proof (enc_dims_mod (w_ver st) (dims_of st) Hv) as Hd.
  pose proof (enc_attrs_mod (w_ver st) (w_gattrs st) Hv) as Ha.
  rewrite write_attributes_app.
  2:exact Hv. 2:{ rewrite !zlen_app, zlen_enc_number by easy. change (zlen (bs "CDF")) with 3. change (zlen [w_ver st]) with 1. lia. }
  2:{ eapply attrs_ok_wt; eauto. } 2:{ eapply attrs_ok_version; eauto. }
  cbn [rbind].
  replace ((bs "CDF" ++ [w_ver st] ++ enc_number (w_ver st) 0 ++ enc_dims (w_ver st) (dims_of st)) ++
      enc_attrs (w_ver st) (w_gattrs st)) with (file_prefix st).
  2:{ unfold file_prefix. now rewrite <- !app_assoc. }
  assert (Hp : zlen (file_prefix st) mod 4 = 0).
  { unfold file_prefix. rewrite !zlen_app, zlen_enc_number by easy.
    change (zlen (bs "CDF")) with 3. change (zlen [w_ver st]) with 1. lia. }
  destruct (w_vars st) as [|s vs] eqn:Evs.
  - unfold file_of, file_header, vars_header. rewrite Evs. cbn [enc_vars flat_map].
    now rewrite !app_nil_r.
  - rewrite <- Evs.
    assert (Evh : vars_header st = be 4 fieldVariable ++ enc_number (w_ver st) (zlen (w_vars st))).
    { unfold vars_header. now rewrite Evs. }
    rewrite <- Evh.
    assert (Hvh : zlen (vars_header st) mod 4 = 0).
    { rewrite Evh, zlen_app, zlen_be, zlen_enc_number by easy. lia. }
    pose proof (wok_vars st H) as Hw.
    assert (Hlg : Forall dims_long (w_vars st)).
    { eapply Forall_impl; [|exact (wok_rvars st H)]. apply var_rok_long. }
    rewrite (vars_size_ok (w_dimids st) _ _ _ 0) by easy.
    cbn [rbind]. rewrite zlen_app.
    change (zlen (file_prefix st) + zlen (vars_header st) +
      zlen (enc_vars (w_dimids st) (w_ver st) 0 (w_vars st))) with (data_start st).
    rewrite write_vars_app by (try easy; rewrite zlen_app; lia). cbn [rbind].
    pose proof (enc_vars_mod (w_dimids st) (w_ver st) (data_start st) (w_vars st) Hv).
    rewrite write_data_app.
    + unfold file_of, file_header. now rewrite <- !app_assoc.
    + rewrite !zlen_app. lia.
    + apply (wok_stores st H).
Qed.

(** ** Reading the header *)
Lemma om_of_add {V} (l : list (bytes * V)) n v : ~ In n (map fst l) ->
  om_add (om_of l) n v = om_of (l ++ [(n, v)]).
Proof.
  intros H. unfold om_add, om_of. cbn [om_hidden mem existsb om_keys om_vals om_visible].
  rewrite assoc_set_new by easy. now rewrite map_app.
Qed.

(** The variables as the reader sees them *)
Inductive read_as (ids : list (bytes * Z)) : Z -> list svar -> list (bytes * rvar) -> Prop :=
| ra_nil off : read_as ids off [] []
| ra_cons off s vs rv l :
    read_as ids (off + psize s) vs l ->
    read_as ids off (s :: vs) ((sv_name s, rvar_of ids s rv off) :: l).

Lemma psize_nonneg s : Forall (fun d => 0 < d) (sv_lens s) -> 0 <= dsize s <= psize s.
Proof.
  intros H. unfold psize, dsize. pose proof (round4_bounds (tysize (sv_ty s) * zprod (sv_lens s))).
  rewrite zprod_volume in *. pose proof (volume_pos _ H).
  assert (0 < tysize (sv_ty s)) by (destruct (sv_ty s) as [|[]]; cbn; lia).
  assert (0 <= tysize (sv_ty s) * volume (sv_lens s)) by (apply Z.mul_nonneg_nonneg; lia). lia.
Qed.

Lemma get_vars_loop_enc ver ds ids vs : wver ver ->
  forall off l r fuel, Forall (var_rok ver ds ids) vs -> Forall var_wok vs ->
  NoDup (map fst l ++ map sv_name vs) ->
  0 <= off -> off + fold_right (fun s a => psize s + a) 0 vs < 2 ^ 63 ->
  (List.length vs <= fuel)%nat ->
  exists l', read_as ids off vs l' /\
    get_vars_loop ver (rdims ds) fuel (zlen vs) (mkVl 0 (om_of l) 0 None) (enc_vars ids ver off vs ++ r) =
    Ok (mkVl 0 (om_of (l ++ l')) 0 None, r).
Proof.
  intros Hv. induction vs as [|s vs IH]; intros off l r fuel Hr Hw ND H0 H1 Hf.
  - exists []. split; [constructor|]. rewrite app_nil_r. destruct fuel; reflexivity.
  - inversion Hr; subst. inversion Hw; subst. cbn [fold_right] in H1.
    assert (Hps : 0 <= psize s).
    { destruct H5 as (_ & _ & Hp). pose proof (psize_nonneg s Hp). lia. }
    assert (Hrest : 0 <= fold_right (fun s a => psize s + a) 0 vs).
    { clear - H6. induction H6 as [|x vs (_ & _ & Hp) _ IH]; cbn [fold_right]; [lia|].
      pose proof (psize_nonneg x Hp). lia. }
    cbn [List.length] in Hf. destruct fuel as [|fuel]; [lia|].
    rewrite zlen_cons. pose proof (zlen_nonneg vs). cbn [get_vars_loop enc_vars].
    replace (1 + zlen vs <=? 0) with false by lia.
    rewrite <- app_assoc. cbn [vl_rec vl_vars vl_nrec vl_first].
    destruct (get_var_enc ver ds ids s (psize s) off 0 (enc_vars ids ver (off + psize s) vs ++ r))
      as (rv & E); [easy|easy|lia|].
    rewrite E. cbn [rbind]. cbn [v_name rvar_of v_ids].
    cbn [map] in ND.
    assert (Hn : ~ In (sv_name s) (map fst l)).
    { apply NoDup_remove_2 in ND. intros X. apply ND. apply in_app_iff. now left. }
    unfold om_get. cbn [om_vals om_of].
    rewrite (proj2 (assoc_None (sv_name s) l)) by exact Hn.
    destruct H3 as (_ & _ & _ & Hid & _).
    rewrite (has_unlimited_false ver) by easy. cbn [rbind].
    change (mkRvar (sv_name s) (var_ids ids s) (om_of (attrs_back (sv_attrs s))) (tcode (sv_ty s)) rv off)
      with (rvar_of ids s rv off).
    change (om_add {| om_keys := map fst l; om_vals := l; om_visible := map fst l; om_hidden := [] |})
      with (om_add (om_of l)).
    rewrite om_of_add by easy. replace (1 + zlen vs - 1) with (zlen vs) by lia.
    destruct (IH (off + psize s) (l ++ [(sv_name s, rvar_of ids s rv off)]) r fuel) as (l' & R & E2); auto.
    + rewrite map_app, <- app_assoc. exact ND.
    + lia.
    + lia.
    + lia.
    + exists ((sv_name s, rvar_of ids s rv off) :: l'). split; [now constructor|].
      rewrite E2. now rewrite <- app_assoc.
Qed.

Lemma enc_vars_long ids ver off vs : wver ver -> zlen vs <= zlen (enc_vars ids ver off vs).
Proof.
  intros Hv. revert off; induction vs as [|s vs IH]; intros off; [reflexivity|].
  cbn [enc_vars]. rewrite zlen_cons, zlen_app. specialize (IH (off + psize s)).
  assert (1 <= zlen (enc_var ids ver s (psize s) off)).
  { unfold enc_var. rewrite !zlen_app, !zlen_be. pose proof (zlen_nonneg (enc_name ver (sv_name s))).
    pose proof (zlen_nonneg (enc_number ver (zlen (sv_lens s)))).
    pose proof (zlen_nonneg (flat_map (enc_number ver) (var_ids ids s))).
    pose proof (zlen_nonneg (enc_attrs ver (sv_attrs s))).
    pose proof (zlen_nonneg (enc_number ver (psize s))). lia. }
  lia.
Qed.

Lemma zlen_sdatas vs : Forall stores vs ->
  zlen (flat_map sdata vs) = fold_right (fun s a => psize s + a) 0 vs.
Proof.
  induction 1 as [|s vs Hs _ IH]; [reflexivity|]. cbn [flat_map fold_right].
  rewrite zlen_app, IH. destruct (write_data1_app [] s eq_refl Hs) as [_ ->]. reflexivity.
Qed.

Lemma hide_absent {V} (l : list (bytes * V)) k : ~ In k (map fst l) ->
  om_hide (om_of l) k = mkOM (map fst l) l (map fst l) [k].
Proof.
  intros H. unfold om_hide, om_of. cbn [om_hidden om_keys om_vals om_visible mem existsb]. f_equal.
  assert (G : forall ks, ~ In k ks -> filter (fun x => negb (mem x [k])) ks = ks).
  { induction ks as [|x ks IH]; intros Hx; [reflexivity|]. cbn [filter].
    destruct (beqb_spec x k) as [->|N].
    - exfalso. apply Hx. now left.
    - unfold mem at 1. cbn [existsb]. destruct (beqb_spec x k); [easy|]. cbn [orb negb].
      f_equal. apply IH. intros X. apply Hx. now right. }
  now apply G.
Qed.

Definition gattrs_read (st : wst) : omap gval :=
  om_hide (om_of (attrs_back (w_gattrs st))) ncpKey.

(** Reading a header followed by arbitrary bytes [d] *)
Definition small_file (st : wst) : Prop := zlen (file_of st) < 2 ^ 63.
Lemma read_header_file st d : wst_ok st -> small_file st ->
  exists rvs, read_as (w_dimids st) (data_start st) (w_vars st) rvs /\
    read_header (file_header st ++ d) =
    Ok (mkCdf (file_header st ++ d) (w_ver st) 0 0 (rdims (dims_of st)) (gattrs_read st) (om_of rvs) false).
Proof.
  intros H Hsz. pose proof (wok_ver st H) as Hv. pose proof (lim_pos (w_ver st)).
  set (f := file_header st ++ d). unfold read_header.
  assert (Ef : f = (bs "CDF" ++ [w_ver st]) ++ enc_number (w_ver st) 0 ++ enc_dims (w_ver st) (dims_of st) ++
     enc_attrs (w_ver st) (w_gattrs st) ++ vars_header st ++
     enc_vars (w_dimids st) (w_ver st) (data_start st) (w_vars st) ++ d).
  { unfold f, file_header, file_prefix. now rewrite <- !app_assoc. }
  match type of Ef with _ = ?a ++ ?b => assert (E4 : read_bytes 4 f = Ok (a, b)) end.
  { rewrite Ef. apply read_bytes_app; [reflexivity|lia]. }
  rewrite E4. cbn [rbind].
  change (ztake 3 (bs "CDF" ++ [w_ver st])) with (bs "CDF"). rewrite (proj2 (beqb_eq _ _) eq_refl). cbn [negb].
  change (nth 3 (bs "CDF" ++ [w_ver st]) 0) with (w_ver st).
  replace (negb ((w_ver st =? 1) || (w_ver st =? 2) || (w_ver st =? 5))) with false
    by (destruct Hv as [-> | ->]; reflexivity).
  rewrite read_number_enc by lia. cbn [rbind].
  replace (0 =? 2 ^ 64 - 1) with false by lia.
  (* dimensions *)
  pose proof (wok_ndims st H) as Hnd. pose proof (zlen_nonneg (dims_of st)).
  assert (Ezd : zlen (dims_of st) = zlen (w_dimnames st)) by (unfold dims_of; apply zlen_map).
  assert (Hdims : forall r, (let* (nd, s2) := get_nelems (w_ver st) fieldDimension
        (enc_dims (w_ver st) (dims_of st) ++ r) in
      if maxDimensions <? nd then Err ETooManyDimensions else
      get_dims (w_ver st) (Z.to_nat nd) s2) = Ok (rdims (dims_of st), r)).
  { intros r. pose proof (wok_dims st H) as HF. destruct (dims_of st) as [|x l] eqn:Ed.
    - cbn [enc_dims]. rewrite <- app_assoc, get_nelems_absent. reflexivity.
    - rewrite <- Ed in *. unfold enc_dims at 1. rewrite Ed at 1.
      rewrite <- !app_assoc. rewrite get_nelems_enc by (unfold fieldDimension; lia). cbn [rbind].
      replace (maxDimensions <? zlen (dims_of st)) with false by (unfold maxDimensions; lia).
      unfold zlen at 1. rewrite Nat2Z.id. apply get_dims_enc. exact HF. }
  specialize (Hdims (enc_attrs (w_ver st) (w_gattrs st) ++ vars_header st ++
     enc_vars (w_dimids st) (w_ver st) (data_start st) (w_vars st) ++ d)).
  destruct (get_nelems (w_ver st) fieldDimension _) as [[nd s2]| |]; cbn [rbind] in Hdims; try discriminate.
  cbn [rbind]. destruct (maxDimensions <? nd); [discriminate|]. rewrite Hdims. cbn [rbind].
  rewrite get_attr_list_enc by first [exact Hv | apply (wok_gattrs st H)]. cbn [rbind].
  (* variables *)
  pose proof (wok_stores st H) as Hst.
  unfold small_file, file_of in Hsz. rewrite zlen_app, zlen_file_header, zlen_sdatas in Hsz by assumption.
  assert (0 <= data_start st) by (rewrite <- zlen_file_header by exact Hv; apply zlen_nonneg).
  pose proof (enc_vars_long (w_dimids st) (w_ver st) (data_start st) (w_vars st) Hv) as Hlong.
  destruct (get_vars_loop_enc (w_ver st) (dims_of st) (w_dimids st) (w_vars st) Hv (data_start st) [] d
    (S (List.length (enc_vars (w_dimids st) (w_ver st) (data_start st) (w_vars st) ++ d))))
    as (rvs & R & E).
  - apply (wok_rvars st H).
  - apply (wok_vars st H).
  - cbn [map app]. apply (wok_names st H).
  - assumption.
  - assumption.
  - rewrite app_length. unfold zlen in Hlong. lia.
  - exists rvs. split; [exact R|]. cbn [app] in E.
    assert (En : get_nelems (w_ver st) fieldVariable (vars_header st ++
        enc_vars (w_dimids st) (w_ver st) (data_start st) (w_vars st) ++ d) =
      Ok (zlen (w_vars st), enc_vars (w_dimids st) (w_ver st) (data_start st) (w_vars st) ++ d)).
    { unfold vars_header. destruct (w_vars st) as [|s vs] eqn:Evs.
      - rewrite <- app_assoc. apply get_nelems_absent.
      - rewrite <- Evs. rewrite <- app_assoc. apply get_nelems_enc.
        + pose proof (wok_nvars st H). pose proof (zlen_nonneg (w_vars st)). lia.
        + unfold fieldVariable. lia. }
    rewrite En. cbn [rbind]. change (@empty_om rvar) with (om_of (@nil (bytes * rvar))).
    rewrite E. reflexivity.
Qed.
