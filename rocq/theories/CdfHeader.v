(** Round trip of the CDF header: attribute lists, dimensions, variable entries. *)
From Coq Require Import ZifyBool ZifyNat Permutation.
From Verif Require Import Prelude GoVal BaseLemmas OrderedMapModel OrderedMapProofs
  CdfWriterModel CdfReaderModel CdfCodec.
Ltac Zify.zify_post_hook ::= Z.div_mod_to_equations.

Definition om_of {V} (l : list (bytes * V)) : omap V := mkOM (map fst l) l (map fst l) [].
Definition attrs_back (a : attrs) : list (bytes * gval) :=
  map (fun kv => (fst kv, attr_back (snd kv))) a.
Lemma attrs_back_keys a : map fst (attrs_back a) = map fst a.
Proof. unfold attrs_back. rewrite map_map. reflexivity. Qed.

(** Conditions on an attribute list for it to survive *)
Definition attrs_ok (ver : Z) (a : attrs) : Prop :=
  Forall (fun kv => wt (snd kv) = true /\ attr_ver_ok ver (snd kv) /\ attr_fits ver kv) a /\
  NoDup (map fst a) /\ zlen a < lim ver.

Lemma build_map_nodup {V} (l : list (bytes * V)) : NoDup (map fst l) -> build_map l = l.
Proof.
  unfold build_map. intros H.
  assert (G : forall acc, NoDup (map fst (acc ++ l)) ->
    fold_left (fun m kv => assoc_set (fst kv) (snd kv) m) l acc = acc ++ l).
  { clear H. induction l as [|[k v] l IH]; intros acc H; cbn.
    - now rewrite app_nil_r.
    - rewrite assoc_set_new.
      + rewrite IH; [now rewrite <- app_assoc|]. now rewrite <- app_assoc.
      + rewrite map_app in H. cbn in H. apply NoDup_remove_2 in H. intros E. apply H.
        apply in_app_iff. now left. }
  apply (G []). exact H.
Qed.

Lemma new_ordered_map_nodup {V} (l : list (bytes * V)) : NoDup (map fst l) ->
  new_ordered_map (map fst l) (build_map l) = Ok (om_of l).
Proof.
  intros H. rewrite build_map_nodup by easy.
  destruct (proj2 (new_ordered_map_ok (map fst l) l) (Permutation_refl _)) as [m E].
  rewrite E. apply new_ordered_map_result in E. now subst.
Qed.

Lemma enc_attr_len ver kv : wver ver -> attr_version (snd kv) <> 0 -> 4 <= zlen (enc_attr ver kv).
Proof.
  intros Hv H. unfold enc_attr.
  destruct (attr_payload (snd kv)) as [[[t n] p]|] eqn:E.
  - rewrite !zlen_app, zlen_be. pose proof (zlen_nonneg (enc_name ver (fst kv))).
    pose proof (zlen_nonneg (enc_number ver n)). pose proof (zlen_nonneg (pad4 p)). lia.
  - destruct (snd kv) as [| |[] ?|]; cbn in *; try easy.
Qed.

Lemma get_attrs_loop_enc ver a r fuel : wver ver ->
  Forall (fun kv => wt (snd kv) = true /\ attr_ver_ok ver (snd kv) /\ attr_fits ver kv) a ->
  (List.length a <= fuel)%nat ->
  get_attrs_loop ver fuel (zlen a) (flat_map (enc_attr ver) a ++ r) = Ok (attrs_back a, r).
Proof.
  intros Hv HF. revert fuel. induction HF as [|kv a (Hw & Hvo & Hf) _ IH]; intros fuel Hl.
  - destruct fuel; reflexivity.
  - cbn [List.length] in Hl. destruct fuel as [|fuel]; [lia|].
    rewrite zlen_cons. pose proof (zlen_nonneg a). cbn [get_attrs_loop flat_map].
    replace (1 + zlen a <=? 0) with false by lia.
    rewrite <- app_assoc, get_attr_enc by easy. cbn [rbind].
    replace (1 + zlen a - 1) with (zlen a) by lia. rewrite IH by lia. reflexivity.
Qed.

Lemma zlen_length {A} (a b : list A) : zlen a <= zlen b -> (List.length a <= List.length b)%nat.
Proof. unfold zlen; lia. Qed.

Lemma flat_enc_attr_len ver a : wver ver -> Forall (fun kv => attr_version (snd kv) <> 0) a ->
  zlen a <= zlen (flat_map (enc_attr ver) a).
Proof.
  intros Hv. induction 1 as [|kv a H _ IH]; cbn [flat_map]; autorewrite with zl; [lia|].
  pose proof (enc_attr_len ver kv Hv H). lia.
Qed.

Lemma attrs_ok_version ver a : attrs_ok ver a -> Forall (fun kv => attr_version (snd kv) <> 0) a.
Proof. intros (H & _). eapply Forall_impl; [|exact H]. intros kv (_ & [H1 _] & _). exact H1. Qed.
Lemma attrs_ok_wt ver a : attrs_ok ver a -> Forall (fun kv => wt (snd kv) = true) a.
Proof. intros (H & _). eapply Forall_impl; [|exact H]. intros kv (H1 & _). exact H1. Qed.

Lemma get_nelems_enc ver f n r : 0 <= n < lim ver -> 0 < f < 2 ^ 32 ->
  get_nelems ver f (be 4 f ++ enc_number ver n ++ r) = Ok (n, r).
Proof.
  intros Hn Hf. unfold get_nelems. rewrite read32_enc by lia. cbn [rbind].
  rewrite read_number_enc by easy. cbn [rbind].
  replace (f =? 0) with false by lia. now rewrite Z.eqb_refl.
Qed.
Lemma get_nelems_absent ver f r :
  get_nelems ver f (be 4 0 ++ enc_number ver 0 ++ r) = Ok (0, r).
Proof.
  unfold get_nelems. rewrite read32_enc by lia. cbn [rbind].
  rewrite read_number_enc by (pose proof (lim_pos ver); lia). reflexivity.
Qed.

Lemma get_attr_list_enc ver a r : wver ver -> attrs_ok ver a ->
  get_attr_list ver (enc_attrs ver a ++ r) = Ok (om_of (attrs_back a), r).
Proof.
  intros Hv Hok. pose proof (attrs_ok_version ver a Hok) as HV. destruct Hok as (HF & ND & HL).
  unfold get_attr_list. pose proof (lim_pos ver).
  destruct a as [|kv a].
  - cbn [enc_attrs]. rewrite <- app_assoc, get_nelems_absent. cbn [rbind]. reflexivity.
  - cbn [enc_attrs]. set (a0 := kv :: a) in *. rewrite <- !app_assoc.
    rewrite get_nelems_enc by (try easy; pose proof (zlen_nonneg a0); lia). cbn [rbind].
    rewrite get_attrs_loop_enc; auto.
    + cbn [rbind]. rewrite (new_ordered_map_nodup (attrs_back a0)) by (now rewrite attrs_back_keys).
      reflexivity.
    + rewrite app_length.
      pose proof (flat_enc_attr_len ver a0 Hv HV). unfold zlen in *. lia.
Qed.

(** ** Dimensions *)
Definition enc_dim (ver : Z) (d : bytes * Z) : bytes := enc_name ver (fst d) ++ enc_number ver (snd d).
Definition enc_dims (ver : Z) (ds : list (bytes * Z)) : bytes :=
  match ds with
  | [] => be 4 0 ++ enc_number ver 0
  | _ => be 4 fieldDimension ++ enc_number ver (zlen ds) ++ flat_map (enc_dim ver) ds
  end.
Definition dim_ok (ver : Z) (d : bytes * Z) : Prop := name_fits ver (fst d) /\ 0 <= snd d < lim ver.
Definition rdims (ds : list (bytes * Z)) : list rdim := map (fun d => mkDim (fst d) (snd d)) ds.

Lemma get_dims_enc ver ds r : Forall (dim_ok ver) ds ->
  get_dims ver (List.length ds) (flat_map (enc_dim ver) ds ++ r) = Ok (rdims ds, r).
Proof.
  induction 1 as [|[nm n] ds [H1 H2] _ IH]; [reflexivity|].
  cbn [List.length get_dims flat_map]. unfold enc_dim at 1. cbn [fst snd] in *.
  rewrite <- !app_assoc, read_name_enc by easy. cbn [rbind].
  rewrite read_number_enc by easy. cbn [rbind]. rewrite IH. reflexivity.
Qed.

Lemma enc_dim_mod ver d : wver ver -> zlen (enc_dim ver d) mod 4 = 0.
Proof.
  intros Hv. unfold enc_dim. rewrite zlen_app, zlen_enc_number by easy.
  pose proof (enc_name_mod ver (fst d) Hv). pose proof (numsize_mod ver Hv). lia.
Qed.
Lemma flat_enc_dim_mod ver ds : wver ver -> zlen (flat_map (enc_dim ver) ds) mod 4 = 0.
Proof.
  intros Hv. induction ds as [|d ds IH]; [reflexivity|]. cbn [flat_map]. rewrite zlen_app.
  pose proof (enc_dim_mod ver d Hv). lia.
Qed.
Lemma enc_dims_mod ver ds : wver ver -> zlen (enc_dims ver ds) mod 4 = 0.
Proof.
  intros Hv. pose proof (numsize_mod ver Hv). pose proof (flat_enc_dim_mod ver ds Hv).
  unfold enc_dims. destruct ds.
  - rewrite zlen_app, zlen_be, zlen_enc_number by easy. lia.
  - rewrite !zlen_app, zlen_be, zlen_enc_number by easy. lia.
Qed.

Lemma write_dims_app ver lens out names : wver ver -> zlen out mod 4 = 0 ->
  write_dims ver lens out names =
  out ++ flat_map (enc_dim ver)
    (map (fun nm => (nm, match assoc nm lens with Some n => n | None => 0 end)) names).
Proof.
  intros Hv. revert out; induction names as [|nm names IH]; intros out Ho; cbn [write_dims map flat_map].
  - now rewrite app_nil_r.
  - rewrite write_name_app by easy. rewrite <- app_assoc.
    change (enc_name ver nm ++ enc_number ver (match assoc nm lens with Some n => n | None => 0 end))
      with (enc_dim ver (nm, match assoc nm lens with Some n => n | None => 0 end)).
    rewrite IH.
    + now rewrite <- app_assoc.
    + rewrite zlen_app. pose proof (enc_dim_mod ver (nm, match assoc nm lens with Some n => n | None => 0 end) Hv). lia.
Qed.

(** ** Variable entries *)
Definition dim_id (ids : list (bytes * Z)) (nm : bytes) : Z :=
  match assoc nm ids with Some i => i | None => 0 end.
Definition var_ids (ids : list (bytes * Z)) (s : svar) : list Z :=
  map (dim_id ids) (firstn (List.length (sv_lens s)) (sv_dims s)).

Definition enc_var (ids : list (bytes * Z)) (ver : Z) (s : svar) (vsize off : Z) : bytes :=
  enc_name ver (sv_name s) ++ enc_number ver (zlen (sv_lens s)) ++
  flat_map (enc_number ver) (var_ids ids s) ++ enc_attrs ver (sv_attrs s) ++
  be 4 (tcode (sv_ty s)) ++ enc_number ver vsize ++ be 8 off.

(** Size of the data of a variable, before and after padding *)
Definition dsize (s : svar) : Z := tysize (sv_ty s) * zprod (sv_lens s).

Lemma vsize_loop_pos first lens acc : Forall (fun d => 0 < d) lens ->
  vsize_loop first lens acc = Ok (acc * zprod lens).
Proof.
  intros H; revert first acc; induction H as [|d lens Hd _ IH]; intros first acc.
  - cbn. f_equal. lia.
  - cbn [vsize_loop]. replace (d =? 0) with false by lia. cbn [negb]. rewrite IH.
    cbn [zprod fold_right]. f_equal. fold (zprod lens). lia.
Qed.

Lemma flat_enc_number_len ver l : wver ver -> zlen (flat_map (enc_number ver) l) = zlen l * numsize ver.
Proof.
  intros Hv. induction l as [|x l IH]; [reflexivity|]. cbn [flat_map].
  rewrite zlen_app, zlen_cons, zlen_enc_number, IH by easy. lia.
Qed.

Definition var_wok (s : svar) : Prop :=
  Forall (fun kv => wt (snd kv) = true) (sv_attrs s) /\
  Forall (fun kv => attr_version (snd kv) <> 0) (sv_attrs s) /\
  Forall (fun d => 0 < d) (sv_lens s).


Lemma write_var_app ids ver out s off : wver ver -> zlen out mod 4 = 0 -> var_wok s ->
  write_var ids ver out s off =
  Ok (out ++ enc_var ids ver s (round4 (dsize s)) off, round4 (dsize s)).
Proof.
  intros Hv Ho (Hw & Ha & Hp). unfold write_var, enc_var.
  pose proof (numsize_mod ver Hv). pose proof (enc_name_mod ver (sv_name s) Hv).
  rewrite write_name_app by easy.
  unfold var_ids. rewrite flat_map_map. unfold dim_id.
  set (F := flat_map _ (firstn _ _)).
  assert (HF : zlen F mod 4 = 0).
  { unfold F. rewrite <- (flat_map_map (fun x => match assoc x ids with Some i => i | None => 0 end)
                            (enc_number ver)).
    rewrite flat_enc_number_len by easy.
    destruct Hv as [-> | ->]; cbn; lia. }
  rewrite write_attributes_app; auto.
  2:{ rewrite !zlen_app, zlen_enc_number by easy. lia. }
  cbn [rbind]. rewrite vsize_loop_pos by easy. cbn [rbind]. fold (dsize s).
  rewrite <- !app_assoc. reflexivity.
Qed.

Lemma zlen_map_len {A B} (f : A -> B) n l : (n <= List.length l)%nat ->
  zlen (map f (firstn n l)) = Z.of_nat n.
Proof. intros. unfold zlen. rewrite map_length, firstn_length. lia. Qed.

Lemma zlen_var_ids ids s : (List.length (sv_lens s) <= List.length (sv_dims s))%nat ->
  zlen (var_ids ids s) = zlen (sv_lens s).
Proof. intros. unfold var_ids. rewrite zlen_map_len by easy. reflexivity. Qed.

(** ** Sizes computed in advance are the sizes written *)
Lemma zlen_enc_name ver nm : wver ver -> zlen (enc_name ver nm) = round4 (numsize ver + zlen nm).
Proof.
  intros Hv. unfold enc_name. rewrite zlen_app, zlen_pad4, zlen_enc_number by easy.
  rewrite round4_add by (apply numsize_mod; easy). lia.
Qed.

Lemma attr_list_size_ok ver count a : wver ver -> count mod 4 = 0 ->
  Forall (fun kv => wt (snd kv) = true) a -> Forall (fun kv => attr_version (snd kv) <> 0) a ->
  attr_list_size ver count a = Ok (count + zlen (flat_map (enc_attr ver) a)).
Proof.
  intros Hv Hc Hw Ha. revert count Hc. induction a as [|[k v] a IH]; intros count Hc.
  - cbn. f_equal. lia.
  - inversion Hw; inversion Ha; subst. cbn [fst snd] in *.
    pose proof (numsize_mod ver Hv) as Hn.
    assert (Hstep : forall t n p, attr_payload v = Some (t, n, p) ->
      attr_list_size ver (round4 (round4 (count + numsize ver + zlen k) + 4 + numsize ver + zlen p)) a =
      Ok (count + zlen (flat_map (enc_attr ver) ((k, v) :: a)))).
    { intros t n p E. cbn [flat_map]. unfold enc_attr at 1. cbn [fst snd]. rewrite E.
      rewrite IH by (try easy; apply round4_mod).
      rewrite !zlen_app, zlen_be, zlen_enc_number, zlen_enc_name, zlen_pad4 by easy.
      replace (count + numsize ver + zlen k) with (count + (numsize ver + zlen k)) by lia.
      rewrite (round4_add count) by easy.
      pose proof (round4_mod (numsize ver + zlen k)).
      replace (count + round4 (numsize ver + zlen k) + 4 + numsize ver + zlen p)
        with ((count + round4 (numsize ver + zlen k) + 4 + numsize ver) + zlen p) by lia.
      rewrite round4_add by lia. f_equal. lia. }
    cbn [attr_list_size]. destruct v as [kd z|s|t l|]; try (cbn in *; easy).
    + rewrite <- (Hstep _ _ _ eq_refl). now rewrite zlen_enc_be.
    + now rewrite <- (Hstep _ _ _ eq_refl).
    + destruct t; try (cbn in *; easy). rewrite <- (Hstep _ _ _ eq_refl).
      apply wt_slice_num in H1. rewrite (zlen_flat_num k0).
      * do 3 f_equal. lia.
      * eapply Forall_impl; [|exact H1]. intros v (z & -> & _). eauto.
Qed.

Lemma attributes_size_ok ver a : wver ver ->
  Forall (fun kv => wt (snd kv) = true) a -> Forall (fun kv => attr_version (snd kv) <> 0) a ->
  attributes_size ver a = Ok (zlen (enc_attrs ver a)).
Proof.
  intros Hv Hw Ha. unfold attributes_size. pose proof (numsize_mod ver Hv).
  rewrite attr_list_size_ok by (try easy; lia). f_equal.
  unfold enc_attrs. destruct a as [|x a].
  - rewrite zlen_app, zlen_be, zlen_enc_number by easy. cbn [flat_map]. rewrite zlen_nil. lia.
  - rewrite !zlen_app, zlen_be, zlen_enc_number by easy. lia.
Qed.

Lemma var_size_ok ids ver s vsize off : wver ver -> var_wok s ->
  (List.length (sv_lens s) <= List.length (sv_dims s))%nat ->
  var_size ver s = Ok (zlen (enc_var ids ver s vsize off)).
Proof.
  intros Hv (Hw & Ha & _) Hl. unfold var_size, enc_var. pose proof (numsize_mod ver Hv).
  rewrite attributes_size_ok by easy. cbn [rbind]. f_equal.
  rewrite !zlen_app, !zlen_be, !zlen_enc_number, zlen_enc_name, flat_enc_number_len, zlen_var_ids by easy.
  destruct Hv as [-> | ->]; cbn [numsize Z.eqb Pos.eqb]; lia.
Qed.

(** ** Reading a variable entry *)
Definition id_ok (ver : Z) (ds : list (bytes * Z)) (i : Z) : Prop :=
  0 <= i < zlen ds /\ i < lim ver /\ exists nm n, nth_error ds (Z.to_nat i) = Some (nm, n) /\ 0 < n.

Lemma read_numbers_enc ver l r : Forall (fun n => 0 <= n < lim ver) l ->
  read_numbers ver (List.length l) (flat_map (enc_number ver) l ++ r) = Ok (l, r).
Proof.
  induction 1 as [|x l H _ IH]; [reflexivity|]. cbn [List.length read_numbers flat_map].
  rewrite <- app_assoc, read_number_enc by easy. cbn [rbind]. rewrite IH. reflexivity.
Qed.

Lemma dim_at_rdims ver ds i : id_ok ver ds i ->
  exists nm n, nth_error ds (Z.to_nat i) = Some (nm, n) /\ 0 < n /\ dim_at (rdims ds) i = Ok (mkDim nm n).
Proof.
  intros (H1 & _ & nm & n & E & Hn). exists nm, n. split; [easy|]. split; [easy|].
  unfold dim_at, rdims. rewrite zlen_map. replace (i <? zlen ds) with true by lia.
  now rewrite (map_nth_error _ _ _ E).
Qed.

Lemma has_unlimited_false ver ds ids : Forall (id_ok ver ds) ids -> has_unlimited (rdims ds) ids = Ok false.
Proof.
  destruct 1 as [|i ids Hi _]; [reflexivity|]. cbn [has_unlimited].
  destruct (dim_at_rdims ver ds i Hi) as (nm & n & _ & Hn & ->). cbn [rbind d_len].
  f_equal. lia.
Qed.

Definition rvar_of (ids : list (bytes * Z)) (s : svar) (vs off : Z) : rvar :=
  mkRvar (sv_name s) (var_ids ids s) (om_of (attrs_back (sv_attrs s))) (tcode (sv_ty s)) vs off.

Definition var_rok (ver : Z) (ds ids : list (bytes * Z)) (s : svar) : Prop :=
  name_fits ver (sv_name s) /\ zlen (sv_lens s) <= 1024 /\
  (List.length (sv_lens s) <= List.length (sv_dims s))%nat /\
  Forall (id_ok ver ds) (var_ids ids s) /\ attrs_ok ver (sv_attrs s).

Lemma get_var_enc ver ds ids s vsize off recsz r : wver ver -> var_rok ver ds ids s ->
  0 <= off < 2 ^ 64 ->
  exists vs, get_var ver (rdims ds) recsz (enc_var ids ver s vsize off ++ r) =
    Ok ((rvar_of ids s vs off, recsz), r).
Proof.
  intros Hv (Hn & Hr & Hl & Hid & Ha) Hoff. unfold get_var, enc_var.
  pose proof (lim_pos ver). pose proof (zlen_nonneg (sv_lens s)).
  rewrite <- !app_assoc. rewrite read_name_enc by easy. cbn [rbind].
  rewrite read_number_enc by lia. cbn [rbind].
  replace (maxDimensions <? zlen (sv_lens s)) with false by (unfold maxDimensions; lia).
  replace (Z.to_nat (zlen (sv_lens s))) with (List.length (var_ids ids s))
    by (pose proof (zlen_var_ids ids s Hl); unfold zlen in *; lia).
  rewrite read_numbers_enc.
  2:{ eapply Forall_impl; [|exact Hid]. intros i (H1 & H2 & _). lia. }
  cbn [rbind]. rewrite get_attr_list_enc by easy. cbn [rbind].
  rewrite read32_enc by (pose proof (tcode_range (sv_ty s)); lia). cbn [rbind].
  destruct (read_number_any ver vsize (be 8 off ++ r)) as (m & Hm & Em). rewrite Em. cbn [rbind].
  rewrite (has_unlimited_false ver) by easy. cbn [rbind].
  replace (ver =? 1) with false by (destruct Hv; subst; reflexivity).
  rewrite read64_enc by easy. cbn [rbind]. eexists. reflexivity.
Qed.
