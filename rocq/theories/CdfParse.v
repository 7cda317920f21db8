(** Opening files that conform to the grammar of [CdfFormat]. *)
From Coq Require Import ZifyBool ZifyNat Permutation.
From Verif Require Import Prelude GoVal BaseLemmas OrderedMapModel OrderedMapProofs ArraySpec CdfFormat
  CdfWriterModel CdfReaderModel CdfCodec CdfHeader CdfFile CdfLocal.
Ltac Zify.zify_post_hook ::= Z.div_mod_to_equations.

Definition fver (ver : Z) : Prop := ver = 1 \/ ver = 2 \/ ver = 5.

Lemma non_neg_enc ver n : fver ver -> non_neg ver n = enc_number ver n.
Proof. intros [-> |[-> | ->]]; reflexivity. Qed.
Lemma nlimit_lim ver : fver ver -> nlimit ver = lim ver.
Proof. intros [-> |[-> | ->]]; reflexivity. Qed.

Lemma read_non_neg ver n r : fver ver -> 0 <= n < nlimit ver -> read_number ver (non_neg ver n ++ r) = Ok (n, r).
Proof. intros V H. rewrite non_neg_enc by exact V. apply read_number_enc. now rewrite <- nlimit_lim. Qed.

Lemma padded_len b p : padded b p -> exists pad, p = b ++ pad /\ zlen pad = round4 (zlen b) - zlen b.
Proof.
  intros (pad & -> & H1 & H2). exists pad. split; [reflexivity|]. rewrite zlen_app in H2.
  pose proof (zlen_nonneg pad). unfold round4. lia.
Qed.

Lemma read_name_any ver nm b r : fver ver -> fname_ok ver nm -> name_bytes ver nm b ->
  read_name ver (b ++ r) = Ok (nm, r).
Proof.
  intros V (H0 & H1 & H2) (p & Hp & ->). pose proof (zlen_nonneg nm). pose proof (lim_pos ver).
  unfold read_name. rewrite <- app_assoc, read_non_neg by (assumption || lia). cbn [rbind].
  rewrite (nlimit_lim ver V) in H1.
  destruct (padded_len _ _ Hp) as (pad & -> & L). pose proof (round4_bounds (zlen nm)).
  rewrite round32_small by lia. rewrite read_bytes_app; [|rewrite zlen_app; lia|lia]. cbn [rbind].
  rewrite name_scan_ok by assumption. reflexivity.
Qed.

Lemma get_nelems_any ver tag n r : fver ver -> 0 <= n < nlimit ver -> 0 < tag < 2 ^ 32 ->
  get_nelems ver tag (be 4 tag ++ non_neg ver n ++ r) = Ok (n, r).
Proof.
  intros V Hn Ht. rewrite non_neg_enc by exact V. apply get_nelems_enc; [|exact Ht]. now rewrite <- nlimit_lim.
Qed.
Lemma get_nelems_none ver tag r : fver ver -> get_nelems ver tag (be 4 0 ++ non_neg ver 0 ++ r) = Ok (0, r).
Proof. intros V. rewrite non_neg_enc by exact V. apply get_nelems_absent. Qed.

(** Attributes *)
Lemma aval_enc k l : flat_map (enc_be k) l = flat_map num_bytes (map (VNum k) l).
Proof. induction l as [|z l IH]; [reflexivity|]. cbn [flat_map map num_bytes]. now rewrite IH. Qed.
Lemma aval_scalar k l : attr_scalar (VSlice (GNum k) (map (VNum k) l)) = aval_value (ANums k l).
Proof. destruct l as [|z [|z2 l]]; reflexivity. Qed.

Lemma type_code_tcode t : type_code t = tcode (match t with EChar => TChar | ENum k => TNum k end).
Proof. destruct t as [|[]]; reflexivity. Qed.
Definition cty_of (t : elt) : cty := match t with EChar => TChar | ENum k => TNum k end.
Lemma ty_of_type_code t : ty_of_code (type_code t) = Some (cty_of t).
Proof. destruct t as [|[]]; reflexivity. Qed.
Lemma type_code_range t : 1 <= type_code t <= 11.
Proof. destruct t as [|[]]; cbn; lia. Qed.

Lemma read_pad_any (b pad r : bytes) : zlen pad = round4 (zlen b) - zlen b ->
  read_pad (zlen b) (pad ++ r) = Ok (tt, r).
Proof.
  intros L. unfold read_pad. pose proof (zlen_nonneg r). rewrite zlen_app.
  replace (zlen pad + zlen r <? round4 (zlen b) - zlen b) with false by lia.
  rewrite zdrop_app_exact by lia. reflexivity.
Qed.

Lemma get_attr_any ver a b r : fver ver -> fatt_ok ver a -> att_bytes ver a b ->
  get_attr ver (b ++ r) = Ok ((fa_name a, aval_value (fa_val a)), r).
Proof.
  intros V (N & C & M & V5 & T) (n & p & Hn & Hp & ->). unfold get_attr.
  rewrite <- !app_assoc, (read_name_any ver (fa_name a) n) by assumption. cbn [rbind].
  rewrite read32_enc by (pose proof (type_code_range (aval_type (fa_val a))); lia). cbn [rbind].
  assert (0 <= aval_count (fa_val a)) by (destruct (fa_val a); apply zlen_nonneg).
  rewrite read_non_neg by (assumption || lia). cbn [rbind]. rewrite ty_of_type_code.
  destruct (padded_len _ _ Hp) as (pad & -> & L). rewrite <- app_assoc.
  destruct (fa_val a) as [s|k l]; cbn [aval_type cty_of aval_count aval_bytes] in *.
  - rewrite read_bytes_app; [|reflexivity|lia]. cbn [rbind]. rewrite (read_pad_any s) by exact L. reflexivity.
  - assert (E5 : check_version ver k = Ok tt).
    { unfold check_version. destruct (v5kind k) eqn:E; [|reflexivity]. cbn [andb].
      assert (ver = 5) as -> by (apply V5; destruct k; (reflexivity || discriminate)). reflexivity. }
    rewrite E5. cbn [rbind]. rewrite aval_enc in *.
    assert (HF : Forall (fun v => exists z, v = VNum k z /\ in_range k z = true) (map (VNum k) l)).
    { apply Forall_forall. intros v Hv. apply in_map_iff in Hv. destruct Hv as (z & <- & Hz).
      exists z. split; [reflexivity|]. rewrite Forall_forall in T. now apply T. }
    assert (HF' : Forall (fun v => exists z, v = VNum k z) (map (VNum k) l)).
    { eapply Forall_impl; [|exact HF]. intros v (z & -> & _). eauto. }
    pose proof (CdfLocal.ksize_pos k). assert (ksize k <= 8) by (destruct k; cbn; lia).
    destruct (read_nums_enc k (map (VNum k) l) (pad ++ r) HF) as (zs & E & Em).
    { rewrite zlen_map. nia. }
    rewrite zlen_map in E. rewrite E. cbn [rbind].
    pose proof (zlen_flat_num k _ HF') as ZL. rewrite zlen_map in ZL. rewrite <- ZL.
    rewrite (read_pad_any (flat_map num_bytes (map (VNum k) l))) by exact L. cbn [rbind].
    rewrite Em, aval_scalar. reflexivity.
Qed.

Definition rattrs (l : list fatt) : list (bytes * gval) := map (fun a => (fa_name a, aval_value (fa_val a))) l.
Lemma rattrs_keys l : map fst (rattrs l) = map fa_name l.
Proof. unfold rattrs. rewrite map_map. reflexivity. Qed.

Lemma attr_bytes_pos ver a b : att_bytes ver a b -> (0 < List.length b)%nat.
Proof.
  intros (n & p & _ & _ & ->). rewrite !app_length. assert (List.length (be 4 (type_code (aval_type (fa_val a)))) = 4%nat) as -> by reflexivity.
  lia.
Qed.
Lemma concat_pos {A} (R : A -> bytes -> Prop) l bs : (forall a b, R a b -> (0 < List.length b)%nat) ->
  Forall2 R l bs -> (List.length l <= List.length (List.concat bs))%nat.
Proof.
  intros H. induction 1 as [|a b l bs Hab _ IH]; [cbn; lia|]. cbn [List.length List.concat]. rewrite app_length.
  specialize (H a b Hab). lia.
Qed.

Lemma get_attrs_loop_any ver l bs r fuel : fver ver -> Forall (fatt_ok ver) l -> Forall2 (att_bytes ver) l bs ->
  (List.length l <= fuel)%nat ->
  get_attrs_loop ver fuel (zlen l) (List.concat bs ++ r) = Ok (rattrs l, r).
Proof.
  intros V HO HB. revert fuel. induction HB as [|a b l bs Hab _ IH]; intros fuel Hf.
  - destruct fuel; reflexivity.
  - apply Forall_cons_iff in HO. destruct HO as [HO1 HO]. cbn [List.length] in Hf. destruct fuel as [|fuel]; [lia|].
    rewrite zlen_cons. pose proof (zlen_nonneg l). cbn [get_attrs_loop List.concat].
    replace (1 + zlen l <=? 0) with false by lia. rewrite <- app_assoc, (get_attr_any ver a b) by assumption. cbn [rbind].
    replace (1 + zlen l - 1) with (zlen l) by lia. rewrite (IH HO fuel) by lia. reflexivity.
Qed.

Lemma build_map_keys {V} (l : list (bytes * V)) : NoDup (map fst (build_map l)).
Proof.
  unfold build_map. assert (G : forall acc : list (bytes * V), NoDup (map fst acc) ->
    NoDup (map fst (fold_left (fun m kv => assoc_set (fst kv) (snd kv) m) l acc))).
  { induction l as [|[k v] l IH]; intros acc ND; [exact ND|]. cbn [fold_left fst snd]. apply IH.
    destruct (in_dec (list_eq_dec Z.eq_dec) k (map fst acc)) as [I|I].
    - clear IH. revert ND I. induction acc as [|[k' v'] acc IHa]; intros ND I; [destruct I|].
      cbn [assoc_set]. destruct (beqb_spec k k') as [->|N]; [exact ND|]. cbn [map fst] in *.
      destruct I as [I|I]; [congruence|]. apply NoDup_cons_iff in ND. destruct ND as [ND1 ND2].
      constructor; [|apply IHa; assumption]. intros X. apply ND1.
      clear - X N. induction acc as [|[k2 v2] acc IH]; cbn [assoc_set] in X.
      + cbn in X. destruct X as [X|[]]. congruence.
      + destruct (beqb k k2); cbn [map fst] in *; [exact X|]. destruct X as [X|X]; [left; exact X|right; auto].
    - rewrite assoc_set_new by exact I. rewrite map_app. apply NoDup_snoc; assumption. }
  apply G. constructor.
Qed.

Lemma attr_list_raw ver l b r : fver ver -> zlen l < nlimit ver -> Forall (fatt_ok ver) l -> att_list ver l b ->
  get_attr_list ver (b ++ r) = (let* om := new_ordered_map (map fa_name l) (build_map (rattrs l)) in Ok (om, r)).
Proof.
  intros V HL HO HB. pose proof (zlen_nonneg l). unfold get_attr_list. destruct HB as [(bs & HB & ->)|[-> ->]].
  - rewrite <- !app_assoc. rewrite (get_nelems_any ver 12) by (assumption || lia). cbn [rbind].
    rewrite (get_attrs_loop_any ver l bs r) ; [cbn [rbind]; rewrite rattrs_keys; reflexivity|assumption|assumption|assumption|].
    pose proof (concat_pos _ _ _ (attr_bytes_pos ver) HB). rewrite app_length. lia.
  - rewrite <- !app_assoc. change fieldAttribute with 12. rewrite (get_nelems_none ver 12) by assumption. reflexivity.
Qed.
Lemma get_attr_list_any ver l b r : fver ver -> zlen l < nlimit ver -> Forall (fatt_ok ver) l -> att_list ver l b ->
  keys_distinct l -> get_attr_list ver (b ++ r) = Ok (om_of (rattrs l), r).
Proof.
  intros V HL HO HB D. rewrite (attr_list_raw ver l b r V HL HO HB). rewrite <- rattrs_keys.
  rewrite new_ordered_map_nodup by (rewrite rattrs_keys; exact D). reflexivity.
Qed.
Lemma get_attr_list_dup ver l b r : fver ver -> zlen l < nlimit ver -> Forall (fatt_ok ver) l -> att_list ver l b ->
  ~ keys_distinct l -> get_attr_list ver (b ++ r) = Err EKeysDontMatch.
Proof.
  intros V HL HO HB D. rewrite (attr_list_raw ver l b r V HL HO HB).
  rewrite new_ordered_map_err; [reflexivity|]. intros P. apply D. unfold keys_distinct.
  eapply Permutation_NoDup; [apply Permutation_sym; exact P|apply build_map_keys].
Qed.
Lemma keys_dec (l : list fatt) : keys_distinct l \/ ~ keys_distinct l.
Proof.
  unfold keys_distinct. destruct (ListDec.NoDup_dec (list_eq_dec Z.eq_dec) (map fa_name l)); auto.
Qed.

(** Dimensions *)
Lemma get_dims_any ver ds bs r : fver ver ->
  Forall (fun d => fname_ok ver (fst d) /\ 0 <= snd d < nlimit ver) ds -> Forall2 (dim_bytes ver) ds bs ->
  get_dims ver (List.length ds) (List.concat bs ++ r) = Ok (rdims ds, r).
Proof.
  intros V HO HB. induction HB as [|[nm n] b ds bs (x & Hx & ->) _ IH]; [reflexivity|].
  apply Forall_cons_iff in HO. destruct HO as [[HO1 HO2] HO]. cbn [fst snd] in *.
  cbn [List.length get_dims List.concat]. rewrite <- !app_assoc, (read_name_any ver nm x) by assumption. cbn [rbind].
  rewrite read_non_neg by assumption. cbn [rbind]. rewrite (IH HO). reflexivity.
Qed.

Lemma read_numbers_any ver l r : fver ver -> Forall (fun n => 0 <= n < nlimit ver) l ->
  read_numbers ver (List.length l) (flat_map (non_neg ver) l ++ r) = Ok (l, r).
Proof.
  intros V. induction 1 as [|x l H _ IH]; [reflexivity|]. cbn [List.length read_numbers flat_map].
  rewrite <- app_assoc, read_non_neg by assumption. cbn [rbind]. rewrite IH. reflexivity.
Qed.

(** Variables *)
Lemma dim_at_any ds i : 0 <= i < zlen ds -> exists d, nth_error ds (Z.to_nat i) = Some d /\
  dim_at (rdims ds) i = Ok (mkDim (fst d) (snd d)) /\ dim_length ds i = snd d.
Proof.
  intros H. destruct (nth_error ds (Z.to_nat i)) as [[nm n]|] eqn:E.
  - exists (nm, n). split; [reflexivity|]. unfold dim_at, rdims, dim_length. rewrite zlen_map.
    replace (i <? zlen ds) with true by lia. rewrite (map_nth_error _ _ _ E), E. split; reflexivity.
  - apply nth_error_None in E. unfold zlen in H. lia.
Qed.
Lemma has_unlimited_any ds v : Forall (fun i => 0 <= i < zlen ds) (fv_dims v) ->
  has_unlimited (rdims ds) (fv_dims v) = Ok (is_record ds v).
Proof.
  intros H. unfold is_record. destruct (fv_dims v) as [|i ids]; [reflexivity|]. cbn [has_unlimited].
  apply Forall_cons_iff in H. destruct H as [Hi _]. destruct (dim_at_any ds i Hi) as ([nm n] & E1 & E2 & _).
  rewrite E1, E2. reflexivity.
Qed.
Lemma u64_mul a b : u64 (u64 a * b) = u64 (a * b).
Proof. unfold u64. now rewrite Zmult_mod_idemp_l. Qed.
Lemma dims_prod_any ds ids : Forall (fun i => 0 <= i < zlen ds) ids -> forall acc,
  exists p, dims_prod (rdims ds) ids acc = Ok p /\ u64 p = u64 (acc * volume (map (dim_length ds) ids)).
Proof.
  induction 1 as [|i ids Hi _ IH]; intros acc.
  - exists acc. split; [reflexivity|]. cbn [map volume]. now rewrite Z.mul_1_r.
  - cbn [dims_prod map volume]. destruct (dim_at_any ds i Hi) as ([nm n] & E1 & E2 & E3). rewrite E2, E3. cbn [rbind d_len snd].
    destruct (IH (u64 (acc * n))) as (p & P1 & P2). exists p. split; [exact P1|]. rewrite P2, u64_mul. f_equal. ring.
Qed.

Definition rvar_f (ds : list (bytes * Z)) (v : fvar) : rvar :=
  mkRvar (fv_name v) (fv_dims v) (om_of (rattrs (fv_atts v))) (type_code (fv_type v))
    (if is_record ds v then i64 (record_bytes ds v) else fv_size v) (fv_begin v).

Lemma tysize_cty t : tysize (cty_of t) = elt_size t.
Proof. destruct t; reflexivity. Qed.
Lemma i64_u64 a : i64 (u64 a) = i64 a.
Proof. unfold i64, signed, u64. now rewrite Z.mod_mod by lia. Qed.
Lemma i64_id a : 0 <= a < 2 ^ 63 -> i64 a = a.
Proof. intros H. unfold i64, signed. rewrite Z.mod_small by lia. destruct (Z.ltb_spec a (2 ^ (64 - 1))); lia. Qed.

Definition rec_after (ds : list (bytes * Z)) (recsz : Z) (v : fvar) : Z :=
  if is_record ds v then u64 (recsz + fv_size v) else recsz.

Lemma var_attrs_at ver ds v b recsz r : fver ver -> zlen ds <= 1024 -> fvar_ok ver ds v -> var_bytes ver v b ->
  (keys_distinct (fv_atts v) -> get_var ver (rdims ds) recsz (b ++ r) = Ok ((rvar_f ds v, rec_after ds recsz v), r)) /\
  (~ keys_distinct (fv_atts v) -> get_var ver (rdims ds) recsz (b ++ r) = Err EKeysDontMatch).
Proof.
  intros V HD [O1 O2 O3 O4 O5 O6 O7] (n & a & Hn & Ha & ->). unfold get_var.
  rewrite <- !app_assoc, (read_name_any ver (fv_name v) n) by assumption. cbn [rbind].
  assert (L : 2 ^ 31 <= nlimit ver) by (destruct V as [-> |[-> | ->]]; cbn; lia).
  pose proof (zlen_nonneg (fv_dims v)). rewrite read_non_neg by (assumption || lia). cbn [rbind].
  replace (maxDimensions <? zlen (fv_dims v)) with false by (unfold maxDimensions; lia).
  unfold zlen at 1 2. rewrite !Nat2Z.id. rewrite read_numbers_any; [cbn [rbind]|exact V|].
  2:{ eapply Forall_impl; [|exact O3]. cbv beta. intros x Hx. lia. }
  split; intros D.
  - rewrite (get_attr_list_any ver (fv_atts v) a) by assumption. cbn [rbind].
    rewrite read32_enc by (pose proof (type_code_range (fv_type v)); lia). cbn [rbind].
    rewrite read_non_neg by assumption. cbn [rbind]. rewrite (has_unlimited_any ds v O3). cbn [rbind].
    assert (OF : forall r, (if ver =? 1 then read32 (offs ver (fv_begin v) ++ r) else read64 (offs ver (fv_begin v) ++ r)) = Ok (fv_begin v, r)).
    { intros r0. unfold offs. destruct (ver =? 1); [apply read32_enc; lia|apply read64_enc; lia]. }
    rewrite ty_of_type_code. unfold rvar_f, rec_after. destruct (is_record ds v) eqn:ER.
    + assert (O3' : Forall (fun i => 0 <= i < zlen ds) (tl (fv_dims v))).
      { destruct (fv_dims v); [constructor|]. now apply Forall_cons_iff in O3. }
      destruct (dims_prod_any ds (tl (fv_dims v)) O3' 1) as (p & P1 & P2). rewrite P1. cbn [rbind].
      rewrite OF. cbn [rbind]. do 4 f_equal. rewrite i64_u64, <- (i64_u64 (record_bytes ds v)), <- (i64_u64 (p * _)). f_equal.
      rewrite <- u64_mul, P2, u64_mul, Z.mul_1_l. unfold record_bytes. now rewrite tysize_cty.
    + cbn [rbind]. rewrite OF. cbn [rbind]. rewrite i64_id; [reflexivity|].
      destruct V as [-> |[-> | ->]]; cbn in O6; lia.
  - rewrite (get_attr_list_dup ver (fv_atts v) a) by assumption. reflexivity.
Qed.

Definition add_f (ds : list (bytes * Z)) (st : vloop) (v : fvar) : vloop :=
  mkVl (rec_after ds (vl_rec st) v) (om_add (vl_vars st) (fv_name v) (rvar_f ds v))
    (if is_record ds v then vl_nrec st + 1 else vl_nrec st)
    (if is_record ds v then match vl_first st with None => Some (rvar_f ds v) | Some w => Some w end else vl_first st).

Lemma vars_loop_any ver ds vs bs r : fver ver -> zlen ds <= 1024 -> Forall (fvar_ok ver ds) vs ->
  Forall2 (var_bytes ver) vs bs -> forall fuel st l, (List.length vs <= fuel)%nat -> vl_vars st = om_of l ->
  (Forall (fun v => keys_distinct (fv_atts v)) vs -> NoDup (map fst l ++ map fv_name vs) ->
     get_vars_loop ver (rdims ds) fuel (zlen vs) st (List.concat bs ++ r) = Ok (fold_left (add_f ds) vs st, r)) /\
  (~ (Forall (fun v => keys_distinct (fv_atts v)) vs /\ NoDup (map fst l ++ map fv_name vs)) -> NoDup (map fst l) ->
     get_vars_loop ver (rdims ds) fuel (zlen vs) st (List.concat bs ++ r) = Err EKeysDontMatch \/
     get_vars_loop ver (rdims ds) fuel (zlen vs) st (List.concat bs ++ r) = Err EDuplicateVariable).
Proof.
  intros V HD HO HB. induction HB as [|v b vs bs Hvb _ IH]; intros fuel st l Hf Hl.
  - split.
    + intros _ _. destruct fuel; reflexivity.
    + intros N ND. exfalso. apply N. split; [constructor|]. cbn [map]. now rewrite app_nil_r.
  - apply Forall_cons_iff in HO. destruct HO as [HO1 HO]. cbn [List.length] in Hf. destruct fuel as [|fuel]; [lia|].
    rewrite zlen_cons. pose proof (zlen_nonneg vs). cbn [List.concat]. rewrite <- app_assoc, vars_loop_unfold.
    replace (1 + zlen vs <=? 0) with false by lia. replace (1 + zlen vs - 1) with (zlen vs) by lia.
    destruct (var_attrs_at ver ds v b (vl_rec st) (List.concat bs ++ r) V HD HO1 Hvb) as [G1 G2].
    assert (ST : keys_distinct (fv_atts v) -> ~ In (fv_name v) (map fst l) ->
      vstep (rdims ds) st (rvar_f ds v, rec_after ds (vl_rec st) v) = Ok (add_f ds st v)).
    { intros _ NI. unfold vstep. rewrite Hl. unfold om_get. cbn [om_of om_vals rvar_f v_name].
      rewrite (proj2 (assoc_None (fv_name v) l) NI). cbn [v_ids rvar_f]. rewrite (has_unlimited_any ds v) by apply HO1.
      cbn [rbind]. unfold add_f. rewrite Hl. reflexivity. }
    assert (OA : ~ In (fv_name v) (map fst l) -> vl_vars (add_f ds st v) = om_of (l ++ [(fv_name v, rvar_f ds v)])).
    { intros NI. unfold add_f. cbn [vl_vars]. rewrite Hl. now apply om_of_add. }
    split.
    + intros K ND. apply Forall_cons_iff in K. destruct K as [K1 K]. rewrite (G1 K1). cbn [rbind].
      cbn [map] in ND. assert (NI : ~ In (fv_name v) (map fst l)).
      { apply NoDup_remove_2 in ND. intros X. apply ND. apply in_app_iff. now left. }
      rewrite (ST K1 NI). cbn [rbind fold_left].
      apply (IH HO fuel (add_f ds st v) (l ++ [(fv_name v, rvar_f ds v)])); [lia|exact (OA NI)|exact K|].
      rewrite map_app, <- app_assoc. exact ND.
    + intros N ND. destruct (keys_dec (fv_atts v)) as [K1|K1]; [|left; rewrite (G2 K1); reflexivity].
      rewrite (G1 K1). cbn [rbind].
      destruct (in_dec (list_eq_dec Z.eq_dec) (fv_name v) (map fst l)) as [I|NI].
      * right. unfold vstep. rewrite Hl. unfold om_get. cbn [om_of om_vals rvar_f v_name].
        destruct (assoc (fv_name v) l) eqn:EA; [reflexivity|]. apply assoc_None in EA. contradiction.
      * rewrite (ST K1 NI). cbn [rbind].
        apply (IH HO fuel (add_f ds st v) (l ++ [(fv_name v, rvar_f ds v)])); [lia|exact (OA NI)| |].
        -- intros [X1 X2]. apply N. split; [constructor; assumption|].
           rewrite map_app, <- app_assoc in X2. exact X2.
        -- rewrite map_app. apply NoDup_snoc; assumption.
Qed.

Definition hdr_f (h : fheader) : hdr :=
  mkHdr (fh_ver h) (fh_numrecs h) (rdims (fh_dims h)) (om_of (rattrs (fh_atts h)))
    (fold_left (add_f (fh_dims h)) (fh_vars h) (mkVl 0 empty_om 0 None)).

Lemma var_bytes_pos ver v b : var_bytes ver v b -> (0 < List.length b)%nat.
Proof.
  intros (n & a & _ & _ & ->). rewrite !app_length.
  assert (List.length (be 4 (type_code (fv_type v))) = 4%nat) as -> by reflexivity. lia.
Qed.

Lemma parse_any h b r : header_ok h -> header_bytes h b ->
  (names_distinct h -> parse_header (b ++ r) = Ok (hdr_f h, r)) /\
  (~ names_distinct h -> parse_header (b ++ r) = Err EKeysDontMatch \/ parse_header (b ++ r) = Err EDuplicateVariable).
Proof.
  intros [O1 O2 O3 O4 O5 O6 O7 O8] (d & a & v & Hd & Ha & Hv & ->).
  assert (V : fver (fh_ver h)) by exact O1. assert (L : 2 ^ 31 <= nlimit (fh_ver h) <= 2 ^ 63) by (destruct V as [-> |[-> | ->]]; cbn; lia).
  unfold parse_header.
  rewrite <- !app_assoc. match goal with |- context[read_bytes 4 (bs "CDF" ++ [fh_ver h] ++ ?x)] =>
    assert (E4 : read_bytes 4 (bs "CDF" ++ [fh_ver h] ++ x) = Ok (bs "CDF" ++ [fh_ver h], x)) by
      (rewrite (app_assoc (bs "CDF")); apply read_bytes_app; [reflexivity|lia]) end.
  rewrite E4. cbn [rbind]. clear E4.
  change (ztake 3 (bs "CDF" ++ [fh_ver h])) with (bs "CDF"). rewrite (proj2 (beqb_eq _ _) eq_refl). cbn [negb].
  change (nth 3 (bs "CDF" ++ [fh_ver h]) 0) with (fh_ver h). cbv zeta.
  replace (negb ((fh_ver h =? 1) || (fh_ver h =? 2) || (fh_ver h =? 5))) with false
    by (destruct V as [-> |[-> | ->]]; reflexivity).
  rewrite read_non_neg by assumption. cbn [rbind]. replace (fh_numrecs h =? 2 ^ 64 - 1) with false by lia.
  pose proof (zlen_nonneg (fh_dims h)). pose proof (zlen_nonneg (fh_vars h)).
  assert (Hdims : forall r, (let* (nd, s2) := get_nelems (fh_ver h) fieldDimension (d ++ r) in
      if maxDimensions <? nd then Err ETooManyDimensions else
      get_dims (fh_ver h) (Z.to_nat nd) s2) = Ok (rdims (fh_dims h), r)).
  { intros r0. destruct Hd as [(ds & Hd & ->)|[E ->]].
    - rewrite <- !app_assoc. change fieldDimension with 10. rewrite (get_nelems_any (fh_ver h) 10) by (assumption || lia). cbn [rbind].
      replace (maxDimensions <? zlen (fh_dims h)) with false by (unfold maxDimensions; lia).
      unfold zlen at 1. rewrite Nat2Z.id. apply get_dims_any; assumption.
    - rewrite <- !app_assoc. rewrite (get_nelems_none (fh_ver h) fieldDimension) by assumption. cbn [rbind]. rewrite E. reflexivity. }
  specialize (Hdims (a ++ v ++ r)).
  destruct (get_nelems (fh_ver h) fieldDimension _) as [[nd s2]| |]; cbn [rbind] in Hdims; try discriminate.
  cbn [rbind]. destruct (maxDimensions <? nd); [discriminate|]. rewrite Hdims. cbn [rbind]. clear Hdims.
  destruct (keys_dec (fh_atts h)) as [K|K].
  2:{ split; [intros (X & _); contradiction|]. intros _. left.
      rewrite (get_attr_list_dup (fh_ver h) (fh_atts h) a) by assumption. reflexivity. }
  rewrite (get_attr_list_any (fh_ver h) (fh_atts h) a) by assumption. cbn [rbind].
  assert (En : exists bs, Forall2 (var_bytes (fh_ver h)) (fh_vars h) bs /\
    get_nelems (fh_ver h) fieldVariable (v ++ r) = Ok (zlen (fh_vars h), List.concat bs ++ r)).
  { destruct Hv as [(bs & Hv & ->)|[E ->]].
    - exists bs. split; [exact Hv|]. rewrite <- !app_assoc. change fieldVariable with 11. apply get_nelems_any; (assumption || lia).
    - exists []. rewrite E. split; [constructor|]. rewrite <- app_assoc. cbn [List.concat app]. apply get_nelems_none. exact V. }
  destruct En as (bs0 & Hb & En). rewrite En. cbn [rbind].
  destruct (vars_loop_any (fh_ver h) (fh_dims h) (fh_vars h) bs0 r V O3 O8 Hb
    (S (List.length (List.concat bs0 ++ r))) (mkVl 0 empty_om 0 None) []) as [G1 G2].
  { pose proof (concat_pos _ _ _ (var_bytes_pos (fh_ver h)) Hb). rewrite app_length. lia. }
  { reflexivity. }
  cbn [map app] in G1, G2. split.
  - intros (_ & D1 & D2). rewrite (G1 D1 D2). reflexivity.
  - intros N. destruct G2 as [->| ->]; [intros [X1 X2]; apply N; split; [exact K|split; assumption]|constructor|left; reflexivity|right; reflexivity].
Qed.

(** Closed form of the loop state *)
Definition records (h : fheader) : list fvar := filter (is_record (fh_dims h)) (fh_vars h).
Lemma fold_add_vars ds vs : forall st l, vl_vars st = om_of l -> NoDup (map fst l ++ map fv_name vs) ->
  vl_vars (fold_left (add_f ds) vs st) = om_of (l ++ map (fun v => (fv_name v, rvar_f ds v)) vs).
Proof.
  induction vs as [|v vs IH]; intros st l E ND; cbn [fold_left map]; [now rewrite app_nil_r|].
  cbn [map] in ND. rewrite (IH _ (l ++ [(fv_name v, rvar_f ds v)])).
  - now rewrite <- app_assoc.
  - unfold add_f. cbn [vl_vars]. rewrite E. apply om_of_add. apply NoDup_remove_2 in ND.
    intros X. apply ND. apply in_app_iff. now left.
  - rewrite map_app, <- app_assoc. exact ND.
Qed.
Lemma fold_add_rec ds vs : forall st, vl_rec st = u64 (vl_rec st) ->
  vl_rec (fold_left (add_f ds) vs st) =
    u64 (vl_rec st + fold_right (fun v a => fv_size v + a) 0 (filter (is_record ds) vs)) /\
  vl_nrec (fold_left (add_f ds) vs st) = vl_nrec st + zlen (filter (is_record ds) vs) /\
  vl_first (fold_left (add_f ds) vs st) =
    match vl_first st with Some w => Some w | None => option_map (rvar_f ds) (hd_error (filter (is_record ds) vs)) end.
Proof.
  induction vs as [|v vs IH]; intros st E; cbn [fold_left filter fold_right].
  - split; [now rewrite Z.add_0_r|]. split; [rewrite zlen_nil; lia|]. destruct (vl_first st); reflexivity.
  - assert (E' : vl_rec (add_f ds st v) = u64 (vl_rec (add_f ds st v))).
    { unfold add_f, rec_after. cbn [vl_rec]. destruct (is_record ds v); [|exact E]. unfold u64. now rewrite Z.mod_mod by lia. }
    destruct (IH _ E') as (I1 & I2 & I3). rewrite I1, I2, I3. unfold add_f, rec_after. cbn [vl_rec vl_nrec vl_first].
    destruct (is_record ds v); cbn [fold_right].
    + split.
      * unfold u64. rewrite Zplus_mod_idemp_l. f_equal. ring.
      * split; [rewrite zlen_cons; lia|]. destruct (vl_first st); reflexivity.
    + split; [reflexivity|]. split; reflexivity.
Qed.
