(** Round trips of the CDF header items: numbers, names, attributes. *)
From Coq Require Import ZifyBool ZifyNat Permutation.
From Verif Require Import Prelude GoVal BaseLemmas OrderedMapModel OrderedMapProofs
  CdfWriterModel CdfReaderModel.
Ltac Zify.zify_post_hook ::= Z.div_mod_to_equations.

Definition wver (ver : Z) : Prop := ver = 2 \/ ver = 5.
(** Largest number representable in a header field of the given version (signed). *)
Definition lim (ver : Z) : Z := if ver <? 5 then 2 ^ 31 else 2 ^ 63.

Lemma lim_pos ver : 2 ^ 31 <= lim ver <= 2 ^ 63.
Proof. unfold lim. destruct (ver <? 5); lia. Qed.

Lemma round4_mod n : round4 n mod 4 = 0.
Proof. unfold round4. rewrite Z.mul_comm. apply Z.mod_mul. lia. Qed.
Lemma round4_bounds n : n <= round4 n < n + 4.
Proof. unfold round4. lia. Qed.
Lemma round4_id n : n mod 4 = 0 -> round4 n = n.
Proof. unfold round4. lia. Qed.
Lemma round4_add n m : n mod 4 = 0 -> round4 (n + m) = n + round4 m.
Proof. unfold round4. lia. Qed.

Definition pad4 (b : bytes) : bytes := b ++ zrep (round4 (zlen b) - zlen b) 0.

Lemma zlen_pad4 b : zlen (pad4 b) = round4 (zlen b).
Proof. unfold pad4. autorewrite with zl. pose proof (round4_bounds (zlen b)). lia. Qed.
Lemma pad4_mod b : zlen (pad4 b) mod 4 = 0.
Proof. rewrite zlen_pad4. apply round4_mod. Qed.
Lemma pad4_id b : zlen b mod 4 = 0 -> pad4 b = b.
Proof. intros. unfold pad4. rewrite round4_id by easy. rewrite Z.sub_diag. cbn. apply app_nil_r. Qed.

Lemma pad_out_app out x b : (zlen out + zlen x) mod 4 = 0 ->
  pad_out (out ++ x ++ b) = out ++ x ++ pad4 b.
Proof.
  intros H. unfold pad_out, pad4. rewrite !zlen_app.
  rewrite <- !app_assoc. do 4 f_equal.
  rewrite Z.add_assoc, (round4_add _ (zlen b)) by exact H. lia.
Qed.

Lemma zlen_enc_number ver n : wver ver -> zlen (enc_number ver n) = numsize ver.
Proof.
  intros [-> | ->]; unfold enc_number;
    [change (2 <? 5) with true|change (5 <? 5) with false]; cbv iota; now rewrite zlen_be.
Qed.
Lemma numsize_mod ver : wver ver -> numsize ver mod 4 = 0 /\ 4 <= numsize ver <= 8.
Proof. intros [-> | ->]; cbn; lia. Qed.

Lemma read_uint_enc (m : nat) n r : 0 <= n < 256 ^ Z.of_nat m ->
  read_uint (Z.of_nat m) (be m n ++ r) = Ok (n, r).
Proof.
  intros H. unfold read_uint. rewrite zlen_app, zlen_be.
  destruct (Z.ltb_spec (Z.of_nat m + zlen r) (Z.of_nat m)); [pose proof (zlen_nonneg r); lia|].
  rewrite ztake_app_exact, zdrop_app_exact by (now rewrite zlen_be).
  rewrite of_be_be, Z.mod_small by easy. reflexivity.
Qed.
Lemma read32_enc n r : 0 <= n < 2 ^ 32 -> read32 (be 4 n ++ r) = Ok (n, r).
Proof. intros. apply (read_uint_enc 4). exact H. Qed.
Lemma read64_enc n r : 0 <= n < 2 ^ 64 -> read64 (be 8 n ++ r) = Ok (n, r).
Proof. intros. apply (read_uint_enc 8). exact H. Qed.

Lemma read_number_enc ver n r : 0 <= n < lim ver ->
  read_number ver (enc_number ver n ++ r) = Ok (n, r).
Proof.
  unfold read_number, enc_number, lim. destruct (ver <? 5); intros H.
  - rewrite read32_enc by lia. cbn [rbind]. rewrite i32_small, u64_small by lia. reflexivity.
  - apply read64_enc. lia.
Qed.

(** Reading a number whose value does not fit: still succeeds, with some value. *)
Lemma read_number_any ver n r : exists m, 0 <= m < 2 ^ 64 /\
  read_number ver (enc_number ver n ++ r) = Ok (m, r).
Proof.
  unfold read_number, enc_number. destruct (ver <? 5).
  - unfold read32, read_uint. rewrite zlen_app, zlen_be.
    destruct (Z.ltb_spec (Z.of_nat 4 + zlen r) 4); [pose proof (zlen_nonneg r); lia|].
    rewrite ztake_app_exact, zdrop_app_exact by (now rewrite zlen_be).
    cbn [rbind]. eexists. split; [|reflexivity]. apply Z.mod_pos_bound. lia.
  - unfold read64, read_uint. rewrite zlen_app, zlen_be.
    destruct (Z.ltb_spec (Z.of_nat 8 + zlen r) 8); [pose proof (zlen_nonneg r); lia|].
    rewrite ztake_app_exact, zdrop_app_exact by (now rewrite zlen_be).
    eexists. split; [|reflexivity]. rewrite of_be_be. apply Z.mod_pos_bound. lia.
Qed.

(** ** Names *)
Definition enc_name (ver : Z) (nm : bytes) : bytes := enc_number ver (zlen nm) ++ pad4 nm.

Lemma write_name_app ver out nm : wver ver -> zlen out mod 4 = 0 ->
  write_name ver out nm = out ++ enc_name ver nm.
Proof.
  intros Hv H. unfold write_name, enc_name. apply pad_out_app.
  rewrite zlen_enc_number by easy. pose proof (numsize_mod ver Hv). lia.
Qed.
Lemma enc_name_mod ver nm : wver ver -> zlen (enc_name ver nm) mod 4 = 0.
Proof.
  intros Hv. unfold enc_name. rewrite zlen_app, zlen_enc_number by easy.
  pose proof (numsize_mod ver Hv). pose proof (pad4_mod nm). lia.
Qed.

Lemma name_scan_ok nm r : ~ In 0 nm -> name_scan (nm ++ r) (zlen nm) = Ok nm.
Proof.
  induction nm as [|c nm IH]; intros H.
  - destruct r; reflexivity.
  - rewrite zlen_cons. pose proof (zlen_nonneg nm). cbn [app name_scan].
    destruct (Z.leb_spec (1 + zlen nm) 0); [lia|].
    destruct (Z.eqb_spec c 0); [exfalso; apply H; now left|].
    replace (1 + zlen nm - 1) with (zlen nm) by lia.
    rewrite IH; [reflexivity|]. intros Hx; apply H; now right.
Qed.

Lemma round32_small n : 0 <= n < 2 ^ 63 -> round32 n = round4 n.
Proof.
  intros. unfold round32, round4. rewrite u64_small by lia. lia.
Qed.

Lemma read_bytes_app n b r : n = zlen b -> n <= 2 ^ 48 -> read_bytes n (b ++ r) = Ok (b, r).
Proof.
  intros -> H. unfold read_bytes, go_make. pose proof (zlen_nonneg b).
  pose proof (zlen_nonneg r).
  replace ((zlen b <? 0) || (2 ^ 48 <? zlen b * 1)) with false by lia.
  cbn [rbind]. rewrite zlen_app.
  replace (zlen b + zlen r <? zlen b) with false by lia.
  now rewrite ztake_app_exact, zdrop_app_exact.
Qed.

Definition name_fits (ver : Z) (nm : bytes) : Prop :=
  ~ In 0 nm /\ zlen nm < lim ver /\ zlen nm + 4 <= 2 ^ 48.

Lemma read_name_enc ver nm r : name_fits ver nm ->
  read_name ver (enc_name ver nm ++ r) = Ok (nm, r).
Proof.
  intros (H0 & H1 & H2). pose proof (zlen_nonneg nm). pose proof (lim_pos ver).
  unfold read_name, enc_name. rewrite <- app_assoc, read_number_enc by lia. cbn [rbind].
  rewrite round32_small by lia. pose proof (round4_bounds (zlen nm)).
  rewrite read_bytes_app; [|now rewrite zlen_pad4|lia]. cbn [rbind].
  unfold pad4. rewrite name_scan_ok by easy. reflexivity.
Qed.

(** ** Attributes *)
Lemma zlen_flat_num k l : Forall (fun v => exists z, v = VNum k z) l ->
  zlen (flat_map num_bytes l) = zlen l * ksize k.
Proof.
  induction 1 as [|v l (z & ->) _ IH]; [reflexivity|].
  cbn [flat_map num_bytes]. autorewrite with zl. rewrite IH. lia.
Qed.

Lemma wt_slice_num k l : wt (VSlice (GNum k) l) = true ->
  Forall (fun v => exists z, v = VNum k z /\ in_range k z = true) l.
Proof.
  cbn [wt]. intros H. apply andb_true_iff in H. destruct H as [H1 H2].
  rewrite forallb_forall in H1, H2. apply Forall_forall. intros v Hv.
  specialize (H1 v Hv). specialize (H2 v Hv). destruct v; cbn in *; try easy.
  exists z. assert (k0 = k) by (destruct k0, k; easy). now subst.
Qed.

Lemma dec_list_enc k l r : Forall (fun v => exists z, v = VNum k z /\ in_range k z = true) l ->
  map (VNum k) (dec_list k (List.length l) (flat_map num_bytes l ++ r)) = l.
Proof.
  induction 1 as [|v l (z & -> & Hz) _ IH]; [reflexivity|].
  cbn [List.length dec_list flat_map num_bytes map].
  rewrite <- app_assoc, ztake_app_exact, zdrop_app_exact by (now rewrite zlen_enc_be).
  rewrite dec_enc_be by easy. now rewrite IH.
Qed.

Lemma read_nums_enc k l r : Forall (fun v => exists z, v = VNum k z /\ in_range k z = true) l ->
  zlen l * ksize k <= 2 ^ 48 ->
  exists zs, read_nums k (zlen l) (flat_map num_bytes l ++ r) = Ok (zs, r) /\ map (VNum k) zs = l.
Proof.
  intros HF HL. pose proof (zlen_nonneg l). pose proof (zlen_nonneg r).
  assert (HF' : Forall (fun v => exists z, v = VNum k z) l).
  { eapply Forall_impl; [|exact HF]. intros v (z & -> & _). eauto. }
  unfold read_nums, go_make.
  replace ((zlen l <? 0) || (2 ^ 48 <? zlen l * ksize k)) with false by lia. cbn [rbind].
  rewrite zlen_app, (zlen_flat_num k) by easy.
  replace (zlen l * ksize k + zlen r <? zlen l * ksize k) with false by lia.
  rewrite zdrop_app_exact by (now rewrite (zlen_flat_num k)).
  eexists. split; [reflexivity|].
  replace (Z.to_nat (zlen l)) with (List.length l) by (unfold zlen; lia).
  now apply dec_list_enc.
Qed.

Lemma read_pad_enc (b r : bytes) : read_pad (zlen b) (zrep (round4 (zlen b) - zlen b) 0 ++ r) = Ok (tt, r).
Proof.
  unfold read_pad. pose proof (round4_bounds (zlen b)). pose proof (zlen_nonneg r).
  autorewrite with zl.
  replace (Z.max (round4 (zlen b) - zlen b) 0 + zlen r <? round4 (zlen b) - zlen b) with false by lia.
  rewrite zdrop_app_exact by (rewrite zlen_zrep; lia). reflexivity.
Qed.

Lemma tcode_range t : 1 <= tcode t <= 11.
Proof. destruct t as [|[]]; cbn; lia. Qed.
Lemma ty_of_tcode t : ty_of_code (tcode t) = Some t.
Proof. destruct t as [|[]]; reflexivity. Qed.

(** Encoding of one attribute; [None] for unsupported values. *)
Definition enc_attr (ver : Z) (kv : bytes * gval) : bytes :=
  match attr_payload (snd kv) with
  | Some (t, n, p) => enc_name ver (fst kv) ++ be 4 (tcode t) ++ enc_number ver n ++ pad4 p
  | None => []
  end.

(** Size limits on an attribute *)
Definition attr_count (v : gval) : Z :=
  match v with VStr s => zlen s | VSlice _ l => zlen l | _ => 1 end.
Definition attr_fits (ver : Z) (kv : bytes * gval) : Prop :=
  name_fits ver (fst kv) /\ attr_count (snd kv) < lim ver /\ attr_count (snd kv) * 8 <= 2 ^ 48.

(** What the reader returns for an attribute value: length-one slices become scalars. *)
Definition attr_back (v : gval) : gval :=
  match v with VSlice _ [x] => x | _ => v end.

Lemma attr_payload_padded v t n p : wt v = true -> attr_payload v = Some (t, n, p) ->
  padded_ty t = false -> zlen p mod 4 = 0.
Proof.
  intros Hw H Hp. destruct v as [k z|s|t' l|]; cbn in H; try easy.
  - inversion H; subst. rewrite zlen_enc_be. destruct k; cbn in *; try easy.
  - inversion H; subst. easy.
  - destruct t'; try easy. inversion H; subst.
    apply wt_slice_num in Hw. rewrite (zlen_flat_num k).
    + destruct k; cbn in *; try easy; lia.
    + eapply Forall_impl; [|exact Hw]. intros v (z & -> & _). eauto.
Qed.

Lemma write_attr_list_app ver out a : wver ver -> zlen out mod 4 = 0 ->
  Forall (fun kv => wt (snd kv) = true) a ->
  Forall (fun kv => attr_version (snd kv) <> 0) a ->
  write_attr_list ver out a = Ok (out ++ flat_map (enc_attr ver) a).
Proof.
  intros Hv Ho Hw Ha. revert out Ho.
  induction a as [|[k v] a IH]; intros out Ho.
  - cbn. now rewrite app_nil_r.
  - inversion Hw; inversion Ha; subst. cbn [fst snd] in *.
    cbn [write_attr_list flat_map]. unfold enc_attr at 1. cbn [fst snd].
    destruct (attr_payload v) as [[[t n] p]|] eqn:E.
    2:{ destruct v as [| |[] ?|]; cbn in *; try easy; congruence. }
    rewrite write_name_app by easy.
    pose proof (enc_name_mod ver k Hv) as Hk. pose proof (numsize_mod ver Hv) as Hn.
    assert (Hpad : (if padded_ty t
                    then pad_out ((out ++ enc_name ver k) ++ be 4 (tcode t) ++ enc_number ver n ++ p)
                    else (out ++ enc_name ver k) ++ be 4 (tcode t) ++ enc_number ver n ++ p)
                   = out ++ (enc_name ver k ++ be 4 (tcode t) ++ enc_number ver n ++ pad4 p)).
    { destruct (padded_ty t) eqn:Et.
      - rewrite (app_assoc (be 4 (tcode t))). rewrite pad_out_app.
        + rewrite <- !app_assoc. reflexivity.
        + rewrite !zlen_app, zlen_be, zlen_enc_number by easy. lia.
      - rewrite (pad4_id p) by (now apply (attr_payload_padded v t n p)).
        rewrite <- !app_assoc. reflexivity. }
    rewrite Hpad. rewrite IH; try easy.
    + rewrite <- !app_assoc. reflexivity.
    + rewrite !zlen_app, zlen_be, zlen_enc_number by easy. pose proof (pad4_mod p). lia.
Qed.

Definition enc_attrs (ver : Z) (a : attrs) : bytes :=
  match a with
  | [] => be 4 0 ++ enc_number ver 0
  | _ => be 4 fieldAttribute ++ enc_number ver (zlen a) ++ flat_map (enc_attr ver) a
  end.

Lemma write_attributes_app ver out a : wver ver -> zlen out mod 4 = 0 ->
  Forall (fun kv => wt (snd kv) = true) a ->
  Forall (fun kv => attr_version (snd kv) <> 0) a ->
  write_attributes ver out a = Ok (out ++ enc_attrs ver a).
Proof.
  intros Hv Ho Hw Ha. unfold write_attributes, enc_attrs. destruct a as [|x a]; [reflexivity|].
  rewrite write_attr_list_app; auto.
  - now rewrite <- !app_assoc.
  - rewrite !zlen_app, zlen_be, zlen_enc_number by easy. pose proof (numsize_mod ver Hv). lia.
Qed.

Lemma enc_attr_mod ver kv : wver ver -> zlen (enc_attr ver kv) mod 4 = 0.
Proof.
  intros Hv. unfold enc_attr. destruct (attr_payload (snd kv)) as [[[t n] p]|]; [|reflexivity].
  rewrite !zlen_app, zlen_be, zlen_enc_number by easy.
  pose proof (enc_name_mod ver (fst kv) Hv). pose proof (numsize_mod ver Hv). pose proof (pad4_mod p). lia.
Qed.
Lemma flat_enc_attr_mod ver a : wver ver -> zlen (flat_map (enc_attr ver) a) mod 4 = 0.
Proof.
  intros Hv. induction a as [|kv a IH]; [reflexivity|]. cbn [flat_map]. rewrite zlen_app.
  pose proof (enc_attr_mod ver kv Hv). lia.
Qed.
Lemma enc_attrs_mod ver a : wver ver -> zlen (enc_attrs ver a) mod 4 = 0.
Proof.
  intros Hv. pose proof (numsize_mod ver Hv).
  unfold enc_attrs. destruct a as [|kv a].
  - rewrite zlen_app, zlen_be, zlen_enc_number by easy. lia.
  - rewrite !zlen_app, zlen_be, zlen_enc_number by easy.
    pose proof (flat_enc_attr_mod ver (kv :: a) Hv). lia.
Qed.

(** The type of an attribute is allowed in the version *)
Definition attr_ver_ok (ver : Z) (v : gval) : Prop := attr_version v <> 0 /\ attr_version v <= ver.

Lemma get_attr_enc ver kv r : wver ver -> wt (snd kv) = true -> attr_ver_ok ver (snd kv) ->
  attr_fits ver kv ->
  get_attr ver (enc_attr ver kv ++ r) = Ok ((fst kv, attr_back (snd kv)), r).
Proof.
  intros Hv Hw [Hs Hver] (Hn & Hc & H8). destruct kv as [k v]. cbn [fst snd] in *.
  unfold enc_attr, get_attr. cbn [fst snd].
  assert (L := lim_pos ver).
  destruct v as [kd z|s|t l|]; try (cbn in Hs; easy).
  - (* scalar number *)
    cbn [attr_payload]. rewrite <- !app_assoc. rewrite read_name_enc by easy. cbn [rbind].
    rewrite read32_enc by (pose proof (tcode_range (TNum kd)); lia). cbn [rbind].
    rewrite read_number_enc by (cbn in Hc; lia). cbn [rbind].
    rewrite ty_of_tcode.
    assert (Ev : check_version ver kd = Ok tt).
    { unfold check_version. cbn in Hver. destruct (v5kind kd) eqn:E; [|reflexivity].
      replace (ver <? 5) with false by lia. reflexivity. }
    rewrite Ev. cbn [rbind].
    cbn [wt] in Hw. pose proof (ksize_pos kd) as Hk.
    assert (HF : Forall (fun v => exists z, v = VNum kd z /\ in_range kd z = true) [VNum kd z])
      by (repeat constructor; eauto).
    assert (E1 : exists zs, read_nums kd 1 (enc_be kd z ++ zrep (round4 (zlen (enc_be kd z)) - zlen (enc_be kd z)) 0 ++ r)
             = Ok (zs, zrep (round4 (zlen (enc_be kd z)) - zlen (enc_be kd z)) 0 ++ r)
             /\ map (VNum kd) zs = [VNum kd z]).
    { destruct (read_nums_enc kd [VNum kd z]
                  (zrep (round4 (zlen (enc_be kd z)) - zlen (enc_be kd z)) 0 ++ r) HF) as (zs & E & Em).
      - unfold zlen; cbn [List.length]; lia.
      - cbn [flat_map num_bytes] in E. rewrite app_nil_r in E. exists zs. now split. }
    destruct E1 as (zs & E1 & Em). unfold pad4. rewrite <- app_assoc. rewrite E1. cbn [rbind].
    rewrite Z.mul_1_l. rewrite <- (zlen_enc_be kd z) at 1. rewrite read_pad_enc. cbn [rbind].
    now rewrite Em.
  - (* string *)
    cbn [attr_payload]. rewrite <- !app_assoc. rewrite read_name_enc by easy. cbn [rbind].
    rewrite read32_enc by (pose proof (tcode_range TChar); lia). cbn [rbind].
    pose proof (zlen_nonneg s). cbn [attr_count] in *.
    rewrite read_number_enc by lia. cbn [rbind]. rewrite ty_of_tcode.
    unfold pad4. rewrite <- app_assoc. rewrite read_bytes_app by lia. cbn [rbind].
    rewrite read_pad_enc. reflexivity.
  - (* slice *)
    destruct t; try (cbn in Hs; easy).
    cbn [attr_payload]. rewrite <- !app_assoc. rewrite read_name_enc by easy. cbn [rbind].
    rewrite read32_enc by (pose proof (tcode_range (TNum k0)); lia). cbn [rbind].
    pose proof (zlen_nonneg l). cbn [attr_count] in *.
    rewrite read_number_enc by lia. cbn [rbind].
    rewrite ty_of_tcode.
    assert (Ev : check_version ver k0 = Ok tt).
    { unfold check_version. cbn in Hver. destruct (v5kind k0) eqn:E; [|reflexivity].
      replace (ver <? 5) with false by lia. reflexivity. }
    rewrite Ev. cbn [rbind]. apply wt_slice_num in Hw.
    assert (HF' : Forall (fun v => exists z, v = VNum k0 z) l).
    { eapply Forall_impl; [|exact Hw]. intros v (z & -> & _). eauto. }
    unfold pad4. rewrite <- app_assoc.
    pose proof (ksize_pos k0).
    destruct (read_nums_enc k0 l (zrep (round4 (zlen (flat_map num_bytes l)) - zlen (flat_map num_bytes l)) 0 ++ r) Hw)
      as (zs & E & Em); [nia|].
    rewrite E. cbn [rbind]. rewrite <- (zlen_flat_num k0 l HF'). rewrite read_pad_enc. cbn [rbind].
    rewrite Em. cbn [attr_scalar attr_back]. reflexivity.
Qed.
