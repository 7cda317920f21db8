(** Ranges of the numbers in a group opened from any bytes. *)
From Coq Require Import ZifyBool ZifyNat.
From Verif Require Import Prelude GoVal BaseLemmas OrderedMapModel OrderedMapProofs
  CdfWriterModel CdfReaderModel CdfHeader CdfFile CdfLocal CdfStore CdfParse.
Ltac Zify.zify_post_hook ::= Z.div_mod_to_equations.

Lemma local_bytes {A} (p : P A) s a r : local p -> p s = Ok (a, r) -> are_bytes s -> are_bytes r.
Proof.
  intros L E B. destruct (L s a r E) as (c & -> & _). apply Forall_app in B. tauto.
Qed.
Lemma are_bytes_take n l : are_bytes l -> are_bytes (ztake n l).
Proof. intros H. rewrite <- (ztake_zdrop n l) in H. apply Forall_app in H. tauto. Qed.
Lemma are_bytes_drop n l : are_bytes l -> are_bytes (zdrop n l).
Proof. intros H. rewrite <- (ztake_zdrop n l) in H. apply Forall_app in H. tauto. Qed.

Lemma of_be_range l : are_bytes l -> 0 <= of_be l < 256 ^ zlen l.
Proof.
  intros H. unfold of_be. rewrite <- zlen_rev. apply of_le_range. now apply Forall_rev.
Qed.
Lemma read_uint_range n s z r : 0 <= n -> read_uint n s = Ok (z, r) -> are_bytes s -> 0 <= z < 256 ^ n.
Proof.
  intros Hn. unfold read_uint. destruct (zlen s <? n) eqn:E; [discriminate|]. intros X B. injection X as <- _.
  pose proof (of_be_range (ztake n s) (are_bytes_take n s B)) as R.
  rewrite zlen_ztake in R by lia. exact R.
Qed.
Lemma read_number_range ver s z r : read_number ver s = Ok (z, r) -> are_bytes s -> 0 <= z < 2 ^ 64.
Proof.
  unfold read_number. destruct (ver <? 5).
  - destruct (read32 s) as [[n s1]| |]; cbn [rbind]; try discriminate. intros X _. injection X as <- _.
    unfold u64. apply Z.mod_pos_bound. lia.
  - intros E B. exact (read_uint_range 8 s z r ltac:(lia) E B).
Qed.
Lemma get_dims_range ver n : forall s l r, get_dims ver n s = Ok (l, r) -> are_bytes s ->
  Forall (fun d => 0 <= d_len d < 2 ^ 64) l.
Proof.
  induction n as [|n IH]; intros s l r E B; cbn [get_dims] in E.
  - injection E as <- _. constructor.
  - destruct (read_name ver s) as [[nm s1]| |] eqn:E1; cbn [rbind] in E; try discriminate.
    destruct (read_number ver s1) as [[z s2]| |] eqn:E2; cbn [rbind] in E; try discriminate.
    destruct (get_dims ver n s2) as [[l' s3]| |] eqn:E3; cbn [rbind] in E; try discriminate.
    injection E as <- _. pose proof (local_bytes _ _ _ _ (local_read_name ver) E1 B) as B1.
    pose proof (local_bytes _ _ _ _ (local_read_number ver) E2 B1) as B2. constructor; [|exact (IH _ _ _ E3 B2)].
    cbn [d_len]. exact (read_number_range _ _ _ _ E2 B1).
Qed.

Lemma of_unsigned_range k z : 0 <= z < 2 ^ (8 * ksize k) -> in_range k (of_unsigned k z) = true.
Proof.
  intros H. unfold in_range, of_unsigned, kmin, kmax. destruct (ksigned k).
  - pose proof (ksize_pos k). pose proof (signed_range (8 * ksize k) z ltac:(lia)). lia.
  - lia.
Qed.
Lemma dec_be_range k b : are_bytes b -> zlen b <= ksize k -> in_range k (dec_be k b) = true.
Proof.
  intros B L. unfold dec_be. apply of_unsigned_range. pose proof (of_be_range b B) as R.
  pose proof (zlen_nonneg b). pose proof (ksize_pos k).
  assert (256 ^ zlen b <= 256 ^ ksize k) by (apply Z.pow_le_mono_r; lia).
  assert (E : 256 ^ ksize k = 2 ^ (8 * ksize k)) by (rewrite <- (Z.pow_mul_r 2 8) by lia; reflexivity).
  lia.
Qed.
Lemma dec_list_range k n : forall b, are_bytes b -> Forall (fun z => in_range k z = true) (dec_list k n b).
Proof.
  induction n as [|n IH]; intros b B; cbn [dec_list]; [constructor|]. constructor.
  - apply dec_be_range; [now apply are_bytes_take|]. rewrite zlen_ztake_min. pose proof (ksize_pos k). lia.
  - apply IH. now apply are_bytes_drop.
Qed.

Lemma nums_wt k l : Forall (fun z => in_range k z = true) l -> wt (VSlice (GNum k) (map (VNum k) l)) = true.
Proof.
  intros H. cbn [wt]. apply andb_true_iff. split; apply forallb_forall; intros x Hx; apply in_map_iff in Hx;
    destruct Hx as (z & <- & Hz).
  - cbn [type_of gtype_eqb]. now apply nk_eqb_eq.
  - cbn [wt]. rewrite Forall_forall in H. now apply H.
Qed.
Lemma attr_scalar_wt v : wt v = true -> wt (attr_scalar v) = true.
Proof.
  destruct v as [| |t [|x [|]]|]; cbn [attr_scalar]; try tauto.
  cbn [wt forallb]. rewrite !andb_true_r. intros H. apply andb_true_iff in H. tauto.
Qed.
Lemma get_attr_wt ver s k v r : get_attr ver s = Ok ((k, v), r) -> are_bytes s -> wt v = true.
Proof.
  unfold get_attr. intros E B.
  destruct (read_name ver s) as [[nm s1]| |] eqn:E1; cbn [rbind] in E; try discriminate.
  destruct (read32 s1) as [[vt s2]| |] eqn:E2; cbn [rbind] in E; try discriminate.
  destruct (read_number ver s2) as [[n s3]| |] eqn:E3; cbn [rbind] in E; try discriminate.
  pose proof (local_bytes _ _ _ _ (local_read_name ver) E1 B) as B1.
  pose proof (local_bytes _ _ _ _ local_read32 E2 B1) as B2.
  pose proof (local_bytes _ _ _ _ (local_read_number ver) E3 B2) as B3.
  destruct (ty_of_code vt) as [[|kd]|]; [| |discriminate].
  - unfold read_bytes in E. destruct (go_make n 1); cbn [rbind] in E; try discriminate.
    destruct (zlen s3 <? n); cbn [rbind] in E; try discriminate.
    destruct (read_pad _ _) as [[? ?]| |]; cbn [rbind] in E; try discriminate.
    injection E as _ <- _. cbn [wt]. apply forallb_forall. intros x Hx.
    pose proof (are_bytes_take n s3 B3) as B4. unfold are_bytes in B4. rewrite Forall_forall in B4.
    specialize (B4 x Hx). unfold is_byte in B4. lia.
  - destruct (check_version ver kd); cbn [rbind] in E; try discriminate.
    unfold read_nums in E. destruct (go_make n (ksize kd)); cbn [rbind] in E; try discriminate.
    destruct (zlen s3 <? _); cbn [rbind] in E; try discriminate.
    destruct (read_pad _ _) as [[? ?]| |]; cbn [rbind] in E; try discriminate.
    assert (EV : v = attr_scalar (VSlice (GNum kd) (map (VNum kd) (dec_list kd (Z.to_nat n) s3)))) by congruence.
    rewrite EV. apply attr_scalar_wt, nums_wt, dec_list_range. exact B3.
Qed.
Lemma attrs_loop_wt ver fuel : forall n s l r, get_attrs_loop ver fuel n s = Ok (l, r) -> are_bytes s ->
  Forall (fun kv => wt (snd kv) = true) l.
Proof.
  induction fuel as [|fuel IH]; intros n s l r E B; cbn [get_attrs_loop] in E.
  - destruct (n <=? 0); [|discriminate]. injection E as <- _. constructor.
  - destruct (n <=? 0); [injection E as <- _; constructor|].
    destruct (get_attr ver s) as [[[k v] s1]| |] eqn:E1; cbn [rbind] in E; try discriminate.
    destruct (get_attrs_loop ver fuel (n - 1) s1) as [[l' s2]| |] eqn:E2; cbn [rbind] in E; try discriminate.
    injection E as <- _. constructor; [exact (get_attr_wt _ _ _ _ _ E1 B)|].
    exact (IH _ _ _ _ E2 (local_bytes _ _ _ _ (local_get_attr ver) E1 B)).
Qed.
Lemma assoc_set_forall {V} (P : V -> Prop) k v (m : list (bytes * V)) : P v -> Forall (fun kv => P (snd kv)) m ->
  Forall (fun kv => P (snd kv)) (assoc_set k v m).
Proof.
  intros H F. induction F as [|[k' v'] m H' F IH]; cbn [assoc_set]; [repeat constructor; exact H|].
  destruct (beqb k k'); constructor; auto.
Qed.
Lemma build_map_forall {V} (P : V -> Prop) (l : list (bytes * V)) : Forall (fun kv => P (snd kv)) l ->
  Forall (fun kv => P (snd kv)) (build_map l).
Proof.
  intros H. unfold build_map. assert (G : Forall (fun kv : bytes * V => P (snd kv)) []) by constructor.
  revert G. generalize (@nil (bytes * V)) as m. induction H as [|[k v] l Hv H IH]; intros m G; cbn [fold_left]; [exact G|].
  apply IH. apply assoc_set_forall; [exact Hv|exact G].
Qed.
Definition attrs_wt (m : omap gval) : Prop := forall k v, om_get m k = Some v -> wt v = true.
Lemma attr_list_wt ver s m r : get_attr_list ver s = Ok (m, r) -> are_bytes s -> attrs_wt m.
Proof.
  unfold get_attr_list. intros E B. destruct (get_nelems _ _ _) as [[n s1]| |] eqn:E1; cbn [rbind] in E; try discriminate.
  destruct (get_attrs_loop _ _ _ _) as [[l s2]| |] eqn:E2; cbn [rbind] in E; try discriminate.
  destruct (new_ordered_map _ _) as [om| |] eqn:E3; cbn [rbind] in E; try discriminate.
  injection E as <- _. apply new_ordered_map_result in E3. subst om. intros k v. unfold om_get. cbn [om_vals].
  intros H. apply assoc_Some_In in H.
  pose proof (attrs_loop_wt _ _ _ _ _ _ E2 (local_bytes _ _ _ _ (local_get_nelems ver _) E1 B)) as F.
  apply (build_map_forall (fun v => wt v = true)) in F. rewrite Forall_forall in F. exact (F _ H).
Qed.

Definition rvar_in (v : rvar) : Prop := 0 <= v_begin v < 2 ^ 64 /\ attrs_wt (v_attrs v) /\ Forall (fun i => 0 <= i) (v_ids v).
Lemma read_numbers_range ver n : forall s l r, read_numbers ver n s = Ok (l, r) -> are_bytes s -> Forall (fun i => 0 <= i) l.
Proof.
  induction n as [|n IH]; intros s l r E B; cbn [read_numbers] in E; [injection E as <- _; constructor|].
  destruct (read_number ver s) as [[z s1]| |] eqn:E1; cbn [rbind] in E; try discriminate.
  destruct (read_numbers ver n s1) as [[l' s2]| |] eqn:E2; cbn [rbind] in E; try discriminate.
  injection E as <- _. constructor; [pose proof (read_number_range _ _ _ _ E1 B); lia|].
  exact (IH _ _ _ E2 (local_bytes _ _ _ _ (local_read_number ver) E1 B)).
Qed.
Lemma get_var_in ver dims rs s v rs' r : get_var ver dims rs s = Ok ((v, rs'), r) -> are_bytes s -> rvar_in v.
Proof.
  unfold get_var. intros E B.
  destruct (read_name ver s) as [[nm s1]| |] eqn:E1; cbn [rbind] in E; try discriminate.
  pose proof (local_bytes _ _ _ _ (local_read_name ver) E1 B) as B1.
  destruct (read_number ver s1) as [[nd s2]| |] eqn:E2; cbn [rbind] in E; try discriminate.
  pose proof (local_bytes _ _ _ _ (local_read_number ver) E2 B1) as B2.
  destruct (_ <? nd); [discriminate|].
  destruct (read_numbers ver _ s2) as [[ids s3]| |] eqn:E3; cbn [rbind] in E; try discriminate.
  pose proof (local_bytes _ _ _ _ (local_read_numbers ver _) E3 B2) as B3.
  destruct (get_attr_list ver s3) as [[at_ s4]| |] eqn:E4; cbn [rbind] in E; try discriminate.
  pose proof (local_bytes _ _ _ _ (local_get_attr_list ver) E4 B3) as B4.
  destruct (read32 s4) as [[vt s5]| |] eqn:E5; cbn [rbind] in E; try discriminate.
  pose proof (local_bytes _ _ _ _ local_read32 E5 B4) as B5.
  destruct (read_number ver s5) as [[vs s6]| |] eqn:E6; cbn [rbind] in E; try discriminate.
  pose proof (local_bytes _ _ _ _ (local_read_number ver) E6 B5) as B6.
  destruct (has_unlimited dims ids) as [u| |]; cbn [rbind] in E; try discriminate.
  match type of E with (let* _ := ?x in _) = _ => destruct x as [[used rs1]| |]; cbn [rbind] in E; try discriminate end.
  match type of E with (let* _ := ?x in _) = _ => destruct x as [[off s7]| |] eqn:E7; cbn [rbind] in E; try discriminate end.
  injection E as <- _ _. unfold rvar_in. cbn [v_begin v_attrs v_ids].
  split; [|split; [exact (attr_list_wt _ _ _ _ E4 B3)|exact (read_numbers_range _ _ _ _ _ E3 B2)]].
  destruct (ver =? 1).
  - pose proof (read_uint_range 4 s6 off s7 ltac:(lia) E7 B6). lia.
  - exact (read_uint_range 8 s6 off s7 ltac:(lia) E7 B6).
Qed.
Lemma vars_loop_in ver dims fuel : forall n st s st' r,
  get_vars_loop ver dims fuel n st s = Ok (st', r) -> are_bytes s ->
  (forall k v, om_get (vl_vars st) k = Some v -> rvar_in v) -> forall k v, om_get (vl_vars st') k = Some v -> rvar_in v.
Proof.
  induction fuel as [|fuel IH]; intros n st s st' r E B H; cbn [get_vars_loop] in E.
  - destruct (n <=? 0); [|discriminate]. injection E as <- _. exact H.
  - destruct (n <=? 0); [injection E as <- _; exact H|].
    destruct (get_var _ _ _ _) as [[[v rs] s1]| |] eqn:EG; cbn [rbind] in E; try discriminate.
    destruct (om_get (vl_vars st) (v_name v)) eqn:EO; [discriminate|].
    destruct (has_unlimited _ _) as [u| |]; cbn [rbind] in E; try discriminate.
    refine (IH _ _ _ _ _ E (local_bytes _ _ _ _ (local_get_var ver dims _) EG B) _).
    cbn [vl_vars]. intros k w. unfold om_get, om_add. destruct (mem _ _); cbn [om_vals].
    + intros X. destruct (bytes_dec k (v_name v)) as [->|N].
      * rewrite assoc_set_same in X. injection X as <-. exact (get_var_in _ _ _ _ _ _ _ EG B).
      * rewrite assoc_set_other in X by exact N. exact (H k w X).
    + intros X. destruct (bytes_dec k (v_name v)) as [->|N].
      * rewrite assoc_set_same in X. injection X as <-. exact (get_var_in _ _ _ _ _ _ _ EG B).
      * rewrite assoc_set_other in X by exact N. exact (H k w X).
Qed.

Lemma opened_in f c : cdf_open f = Ok c -> are_bytes f ->
  c_file c = f /\ 0 <= c_numrecs c < 2 ^ 64 /\ Forall (fun d => 0 <= d_len d < 2 ^ 64) (c_dims c) /\
  (forall k v, om_get (c_vars c) k = Some v -> rvar_in v).
Proof.
  rewrite open_parse. destruct (parse_header f) as [[h data]| |] eqn:E; try discriminate. intros X B. injection X as <-.
  unfold parse_header in E.
  destruct (read_bytes 4 f) as [[m s0]| |] eqn:E0; cbn [rbind] in E; try discriminate.
  pose proof (local_bytes _ _ _ _ (local_read_bytes 4) E0 B) as B0.
  destruct (negb _); [discriminate|]. cbv zeta in E. destruct (negb _); [discriminate|].
  destruct (read_number _ _) as [[nr s1]| |] eqn:E1; cbn [rbind] in E; try discriminate.
  pose proof (local_bytes _ _ _ _ (local_read_number _) E1 B0) as B1.
  destruct (nr =? _); [discriminate|].
  destruct (get_nelems _ fieldDimension _) as [[nd s2]| |] eqn:E2; cbn [rbind] in E; try discriminate.
  pose proof (local_bytes _ _ _ _ (local_get_nelems _ _) E2 B1) as B2.
  destruct (_ <? nd); [discriminate|].
  destruct (get_dims _ _ _) as [[ds s3]| |] eqn:E3; cbn [rbind] in E; try discriminate.
  pose proof (local_bytes _ _ _ _ (local_get_dims _ _) E3 B2) as B3.
  destruct (get_attr_list _ _) as [[ga s4]| |] eqn:E4; cbn [rbind] in E; try discriminate.
  pose proof (local_bytes _ _ _ _ (local_get_attr_list _) E4 B3) as B4.
  destruct (get_nelems _ fieldVariable _) as [[nv s5]| |] eqn:E5; cbn [rbind] in E; try discriminate.
  pose proof (local_bytes _ _ _ _ (local_get_nelems _ _) E5 B4) as B5.
  destruct (get_vars_loop _ _ _ _ _ _) as [[vl s6]| |] eqn:EV; cbn [rbind] in E; try discriminate.
  injection E as <- _. cbn [fst cdf_of_hdr c_file c_numrecs c_dims c_vars h_numrecs h_dims h_loop].
  split; [reflexivity|]. split; [exact (read_number_range _ _ _ _ E1 B0)|].
  split; [exact (get_dims_range _ _ _ _ _ E3 B2)|].
  eapply vars_loop_in; [exact EV|exact B5|]. cbn [vl_vars]. intros k v H. discriminate.
Qed.
