(** The dimension scales that the writer adds are numbered in order, and each describes its dimension. *)
From Verif Require Import Prelude GoVal OrderedMapModel ArraySpec H5MetaWrite H5Value H5FileWrite TypeSpec FileSpec BaseLemmas
  H5TypeProofs H5TreeProofs H5PrepareProofs H5GoodProofs H5LengthProofs.
From Verif Require TypeTextSpec H5TypeTextProofs.
From Coq Require Import Lia ZifyBool ZifyNat.

Lemma dec_fuel_ok : forall fuel n, 0 <= n < 2 ^ Z.of_nat fuel -> (0 < fuel)%nat -> TypeTextSpec.natural_text n (dec_fuel fuel n).
Proof.
  induction fuel as [|k IH]; intros n Hn Hk; [lia|]. cbn [dec_fuel]. destruct (n / 10 =? 0) eqn:E.
  - assert (n < 10) by (Z.div_mod_to_equations; lia).
    cbn [app]. split; [constructor; [unfold TypeTextSpec.is_digit; Z.div_mod_to_equations; lia|constructor]|].
    assert (n mod 10 = n) as -> by (apply Z.mod_small; lia). cbn [TypeTextSpec.value]. split; [lia|].
    destruct (Z.eq_dec n 0) as [->|]; [left; reflexivity|right]. exists (48 + n), []. split; [reflexivity|lia].
  - assert (10 <= n) by (Z.div_mod_to_equations; lia).
    assert (H1 : TypeTextSpec.natural_text (n / 10) (dec_fuel k (n / 10))).
    { destruct k as [|k']; [exfalso; change (2 ^ Z.of_nat 1) with 2 in Hn; lia|]. apply IH; [|lia].
      rewrite Nat2Z.inj_succ, Z.pow_succ_r in Hn by lia. split; [apply Z.div_pos; lia|]. apply Z.div_lt_upper_bound; lia. }
    destruct H1 as (Hd & Hv & Hz). split; [|split].
    + apply Forall_app. split; [exact Hd|]. constructor; [unfold TypeTextSpec.is_digit; Z.div_mod_to_equations; lia|constructor].
    + rewrite H5TypeTextProofs.value_snoc, Hv. Z.div_mod_to_equations; lia.
    + right. destruct Hz as [Hz|(c & r & Hz & Hc)].
      * exfalso. rewrite Hz in Hv. cbn [TypeTextSpec.value] in Hv. assert (1 <= n / 10) by (apply Z.div_le_lower_bound; lia). lia.
      * rewrite Hz. exists c, (r ++ [48 + n mod 10]). split; [reflexivity|exact Hc].
Qed.
Lemma dec_ok n : 0 <= n -> TypeTextSpec.natural_text n (dec n).
Proof.
  intros Hn. unfold dec. apply dec_fuel_ok; [|lia]. split; [exact Hn|].
  pose proof (Z.log2_spec (Z.max n 1) ltac:(lia)) as [_ B]. pose proof (Z.log2_nonneg (Z.max n 1)) as L.
  rewrite Nat2Z.inj_succ, Z2Nat.id by exact L. lia.
Qed.

(** The [k]-th dimension *)
Lemma add_scales_nth ds : forall i vs r k d, NoDup (map fst ds) -> add_scales i ds vs = Ok r -> nth_error ds k = Some d ->
  (forall w, assoc (fst d) vs = Some w -> hv_scale w = false) ->
  assoc (fst d) r = Some (match assoc (fst d) vs with
                          | Some w => coordinate (i + Z.of_nat k) (fst d) w
                          | None => bare (i + Z.of_nat k) (fst d) (snd d)
                          end).
Proof.
  induction ds as [|e ds IH]; intros i vs r k d Hd E Hk Hs; cbn [add_scales] in E; [destruct k; discriminate Hk|].
  cbn [map] in Hd. inversion Hd as [|? ? D1 D2]; subst x l.
  destruct (scale_of i e vs) as [w| |] eqn:Ew; try discriminate. cbn [rbind] in E.
  destruct k as [|k]; cbn [nth_error] in Hk.
  - injection Hk as <-. rewrite (add_scales_other _ _ _ _ _ E D1), assoc_set_same. f_equal.
    replace (i + Z.of_nat 0) with i by lia. unfold scale_of in Ew. destruct (assoc (fst e) vs) as [u|].
    + rewrite (Hs u eq_refl) in Ew. unfold promote in Ew.
      destruct (attrs_map (scale_attrs (fst e) i ++ attr_list (hv_attrs u))) as [a| |] eqn:Ea; try discriminate. cbn [rbind] in Ew.
      pose proof (attrs_map_ok_NoDup _ _ Ea) as N. rewrite (attrs_map_id _ N) in Ea.
      injection Ea as <-. injection Ew as <-. reflexivity.
    + unfold synthetic, go_make in Ew. destruct ((snd e <? 0) || (2 ^ 48 <? snd e * 1)); [discriminate|]. cbn [rbind] in Ew.
      injection Ew as <-. reflexivity.
  - assert (Hne : fst d <> fst e).
    { intros X. apply D1. rewrite <- X. apply in_map. eapply nth_error_In. exact Hk. }
    assert (Ea : assoc (fst d) (assoc_set (fst e) w vs) = assoc (fst d) vs) by (apply assoc_set_other; exact Hne).
    rewrite (IH (i + 1) _ r k d D2 E Hk).
    + rewrite Ea. replace (i + 1 + Z.of_nat k) with (i + Z.of_nat (Datatypes.S k)) by lia. reflexivity.
    + intros u Hu. apply Hs. rewrite <- Ea. exact Hu.
Qed.

Lemma prepare_nth t t1 : prepare t = Ok t1 -> Forall (fun x => hv_scale (snd x) = false) (w_vars t) ->
  exists ds : list (bytes * Z), NoDup (map fst ds) /\ (forall d, In d (map fst ds) <-> has_dim (all_vars [] t) d) /\
    forall k d s, nth_error ds k = Some (d, s) ->
      (exists x, In x (all_vars [] t) /\ hv_scale (snd x) = false /\ size_in (snd x) d s) /\
      assoc d (w_vars t1) = Some (match assoc d (w_vars t) with
                                  | Some w => coordinate (Z.of_nat k) d w
                                  | None => bare (Z.of_nat k) d s
                                  end).
Proof.
  unfold prepare. intros E Hs. destruct (addNCProperties (w_attrs t)) as [a| |]; try discriminate. cbn [rbind] in E.
  destruct (add_scales 0 (collectDims (sort_tree t) []) (w_vars t)) as [vs| |] eqn:Es; try discriminate. cbn [rbind] in E.
  assert (E' : t1 = WNode (Some a) vs (w_groups t)) by congruence. subst t1. cbn [w_vars].
  destruct (collectDims_spec (sort_tree t) [] [] (NoDup_nil _)) as [N I]. exists (collectDims (sort_tree t) []).
  split; [exact N|]. split.
  - intros d. rewrite I. unfold has_dim. split.
    + intros [[]|(x & X1 & X2)]. exists x. split; [apply all_vars_sort; exact X1|exact X2].
    + intros (x & X1 & X2). right. exists x. split; [apply all_vars_sort; exact X1|exact X2].
  - intros k d s Hk. split.
    + pose proof (nth_error_In _ _ Hk) as C. destruct (collectDims_size _ [] _ _ _ C) as [[]|(x & X1 & X2)].
      exists x. split; [apply all_vars_sort; exact X1|exact X2].
    + apply (add_scales_nth _ _ _ _ k (d, s) N Es Hk). cbn [fst]. intros w Hw. apply assoc_Some_In in Hw.
      rewrite Forall_forall in Hs. exact (Hs _ Hw).
Qed.
