(** Storing a value and reading it back. *)
From Coq Require Import ZifyBool ZifyNat.
From Verif Require Import Prelude GoVal BaseLemmas ArraySpec ArrayProofs CdfSpec CdfWriterModel
  CdfReaderModel CdfCodec CdfConvert CdfFixed.
Ltac Zify.zify_post_hook ::= Z.div_mod_to_equations.

Lemma nk_eqb_eq a b : nk_eqb a b = true <-> a = b.
Proof. destruct a, b; cbn; split; easy. Qed.
Lemma gtype_eqb_eq a b : gtype_eqb a b = true <-> a = b.
Proof.
  revert b; induction a as [k| |a IH|]; destruct b; cbn; try (split; easy).
  - rewrite nk_eqb_eq. split; congruence.
  - rewrite IH. split; congruence.
Qed.

Lemma wt_slice t l : wt (VSlice t l) = true <-> Forall (fun x => type_of x = t /\ wt x = true) l.
Proof.
  cbn [wt]. rewrite andb_true_iff, !forallb_forall, Forall_forall. split.
  - intros [H1 H2] x Hx. split; [|now apply H2]. apply gtype_eqb_eq. now apply H1.
  - intros H. split; intros x Hx.
    + apply gtype_eqb_eq. now apply H.
    + now apply H.
Qed.

(** The flat contents *)
Fixpoint vbits (v : gval) : list Z :=
  match v with
  | VNum _ z => [z]
  | VStr s => s
  | VSlice _ l => flat_map vbits l
  | VOther => []
  end.

Lemma rect_cons_inv d ds v : rect (d :: ds) v ->
  exists t l, v = VSlice t l /\ d = zlen l /\ l <> [] /\ Forall (rect ds) l.
Proof. intros H. inversion H; subst. exists t, l. easy. Qed.
Lemma rect_nil_inv v : rect [] v -> (exists k z, v = VNum k z) \/ (exists s, v = VStr s).
Proof. intros H. inversion H; subst; eauto. Qed.
Ltac rect_cons H HF := let t := fresh "t" in let l := fresh "l" in let Hne := fresh "Hne0" in
  apply rect_cons_inv in H; destruct H as (t & l & ? & ? & Hne & HF); subst.
Ltac rect_nil H := apply rect_nil_inv in H; destruct H as [(?k & ?z & ->)|(?s & ->)].

Lemma rect_pos ds v : rect ds v -> Forall (fun d => 0 < d) ds.
Proof.
  revert v; induction ds as [|d ds IH]; intros v H; [constructor|].
  rect_cons H HF. constructor.
  - destruct l; [easy|]. rewrite zlen_cons. pose proof (zlen_nonneg l). lia.
  - destruct l as [|x l]; [easy|]. apply Forall_cons_iff in HF as [Hx HF']. eauto.
Qed.

Lemma rect_extent ds v : rect ds v -> extent v = ds.
Proof.
  revert v; induction ds as [|d ds IH]; intros v H.
  - rect_nil H; reflexivity.
  - rect_cons H HF. destruct l as [|x l]; [easy|]. apply Forall_cons_iff in HF as [Hx HF']. cbn [extent].
    rewrite (IH x) by easy. reflexivity.
Qed.

(** *** Numbers *)
Lemma dl_num k ds v : rect ds v -> wt v = true -> base_type (type_of v) = GNum k ->
  forall dims nn, dim_lengths v dims nn = Ok (dims ++ ds, TNum k).
Proof.
  revert v; induction ds as [|d ds IH]; intros v H W B dims nn.
  - rect_nil H; cbn in B; [|easy]. inversion B; subst. cbn. now rewrite app_nil_r.
  - rect_cons H HF. apply wt_slice in W. destruct l as [|x l]; [easy|].
    apply Forall_cons_iff in HF as [Hx HF']. apply Forall_cons_iff in W as [[Ht Hw] W']. cbn [type_of base_type] in B.
    assert (E : dim_lengths (VSlice t (x :: l)) dims nn =
                dim_lengths x (dims ++ [zlen (x :: l)]) nn).
    { cbn [dim_lengths]. destruct t; try reflexivity. easy. }
    rewrite E, (IH x) by (rewrite ?Ht; easy). now rewrite <- app_assoc.
Qed.

Lemma rect_types ds v k : rect ds v -> wt v = true -> base_type (type_of v) = GNum k ->
  type_of v = match List.length ds with O => GNum k | _ => arr_type (ENum k) (List.length ds) end.
Proof.
  revert v; induction ds as [|d ds IH]; intros v H W B.
  - rect_nil H; cbn in *; congruence.
  - rect_cons H HF. apply wt_slice in W. destruct l as [|x l]; [easy|].
    apply Forall_cons_iff in HF as [Hx HF']. apply Forall_cons_iff in W as [[Ht Hw] W']. cbn [type_of base_type] in B |- *.
    rewrite <- Ht. rewrite (IH x) by (rewrite ?Ht; easy).
    cbn [List.length]. destruct (List.length ds) as [|n]; reflexivity.
Qed.

Lemma nest_vbits_num k ds v : rect ds v -> wt v = true -> base_type (type_of v) = GNum k ->
  zlen (vbits v) = volume ds /\ nest (ENum k) ds (vbits v) = v /\
  Forall (fun z => in_range k z = true) (vbits v).
Proof.
  revert v; induction ds as [|d ds IH]; intros v H W B.
  - rect_nil H; cbn in B; [|easy]. inversion B; subst. cbn in W.
    split; [reflexivity|]. split; [reflexivity|]. now repeat constructor.
  - pose proof (rect_types _ _ _ H W B) as T.
    rect_cons H HF. apply wt_slice in W. cbn [type_of base_type] in B, T. cbn [vbits volume].
    assert (HX : Forall (fun x => zlen (vbits x) = volume ds /\ nest (ENum k) ds (vbits x) = x /\
                           Forall (fun z => in_range k z = true) (vbits x)) l).
    { rewrite Forall_forall in *. intros x Hx. apply IH; [now apply HF|now apply W|].
      destruct (W x Hx) as [-> _]. exact B. }
    assert (HL : zlen (flat_map vbits l) = zlen l * volume ds).
    { clear - HX. induction HX as [|x l (E & _) _ IHl]; [reflexivity|].
      cbn [flat_map]. rewrite zlen_app, zlen_cons, IHl, E. lia. }
    split; [exact HL|]. split.
    + destruct ds as [|d2 ds].
      * cbn [nest row volume] in *. rewrite ztake_all by lia. cbn in T. inversion T; subst.
        f_equal. clear - HF W. induction HF as [|x l Hx _ IHl]; [reflexivity|].
        inversion W; subst. inversion Hx; subst.
        -- destruct H1 as [E _]. cbn in E. inversion E; subst. cbn [flat_map vbits map app].
           f_equal. now apply IHl.
        -- destruct H1 as [E _]. cbn in E. easy.
      * set (ds2 := d2 :: ds) in *.
        change (nest (ENum k) (zlen l :: ds2) (flat_map vbits l)) with
          (VSlice (arr_type (ENum k) (List.length ds2))
             (map (nest (ENum k) ds2) (chunks (Z.to_nat (zlen l)) (volume ds2) (flat_map vbits l)))).
        assert (T2 : arr_type (ENum k) (List.length ds2) = t).
        { cbn [List.length] in T. rewrite arr_type_S in T by (unfold ds2; easy). congruence. }
        rewrite T2. f_equal. unfold zlen. rewrite Nat2Z.id, flat_map_concat_map.
        rewrite <- (map_length vbits l) at 1.
        rewrite chunks_of_concat.
        -- rewrite map_map. rewrite <- (map_id l) at 2. apply map_ext_in. intros x Hx.
           rewrite Forall_forall in HX. now apply HX.
        -- apply Forall_forall. intros y Hy. apply in_map_iff in Hy. destruct Hy as (x & <- & Hx).
           rewrite Forall_forall in HX. now apply HX.
    + clear - HX. induction HX as [|x l (_ & _ & E) _ IHl]; cbn [flat_map]; [constructor|].
      apply Forall_app. now split.
Qed.

Lemma rmapM_map {A B} (f : A -> res B) (g : A -> B) l :
  Forall (fun x => f x = Ok (g x)) l -> rmapM f l = Ok (map g l).
Proof. induction 1 as [|x l E _ IH]; cbn; [reflexivity|]. rewrite E. cbn. now rewrite IH. Qed.

Lemma flat_map_flat {A B C} (f : A -> list B) (g : B -> list C) l :
  flat_map g (flat_map f l) = flat_map (fun x => flat_map g (f x)) l.
Proof. induction l as [|x l IH]; cbn; [reflexivity|]. rewrite flat_map_app, IH. reflexivity. Qed.

Lemma store_num k ds v : rect ds v -> ds <> [] -> wt v = true -> base_type (type_of v) = GNum k ->
  store (TNum k) ds v = Ok (flat_map (enc_be k) (vbits v)).
Proof.
  revert v; induction ds as [|d ds IH]; intros v H Hne W B; [easy|].
  rect_cons H HF. apply wt_slice in W. cbn [type_of base_type] in B.
  destruct ds as [|d2 ds].
  - assert (t = GNum k).
    { destruct l as [|x l]; [easy|]. apply Forall_cons_iff in HF as [Hx HF']. apply Forall_cons_iff in W as [[Ht Hw] W'].
      rect_nil Hx; cbn [type_of] in Ht; subst t; cbn [base_type] in B; congruence. }
    subst t. cbn [store]. rewrite (proj2 (nk_eqb_eq k k) eq_refl). f_equal. cbn [vbits].
    rewrite flat_map_flat. clear - HF W. induction HF as [|x l Hx _ IHl]; [reflexivity|].
    inversion W; subst. destruct H1 as [E _]. inversion Hx; subst; cbn in E; [|easy].
    inversion E; subst. cbn [flat_map vbits num_bytes app]. rewrite app_nil_r. f_equal. now apply IHl.
  - set (ds2 := d2 :: ds) in *.
    assert (E : store (TNum k) (zlen l :: ds2) (VSlice t l) =
      rmap (@List.concat Z) (rmapM (store (TNum k) ds2) l)) by reflexivity.
    rewrite E, (rmapM_map _ (fun x => flat_map (enc_be k) (vbits x))).
    + cbn [rmap vbits]. f_equal. rewrite flat_map_flat. now rewrite flat_map_concat_map.
    + rewrite Forall_forall in *. intros x Hx. apply IH; [now apply HF|easy|now apply W|].
      destruct (W x Hx) as [-> _]. exact B.
Qed.

Lemma dec_flat_enc k zs r : Forall (fun z => in_range k z = true) zs ->
  dec_list k (List.length zs) (flat_map (enc_be k) zs ++ r) = zs.
Proof.
  induction 1 as [|z zs Hz _ IH]; [reflexivity|]. cbn [List.length dec_list flat_map].
  rewrite <- app_assoc. rewrite ztake_app_exact, zdrop_app_exact by (now rewrite zlen_enc_be).
  rewrite dec_enc_be by easy. now rewrite IH.
Qed.
Lemma zlen_flat_enc k zs : zlen (flat_map (enc_be k) zs) = ksize k * zlen zs.
Proof.
  induction zs as [|z zs IH]; [cbn; lia|]. cbn [flat_map]. rewrite zlen_app, zlen_cons, zlen_enc_be, IH. lia.
Qed.

(** *** Strings *)
Lemma max_strlen_longest t l : max_strlen l = longest (VSlice t l) \/ exists x, In x l /\ forall s, x <> VStr s.
Proof.
  induction l as [|x l IH]; [left; reflexivity|].
  destruct IH as [IH|(y & Hy & N)].
  - destruct x as [k z|s|t' l'|].
    + right. exists (VNum k z). split; [now left|easy].
    + left. cbn [max_strlen str_len]. cbn [longest fold_right] in *. now rewrite IH.
    + right. exists (VSlice t' l'). split; [now left|easy].
    + right. exists VOther. split; [now left|easy].
  - right. exists y. split; [now right|easy].
Qed.

Lemma dl_str ds v : rect ds v -> ds <> [] -> wt v = true -> base_type (type_of v) = GString ->
  0 < longest (first_row v) ->
  forall dims nn, dim_lengths v dims nn = Ok (dims ++ ds ++ [longest (first_row v)], TChar).
Proof.
  revert v; induction ds as [|d ds IH]; intros v H Hne W B L dims nn; [easy|].
  rect_cons H HF. apply wt_slice in W. cbn [type_of base_type] in B.
  destruct t as [k| |t|].
  - easy.
  - cbn [dim_lengths first_row] in *.
    destruct (max_strlen_longest GString l) as [E|(x & Hx & N)].
    2:{ rewrite Forall_forall in W. destruct (W x Hx) as [Ht _]. destruct x; cbn in Ht; try easy. now destruct (N s). }
    rewrite E. replace (longest (VSlice GString l) =? 0) with false by lia.
    assert (ds = []).
    { destruct l as [|x l]; [easy|]. apply Forall_cons_iff in HF as [Hx HF']. apply Forall_cons_iff in W as [[Ht Hw] W'].
      inversion Hx; subst; cbn in Ht; easy. }
    subst ds. now rewrite <- app_assoc.
  - destruct l as [|x l]; [easy|]. apply Forall_cons_iff in HF as [Hx HF']. apply Forall_cons_iff in W as [[Ht Hw] W'].
    cbn [dim_lengths first_row] in *.
    assert (ds <> []).
    { intros ->. rect_nil Hx; cbn in Ht; easy. }
    rewrite (IH x) by (rewrite ?Ht; easy). now rewrite <- app_assoc.
  - easy.
Qed.

Lemma longest_in x t l : In x l -> longest x <= longest (VSlice t l).
Proof.
  induction l as [|y l IH]; [easy|]. cbn [longest fold_right]. intros [->|Hx].
  - lia.
  - specialize (IH Hx). cbn [longest] in IH. lia.
Qed.
Lemma longest_nonneg v : 0 <= longest v.
Proof.
  destruct v; cbn; try lia; [apply zlen_nonneg|].
  induction l; cbn [fold_right]; lia.
Qed.

Lemma rect_types_str ds v : rect ds v -> wt v = true -> base_type (type_of v) = GString ->
  type_of v = arr_type EChar (S (List.length ds)).
Proof.
  revert v; induction ds as [|d ds IH]; intros v H W B.
  - rect_nil H; cbn in *; [easy|reflexivity].
  - rect_cons H HF. apply wt_slice in W. destruct l as [|x l]; [easy|].
    apply Forall_cons_iff in HF as [Hx HF']. apply Forall_cons_iff in W as [[Ht Hw] W']. cbn [type_of base_type] in B |- *.
    rewrite <- Ht. rewrite (IH x) by (rewrite ?Ht; easy). reflexivity.
Qed.

Lemma nest_vbits_str n ds v : rect ds v -> wt v = true -> base_type (type_of v) = GString ->
  longest v <= n -> 
  zlen (vbits (pad_strings n v)) = volume (ds ++ [n]) /\
  nest EChar (ds ++ [n]) (vbits (pad_strings n v)) = pad_strings n v /\
  are_bytes (vbits (pad_strings n v)).
Proof.
  revert v; induction ds as [|d ds IH]; intros v H W B L.
  - rect_nil H; cbn in B; [easy|]. cbn [pad_strings vbits app volume nest row].
    cbn [longest] in L. cbn [wt] in W. pose proof (zlen_nonneg s).
    assert (E : zlen (s ++ zrep (n - zlen s) 0) = n) by (autorewrite with zl; lia).
    rewrite E, ztake_all by lia. split; [lia|]. split; [reflexivity|].
    apply Forall_app. split.
    + rewrite forallb_forall in W. apply Forall_forall. intros b Hb. specialize (W b Hb).
      unfold is_byte. lia.
    + apply Forall_forall. intros b Hb. apply repeat_spec in Hb. subst. unfold is_byte. lia.
  - pose proof (rect_types_str _ _ H W B) as T.
    rect_cons H HF. apply wt_slice in W. cbn [type_of base_type] in B, T. cbn [vbits volume pad_strings app].
    assert (HX : Forall (fun x => zlen (vbits (pad_strings n x)) = volume (ds ++ [n]) /\
        nest EChar (ds ++ [n]) (vbits (pad_strings n x)) = pad_strings n x /\
        are_bytes (vbits (pad_strings n x))) l).
    { rewrite Forall_forall in *. intros x Hx. apply IH; [now apply HF|now apply W| |].
      - destruct (W x Hx) as [-> _]. exact B.
      - pose proof (longest_in x t l Hx). lia. }
    assert (HL : zlen (flat_map vbits (map (pad_strings n) l)) = zlen l * volume (ds ++ [n])).
    { clear - HX. induction HX as [|x l (E & _) _ IHl]; [reflexivity|].
      cbn [flat_map map]. rewrite zlen_app, zlen_cons, IHl, E. lia. }
    split; [exact HL|]. split.
    + assert (Ene : exists d2 r, ds ++ [n] = d2 :: r) by (destruct ds; cbn; eauto).
      destruct Ene as (d2 & r & Ene). rewrite Ene in *. set (ds2 := d2 :: r) in *.
      change (nest EChar (zlen l :: ds2) (flat_map vbits (map (pad_strings n) l))) with
          (VSlice (arr_type EChar (List.length ds2))
             (map (nest EChar ds2) (chunks (Z.to_nat (zlen l)) (volume ds2)
                                      (flat_map vbits (map (pad_strings n) l))))).
      assert (T2 : arr_type EChar (List.length ds2) = t).
      { replace (List.length ds2) with (S (List.length ds)).
        - cbn [List.length] in T. rewrite arr_type_S in T by easy. congruence.
        - rewrite <- Ene, app_length. cbn. lia. }
      rewrite T2. f_equal. unfold zlen. rewrite Nat2Z.id, flat_map_concat_map, map_map.
      rewrite <- (map_length (fun x => vbits (pad_strings n x)) l) at 1.
      rewrite chunks_of_concat.
      * rewrite map_map. apply map_ext_in. intros x Hx.
        rewrite Forall_forall in HX. now apply HX.
      * apply Forall_forall. intros y Hy. apply in_map_iff in Hy. destruct Hy as (x & <- & Hx).
        rewrite Forall_forall in HX. now apply HX.
    + clear - HX. induction HX as [|x l (_ & _ & E) _ IHl]; cbn [flat_map map]; [constructor|].
      apply Forall_app. now split.
Qed.

Lemma store_str n ds v : rect ds v -> wt v = true -> base_type (type_of v) = GString ->
  store TChar (ds ++ [n]) v = Ok (vbits (pad_strings n v)).
Proof.
  revert v; induction ds as [|d ds IH]; intros v H W B.
  - rect_nil H; cbn in B; [easy|]. reflexivity.
  - rect_cons H HF. apply wt_slice in W. cbn [type_of base_type] in B.
    assert (Ene : exists d2 r, ds ++ [n] = d2 :: r) by (destruct ds; cbn; eauto).
    destruct Ene as (d2 & r & Ene). cbn [app].
    assert (E : store TChar (zlen l :: ds ++ [n]) (VSlice t l) =
      rmap (@List.concat Z) (rmapM (store TChar (ds ++ [n])) l)) by (rewrite Ene; reflexivity).
    rewrite E, (rmapM_map _ (fun x => vbits (pad_strings n x))).
    + cbn [rmap vbits pad_strings]. f_equal. now rewrite flat_map_map, flat_map_concat_map.
    + rewrite Forall_forall in *. intros x Hx. apply IH; [now apply HF|now apply W|].
      destruct (W x Hx) as [-> _]. exact B.
Qed.

Lemma dec_bytes s r : are_bytes s -> dec_list U8 (List.length s) (s ++ r) = s.
Proof.
  induction 1 as [|b s Hb _ IH]; [reflexivity|]. cbn [List.length dec_list].
  change (ksize U8) with 1. change (ztake 1 ((b :: s) ++ r)) with [b].
  change (zdrop 1 ((b :: s) ++ r)) with (s ++ r). rewrite IH. f_equal.
  unfold dec_be, of_unsigned, of_be. cbn. lia.
Qed.
