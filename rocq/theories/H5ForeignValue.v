(** Lemmas: the HDF5 reader gives the values that other writers have stored. *)
From Verif Require Import Prelude GoVal BaseLemmas H5Base H5MetaWrite H5MetaRead MetaSpec DenseSpec H5MetaProofs H5Value
  TypeSpec H5TypeRead H5TypeProofs H5DataProofs H5DenseProofs ForeignTypeSpec H5ForeignType ForeignValueSpec.
From Coq Require Import Lia ZifyBool ZifyNat.

Lemma cut_getString b : getString b = cut b.
Proof. induction b as [|c r IH]; [reflexivity|]. cbn [getString cut]. rewrite IH. reflexivity. Qed.
Lemma kinds_agree n sg : int_size n -> int_kind n sg = Some (int_kind_of n sg) /\ kind_of n sg = int_kind_of n sg.
Proof. intros [->|[->|[->| ->]]]; split; reflexivity. Qed.
Lemma slices_nest n t : slices n t = nest n t.
Proof. induction n as [|n IH]; [reflexivity|]. cbn [slices nest]. rewrite IH. reflexivity. Qed.
Lemma dlen_told t : dlen (told t) = fsize t.
Proof. destruct t; reflexivity. Qed.
Lemma told_array t : is_array t = false -> match told t with DArray _ _ _ => False | _ => True end.
Proof. destruct t; intros H; exact I || discriminate. Qed.

Section Values.
  Variable heap : Z -> Z -> res (option bytes).
  Variable in_heap : Z -> Z -> bytes -> Prop.
  Hypothesis Hheap : forall addr idx data, in_heap addr idx data -> heap addr idx = Ok (Some data).

  (** What is read before the empty slices of sequences are made anew *)
  Definition raw (d : dty) (dims : list Z) : P hval :=
    match d with
    | DVlen _ false d' => allocVariable (readVlenSeq heap (dlen d') (alloc heap d' [])) dims
    | _ => alloc heap d dims
    end.
  Definition undone (v : hval) : Prop := undoInterfaces v = v.
  Fixpoint of_seq (t : fty) : bool := match t with FSeq _ => true | FArray _ t => of_seq t | _ => false end.

  Definition reads_as (t : fty) (dims : list Z) (b : bytes) (v : hval) : Prop :=
    (forall r, raw (told t) dims (b ++ r) = Ok (v, r)) /\
    (Forall (fun d => 0 < d) dims -> undone v) /\
    (of_seq t = true -> Forall (fun d => 0 < d) dims) /\
    zlen b = fold_right Z.mul 1 dims * fsize t /\
    htype v = go_type_of t dims.
  Definition row_reads (t : fty) (ds : list Z) (b : bytes) (l : list hval) : Prop :=
    exists bs, b = List.concat bs /\ Forall2 (reads_as t ds) bs l.
  Definition fields_read (pos n : Z) (ms : list (bytes * Z * list Z * fty)) (b : bytes) (fs : list (bytes * hval)) : Prop :=
    n < 2 ^ 32 -> 0 <= pos -> zlen b = n - pos /\ exists rest, readMembers n (getters heap (map told_member ms)) b = Ok (fs, rest).

  Lemma alloc_raw t dims b v r : of_seq t = false \/ undone v -> raw (told t) dims (b ++ r) = Ok (v, r) ->
    alloc heap (told t) dims (b ++ r) = Ok (v, r).
  Proof.
    intros Hu H. destruct t; cbn [told raw] in *; try exact H.
    destruct Hu as [Hu|Hu]; [discriminate|]. cbn [alloc]. rewrite (pbind_ok _ _ _ _ _ H). rewrite Hu. reflexivity.
  Qed.
  Lemma reads_alloc t dims b v r : reads_as t dims b v -> alloc heap (told t) dims (b ++ r) = Ok (v, r).
  Proof.
    intros (H1 & H2 & H3 & _). apply alloc_raw; [|apply H1].
    destruct (of_seq t); [right; apply H2; apply H3; reflexivity|left; reflexivity].
  Qed.
  Lemma repeat_parts (p : P hval) bs l r : Forall2 (fun b v => forall r, p (b ++ r) = Ok (v, r)) bs l ->
    repeatP p (List.length l) (List.concat bs ++ r) = Ok (l, r).
  Proof.
    intros H. revert r. induction H as [|b v bs l Hv _ IH]; intros r; [reflexivity|]. cbn [List.length List.concat].
    rewrite repeatP_S. rewrite <- app_assoc. rewrite (pbind_ok _ _ _ _ _ (Hv _)). rewrite (pbind_ok _ _ _ _ _ (IH _)). reflexivity.
  Qed.

  Lemma rows_types t ds bs l : Forall2 (reads_as t ds) bs l -> Forall (fun v => htype v = go_type_of t ds) l.
  Proof. induction 1 as [|b v bs l (_ & _ & _ & _ & Hv) _ IH]; constructor; assumption. Qed.
  Lemma rows_undone t ds bs l : Forall2 (reads_as t ds) bs l -> Forall (fun d => 0 < d) ds -> Forall undone l.
  Proof. intros H Hd. induction H as [|b v bs l (_ & Hv & _) _ IH]; constructor; [apply Hv; exact Hd|exact IH]. Qed.
  Lemma rows_len t ds bs l : Forall2 (reads_as t ds) bs l -> zlen (List.concat bs) = zlen l * (fold_right Z.mul 1 ds * fsize t).
  Proof.
    induction 1 as [|b v bs l (_ & _ & _ & Hv & _) _ IH]; [reflexivity|]. cbn [List.concat]. rewrite zlen_app, zlen_cons, Hv, IH. lia.
  Qed.
  Lemma rows_raw t ds bs l r : Forall2 (reads_as t ds) bs l ->
    repeatP (raw (told t) ds) (Z.to_nat (zlen l)) (List.concat bs ++ r) = Ok (l, r).
  Proof.
    intros H. unfold zlen. rewrite Nat2Z.id. apply repeat_parts. induction H as [|b v bs l (Hv & _) _ IH]; constructor; assumption.
  Qed.
  Lemma rows_alloc t ds bs l r : Forall2 (reads_as t ds) bs l ->
    repeatP (alloc heap (told t) ds) (List.length l) (List.concat bs ++ r) = Ok (l, r).
  Proof.
    intros H. apply repeat_parts. induction H as [|b v bs l Hv _ IH]; constructor; [|exact IH]. intros r'. apply reads_alloc. exact Hv.
  Qed.
  Lemma undone_row t l : Forall undone l -> Forall (fun v => htype v = t) l -> l <> [] -> undone (HSlice t l).
  Proof.
    intros H1 H2 H3. unfold undone. destruct l as [|x r]; [congruence|]. cbn [undoInterfaces].
    inversion H1 as [|x' r' Hx Hr]; subst. inversion H2 as [|x' r' Tx Tr]; subst. rewrite Hx.
    assert (E : map undoInterfaces r = r).
    { clear - Hr. induction Hr as [|y r Hy _ IH]; [reflexivity|]. cbn [map]. rewrite Hy, IH. reflexivity. }
    rewrite E. rewrite same_types; [reflexivity|exact Tr].
  Qed.
  Lemma desc_reads c addr idx r : word 32 c -> word 64 addr -> word 32 idx ->
    readDescriptor (descriptor_of c addr idx ++ r) = Ok ((c, addr, idx), r).
  Proof.
    intros H1 H2 H3. unfold readDescriptor, descriptor_of. rewrite <- !app_assoc.
    rewrite (pbind_ok _ _ _ _ _ (read32_le' _ _ H1)). rewrite (pbind_ok _ _ _ _ _ (read64_le _ _ H2)).
    rewrite (pbind_ok _ _ _ _ _ (read32_le' _ _ H3)). reflexivity.
  Qed.
  Lemma zlen_desc c addr idx : zlen (descriptor_of c addr idx) = 16.
  Proof. unfold descriptor_of. rewrite !zlen_app, !zlen_le. reflexivity. Qed.

  Lemma int_kind_some n sg k : int_kind n sg = Some k -> int_kind_of n sg = k /\ kind_of n sg = k.
  Proof.
    intros H. split; [|unfold kind_of; rewrite H; reflexivity]. revert H. unfold int_kind, int_kind_of.
    destruct (n =? 1); [congruence|]. destruct (n =? 2); [congruence|]. destruct (n =? 4); [congruence|].
    destruct (n =? 8); congruence.
  Qed.
  Lemma zeros_read k big len : ksize k = len -> exists v rest, readNum k big (zrep len 0) = Ok (v, rest) /\ htype v = TNum k.
  Proof.
    intros H. unfold readNum. rewrite <- (app_nil_r (zrep len 0)).
    rewrite (pbind_ok _ _ _ (zrep len 0) []).
    2:{ apply rd_app. rewrite zlen_zrep. subst len. destruct k; reflexivity. }
    eexists _, _. split; reflexivity.
  Qed.
  Lemma simple_zeros t : simple t -> exists v rest, alloc heap (told t) [] (zrep (dlen (told t)) 0) = Ok (v, rest) /\ htype v = go_type_of t [].
  Proof.
    intros H. destruct t; cbn [simple] in H; try contradiction; cbn [told dlen alloc allocDims go_type_of List.length slices].
    - destruct (kinds_agree n sg H) as [-> _]. apply zeros_read. destruct H as [->|[->|[->| ->]]]; destruct sg; reflexivity.
    - destruct H as [->| ->]; apply zeros_read; reflexivity.
    - cbn [allocRegularStrings]. unfold readFixedString. rewrite <- (app_nil_r (zrep n 0)).
      rewrite (pbind_ok _ _ _ (zrep n 0) []) by (apply rd_app; rewrite zlen_zrep; lia).
      eexists _, _. split; [reflexivity|]. cbn [htype]. change (zlen (@nil Z)) with 0. rewrite Bool.andb_false_r. reflexivity.
    - change (zrep 8 0) with (le 8 0 ++ []). rewrite (pbind_ok _ _ _ 0 []) by (apply read64_le; unfold word; lia).
      eexists _, _. split; reflexivity.
    - destruct (kinds_agree n sg H) as [-> _]. destruct (zeros_read (int_kind_of n sg) big n) as (v & rest & E & _).
      { destruct H as [->|[->|[->| ->]]]; destruct sg; reflexivity. }
      rewrite (pbind_ok _ _ _ _ _ E). eexists _, _. split; reflexivity.
    - unfold readVlenString. change (zrep 16 0) with (descriptor_of 0 0 0 ++ []).
      rewrite (pbind_ok _ _ _ _ _ (desc_reads 0 0 0 [] ltac:(unfold word; lia) ltac:(unfold word; lia) ltac:(unfold word; lia))).
      eexists _, _. split; reflexivity.
  Qed.
  Lemma emptySlice_simple t : simple t -> undone (HSlice (go_type_of t []) []).
  Proof.
    intros H. destruct t; cbn [simple] in H; try contradiction; try reflexivity.
    cbn [go_type_of]. change (zlen (@nil Z)) with 0. rewrite Bool.andb_false_r. reflexivity.
  Qed.
  Lemma readNum_real n big z r : n = 4 \/ n = 8 -> word (8 * n) z ->
    readNum (real_kind n) big (int_bytes n big z ++ r) = Ok (HNum (real_kind n) z, r).
  Proof.
    intros Hn Hz. assert (E : exists k, real_kind n = k /\ ksize k = n /\ in_range k z = true).
    { unfold word in Hz. destruct Hn as [->| ->]; [exists F32|exists F64]; (split; [reflexivity|]); (split; [reflexivity|]);
        unfold in_range; apply andb_true_intro; split; apply Z.leb_le.
      - change (kmin F32) with 0. lia.
      - change (kmax F32) with (2 ^ (8 * 4) - 1). lia.
      - change (kmin F64) with 0. lia.
      - change (kmax F64) with (2 ^ (8 * 8) - 1). lia. }
    destruct E as (k & -> & E & Hr). subst n. unfold int_bytes. destruct big.
    - change (rev (le (Z.to_nat (ksize k)) z)) with (enc_be k z).
      unfold readNum. rewrite (pbind_ok _ _ _ (enc_be k z) r) by (apply rd_app; symmetry; apply zlen_enc_be).
      rewrite dec_enc_be by exact Hr. reflexivity.
    - change (le (Z.to_nat (ksize k)) z) with (enc_le k z).
      apply readNum_enc. exact Hr.
  Qed.
  Lemma zlen_int n big z : 0 <= n -> zlen (int_bytes n big z) = n.
  Proof. intros H. unfold int_bytes. destruct big; [rewrite zlen_rev|]; rewrite zlen_le; lia. Qed.

  Lemma zlen0 (l : list hval) : zlen l = 0 -> l = [].
  Proof. destruct l; [reflexivity|]. rewrite zlen_cons. pose proof (zlen_nonneg l). lia. Qed.
  Lemma string_rows n ds (l : list hval) s r : Forall (fun v => htype v = nest (List.length ds) TStr) l ->
    repeatP (allocRegularStrings n ds) (List.length l) s = Ok (l, r) ->
    repeatP (do* x := allocRegularStrings n ds in
             if hty_eqb (htype x) (nest (List.length ds) TStr) then pret x else fun _ => Panic) (List.length l) s = Ok (l, r).
  Proof.
    intros H. revert s. induction H as [|v l Hv _ IH]; intros s; [intros E; exact E|]. cbn [List.length]. rewrite !repeatP_S.
    unfold pbind at 1 3. destruct (allocRegularStrings n ds s) as [[x s1]| |] eqn:E1; cbn [rbind]; try discriminate.
    unfold pbind at 1. destruct (repeatP (allocRegularStrings n ds) (List.length l) s1) as [[l' s2]| |] eqn:E2; cbn [rbind]; try discriminate.
    unfold pret at 1. intros E. injection E as -> -> ->. unfold pbind at 1. rewrite E1. cbn [rbind]. rewrite Hv, hty_eqb_refl. unfold pret at 1. cbn [rbind].
    rewrite (pbind_ok _ _ _ _ _ (IH _ E2)). reflexivity.
  Qed.
  Lemma row_case t ds b l : in_rows t = true -> numbers_ok t -> (is_seq t = true -> l <> []) -> row_reads t ds b l ->
    reads_as t (zlen l :: ds) b (HSlice (go_type_of t ds) l).
  Proof.
    intros Hr Hn Hs (bs & -> & H). pose proof (rows_types _ _ _ _ H) as HT. pose proof (rows_len _ _ _ _ H) as HL.
    split; [|split; [|split; [|split]]].
    - intros r. pose proof (rows_raw _ _ _ _ r H) as E.
      destruct t; cbn [in_rows numbers_ok] in Hr, Hn; try discriminate; cbn [told raw alloc] in E |- *; cbn [go_type_of].
      + destruct (kinds_agree n sg Hn) as [K _]. rewrite K in E |- *. cbn [allocDims]. rewrite (pbind_ok _ _ _ _ _ E).
        reflexivity.
      + destruct Hn as [->| ->]; cbn [Z.eqb Pos.eqb allocDims] in E |- *; rewrite (pbind_ok _ _ _ _ _ E); reflexivity.
      + assert (N1 : (n =? 1) = false) by lia. rewrite N1. cbn [andb]. cbn [allocRegularStrings].
        destruct ds as [|d ds].
        * rewrite N1. cbn [allocDims]. rewrite (pbind_ok _ _ _ _ _ E). reflexivity.
        * rewrite (pbind_ok _ _ _ l r); [reflexivity|]. unfold zlen in E |- *. rewrite Nat2Z.id in E |- *. apply string_rows; [|exact E].
          eapply Forall_impl; [|exact HT]. intros v Hv. cbn [go_type_of] in Hv. rewrite N1 in Hv.
          cbn [andb] in Hv. exact Hv.
      + cbn [allocDims]. rewrite (pbind_ok _ _ _ _ _ E). reflexivity.
      + cbn [allocDims]. rewrite (pbind_ok _ _ _ _ _ E). reflexivity.
      + cbn [allocDims]. rewrite (pbind_ok _ _ _ _ _ E). reflexivity.
      + cbn [allocVariable]. rewrite (pbind_ok _ _ _ _ _ E). rewrite (make_slice_ok _ _ (Hs eq_refl) HT). reflexivity.
      + cbn [allocDims]. rewrite (pbind_ok _ _ _ _ _ E). reflexivity.
    - intros Hd. inversion Hd as [|d ds' Hd1 Hd2]; subst.
      apply undone_row; [apply (rows_undone _ _ _ _ H Hd2)|exact HT|]. intros ->. change (zlen (@nil hval)) with 0 in Hd1. lia.
    - intros Ho. assert (Hq : is_seq t = true) by (destruct t; cbn in Ho, Hr |- *; congruence).
      specialize (Hs Hq). constructor; [pose proof (zlen_nonneg l); destruct (zlen l =? 0) eqn:E; [elim Hs; apply zlen0; lia|lia]|].
      destruct H as [|b v bs l (_ & _ & H3 & _) _]; [congruence|]. apply H3. exact Ho.
    - rewrite HL. cbn [fold_right]. lia.
    - destruct t; cbn [in_rows] in Hr; try discriminate; try reflexivity.
      cbn [go_type_of htype List.length]. replace (n =? 1) with false by lia. reflexivity.
  Qed.

  Lemma fold_mul l a : fold_left Z.mul l a = a * fold_right Z.mul 1 l.
  Proof. revert a. induction l as [|x l IH]; intros a; cbn [fold_left fold_right]; [lia|]. rewrite IH. lia. Qed.
  Lemma attr_size dims t (b : bytes) : zlen b = fold_right Z.mul 1 dims * fsize t -> zlen b < 2 ^ 64 -> calcAttrSize dims (dlen (told t)) = zlen b.
  Proof.
    intros H Hb. unfold calcAttrSize. rewrite fold_mul, dlen_told, Z.mul_1_l, <- H. apply u64_small. pose proof (zlen_nonneg b). lia.
  Qed.

  Theorem values_read :
    (forall t dims b v, array_is in_heap t dims b v -> reads_as t dims b v) /\
    (forall t ds b l, rows_are in_heap t ds b l -> row_reads t ds b l) /\
    (forall pos n ms b fs, fields_are in_heap pos n ms b fs -> fields_read pos n ms b fs).
  Proof.
    pose proof (values_ind in_heap (fun t dims b v _ => reads_as t dims b v) (fun t ds b l _ => row_reads t ds b l)
      (fun pos n ms b fs _ => fields_read pos n ms b fs)) as IND.
    apply IND; clear IND.
    - intros n sg big z Hn Hz. destruct (kinds_agree n sg Hn) as [K1 K2].
      split; [|split; [|split; [|split]]]; try reflexivity; try discriminate.
      + intros r. cbn [told raw alloc]. rewrite K1. cbn [allocDims]. rewrite <- K2. apply readNum_any; assumption.
      + rewrite zlen_int by (destruct Hn as [->|[->|[->| ->]]]; lia). cbn [fold_right fsize]. lia.
    - intros n big z Hn Hz. split; [|split; [|split; [|split]]]; try reflexivity; try discriminate.
      + intros r. cbn [told raw alloc]. pose proof (readNum_real n big z r Hn Hz) as E.
        destruct Hn as [->| ->]; exact E.
      + rewrite zlen_int by (destruct Hn as [->| ->]; lia). cbn [fold_right fsize]. lia.
    - intros n b Hn Hb. split; [|split; [|split; [|split]]]; try reflexivity; try discriminate.
      + intros r. cbn [told raw alloc allocRegularStrings]. unfold readFixedString.
        rewrite (pbind_ok _ _ _ b r) by (apply rd_app; symmetry; exact Hb). rewrite cut_getString. reflexivity.
      + cbn [fold_right fsize]. lia.
      + cbn [go_type_of htype List.length]. change (zlen (@nil Z)) with 0. rewrite Bool.andb_false_r. reflexivity.
    - intros b. split; [|split; [|split; [|split]]]; try reflexivity; try discriminate.
      + intros r. cbn [told raw alloc allocRegularStrings Z.eqb Pos.eqb]. unfold readFixedString.
        rewrite (pbind_ok _ _ _ b r) by (apply rd_app; reflexivity). rewrite cut_getString. reflexivity.
      + cbn [fold_right fsize]. lia.
    - intros n b Hn Hb. split; [|split; [|split; [|split]]]; try reflexivity; try discriminate.
      + intros r. cbn [told raw alloc allocDims].
        rewrite (pbind_ok _ _ _ b r) by (apply rd_app; symmetry; exact Hb). reflexivity.
      + cbn [fold_right fsize]. lia.
    - intros a Ha. split; [|split; [|split; [|split]]]; try reflexivity; try discriminate.
      intros r. cbn [told raw alloc allocDims]. rewrite (pbind_ok _ _ _ _ _ (read64_le _ _ Ha)). reflexivity.
    - intros n ms b fs Hn _ HF. destruct (HF (proj2 Hn) ltac:(lia)) as (Hb & rest & E).
      split; [|split; [|split; [|split]]]; try reflexivity; try discriminate.
      + intros r. cbn [told raw].
        change (map (fun m => match m with (name, off, dims, t) => (name, off, dims, told t) end) ms) with (map told_member ms).
        rewrite alloc_comp. cbn [allocDims]. unfold readCompound.
        rewrite ztake_app_exact, zdrop_app_exact by lia. replace (zlen b) with n by lia. change (readMembers n (getters heap (map told_member ms)) b = Ok (fs, rest)) in E.
        rewrite E. cbn [rbind]. cbv zeta. pose proof (zlen_nonneg rest). destruct (n - zlen rest <? n) eqn:Ec.
        * unfold skip. replace (n - (n - zlen rest) <=? zlen rest) with true by lia. cbn [rbind].
          replace (n - (n - zlen rest)) with (zlen rest) by lia. rewrite zdrop_all by lia. reflexivity.
        * cbn [rbind]. assert (R : rest = []) by (destruct rest as [|x rest]; [reflexivity|]; rewrite zlen_cons in *; pose proof (zlen_nonneg rest); lia).
          rewrite R. reflexivity.
      + cbn [fold_right fsize]. lia.
    - intros n sg big names vals dims b v _ (H1 & H2 & H3 & H4 & H5).
      split; [|split; [|split; [|split]]]; try reflexivity; try discriminate.
      + intros r. specialize (H1 r). cbn [told raw alloc] in H1 |- *. destruct (int_kind n sg) as [k|] eqn:Ek; [|discriminate].
        rewrite (pbind_ok _ _ _ _ _ H1). destruct (int_kind_some _ _ _ Ek) as [K1 K2]. rewrite K1, K2. reflexivity.
      + exact H4.
    - intros t addr idx Ha Hi. split; [|split; [|split; [|split]]]; try reflexivity; try discriminate.
      + intros r. cbn [told raw alloc allocDims]. unfold readVlenString.
        rewrite (pbind_ok _ _ _ _ _ (desc_reads 0 addr idx r ltac:(unfold word; lia) Ha Hi)). reflexivity.
    - intros t addr idx data Ha Hi HH Hz. split; [|split; [|split; [|split]]]; try reflexivity; try discriminate.
      + intros r. cbn [told raw alloc allocDims]. unfold readVlenString.
        rewrite (pbind_ok _ _ _ _ _ (desc_reads (zlen data) addr idx r ltac:(unfold word; lia) Ha Hi)).
        replace (zlen data =? 0) with false by lia. rewrite (Hheap _ _ _ HH). cbn [rbind]. rewrite cut_getString. reflexivity.
    - intros t addr idx Ha Hi Hs. split; [|split; [|split; [|split]]]; try reflexivity.
      + intros r. cbn [told raw allocVariable]. unfold readVlenSeq.
        rewrite (pbind_ok _ _ _ _ _ (desc_reads 0 addr idx r ltac:(unfold word; lia) Ha Hi)).
        change (0 =? 0) with true. cbv iota. destruct (simple_zeros t Hs) as (v & rest & E & T). rewrite E. cbn [rbind]. rewrite T. reflexivity.
      + intros _. apply emptySlice_simple. exact Hs.
      + intros _. constructor.
    - intros t addr idx data l Ha Hi HH _ (bs & -> & HR) Hz. pose proof (rows_types _ _ _ _ HR) as HT.
      assert (Hl : l <> []) by (intros ->; change (zlen (@nil hval)) with 0 in Hz; lia).
      split; [|split; [|split; [|split]]]; try reflexivity.
      + intros r. cbn [told raw allocVariable]. unfold readVlenSeq.
        rewrite (pbind_ok _ _ _ _ _ (desc_reads (zlen l) addr idx r ltac:(unfold word; lia) Ha Hi)).
        replace (zlen l =? 0) with false by lia. rewrite (Hheap _ _ _ HH). cbn [rbind].
        pose proof (rows_alloc _ _ _ _ [] HR) as E. rewrite app_nil_r in E. unfold zlen. rewrite Nat2Z.id, E. cbn [rbind].
        rewrite (make_slice_ok _ _ Hl HT). reflexivity.
      + intros _. apply undone_row; [apply (rows_undone _ _ _ _ HR); constructor|exact HT|exact Hl].
      + intros _. constructor.
    - intros adims t dims b v Ha Hp _ HR. pose proof HR as (H1 & H2 & H3 & H4 & H5).
      split; [|split; [|split; [|split]]].
      + intros r. pose proof (reads_alloc _ _ _ _ r HR) as E. pose proof (told_array t Ha) as N. cbn [told raw alloc].
        destruct (told t); try exact E. contradiction.
      + intros Hd. apply H2. apply Forall_app. split; assumption.
      + intros Ho. specialize (H3 Ho). apply Forall_app in H3. apply H3.
      + rewrite H4. cbn [fsize]. rewrite Z.mul_assoc. f_equal. clear. induction dims as [|d dims IH]; cbn [app fold_right]; lia.
      + exact H5.
    - intros t ds b l Hr Hn Hs _ HR. apply row_case; assumption.
    - intros t ds. exists []. split; [reflexivity|constructor].
    - intros t ds b v b' l _ Hv _ (bs & -> & HR). exists (b :: bs). split; [reflexivity|]. constructor; assumption.
    - intros pos n b Hb _ Hp. split; [exact Hb|]. exists b. reflexivity.
    - intros pos n name off dims t ms gap b v rest fs Hg _ HR _ HF Hn Hp.
      pose proof HR as (_ & _ & _ & HL & _). pose proof (zlen_nonneg gap). pose proof (zlen_nonneg b).
      destruct (HF Hn ltac:(lia)) as (Hz & r1 & E). pose proof (zlen_nonneg rest).
      split; [rewrite !zlen_app; lia|]. exists r1. cbn [map told_member getters].
      fold (getters heap (map told_member ms)).
      cbn [readMembers].
      assert (Hs : zlen (gap ++ b ++ rest) = n - pos) by (rewrite !zlen_app; lia).
      rewrite (pbind_ok _ _ _ tt (b ++ rest)).
      2:{ cbv zeta. replace (n - zlen (gap ++ b ++ rest)) with pos by lia. destruct (pos <? off) eqn:Ec.
          - unfold skip. replace (off - pos <=? zlen (gap ++ b ++ rest)) with true by (rewrite !zlen_app; lia).
            rewrite zdrop_app_exact by lia. reflexivity.
          - assert (R : gap = []) by (destruct gap as [|x gap]; [reflexivity|]; rewrite zlen_cons in *; pose proof (zlen_nonneg gap); lia).
            rewrite R. reflexivity. }
      rewrite (pbind_ok _ _ _ v rest).
      2:{ apply limited_exact; [apply attr_size; [exact HL|lia]|]. pose proof (reads_alloc _ _ _ _ [] HR) as E1. rewrite app_nil_r in E1. exact E1. }
      rewrite (pbind_ok _ _ _ _ _ E). reflexivity.
  Qed.
  Lemma value_read t dims b v r : array_is in_heap t dims b v -> alloc heap (told t) dims (b ++ r) = Ok (v, r).
  Proof. intros H. apply reads_alloc. exact (proj1 values_read _ _ _ _ H). Qed.
  Lemma value_size t dims b v : array_is in_heap t dims b v -> zlen b = fold_right Z.mul 1 dims * fsize t.
  Proof. intros H. apply (proj1 values_read _ _ _ _ H). Qed.
End Values.

(** ** Global heaps *)
Definition cached (objs : list (Z * bytes * bytes)) (cache : list (Z * bytes)) : list (Z * bytes) :=
  fold_left (fun c o => if zlen (snd (fst o)) =? 0 then c else (fst (fst o), snd (fst o)) :: c) objs cache.

Lemma zlen_heap_object i d pad : zlen (heap_object (i, d, pad)) = 16 + zlen d + zlen pad.
Proof. unfold heap_object. rewrite !zlen_app, !zlen_le. lia. Qed.

Lemma collection_loop objs free : Forall heap_object_ok objs -> (zlen free < 16 \/ exists r, free = le 2 0 ++ r) ->
  forall fuel cache, (List.length objs < fuel)%nat -> zlen (flat_map heap_object objs ++ free) < 2 ^ 63 ->
  heap_loop fuel (zlen (flat_map heap_object objs ++ free)) cache (flat_map heap_object objs ++ free) = Ok (cached objs cache).
Proof.
  intros Hok Hfree. induction Hok as [|[[i d] pad] objs (Hi & Hp & Hpl) _ IH]; intros fuel cache Hfu Hz;
    (destruct fuel as [|fuel]; [lia|]).
  - cbn [flat_map app heap_loop cached fold_left] in *. destruct (zlen free <? 16) eqn:E; [reflexivity|].
    destruct Hfree as [H|[r ->]]; [lia|]. rewrite read16_le by lia. reflexivity.
  - cbn [flat_map] in *. rewrite <- app_assoc in *. set (rest := flat_map heap_object objs ++ free) in *.
    rewrite zlen_app, zlen_heap_object in *. pose proof (zlen_nonneg d). pose proof (zlen_nonneg pad). pose proof (zlen_nonneg rest).
    cbn [heap_loop]. replace (16 + zlen d + zlen pad + zlen rest <? 16) with false by lia.
    unfold heap_object. rewrite <- !app_assoc. rewrite read16_le by lia. cbn [rbind].
    replace (i =? 0) with false by lia. rewrite read16_le by lia. cbn [rbind]. rewrite checkVal_same. cbn [rbind].
    rewrite read32_le' by (unfold word; lia). cbn [rbind]. rewrite checkVal_same. cbn [rbind].
    rewrite read64_le by lia. cbn [rbind].
    replace (16 + zlen d + zlen pad + zlen rest - 16 <? zlen d) with false by lia.
    cbn [cached fold_left fst snd]. fold (cached objs). cbn [List.length] in Hfu. destruct (zlen d =? 0) eqn:E0.
    + assert (d = []) as -> by (destruct d as [|x d]; [reflexivity|]; rewrite zlen_cons in *; pose proof (zlen_nonneg d); lia).
      assert (pad = []) as ->.
      { destruct pad as [|x pad]; [reflexivity|]. rewrite zlen_cons in *. pose proof (zlen_nonneg pad). change (zlen (@nil Z)) with 0 in Hp.
        Z.div_mod_to_equations; lia. }
      cbn [app]. change (zlen (@nil Z)) with 0. replace (16 + 0 + 0 + zlen rest - 16) with (zlen rest) by lia. apply IH; lia.
    + assert (EA : (8 - zlen d mod 8) mod 8 = zlen pad) by (Z.div_mod_to_equations; lia).
      rewrite EA. replace (16 + zlen d + zlen pad + zlen rest - 16 <? zlen d + zlen pad) with false by lia.
      rewrite rd_app by reflexivity. cbn [rbind]. rewrite skip_app by lia. cbn [rbind].
      replace (16 + zlen d + zlen pad + zlen rest - 16 - (zlen d + zlen pad)) with (zlen rest) by lia. apply IH; lia.
Qed.
Lemma zassoc_cached objs : NoDup (map (fun o => fst (fst o)) objs) -> forall cache i d pad, In (i, d, pad) objs -> d <> [] ->
  zassoc i (cached objs cache) = Some d.
Proof.
  assert (G : forall objs cache i, ~ In i (map (fun o : Z * bytes * bytes => fst (fst o)) objs) -> zassoc i (cached objs cache) = zassoc i cache).
  { clear. intros objs. induction objs as [|[[j d] pad] objs IH]; intros cache i Hn; [reflexivity|]. cbn [cached fold_left fst snd].
    fold (cached objs (if zlen d =? 0 then cache else (j, d) :: cache)). rewrite IH by (intros H; apply Hn; right; exact H).
    destruct (zlen d =? 0); [reflexivity|]. cbn [zassoc]. replace (i =? j) with false; [reflexivity|].
    symmetry. apply Z.eqb_neq. intros ->. apply Hn. left. reflexivity. }
  intros Hd. induction objs as [|[[j d'] pad'] objs IH]; intros cache i d pad Hin Hne; [contradiction|].
  cbn [map fst] in Hd. inversion Hd as [|x l Hx Hl]; subst. cbn [cached fold_left fst snd].
  fold (cached objs (if zlen d' =? 0 then cache else (j, d') :: cache)).
  destruct Hin as [E|Hin].
  - injection E as -> -> ->. rewrite G by exact Hx.
    replace (zlen d =? 0) with false by (destruct d as [|x d]; [congruence|]; rewrite zlen_cons; pose proof (zlen_nonneg d); lia).
    cbn [zassoc]. rewrite Z.eqb_refl. reflexivity.
  - apply (IH Hl _ i d pad Hin Hne).
Qed.
Lemma objects_length objs : (List.length objs <= List.length (flat_map heap_object objs))%nat.
Proof.
  induction objs as [|[[i d] pad] objs IH]; [cbn; lia|]. cbn [flat_map List.length]. rewrite app_length.
  unfold heap_object at 1. rewrite app_length, le_len. lia.
Qed.
Lemma global_heap_read f addr idx data : in_global_heap f addr idx data -> zlen f < 2 ^ 63 -> readGlobalHeap f addr idx = Ok (Some data).
Proof.
  intros (objs & pad & (free & Hok & Hd & Hfree & Hat) & Hin & Hne) Hf. unfold readGlobalHeap, readHeapCollection.
  pose proof (objects_length objs) as HL.
  set (body := flat_map heap_object objs ++ free) in *.
  pose proof (has_at_bound _ _ _ Hat) as [B2 B3]. rewrite !zlen_app, zlen_le in B3.
  change (zlen (bs "GCOL")) with 4 in B3. change (zlen [1; 0; 0; 0]) with 4 in B3. 
  assert (HB : 0 < zlen body).
  { unfold body, zlen. rewrite app_length. destruct objs; [contradiction|]. cbn [List.length] in HL. lia. }
  set (H16 := bs "GCOL" ++ [1; 0; 0; 0] ++ le 8 (16 + zlen body)).
  assert (E16 : bs "GCOL" ++ [1; 0; 0; 0] ++ le 8 (16 + zlen body) ++ body = H16 ++ body)
    by (unfold H16; rewrite <- !app_assoc; reflexivity).
  rewrite E16 in Hat.
  rewrite (newSeek_at f addr H16 16 (has_at_app_l _ _ _ _ Hat) eq_refl eq_refl Hf). cbn [rbind].
  unfold H16 at 1. rewrite checkMagic_app. cbn [rbind app].
  rewrite read8_cons. cbn [rbind]. rewrite checkVal_same. cbn [rbind].
  change (0 :: 0 :: 0 :: le 8 (16 + zlen body)) with (zrep 3 0 ++ le 8 (16 + zlen body)).
  rewrite checkZeroes_zrep by reflexivity. cbn [rbind].
  rewrite <- (app_nil_r (le 8 (16 + zlen body))), read64_le by lia. cbn [rbind].
  rewrite (u64_small (16 + zlen body - 16)) by lia. rewrite (u64_small (addr + 16)) by lia.
  rewrite (i64_small (16 + zlen body - 16)) by lia.
  apply has_at_app_r in Hat. change (zlen H16) with 16 in Hat.
  replace (16 + zlen body - 16) with (zlen body) by lia.
  rewrite (newSeek_at f (addr + 16) body (zlen body) Hat) by first [reflexivity|exact Hf|lia]. cbn [rbind].
  rewrite (collection_loop objs free Hok Hfree).
  - cbn [rbind]. rewrite (zassoc_cached objs Hd [] idx data pad Hin Hne). reflexivity.
  - unfold body. rewrite app_length. lia.
  - fold body. lia.
Qed.
