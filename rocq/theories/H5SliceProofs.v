(** A range of the first dimension reads as that range of the whole. *)
From Coq Require Import ZifyBool ZifyNat Permutation.
From Verif Require Import Prelude BaseLemmas GoVal FillModel FillProofs ArraySpec IndexProofs H5Base H5MetaRead
  H5ChecksumProofs H5LayoutModel H5Value H5TypeRead H5RecordModel ChunkSpec H5ChunkProofs MetaSpec H5MetaProofs
  RecordSpec H5RecordProofs H5IndexProofs.
From Verif Require H5DataProofs.

(** ** Parsers that take a fixed number of bytes *)

Definition local {A} (p : P A) (n : Z) : Prop :=
  forall a r : bytes, zlen a = n -> p (a ++ r) = let* (v, _) := p a in Ok (v, r).

Lemma local_ok {A} (p : P A) n a v s : local p n -> zlen a = n -> p a = Ok (v, s) -> s = [].
Proof.
  intros L E H. specialize (L a [] E). rewrite app_nil_r, H in L. cbn [rbind] in L. congruence.
Qed.

Lemma split_at (a : bytes) m n : 0 <= m -> 0 <= n -> zlen a = m + n -> exists x y, a = x ++ y /\ zlen x = m /\ zlen y = n.
Proof.
  intros Hm Hn E. exists (ztake m a), (zdrop m a). rewrite ztake_zdrop, zlen_ztake, zlen_zdrop by lia. repeat split. lia.
Qed.

Lemma local_bind {A B} (p : P A) (q : A -> P B) m n : 0 <= m -> 0 <= n -> local p m -> (forall x, local (q x) n) ->
  local (pbind p q) (m + n).
Proof.
  intros Hm Hn Lp Lq a r E. destruct (split_at a m n Hm Hn E) as (x & y & -> & Ex & Ey).
  unfold pbind. rewrite <- app_assoc, (Lp x (y ++ r) Ex), (Lp x y Ex).
  destruct (p x) as [[v s]| |]; cbn [rbind]; [|reflexivity|reflexivity]. exact (Lq v y r Ey).
Qed.
Lemma local_ret {A} (v : A) : local (pret v) 0.
Proof. intros a r E. apply zlen_zero in E. subst a. reflexivity. Qed.
Lemma local_rd n : 0 <= n -> local (rd n) n.
Proof.
  intros Hn a r E. unfold rd. rewrite zlen_app. pose proof (zlen_nonneg r).
  replace (n <=? zlen a + zlen r) with true by lia. replace (n <=? zlen a) with true by lia. cbn [rbind].
  rewrite ztake_app_exact, zdrop_app_exact by lia. rewrite ztake_all by lia. reflexivity.
Qed.
Lemma local_map {A B} (p : P A) (g : A -> B) n : 0 <= n -> local p n -> local (do* x := p in pret (g x)) n.
Proof.
  intros Hn L. replace n with (n + 0) by lia. apply local_bind; [lia|lia|exact L|]. intros x. apply local_ret.
Qed.
Lemma local_repeat {A} (p : P A) n : 0 <= n -> local p n -> forall k, local (repeatP p k) (Z.of_nat k * n).
Proof.
  intros Hn L. induction k as [|k IH].
  - replace (Z.of_nat 0 * n) with 0 by lia. apply local_ret.
  - replace (Z.of_nat (S k) * n) with (n + (Z.of_nat k * n + 0)) by lia.
    assert (0 <= Z.of_nat k * n) by (apply Z.mul_nonneg_nonneg; lia).
    apply (local_bind p); [lia|lia|exact L|]. intros x. apply local_bind; [lia|lia|exact IH|]. intros l. apply local_ret.
Qed.
Lemma local_ext {A} (p q : P A) n : (forall s, p s = q s) -> local p n -> local q n.
Proof. intros E L a r H. rewrite <- !E. exact (L a r H). Qed.

Lemma ksize_pos k : 0 < ksize k.
Proof. destruct k; reflexivity. Qed.

Lemma local_readNum k big : local (readNum k big) (ksize k).
Proof. pose proof (ksize_pos k). apply local_map; [lia|]. apply local_rd. lia. Qed.
Lemma local_fixedString len : 0 <= len -> local (readFixedString len) len.
Proof. intros H. apply local_map; [exact H|]. apply local_rd, H. Qed.
Lemma local_read32 : local read32 4. Proof. apply local_map; [lia|apply local_rd; lia]. Qed.
Lemma local_read64 : local read64 8. Proof. apply local_map; [lia|apply local_rd; lia]. Qed.
Lemma local_descriptor : local readDescriptor 16.
Proof.
  change 16 with (4 + (8 + (4 + 0))). unfold readDescriptor.
  apply local_bind; [lia|lia|exact local_read32|]. intros x. apply local_bind; [lia|lia|exact local_read64|]. intros y.
  apply local_bind; [lia|lia|exact local_read32|]. intros z. apply local_ret.
Qed.
Lemma local_vlenString heap : local (readVlenString heap) 16.
Proof.
  change 16 with (16 + 0). unfold readVlenString. apply local_bind; [lia|lia|exact local_descriptor|].
  intros [[len addr] idx]. destruct (len =? 0); [apply local_ret|].
  intros a r E. apply zlen_zero in E. subst a. cbn [app].
  destruct (heap addr idx) as [[b|]| |]; reflexivity.
Qed.
Lemma local_compound len ms : 0 <= len -> local (readCompound len ms) len.
Proof.
  intros Hl a r E. unfold readCompound. rewrite (ztake_app_exact len a r) by lia. rewrite (zdrop_app_exact len a r) by lia.
  rewrite (ztake_all len a) by lia. rewrite (zdrop_all len a) by lia.
  destruct (readMembers (zlen a) ms a) as [[fs c]| |]; cbn [rbind]; [|reflexivity|reflexivity].
  rewrite E. pose proof (zlen_nonneg c). destruct (Z.ltb_spec (len - zlen c) len) as [L|L].
  - unfold skip. replace (len - (len - zlen c) <=? zlen c) with true by lia. cbn [rbind].
    rewrite zdrop_all by lia. reflexivity.
  - assert (c = []) by (apply zlen_zero; lia). subst c. reflexivity.
Qed.

Lemma volume_cons n ds : volume (n :: ds) = n * volume ds. Proof. reflexivity. Qed.

Lemma local_allocDims t elem k : 0 <= k -> local elem k -> forall ds, Forall (fun n => 0 <= n) ds ->
  local (allocDims t elem ds) (volume ds * k).
Proof.
  intros Hk L. induction 1 as [|n ds Hn Hds IH]; cbn [allocDims].
  - change (volume []) with 1. rewrite Z.mul_1_l. exact L.
  - pose proof (volume_nonneg _ Hds). rewrite volume_cons.
    assert (0 <= volume ds * k) by (apply Z.mul_nonneg_nonneg; lia).
    replace (n * volume ds * k) with (Z.of_nat (Z.to_nat n) * (volume ds * k)) by (rewrite Z2Nat.id by lia; ring).
    assert (0 <= Z.of_nat (Z.to_nat n) * (volume ds * k)) by (apply Z.mul_nonneg_nonneg; lia).
    apply local_map; [assumption|]. apply local_repeat; [assumption|exact IH].
Qed.

Definition strRow (len : Z) (ds : list Z) : P hval :=
  match ds with
  | [] => readFixedString len
  | _ => do* x := allocRegularStrings len ds in
         if hty_eqb (htype x) (nest (List.length ds) TStr) then pret x else fun _ => Panic
  end.
Lemma strings_rows len n ds s : len <> 1 ->
  allocRegularStrings len (n :: ds) s =
  let* (l, s) := repeatP (strRow len ds) (Z.to_nat n) s in Ok (HSlice (nest (List.length ds) TStr) l, s).
Proof.
  intros H. destruct ds as [|m ds].
  - cbn [allocRegularStrings allocDims strRow]. replace (len =? 1) with false by lia. reflexivity.
  - reflexivity.
Qed.
Lemma local_strings len : 0 <= len -> len <> 1 -> forall ds, Forall (fun n => 0 <= n) ds ->
  local (allocRegularStrings len ds) (volume ds * len) /\ local (strRow len ds) (volume ds * len).
Proof.
  intros H0 H1. induction 1 as [|n ds Hn Hds [IH1 IH2]].
  - change (volume []) with 1. rewrite Z.mul_1_l. split; apply local_fixedString, H0.
  - pose proof (volume_nonneg _ Hds). rewrite volume_cons.
    assert (0 <= volume ds * len) by (apply Z.mul_nonneg_nonneg; lia).
    replace (n * volume ds * len) with (Z.of_nat (Z.to_nat n) * (volume ds * len)) by (rewrite Z2Nat.id by lia; ring).
    assert (0 <= Z.of_nat (Z.to_nat n) * (volume ds * len)) by (apply Z.mul_nonneg_nonneg; lia).
    assert (A : local (allocRegularStrings len (n :: ds)) (Z.of_nat (Z.to_nat n) * (volume ds * len))).
    { eapply local_ext; [intros s; symmetry; apply strings_rows, H1|].
      refine (local_map (repeatP (strRow len ds) (Z.to_nat n)) _ _ _ _); [assumption|].
      apply local_repeat; assumption. }
    split; [exact A|]. cbn [strRow].
    replace (Z.of_nat (Z.to_nat n) * (volume ds * len)) with (Z.of_nat (Z.to_nat n) * (volume ds * len) + 0) by lia.
    apply local_bind; [lia|lia|exact A|]. intros x.
    destruct (hty_eqb _ _); [apply local_ret|]. intros a r _. reflexivity.
Qed.

(** ** Rows *)

Definition rows (heap : Z -> Z -> res (option bytes)) (d : dty) (ds : list Z) : Prop :=
  exists row t w, local row (volume ds * dlen d) /\
    (forall n s, alloc heap d (n :: ds) s = let* (l, s) := repeatP row (Z.to_nat n) s in Ok (w (HSlice t l), s)) /\
    (forall v b e, vpart (w v) b e = option_map w (vpart v b e)).

Lemma rows_dims heap d ds t elem : Forall (fun n => 0 <= n) ds -> 0 <= dlen d -> local elem (dlen d) ->
  (forall ds, alloc heap d ds = allocDims t elem ds) -> rows heap d ds.
Proof.
  intros Hds Hk L E. exists (allocDims t elem ds), (nest (List.length ds) t), (fun v => v). split; [|split].
  - apply local_allocDims; assumption.
  - intros n s. rewrite E. reflexivity.
  - intros v b e. destruct (vpart v b e); reflexivity.
Qed.

Lemma int_kind_len len sg k : int_kind len sg = Some k -> ksize k = len.
Proof.
  unfold int_kind. intros H.
  destruct (Z.eqb_spec len 1); [destruct sg; injection H as <-; subst; reflexivity|].
  destruct (Z.eqb_spec len 2); [destruct sg; injection H as <-; subst; reflexivity|].
  destruct (Z.eqb_spec len 4); [destruct sg; injection H as <-; subst; reflexivity|].
  destruct (Z.eqb_spec len 8); [destruct sg; injection H as <-; subst; reflexivity|]. discriminate.
Qed.

Lemma sized_pos d : sized d -> 0 <= dlen d.
Proof.
  induction 1 as [len sg big k H| | | | | | |len sg big names vals k H| |dims d Hd _ _ IH]; cbn [dlen]; try lia.
  - apply int_kind_len in H. pose proof (ksize_pos k). lia.
  - apply int_kind_len in H. pose proof (ksize_pos k). lia.
  - apply Z.mul_nonneg_nonneg; [apply volume_nonneg; assumption|exact IH].
Qed.

Lemma volume_app a b : volume (a ++ b) = volume a * volume b.
Proof. induction a as [|x a IH]; cbn [app volume]; [lia|]. rewrite IH. lia. Qed.

Lemma sized_rows heap d : sized d -> forall ds, Forall (fun n => 0 <= n) ds -> rows heap d ds.
Proof.
  induction 1 as [len sg big k H|big|big|len H0 H1|len H0|len ms H0| |len sg big names vals k H|d|dims d Hd HA Hs IH]; intros ds Hds.
  - apply (rows_dims heap _ ds (TNum k) (readNum k big) Hds); cbn [dlen].
    + rewrite <- (int_kind_len _ _ _ H). pose proof (ksize_pos k). lia.
    + rewrite <- (int_kind_len _ _ _ H). apply local_readNum.
    + intros ds'. cbn [alloc]. rewrite H. reflexivity.
  - apply (rows_dims heap _ ds (TNum F32) (readNum F32 big) Hds); cbn [dlen]; [lia|apply (local_readNum F32)|reflexivity].
  - apply (rows_dims heap _ ds (TNum F64) (readNum F64 big) Hds); cbn [dlen]; [lia|apply (local_readNum F64)|reflexivity].
  - exists (strRow len ds), (nest (List.length ds) TStr), (fun v => v). split; [|split].
    + cbn [dlen]. apply local_strings; assumption.
    + intros n s. cbn [alloc]. apply strings_rows, H1.
    + intros v b e. destruct (vpart v b e); reflexivity.
  - apply (rows_dims heap _ ds TOpaque (do* b := rd len in pret (HOpaque b)) Hds); cbn [dlen]; [lia| |reflexivity].
    apply local_map; [lia|]. apply local_rd. lia.
  - eapply (rows_dims heap _ ds TComp); [exact Hds|cbn [dlen]; lia| |intros ds'; cbn [alloc]; reflexivity].
    apply local_compound. exact H0.
  - apply (rows_dims heap _ ds (TNum U64) (do* a := read64 in pret (HNum U64 a)) Hds); cbn [dlen]; [lia| |reflexivity].
    apply local_map; [lia|]. exact local_read64.
  - exists (allocDims (TNum k) (readNum k big) ds), (nest (List.length ds) (TNum k)), (fun v => HEnum v names vals). split; [|split].
    + cbn [dlen]. rewrite <- (int_kind_len _ _ _ H). pose proof (ksize_pos k). apply local_allocDims; [lia|apply local_readNum|exact Hds].
    + intros n s. cbn [alloc]. rewrite H. unfold pbind at 1. cbn [allocDims]. unfold pbind at 1.
      destruct (repeatP _ _ s) as [[l s']| |]; reflexivity.
    + intros v b e. cbn [vpart]. destruct (vpart v b e); reflexivity.
  - apply (rows_dims heap _ ds TStr (readVlenString heap) Hds); cbn [dlen]; [lia|apply local_vlenString|reflexivity].
  - destruct (IH (ds ++ dims)) as (row & t & w & L & E & V).
    { apply Forall_app. split; assumption. }
    exists row, t, w. split; [|split; [|exact V]].
    + cbn [dlen]. rewrite volume_app, <- Z.mul_assoc in L. exact L.
    + intros n s. rewrite <- E. cbn [alloc]. destruct d; try reflexivity. contradiction.
Qed.

(** ** Sequences and characters *)

Lemma local_panic {A} n : local (fun _ : bytes => @Panic (A * bytes)) n.
Proof. intros a r _. reflexivity. Qed.

Lemma local_lift {A B} (g : A -> res B) : forall x, local (fun s : bytes => let* v := g x in Ok (v, s)) 0.
Proof. intros x a r E. apply zlen_zero in E. subst a. cbn [app]. destruct (g x); reflexivity. Qed.

Lemma local_seq heap len elem : local (readVlenSeq heap len elem) 16.
Proof.
  change 16 with (16 + 0). unfold readVlenSeq. apply local_bind; [lia|lia|exact local_descriptor|].
  intros [[n addr] idx] a r E. apply zlen_zero in E. subst a. cbn [app].
  destruct (n =? 0).
  - destruct (elem (zrep len 0)) as [[v s]| |]; reflexivity.
  - destruct (heap addr idx) as [[b|]| |]; cbn [rbind]; try reflexivity.
    destruct (repeatP elem (Z.to_nat n) b) as [[l s]| |]; cbn [rbind]; try reflexivity.
    destruct (make_slice l); reflexivity.
Qed.

Lemma local_variable one k : 0 <= k -> local one k -> forall ds, Forall (fun n => 0 <= n) ds ->
  local (allocVariable one ds) (volume ds * k).
Proof.
  intros Hk L. induction 1 as [|n ds Hn Hds IH]; cbn [allocVariable].
  - change (volume []) with 1. rewrite Z.mul_1_l. exact L.
  - pose proof (volume_nonneg _ Hds). rewrite volume_cons.
    assert (0 <= volume ds * k) by (apply Z.mul_nonneg_nonneg; lia).
    replace (n * volume ds * k) with (Z.of_nat (Z.to_nat n) * (volume ds * k) + 0) by (rewrite Z2Nat.id by lia; ring).
    assert (0 <= Z.of_nat (Z.to_nat n) * (volume ds * k)) by (apply Z.mul_nonneg_nonneg; lia).
    apply local_bind; [assumption|lia|apply local_repeat; [assumption|exact IH]|]. apply local_lift.
Qed.

Lemma local_chars ds : Forall (fun n => 0 <= n) ds -> forall n, 0 <= n -> local (allocRegularStrings 1 (n :: ds)) (volume (n :: ds)).
Proof.
  induction 1 as [|m ds Hm Hds IH]; intros n Hn.
  - cbn [allocRegularStrings]. change (1 =? 1) with true. cbn iota. rewrite volume_cons. change (volume []) with 1. rewrite Z.mul_1_r.
    apply local_fixedString, Hn.
  - assert (V : 0 <= volume (m :: ds)) by (apply volume_nonneg; constructor; assumption).
    rewrite volume_cons. replace (n * volume (m :: ds)) with (Z.of_nat (Z.to_nat n) * volume (m :: ds)) by (rewrite Z2Nat.id by lia; ring).
    assert (0 <= Z.of_nat (Z.to_nat n) * volume (m :: ds)) by (apply Z.mul_nonneg_nonneg; lia).
    change (allocRegularStrings 1 (n :: m :: ds)) with
      (do* l := repeatP (do* x := allocRegularStrings 1 (m :: ds) in
                        if hty_eqb (htype x) (nest (List.length (m :: ds)) TStr) then pret x
                        else fun _ => Panic) (Z.to_nat n) in
       pret (HSlice (nest (List.length (m :: ds)) TStr) l)).
    apply local_map; [assumption|]. apply local_repeat; [assumption|].
    replace (volume (m :: ds)) with (volume (m :: ds) + 0) by lia. apply local_bind; [lia|lia|apply IH, Hm|].
    intros x. destruct (hty_eqb _ _); [apply local_ret|apply local_panic].
Qed.

Lemma sized_local heap d n ds : sized d -> Forall (fun n => 0 <= n) (n :: ds) -> local (alloc heap d (n :: ds)) (volume (n :: ds) * dlen d).
Proof.
  intros Hs Hd. inversion Hd as [|? ? Hn Hds]; subst. destruct (sized_rows heap d Hs ds Hds) as (row & t & w & L & E & _).
  pose proof (sized_pos _ Hs). pose proof (volume_nonneg _ Hds).
  assert (Hk : 0 <= volume ds * dlen d) by (apply Z.mul_nonneg_nonneg; assumption).
  eapply local_ext; [intros s; symmetry; apply E|].
  replace (volume (n :: ds) * dlen d) with (Z.of_nat (Z.to_nat n) * (volume ds * dlen d)) by (rewrite volume_cons, Z2Nat.id by lia; ring).
  refine (local_map (repeatP row (Z.to_nat n)) _ _ _ _).
  - apply Z.mul_nonneg_nonneg; lia.
  - apply local_repeat; assumption.
Qed.

Lemma laid_local heap d : laid d -> forall n ds, Forall (fun n => 0 <= n) (n :: ds) -> local (alloc heap d (n :: ds)) (volume (n :: ds) * dlen d).
Proof.
  induction 1 as [d Hs|d| |dims d Hd HA Hl IH]; intros n ds Hds.
  - apply sized_local; assumption.
  - cbn [alloc dlen]. apply local_map.
    + apply Z.mul_nonneg_nonneg; [apply volume_nonneg; exact Hds|lia].
    + apply local_variable; [lia|apply local_seq|exact Hds].
  - cbn [alloc dlen]. rewrite Z.mul_1_r. inversion Hds; subst. apply local_chars; assumption.
  - cbn [dlen]. rewrite Z.mul_assoc, <- volume_app. change ((n :: ds) ++ dims) with (n :: (ds ++ dims)).
    eapply local_ext; [|apply IH; change (n :: ds ++ dims) with ((n :: ds) ++ dims); apply Forall_app; split; assumption].
    intros s. cbn [alloc]. destruct d; try reflexivity. contradiction.
Qed.

Lemma laid_pos d : laid d -> 0 <= dlen d.
Proof.
  induction 1 as [d Hs|d| |dims d Hd _ _ IH]; [apply sized_pos; exact Hs|cbn [dlen]; lia|cbn [dlen]; lia|].
  cbn [dlen]. apply Z.mul_nonneg_nonneg; [apply volume_nonneg; assumption|exact IH].
Qed.

Definition still (v : hval) : Prop := undoInterfaces v = v.

Lemma make_slice_is l v : make_slice l = Ok v -> exists t, v = HSlice t l /\ l <> [] /\ Forall (fun x => htype x = t) l.
Proof.
  unfold make_slice. destruct l as [|x r]; [discriminate|].
  destruct (forallb (fun y => hty_eqb (htype y) (htype x)) (x :: r)) eqn:E; [|discriminate].
  intros H. injection H as <-. exists (htype x). split; [reflexivity|]. split; [discriminate|].
  rewrite forallb_forall in E. apply Forall_forall. intros y Hy. specialize (E y Hy).
  apply H5DataProofs.hty_eqb_eq. exact E.
Qed.
Lemma still_slice t l : l <> [] -> Forall (fun x => htype x = t) l -> Forall still l -> still (HSlice t l).
Proof.
  intros N F S. destruct l as [|x r]; [contradiction|]. unfold still. cbn [undoInterfaces].
  inversion F as [|? ? Hx Hr]; subst x0 l. inversion S as [|? ? Sx Sr]; subst x0 l.
  assert (M : map undoInterfaces r = r).
  { clear -Sr. induction Sr as [|y r Hy _ IH]; [reflexivity|]. cbn [map]. rewrite IH, Hy. reflexivity. }
  rewrite M, Sx, Hx. replace (forallb (fun y => hty_eqb (htype y) t) r) with true; [reflexivity|].
  symmetry. apply H5DataProofs.same_types. exact Hr.
Qed.

Lemma repeatP_each {A} (p : P A) (Q : A -> Prop) : (forall s v r, p s = Ok (v, r) -> Q v) ->
  forall n s l r, repeatP p n s = Ok (l, r) -> Forall Q l.
Proof.
  intros Hp. induction n as [|n IH]; intros s l r H; [injection H as <- <-; constructor|].
  rewrite repeatP_S in H. destruct (p s) as [[x s1]| |] eqn:E1; cbn [rbind] in H; try discriminate.
  destruct (repeatP p n s1) as [[l1 r1]| |] eqn:E2; cbn [rbind] in H; try discriminate. injection H as <- <-.
  constructor; [exact (Hp _ _ _ E1)|exact (IH _ _ _ E2)].
Qed.

Definition unsliced (v : hval) : Prop := match v with HNum _ _ | HStr _ | HEnum _ _ _ => True | _ => False end.

Lemma sequence_elem heap d s v r :
  match d with DFixed _ _ _ | DFloat _ _ | DString _ | DRef _ | DEnum _ _ _ _ _ _ | DVlen _ true _ => True | _ => False end ->
  alloc heap d [] s = Ok (v, r) -> unsliced v.
Proof.
  intros Hd H. destruct d as [len sg big|len big|len|len|len ms|len|len blen sg big names vals|len str d|len dims d];
    try contradiction; cbn [alloc allocDims allocRegularStrings] in H.
  - destruct (int_kind len sg); [|discriminate]. unfold readNum, pbind in H.
    destruct (rd _ s) as [[x y]| |]; cbn [rbind] in H; try discriminate. unfold pret in H. injection H as <- <-. exact I.
  - destruct (len =? 4); [|destruct (len =? 8); [|discriminate]]; unfold readNum, pbind in H;
      destruct (rd _ s) as [[x y]| |]; cbn [rbind] in H; try discriminate; unfold pret in H; injection H as <- <-; exact I.
  - unfold readFixedString, pbind in H. destruct (rd _ s) as [[x y]| |]; cbn [rbind] in H; try discriminate.
    unfold pret in H. injection H as <- <-. exact I.
  - unfold pbind in H. destruct (read64 s) as [[x y]| |]; cbn [rbind] in H; try discriminate. unfold pret in H. injection H as <- <-. exact I.
  - destruct (int_kind blen sg); [|discriminate]. unfold pbind at 1 in H.
    destruct (readNum _ _ s) as [[x y]| |]; cbn [rbind] in H; try discriminate. unfold pret in H. injection H as <- <-. exact I.
  - destruct str; [|contradiction]. cbn [alloc allocDims] in H. unfold readVlenString, pbind in H.
    destruct (readDescriptor s) as [[[[n a] i] s1]| |]; cbn [rbind] in H; try discriminate.
    destruct (n =? 0); [unfold pret in H; injection H as <- <-; exact I|].
    destruct (heap a i) as [[b|]| |]; cbn [rbind] in H; try discriminate; injection H as <- <-; exact I.
Qed.

Lemma unsliced_still v : unsliced v -> still v.
Proof. destruct v; try contradiction; reflexivity. Qed.

Lemma seq_still heap len elem : (forall s v r, elem s = Ok (v, r) -> unsliced v) ->
  forall s v r, readVlenSeq heap len elem s = Ok (v, r) -> still v.
Proof.
  intros He s v r H. unfold readVlenSeq, pbind in H.
  destruct (readDescriptor s) as [[[[n a] i] s1]| |]; cbn [rbind] in H; try discriminate.
  destruct (n =? 0).
  - destruct (elem (zrep len 0)) as [[x s2]| |] eqn:E; cbn [rbind] in H; try discriminate. injection H as <- <-.
    apply He in E. destruct x; try contradiction; reflexivity.
  - destruct (heap a i) as [[b|]| |]; cbn [rbind] in H; try discriminate.
    destruct (repeatP elem (Z.to_nat n) b) as [[l s2]| |] eqn:E; cbn [rbind] in H; try discriminate.
    destruct (make_slice l) as [w| |] eqn:M; cbn [rbind] in H; try discriminate. injection H as <- <-.
    apply make_slice_is in M. destruct M as (t & -> & N & F). apply still_slice; [exact N|exact F|].
    eapply Forall_impl; [apply unsliced_still|]. exact (repeatP_each elem unsliced He _ _ _ _ E).
Qed.
Lemma variable_still one : (forall s v r, one s = Ok (v, r) -> still v) ->
  forall ds s v r, allocVariable one ds s = Ok (v, r) -> still v.
Proof.
  intros Ho. induction ds as [|n ds IH]; intros s v r H; [exact (Ho _ _ _ H)|]. cbn [allocVariable] in H. unfold pbind in H.
  destruct (repeatP (allocVariable one ds) (Z.to_nat n) s) as [[l s2]| |] eqn:E; cbn [rbind] in H; try discriminate.
  destruct (make_slice l) as [w| |] eqn:M; cbn [rbind] in H; try discriminate. injection H as <- <-.
  apply make_slice_is in M. destruct M as (t & -> & N & F). apply still_slice; [exact N|exact F|].
  exact (repeatP_each _ still IH _ _ _ _ E).
Qed.

Lemma in_part {A} (x : A) l b m : In x (part l b m) -> In x l.
Proof.
  unfold part, ztake, zdrop. intros H. rewrite <- (firstn_skipn (Z.to_nat b) l). apply in_or_app. right.
  rewrite <- (firstn_skipn (Z.to_nat m) (skipn (Z.to_nat b) l)). apply in_or_app. left. exact H.
Qed.

Lemma part_nil {A} (l : list A) b m : 0 <= b -> 0 < m -> b + m <= zlen l -> part l b m <> [].
Proof.
  intros Hb Hm Hl E. assert (L : zlen (part l b m) = m).
  { unfold part. rewrite zlen_ztake; [reflexivity|lia|]. rewrite zlen_zdrop. lia. }
  rewrite E in L. change (zlen (@nil A)) with 0 in L. lia.
Qed.

Lemma repeat_part {A} (p : P A) k : 0 <= k -> local p k -> forall (N : nat) (s : bytes) l r, repeatP p N s = Ok (l, r) ->
  Z.of_nat N * k <= zlen s ->
  forall b m, 0 <= b -> 0 <= m -> b + m <= Z.of_nat N ->
  repeatP p (Z.to_nat m) (part s (b * k) (m * k)) = Ok (part l b m, []) /\ zlen l = Z.of_nat N.
Proof.
  intros Hk L N s l r H HN.
  assert (G : forall N (s : bytes) l r, repeatP p N s = Ok (l, r) -> Z.of_nat N * k <= zlen s ->
    zlen l = Z.of_nat N /\ r = zdrop (Z.of_nat N * k) s /\
    forall m, (m <= N)%nat -> repeatP p m (ztake (Z.of_nat m * k) s) = Ok (ztake (Z.of_nat m) l, []) /\
                               repeatP p (N - m) (zdrop (Z.of_nat m * k) s) = Ok (zdrop (Z.of_nat m) l, r)).
  { clear s l r H HN N. induction N as [|N IH]; intros s l r H HN.
    - injection H as <- <-. split; [reflexivity|]. split; [rewrite zdrop_0 by lia; reflexivity|].
      intros m Hm. assert (m = 0%nat) by lia. subst m. change (Z.of_nat 0 * k) with 0.
      rewrite (ztake_0 0), (zdrop_0 0) by lia. split; reflexivity.
    - rewrite repeatP_S in H.
      assert (Hk' : k <= zlen s) by (assert (0 <= Z.of_nat N * k) by (apply Z.mul_nonneg_nonneg; lia); lia).
      pose proof (L (ztake k s) (zdrop k s) (zlen_ztake _ _ Hk Hk')) as E. rewrite ztake_zdrop in E.
      destruct (p (ztake k s)) as [[x s']| |] eqn:Ep; cbn [rbind] in E; rewrite E in H; cbn [rbind] in H; try discriminate.
      destruct (repeatP p N (zdrop k s)) as [[l' r']| |] eqn:Er; cbn [rbind] in H; try discriminate.
      injection H as <- <-.
      assert (Ls : Z.of_nat N * k <= zlen (zdrop k s)) by (rewrite zlen_zdrop; lia).
      destruct (IH _ _ _ Er Ls) as (G1 & G2 & G3). split; [rewrite zlen_cons; lia|].
      split.
      { rewrite G2, zdrop_zdrop by (lia || (apply Z.mul_nonneg_nonneg; lia)). f_equal. lia. }
      intros m Hm. destruct m as [|m].
      + change (Z.of_nat 0 * k) with 0. rewrite !(ztake_0 0), !(zdrop_0 0) by lia. split; [reflexivity|].
        replace (S N - 0)%nat with (S N) by lia. rewrite repeatP_S, E. cbn [rbind]. rewrite Er. reflexivity.
      + destruct (G3 m ltac:(lia)) as [G4 G5].
        assert (Pm : 0 <= Z.of_nat m * k) by (apply Z.mul_nonneg_nonneg; lia).
        replace (Z.of_nat (S m) * k) with (k + Z.of_nat m * k) by lia. split.
        * assert (Es : ztake (k + Z.of_nat m * k) s = ztake k s ++ ztake (Z.of_nat m * k) (zdrop k s)).
          { rewrite <- (ztake_zdrop k s) at 1. rewrite ztake_app_r by (rewrite zlen_ztake; lia).
            rewrite zlen_ztake by lia. do 2 f_equal. lia. }
          rewrite repeatP_S, Es, (L _ _ (zlen_ztake _ _ Hk Hk')), Ep. cbn [rbind]. rewrite G4. cbn [rbind].
          unfold ztake. replace (Z.to_nat (Z.of_nat (S m))) with (S m) by lia. cbn [firstn].
          replace (Z.to_nat (Z.of_nat m)) with m by lia. reflexivity.
        * rewrite <- zdrop_zdrop by lia. replace (S N - S m)%nat with (N - m)%nat by lia. rewrite G5.
          unfold zdrop. replace (Z.to_nat (Z.of_nat (S m))) with (S m) by lia. cbn [skipn].
          replace (Z.to_nat (Z.of_nat m)) with m by lia. reflexivity. }
  intros b m Hb Hm Hbm. destruct (G N s l r H HN) as (G1 & _ & G3). split; [|exact G1].
  destruct (G3 (Z.to_nat b) ltac:(lia)) as [_ G4].
  assert (0 <= b * k) by (apply Z.mul_nonneg_nonneg; lia).
  assert ((b + m) * k <= Z.of_nat N * k) by (apply Z.mul_le_mono_nonneg_r; lia).
  assert (Ls : Z.of_nat (N - Z.to_nat b) * k <= zlen (zdrop (Z.of_nat (Z.to_nat b) * k) s)).
  { rewrite zlen_zdrop. rewrite Z2Nat.id by lia. replace (Z.of_nat (N - Z.to_nat b)) with (Z.of_nat N - b) by lia. lia. }
  destruct (G _ _ _ _ G4 Ls) as (_ & _ & G5). destruct (G5 (Z.to_nat m) ltac:(lia)) as [G6 _].
  rewrite !Z2Nat.id in G6 by lia. exact G6.
Qed.

Lemma sequence_part heap d n ds s v r b e : sequence d -> Forall (fun n => 0 <= n) (n :: ds) ->
  alloc heap d (n :: ds) s = Ok (v, r) -> volume (n :: ds) * dlen d <= zlen s -> 0 <= b < e -> e <= n ->
  exists v', alloc heap d (e - b :: ds) (part s (b * (volume ds * dlen d)) ((e - b) * (volume ds * dlen d))) = Ok (v', []) /\
             vpart v b e = Some v'.
Proof.
  intros Hs Hds H Hl Hb He. inversion Hds as [|? ? Hn Hds']; subst. destruct Hs as [d Hd]. cbn [dlen] in *.
  cbn [alloc] in H |- *. set (one := readVlenSeq heap (dlen d) (alloc heap d [])) in *.
  assert (So : forall s v r, one s = Ok (v, r) -> still v).
  { apply seq_still. intros s0 v0 r0. apply sequence_elem, Hd. }
  cbn [allocVariable] in H |- *. unfold pbind in H. unfold pbind.
  destruct (repeatP (allocVariable one ds) (Z.to_nat n) s) as [[l s']| |] eqn:Er; cbn [rbind] in H; try discriminate.
  destruct (make_slice l) as [w| |] eqn:M; cbn [rbind] in H; try discriminate.
  assert (Hk : 0 <= volume ds * 16) by (apply Z.mul_nonneg_nonneg; [apply volume_nonneg; assumption|lia]).
  assert (HN : Z.of_nat (Z.to_nat n) * (volume ds * 16) <= zlen s).
  { rewrite Z2Nat.id by exact Hn. rewrite volume_cons in Hl. lia. }
  assert (L : local (allocVariable one ds) (volume ds * 16)) by (apply local_variable; [lia|apply local_seq|exact Hds']).
  assert (Hbm : b + (e - b) <= Z.of_nat (Z.to_nat n)) by lia.
  destruct (repeat_part _ _ Hk L _ _ _ _ Er HN b (e - b) (proj1 Hb) ltac:(lia) Hbm) as [G1 G2].
  apply make_slice_is in M. destruct M as (t & -> & Nl & Ft).
  pose proof (repeatP_each _ still (variable_still one So ds) _ _ _ _ Er) as Fs.
  assert (Ev : v = HSlice t l).
  { unfold pret in H. assert (v = undoInterfaces (HSlice t l)) by congruence. subst v. apply still_slice; assumption. }
  assert (Np : part l b (e - b) <> []) by (apply part_nil; lia).
  assert (Ft' : Forall (fun x => htype x = t) (part l b (e - b))).
  { rewrite Forall_forall in *. intros x Hx. apply Ft. exact (in_part _ _ _ _ Hx). }
  assert (Fs' : Forall still (part l b (e - b))).
  { rewrite Forall_forall in *. intros x Hx. apply Fs. exact (in_part _ _ _ _ Hx). }
  exists (HSlice t (part l b (e - b))). split.
  - rewrite G1. cbn [rbind]. rewrite (H5DataProofs.make_slice_ok t _ Np Ft'). cbn [rbind]. unfold pret.
    rewrite (still_slice _ _ Np Ft' Fs'). reflexivity.
  - rewrite Ev. cbn [vpart].
    replace ((0 <=? b) && (b <=? e) && (e <=? zlen l)) with true by (rewrite G2; lia). reflexivity.
Qed.

Lemma sequence_some heap d ds s v r : sequence d -> alloc heap d (0 :: ds) s <> Ok (v, r).
Proof. intros [d' _]. cbn [alloc allocVariable]. unfold pbind. cbn. discriminate. Qed.

Lemma alloc_part heap d n ds s v r b e : sized d -> Forall (fun n => 0 <= n) (n :: ds) ->
  alloc heap d (n :: ds) s = Ok (v, r) -> volume (n :: ds) * dlen d <= zlen s -> 0 <= b <= e -> e <= n ->
  exists v', alloc heap d (e - b :: ds) (part s (b * (volume ds * dlen d)) ((e - b) * (volume ds * dlen d))) = Ok (v', []) /\
             vpart v b e = Some v'.
Proof.
  intros Hs Hds H Hl Hb He. inversion Hds as [|? ? Hn Hds']; subst.
  destruct (sized_rows heap d Hs ds Hds') as (row & t & w & L & E & V).
  rewrite E in H. destruct (repeatP row (Z.to_nat n) s) as [[l s']| |] eqn:Er; cbn [rbind] in H; try discriminate.
  assert (Hk : 0 <= volume ds * dlen d) by (apply Z.mul_nonneg_nonneg; [apply volume_nonneg; assumption|apply sized_pos; exact Hs]).
  assert (HN : Z.of_nat (Z.to_nat n) * (volume ds * dlen d) <= zlen s).
  { rewrite Z2Nat.id by exact Hn. rewrite volume_cons in Hl. lia. }
  assert (Hbm : b + (e - b) <= Z.of_nat (Z.to_nat n)) by lia.
  destruct (repeat_part row _ Hk L _ _ _ _ Er HN b (e - b) (proj1 Hb) ltac:(lia) Hbm) as [G1 G2].
  exists (w (HSlice t (part l b (e - b)))). split.
  - rewrite E, G1. reflexivity.
  - assert (Ev : v = w (HSlice t l)) by congruence. rewrite Ev, V. cbn [vpart].
    replace ((0 <=? b) && (b <=? e) && (e <=? zlen l)) with true by (rewrite G2; lia). reflexivity.
Qed.

Lemma getString_all x : zlen (getString x) = zlen x -> Forall (fun c => c <> 0) x /\ getString x = x.
Proof.
  induction x as [|c x IH]; intros H; [split; [constructor|reflexivity]|]. cbn [getString] in *.
  pose proof (zlen_nonneg x). destruct (Z.eqb_spec c 0) as [E|E].
  - rewrite zlen_cons in H. change (zlen (@nil Z)) with 0 in H. lia.
  - rewrite !zlen_cons in H. destruct (IH ltac:(lia)) as [F Eq]. split; [constructor; assumption|]. rewrite Eq. reflexivity.
Qed.
Lemma getString_same x : Forall (fun c => c <> 0) x -> getString x = x.
Proof.
  induction 1 as [|c x Hc _ IH]; [reflexivity|]. cbn [getString]. replace (c =? 0) with false by lia. rewrite IH. reflexivity.
Qed.

(** What can be sliced from [b] to [e]. *)
Definition sliced (d : dty) (n : Z) (ds : list Z) (v : hval) (b e : Z) : Prop :=
  sized d \/ (sequence d /\ b < e) \/ (d = DString 1 /\ ds = [] /\ exists t, v = HStr t /\ zlen t = n).

Lemma sliced_laid d n ds v b e : sliced d n ds v b e -> laid d.
Proof.
  intros [H|[[[d' _] _]|[-> _]]]; [apply laid_sized; exact H|apply laid_seq|apply laid_chars].
Qed.

Lemma any_part heap d n ds s v r b e : sliced d n ds v b e -> Forall (fun n => 0 <= n) (n :: ds) ->
  alloc heap d (n :: ds) s = Ok (v, r) -> volume (n :: ds) * dlen d <= zlen s -> 0 <= b <= e -> e <= n ->
  exists v', alloc heap d (e - b :: ds) (part s (b * (volume ds * dlen d)) ((e - b) * (volume ds * dlen d))) = Ok (v', []) /\
             vpart v b e = Some v'.
Proof.
  intros [Hs|[[Hs Hbe]|(-> & -> & t & -> & Ht)]] Hds H Hl Hb He.
  - exact (alloc_part heap d n ds s v r b e Hs Hds H Hl Hb He).
  - exact (sequence_part heap d n ds s v r b e Hs Hds H Hl ltac:(lia) He).
  - rewrite volume_cons in Hl. change (volume []) with 1 in *. cbn [dlen] in *. rewrite !Z.mul_1_r in *.
    cbn [alloc allocRegularStrings] in H |- *. change (1 =? 1) with true in *. cbn iota in *.
    unfold readFixedString, pbind, rd in H |- *. replace (n <=? zlen s) with true in H by lia. cbn [rbind] in H. unfold pret in H.
    assert (Et : t = getString (ztake n s)) by congruence.
    assert (Ln : zlen (ztake n s) = n) by (apply zlen_ztake; lia).
    destruct (getString_all (ztake n s)) as [F Eq]; [rewrite <- Et; lia|].
    set (x := part s b (e - b)).
    assert (Lx : zlen x = e - b).
    { unfold x, part. rewrite zlen_ztake; [reflexivity|lia|]. rewrite zlen_zdrop. lia. }
    assert (Ex : x = part t b (e - b)).
    { rewrite Et, Eq. unfold x, part. rewrite <- (ztake_zdrop n s) at 1.
      rewrite zdrop_app_l by lia. rewrite ztake_app_l; [reflexivity|]. rewrite zlen_zdrop. lia. }
    exists (HStr x). split.
    + replace (e - b <=? zlen x) with true by lia. cbn [rbind]. unfold pret. rewrite ztake_all, zdrop_all by lia.
      rewrite getString_same; [reflexivity|]. rewrite Ex, Et, Eq. apply Forall_forall. intros c Hc. apply in_part in Hc.
      rewrite Forall_forall in F. exact (F c Hc).
    + cbn [vpart]. replace ((0 <=? b) && (b <=? e) && (e <=? zlen t)) with true by lia. rewrite Ex. reflexivity.
Qed.

(** ** Bytes of a range *)

(** With a pattern that fits the elements, a hole has the byte that its position says. *)
Definition abyte (pat : bytes) (ps : list piece) (p : Z) : Z :=
  match find (covers p) ps with
  | Some x => nth (Z.to_nat (p - fst x)) (snd x) 0
  | None => nth (Z.to_nat (p mod zlen pat)) pat 0
  end.
Definition astream (pat : bytes) (ps : list piece) (lo hi : Z) : bytes :=
  map (fun i => abyte pat ps (lo + Z.of_nat i)) (seq 0 (Z.to_nat (hi - lo))).
Definition ends_fit (pat : bytes) (ps : list piece) : Prop := Forall (fun x => p_end x mod zlen pat = 0) ps.

Lemma zlen_astream pat ps lo hi : zlen (astream pat ps lo hi) = Z.max 0 (hi - lo).
Proof. unfold astream, zlen. rewrite map_length, seq_length. lia. Qed.
Lemma znth_astream pat ps lo hi p : 0 <= p < hi - lo -> znth (astream pat ps lo hi) p = abyte pat ps (lo + p).
Proof.
  intros H. unfold znth, astream. rewrite (nth_indep _ 0 (abyte pat ps (lo + Z.of_nat 0))) by (rewrite map_length, seq_length; lia).
  rewrite (map_nth (fun i => abyte pat ps (lo + Z.of_nat i))). rewrite seq_nth by lia. f_equal. lia.
Qed.

Lemma byte_aligned pat ps lo p : 0 < zlen pat -> lo mod zlen pat = 0 -> ends_fit pat ps -> lo <= p ->
  byte_at pat ps lo p = abyte pat ps p.
Proof.
  intros Hp Hlo He Hle. unfold byte_at, abyte. destruct (find (covers p) ps) as [x|]; [reflexivity|].
  do 2 f_equal. assert (M : hole_start ps lo p mod zlen pat = 0).
  { destruct (hole_start_is ps lo p) as [E|(x & I & E)]; [rewrite E; exact Hlo|]. rewrite <- E.
    unfold ends_fit in He. rewrite Forall_forall in He. exact (He x I). }
  rewrite Zminus_mod, M, Z.sub_0_r, Z.mod_mod by lia. reflexivity.
Qed.

Lemma stream_aligned pat ps lo hi : 0 < zlen pat -> lo mod zlen pat = 0 -> ends_fit pat ps ->
  stream pat ps lo hi = astream pat ps lo hi.
Proof.
  intros Hp Hlo He. apply znth_ext; [rewrite zlen_stream, zlen_astream; reflexivity|].
  intros p H. rewrite zlen_stream in H. rewrite znth_stream, znth_astream by lia. apply byte_aligned; try assumption. lia.
Qed.

Lemma part_astream pat ps lo hi T : 0 <= lo <= hi -> hi <= T -> part (astream pat ps 0 T) lo (hi - lo) = astream pat ps lo hi.
Proof.
  intros H1 H2. unfold part. apply znth_ext.
  - rewrite zlen_ztake_min, zlen_zdrop, !zlen_astream. lia.
  - intros p H. rewrite zlen_ztake_min, zlen_zdrop, !zlen_astream in H.
    rewrite znth_take, znth_drop by lia. rewrite !znth_astream by lia. f_equal.
Qed.

Lemma fill_astream pat lo n : 0 < zlen pat -> lo mod zlen pat = 0 -> fillBytes pat n = astream pat [] lo (lo + n).
Proof.
  intros Hp Hlo. assert (Np : pat <> []) by (intros ->; cbn in Hp; lia).
  apply znth_ext; [rewrite zlen_fill, zlen_astream by exact Np; lia|].
  intros p H. rewrite zlen_fill in H by exact Np. rewrite znth_fill, znth_astream by (exact Np || lia).
  unfold abyte. cbn [find]. do 2 f_equal. rewrite Zplus_mod, Hlo, Z.add_0_l, Z.mod_mod by lia. reflexivity.
Qed.

Lemma astream_app pat ps lo mid hi : lo <= mid <= hi -> astream pat ps lo hi = astream pat ps lo mid ++ astream pat ps mid hi.
Proof.
  intros H. apply znth_ext; [rewrite zlen_app, !zlen_astream; lia|].
  intros p Hp. rewrite zlen_astream in Hp. rewrite znth_astream by lia.
  destruct (Z.ltb_spec p (mid - lo)).
  - rewrite znth_app_l by (rewrite zlen_astream; lia). rewrite znth_astream by lia. reflexivity.
  - rewrite znth_app_r by (rewrite zlen_astream; lia). rewrite zlen_astream, znth_astream by lia. f_equal. lia.
Qed.

Lemma take_astream pat ps lo hi n : 0 <= n <= hi - lo -> ztake n (astream pat ps lo hi) = astream pat ps lo (lo + n).
Proof.
  intros H. rewrite (astream_app pat ps lo (lo + n) hi) by lia. apply ztake_app_exact. rewrite zlen_astream. lia.
Qed.

Lemma div_mod_0 a b m : 0 < m -> b mod m = 0 -> (a * b) mod m = 0.
Proof. intros Hm H. rewrite Zmult_mod, H, Z.mul_0_r. apply Z.mod_0_l. lia. Qed.
Lemma sub_mod_0 a b m : 0 < m -> a mod m = 0 -> b mod m = 0 -> (a - b) mod m = 0.
Proof. intros Hm Ha Hb. rewrite Zminus_mod, Ha, Hb. apply Z.mod_0_l. lia. Qed.

Definition resolve (f : bytes) (d : dset) (bl : list block) (first last_ : Z) : res (list block) :=
  match bl with
  | [] => if d_btree d =? 0 then Ok [] else readBTreeNode f d first last_
  | _ => Ok bl
  end.

Lemma slice_bytes f d bl bl' ps n ds b e : zlen f < 2 ^ 63 -> fits d bl' -> d_dims d = n :: ds ->
  total d = n * (volume ds * d_length d) -> needsLayoutReader (d_dims d) (d_layout d) = false ->
  0 < zlen (d_fill d) -> d_length d mod zlen (d_fill d) = 0 -> ends_fit (d_fill d) ps ->
  placed f d 0 bl' ps -> apart ps -> inside (total d) ps -> 0 <= b <= e -> e <= n ->
  let row := volume ds * d_length d in
  (ascending ps \/ Forall (fun x => fst x < e * row) ps) ->
  (total d <> 0 -> resolve f d bl (b * row) (e * row) = Ok bl') ->
  exists bl2, dataBytes f d bl (Some (b, e)) = Ok (astream (d_fill d) ps (b * row) (e * row), bl2) /\
              (total d <> 0 -> bl2 = bl').
Proof.
  intros Hf Hfit Ed Et Hnl Hp Hm He Hpl Ha Hi Hb Hen row Hord Hres.
  assert (Np : d_fill d <> []) by (intros E0; rewrite E0 in Hp; cbn in Hp; lia).
  destruct (size_total _ _ Hfit) as [Es Pt]. assert (Ht : total d < 2 ^ 63) by apply Hfit.
  assert (Hd : Forall (fun n => 0 <= n < 2 ^ 63) (n :: ds)) by (rewrite <- Ed; apply Hfit).
  inversion Hd as [|? ? Hn Hds]; subst x l.
  assert (Hrow : 0 <= row).
  { unfold row. apply Z.mul_nonneg_nonneg; [|destruct Hfit as (_ & Q & _); lia].
    apply volume_nonneg. eapply Forall_impl; [|exact Hds]. cbn beta. lia. }
  fold row in Et.
  assert (Mr : row mod zlen (d_fill d) = 0) by (apply div_mod_0; assumption).
  unfold dataBytes. cbv zeta. rewrite Es, (i64_small (total d)) by lia.
  unfold newRecordReader. cbv zeta. rewrite Es, Hnl, Ed. cbn [negb andb].
  destruct (Z.eqb_spec (total d) 0) as [Z0|Z0].
  - cbn [rbind]. replace (e <? b) with false by lia. cbn [rbind].
    exists bl. split; [|contradiction]. rewrite Z0. change (0 <? 0) with false. cbv iota.
    assert (E0 : b * row = e * row).
    { rewrite Z0 in Et. symmetry in Et. apply Z.mul_eq_0 in Et. destruct Et as [Q|Q]; [|rewrite Q; lia]. assert (b = 0) by lia. assert (e = 0) by lia. subst. reflexivity. }
    rewrite E0. unfold astream. rewrite Z.sub_diag. cbn [Z.to_nat seq map]. rewrite ztake_0; [reflexivity|].
    destruct (Z.eqb_spec n 0); [reflexivity|]. rewrite Z.quot_0_l by (rewrite i64_small by lia; lia). reflexivity.
  - assert (Pn : 0 < n) by (assert (n <> 0) by (intros ->; rewrite Z.mul_0_l in Et; contradiction); lia).
    assert (Pr : 0 < row) by (assert (row <> 0) by (intros Q; rewrite Q, Z.mul_0_r in Et; contradiction); lia).
    replace (0 <? n) with true by lia.
    assert (Q1 : total d / n = row) by (rewrite Et, Z.mul_comm; apply Z.div_mul; lia).
    assert (Bb : 0 <= b * row <= e * row) by (split; [apply Z.mul_nonneg_nonneg; lia|apply Z.mul_le_mono_nonneg_r; lia]).
    assert (Be : e * row <= total d) by (rewrite Et; apply Z.mul_le_mono_nonneg_r; lia).
    assert (Le : e < 2 ^ 63) by lia.
    rewrite Q1, (u64_small b), (u64_small e) by lia. rewrite (u64_small (b * row)), (u64_small (e * row)) by lia.
    rewrite (u64_small (e * row - b * row)) by lia.
    change (match bl with [] => if d_btree d =? 0 then Ok [] else readBTreeNode f d (b * row) (e * row) | _ => Ok bl end)
      with (resolve f d bl (b * row) (e * row)).
    rewrite (Hres Z0). cbn [rbind].
    set (first := b * row) in *. set (last_ := e * row) in *.
    assert (Mf : first mod zlen (d_fill d) = 0) by (apply div_mod_0; assumption).
    assert (Ml : last_ mod zlen (d_fill d) = 0) by (apply div_mod_0; assumption).
    rewrite (i64_small (last_ - first)) by lia.
    replace (e <? b) with false by lia.
    replace (n =? 0) with false by lia.
    assert (Q2 : Z.quot (total d) (i64 n) = row).
    { rewrite i64_small by lia. rewrite Z.quot_div_nonneg by lia. exact Q1. }
    rewrite Q2. rewrite (i64_small (e - b)) by lia.
    assert (Q3 : row * (e - b) = last_ - first) by (unfold last_, first; ring).
    rewrite Q3, (i64_small (last_ - first)) by lia.
    assert (FIN : exists R, match bl' with
        | [] => Ok (fillBytes (d_fill d) (last_ - first), last_ - first, bl')
        | _ :: _ =>
            let* segs := readBlocks f d first last_ bl' 0 in
            (let '(data, off) := joinSegs (d_fill d) (sortSegs segs) first in
             if (if off <? last_ - first then last_ - first else off) <=? last_
             then Ok (ztake (last_ - first) (data ++ (if off <? last_ - first then fillBytes (d_fill d) (i64 (last_ - first - off)) else [])), last_ - first, bl')
             else Err ECorrupted)
        end = Ok (R, last_ - first, bl') /\ zlen R <= last_ - first /\
        (forall m, last_ - first <= zlen R + m -> ztake (last_ - first) (R ++ fillBytes (d_fill d) m) = astream (d_fill d) ps first last_) /\
        (first = 0 -> R = astream (d_fill d) ps first last_)).
    { destruct bl' as [|b0 br] eqn:Ebl.
      - inversion Hpl; subst. eexists. split; [reflexivity|].
        assert (EQ : fillBytes (d_fill d) (last_ - first) = astream (d_fill d) [] first last_).
        { rewrite (fill_astream _ first) by assumption. f_equal. lia. }
        rewrite EQ. rewrite zlen_astream. split; [lia|]. split; [|reflexivity].
        intros m Hm'. apply ztake_app_exact. rewrite zlen_astream. lia.
      - rewrite <- Ebl in *.
        destruct (range_ok f d first last_ bl' ps Hf ltac:(lia) ltac:(lia) Np Hpl (chunk_places _ _ Hfit) Ha (inside_range _ _ Ht Hi) Hord)
          as (segs & data & off & E & Ej & Bo & Lo & K & Kx).
        rewrite E. cbn [rbind]. rewrite Ej.
        replace ((if off <? last_ - first then last_ - first else off) <=? last_) with true
          by (destruct (Z.ltb_spec off (last_ - first)); lia).
        replace (match bl' with [] => Ok (fillBytes (d_fill d) (last_ - first), last_ - first, bl') | _ :: _ =>
            Ok (ztake (last_ - first) (data ++ (if off <? last_ - first then fillBytes (d_fill d) (i64 (last_ - first - off)) else [])), last_ - first, bl') end)
          with (@Ok (bytes * Z * list block) (ztake (last_ - first) (data ++ (if off <? last_ - first then fillBytes (d_fill d) (i64 (last_ - first - off)) else [])), last_ - first, bl'))
          by (rewrite Ebl; reflexivity).
        assert (Ex : (if off <? last_ - first then fillBytes (d_fill d) (i64 (last_ - first - off)) else []) = fillBytes (d_fill d) (last_ - first - off)).
        { destruct (Z.ltb_spec off (last_ - first)); [rewrite i64_small by lia; reflexivity|].
          rewrite fill_zero by lia. reflexivity. }
        exists (ztake (last_ - first) (data ++ fillBytes (d_fill d) (last_ - first - off))).
        split; [do 5 f_equal; exact Ex|].
        assert (LR : zlen (data ++ fillBytes (d_fill d) (last_ - first - off)) <= last_ - first).
        { rewrite zlen_app, zlen_fill by exact Np. lia. }
        rewrite ztake_all by exact LR. split; [exact LR|].
        destruct (Z.eq_dec first last_) as [Q|Q].
        { assert (Z1 : last_ - first = 0) by lia. rewrite Z1 in *.
          assert (A0 : astream (d_fill d) ps first last_ = []) by (apply zlen_zero; rewrite zlen_astream; lia).
          rewrite A0. split; [intros m _; apply ztake_0; lia|]. intros _. apply zlen_zero.
          pose proof (zlen_nonneg (data ++ fillBytes (d_fill d) (0 - off))). lia. }
        specialize (K ltac:(lia)). specialize (Kx ltac:(lia)).
        rewrite stream_aligned in K by assumption.
        assert (Mo : off mod zlen (d_fill d) = 0).
        { destruct Kx as [-> |[-> |Kx]]; [exact Mf|exact Ml|]. apply Exists_exists in Kx. destruct Kx as (y & Iy & ->).
          unfold ends_fit in He. rewrite Forall_forall in He. exact (He y Iy). }
        assert (ED : data = astream (d_fill d) ps first off).
        { apply (f_equal (ztake (off - first))) in K. rewrite ztake_app_exact in K by lia.
          rewrite take_astream in K by lia. rewrite K. f_equal. lia. }
        assert (EF : astream (d_fill d) ps off last_ = astream (d_fill d) [] off last_).
        { apply (f_equal (zdrop (off - first))) in K. rewrite zdrop_app_exact in K by lia.
          rewrite (astream_app _ _ first off last_) in K by lia.
          rewrite zdrop_app_exact in K by (rewrite zlen_astream; lia).
          rewrite <- K. rewrite (fill_astream _ off) by assumption. f_equal. lia. }
        split.
        + intros m Hm'. rewrite zlen_app, zlen_fill in Hm' by exact Np. rewrite Lo in Hm'.
          rewrite <- app_assoc, (astream_app _ _ first off last_) by lia.
          rewrite ztake_app_r by lia. rewrite <- ED, Lo. f_equal.
          rewrite EF.
          destruct (Z.leb_spec (last_ - first - off) 0) as [W|W].
          * rewrite fill_zero by lia. cbn [app]. rewrite (fill_astream _ off) by assumption.
            rewrite take_astream by lia. f_equal. lia.
          * rewrite (fill_astream _ off (last_ - first - off)) by assumption.
            rewrite (fill_astream _ (off + (last_ - first - off)) m); [|exact Hp|].
            2:{ replace (off + (last_ - first - off)) with (last_ - first) by lia. apply sub_mod_0; assumption. }
            rewrite <- astream_app by lia. rewrite take_astream by lia. f_equal. lia.
        + intros F0. rewrite (astream_app _ _ first off last_) by lia. rewrite <- ED, EF. f_equal.
          rewrite (fill_astream _ off) by assumption. f_equal. lia. }
    destruct FIN as (R & E1 & E2 & E3 & E4). cbv zeta in E1 |- *.
    match goal with |- exists _, (let* _ := ?x in _) = _ /\ _ =>
      replace x with (@Ok (bytes * Z * list block) (R, last_ - first, bl')) by (symmetry; exact E1) end.
    cbn [rbind]. exists bl'. split; [|reflexivity]. f_equal. f_equal.
    destruct (Z.ltb_spec (last_ - first) (total d)) as [W|W].
    + rewrite ztake_ztake. rewrite Z.min_l by lia. apply E3. lia.
    + assert (F0 : first = 0) by lia. rewrite <- (E4 F0). apply ztake_all. exact E2.
Qed.
