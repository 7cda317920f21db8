(** Calls on a variable: what earlier calls leave behind, and slices in all dimensions. *)
From Coq Require Import ZifyBool ZifyNat.
From Verif Require Import Prelude BaseLemmas GoVal FillModel FillProofs ArraySpec IndexProofs H5Base H5MetaRead
  H5ChecksumProofs H5LayoutModel H5Value H5TypeRead H5RecordModel ChunkSpec H5ChunkProofs MetaSpec H5MetaProofs
  RecordSpec H5RecordProofs H5IndexProofs H5SliceProofs H5RunProofs H5ChunkedProofs.

(** ** Histories *)

Definition no_array (t : dty) : Prop := match t with DArray _ _ _ => False | _ => True end.
Lemma grow_no_array t dims : no_array t -> grow t dims = t.
Proof. destruct t; cbn; (reflexivity || contradiction). Qed.

Definition fixed_blocks (d : dset) (bl : list block) : Prop := bl <> [] \/ d_btree d = 0.

Lemma reader_blocks f d bl slice x y bl' : fixed_blocks d bl -> newRecordReader f d bl slice = Ok (x, y, bl') -> bl' = bl.
Proof.
  intros Hb H. unfold newRecordReader in H. cbv zeta in H. destruct (d_size d =? 0); [congruence|].
  destruct (match slice with Some (b, e) => _ | None => _ end) as [[first last_] size].
  assert (E : match bl with [] => if d_btree d =? 0 then Ok [] else readBTreeNode f d first last_ | _ => Ok bl end = Ok bl).
  { destruct bl as [|b0 br]; [|reflexivity]. destruct Hb as [Hb|Hb]; [contradiction|]. rewrite Hb. reflexivity. }
  rewrite E in H. cbn [rbind] in H. destruct bl as [|b0 br]; [congruence|].
  destruct (readBlocks f d first last_ (b0 :: br) 0) as [segs| |]; cbn [rbind] in H; try discriminate.
  destruct (joinSegs (d_fill d) (sortSegs segs) first) as [data off].
  destruct (_ <=? last_); [congruence|discriminate].
Qed.

Lemma data_blocks f d bl slice x bl' : fixed_blocks d bl -> dataBytes f d bl slice = Ok (x, bl') -> bl' = bl.
Proof.
  intros Hb H. unfold dataBytes in H. cbv zeta in H.
  destruct (newRecordReader f d bl slice) as [[[data rem] b2]| |] eqn:E; cbn [rbind] in H; try discriminate.
  apply reader_blocks in E; [|exact Hb]. subst b2.
  destruct (match slice with Some (b, e) => _ | None => _ end) as [limit| |]; cbn [rbind] in H; try discriminate.
  destruct (if needsLayoutReader (d_dims d) (d_layout d) then _ else _) as [data2| |]; cbn [rbind] in H; try discriminate. congruence.
Qed.

Definition same_var (d : dset) (bl : list block) (st : vstate) : Prop := v_blocks st = bl /\ v_ty st = d_ty d.

Lemma getData_same f heap d bl keep st : no_array (d_ty d) -> (fixed_blocks d bl \/ keep = false) -> same_var d bl st ->
  same_var d bl (snd (getData f heap d keep st)) /\ v_slice (snd (getData f heap d keep st)) = v_slice st /\
  fst (getData f heap d keep st) = fst (getData f heap d true (mkVst (v_slice st) bl (d_ty d))).
Proof.
  intros Hn Hb [E1 E2]. unfold getData. cbn [v_slice v_blocks v_ty]. rewrite E1, E2.
  destruct (dataBytes f d bl (v_slice st)) as [[x bl']| |] eqn:E; cbn [fst snd v_slice v_blocks v_ty].
  - split; [|split; reflexivity]. split; cbn [v_blocks v_ty].
    + destruct keep; [|reflexivity]. destruct Hb as [Hb|Hb]; [|discriminate]. exact (data_blocks _ _ _ _ _ _ Hb E).
    + apply grow_no_array, Hn.
  - split; [split; assumption|]. split; reflexivity.
  - split; [split; assumption|]. split; reflexivity.
Qed.

Lemma getSlice_same f heap d bl b e st : no_array (d_ty d) -> d_dims d <> [] -> same_var d bl st ->
  same_var d bl (snd (getSlice f heap d b e st)) /\
  fst (getSlice f heap d b e st) = fst (getSlice f heap d b e (opened d bl)).
Proof.
  intros Hn Hd Hs. unfold getSlice. destruct (d_dims d) as [|n ds] eqn:Ed; [contradiction|]. rewrite andb_false_r.
  destruct (e <? b); [split; [exact Hs|reflexivity]|].
  assert (S1 : same_var d bl (mkVst (Some (b, e)) (v_blocks st) (v_ty st))) by exact Hs.
  assert (S2 : same_var d bl (mkVst (Some (b, e)) (v_blocks (opened d bl)) (v_ty (opened d bl)))) by (split; reflexivity).
  destruct (getData_same f heap d bl false _ Hn (or_intror eq_refl) S1) as (A1 & _ & A3).
  destruct (getData_same f heap d bl false _ Hn (or_intror eq_refl) S2) as (_ & _ & B3).
  split; [exact A1|]. rewrite A3, B3. reflexivity.
Qed.

Lemma getSliceMD_same f heap d bl bs_ es st : no_array (d_ty d) -> d_dims d <> [] -> same_var d bl st ->
  same_var d bl (snd (getSliceMD f heap d bs_ es st)) /\
  fst (getSliceMD f heap d bs_ es st) = fst (getSliceMD f heap d bs_ es (opened d bl)).
Proof.
  intros Hn Hd Hs. unfold getSliceMD.
  destruct (negb (Nat.eqb (List.length bs_) _) || _); [split; [exact Hs|reflexivity]|].
  destruct (negb (ordered bs_ es)); [split; [exact Hs|reflexivity]|].
  destruct bs_ as [|b br]; [split; [exact Hs|reflexivity]|]. destruct es as [|e er]; [split; [exact Hs|reflexivity]|].
  destruct (getSlice_same f heap d bl b e st Hn Hd Hs) as [A B].
  destruct (getSlice f heap d b e st) as [r st1]. destruct (getSlice f heap d b e (opened d bl)) as [r2 st2].
  cbn [fst snd] in *. subst r2. split; [exact A|reflexivity].
Qed.

Lemma vstep_same f heap d bl c st : no_array (d_ty d) -> d_dims d <> [] -> (fixed_blocks d bl \/ c <> VGet) -> same_var d bl st ->
  same_var d bl (snd (vstep f heap d c st)) /\
  (c <> VGet -> fst (vstep f heap d c st) = fst (vstep f heap d c (opened d bl))).
Proof.
  intros Hn Hd Hb Hs. destruct c as [| |b e|bs_ es]; cbn [vstep].
  - split; [|contradiction]. destruct Hb as [Hb|Hb]; [|contradiction]. exact (proj1 (getData_same f heap d bl true st Hn (or_introl Hb) Hs)).
  - destruct (getSlice_same f heap d bl 0 (varLen d) st Hn Hd Hs). split; [assumption|intros _; assumption].
  - destruct (getSlice_same f heap d bl b e st Hn Hd Hs). split; [assumption|intros _; assumption].
  - destruct (getSliceMD_same f heap d bl bs_ es st Hn Hd Hs). split; [assumption|intros _; assumption].
Qed.

Theorem slices_independent f heap d bl cs c : no_array (d_ty d) -> d_dims d <> [] ->
  (fixed_blocks d bl \/ ~ In VGet cs) -> c <> VGet ->
  fst (vstep f heap d c (vrun f heap d cs (opened d bl))) = fst (vstep f heap d c (opened d bl)).
Proof.
  intros Hn Hd Hb Hc.
  assert (S : same_var d bl (vrun f heap d cs (opened d bl))).
  { assert (G : forall st, same_var d bl st -> same_var d bl (vrun f heap d cs st)); [|apply G; split; reflexivity].
    induction cs as [|x cs IH]; intros st Hs; [exact Hs|]. cbn [vrun]. apply IH.
    - destruct Hb as [Hb|Hb]; [left; exact Hb|right; intros Q; apply Hb; right; exact Q].
    - apply vstep_same; try assumption. destruct Hb as [Hb|Hb]; [left; exact Hb|right; intros ->; apply Hb; left; reflexivity]. }
  apply vstep_same; try assumption. right. exact Hc.
Qed.

(** Whole reads only *)
Lemma reader_again f d bl x y bl' : newRecordReader f d bl None = Ok (x, y, bl') -> newRecordReader f d bl' None = Ok (x, y, bl').
Proof.
  intros H. unfold newRecordReader in *. cbv zeta in *. destruct (d_size d =? 0); [congruence|].
  destruct (match bl with [] => if d_btree d =? 0 then Ok [] else readBTreeNode f d 0 (d_size d) | _ => Ok bl end) as [b2| |] eqn:E2;
    cbn [rbind] in H; try discriminate.
  destruct b2 as [|b0 br].
  - assert (bl' = []) by congruence. subst bl'.
    assert (bl = []) by (destruct bl; [reflexivity|discriminate]). subst bl. rewrite E2. exact H.
  - assert (bl' = b0 :: br).
    { destruct (readBlocks f d 0 (d_size d) (b0 :: br) 0) as [segs| |]; cbn [rbind] in H; try discriminate.
      destruct (joinSegs (d_fill d) (sortSegs segs) 0) as [data off]. destruct (_ <=? _); [congruence|discriminate]. }
    subst bl'. cbn [rbind]. exact H.
Qed.

Lemma data_again f d bl x bl' : dataBytes f d bl None = Ok (x, bl') -> dataBytes f d bl' None = Ok (x, bl').
Proof.
  intros H. unfold dataBytes in *. cbv zeta in *.
  destruct (newRecordReader f d bl None) as [[[data rem] b2]| |] eqn:E; cbn [rbind] in H; try discriminate.
  assert (b2 = bl').
  { destruct (if needsLayoutReader (d_dims d) (d_layout d) then _ else _) as [data2| |]; cbn [rbind] in H; try discriminate. congruence. }
  subst b2. rewrite (reader_again _ _ _ _ _ _ E). exact H.
Qed.

Theorem gets_repeat f heap d bl cs : no_array (d_ty d) -> Forall (fun c => c = VGet) cs ->
  fst (vstep f heap d VGet (vrun f heap d cs (opened d bl))) = fst (vstep f heap d VGet (opened d bl)).
Proof.
  intros Hn Hc.
  assert (G : v_ty (vrun f heap d cs (opened d bl)) = d_ty d /\ v_slice (vrun f heap d cs (opened d bl)) = None /\
              (v_blocks (vrun f heap d cs (opened d bl)) = bl \/
               exists x bl', dataBytes f d bl None = Ok (x, bl') /\ v_blocks (vrun f heap d cs (opened d bl)) = bl')).
  { assert (G : forall st, v_ty st = d_ty d -> v_slice st = None ->
       (v_blocks st = bl \/ exists x bl', dataBytes f d bl None = Ok (x, bl') /\ v_blocks st = bl') ->
       v_ty (vrun f heap d cs st) = d_ty d /\ v_slice (vrun f heap d cs st) = None /\
       (v_blocks (vrun f heap d cs st) = bl \/ exists x bl', dataBytes f d bl None = Ok (x, bl') /\ v_blocks (vrun f heap d cs st) = bl')).
    2:{ apply G; [reflexivity|reflexivity|left; reflexivity]. }
    induction Hc as [|c cs -> _ IH]; intros st E1 E2 E3; [repeat split; assumption|]. cbn [vrun vstep].
    apply IH; unfold getData; rewrite E2; destruct (dataBytes f d (v_blocks st) None) as [[x bl']| |] eqn:Ex; cbn [snd v_ty v_slice v_blocks]; try assumption.
    - rewrite E1. apply grow_no_array, Hn.
    - reflexivity.
    - right. destruct E3 as [E3|(x0 & b0 & E4 & E5)].
      + rewrite E3 in Ex. exists x, bl'. split; [exact Ex|reflexivity].
      + rewrite E5, (data_again _ _ _ _ _ E4) in Ex. exists x0, b0. split; [exact E4|congruence]. }
  destruct G as (E1 & E2 & E3). cbn [vstep]. unfold getData. rewrite E1, E2. unfold opened at 3 4 5 6. cbn [v_slice v_blocks v_ty].
  destruct E3 as [-> |(x & bl' & E4 & ->)].
  - destruct (dataBytes f d bl None) as [[x b2]| |]; reflexivity.
  - rewrite (data_again _ _ _ _ _ E4), E4. reflexivity.
Qed.

(** ** Slices in all dimensions *)

Lemma repeatP_all {A} (p : P A) (Q : A -> Prop) : (forall s v r, p s = Ok (v, r) -> Q v) ->
  forall n s l r, repeatP p n s = Ok (l, r) -> Forall Q l /\ List.length l = n.
Proof.
  intros Hp. induction n as [|n IH]; intros s l r H; [injection H as <- <-; split; [constructor|reflexivity]|].
  rewrite repeatP_S in H. destruct (p s) as [[x s1]| |] eqn:E1; cbn [rbind] in H; try discriminate.
  destruct (repeatP p n s1) as [[l1 r1]| |] eqn:E2; cbn [rbind] in H; try discriminate. injection H as <- <-.
  destruct (IH _ _ _ E2) as [I1 I2]. split; [constructor; [exact (Hp _ _ _ E1)|exact I1]|cbn [List.length]; lia].
Qed.

Lemma dims_shaped t elem : forall ds s v r, Forall (fun n => 0 <= n) ds -> allocDims t elem ds s = Ok (v, r) -> shaped ds v.
Proof.
  induction ds as [|n ds IH]; intros s v r Hd H; [constructor|]. inversion Hd as [|? ? Hn Hds]; subst. cbn [allocDims] in H. unfold pbind in H.
  destruct (repeatP (allocDims t elem ds) (Z.to_nat n) s) as [[l s1]| |] eqn:E; cbn [rbind] in H; try discriminate.
  destruct (repeatP_all (allocDims t elem ds) (shaped ds) (fun s v r => IH s v r Hds) _ _ _ _ E) as [F L].
  unfold pret in H. injection H as <- <-. constructor; [unfold zlen; lia|exact F].
Qed.

Lemma strings_shaped len : len <> 1 -> forall ds s v r, Forall (fun n => 0 <= n) ds -> allocRegularStrings len ds s = Ok (v, r) -> shaped ds v.
Proof.
  intros H1. induction ds as [|n ds IH]; intros s v r Hd H; [constructor|]. inversion Hd as [|? ? Hn Hds]; subst.
  rewrite strings_rows in H by exact H1.
  destruct (repeatP (strRow len ds) (Z.to_nat n) s) as [[l s1]| |] eqn:E; cbn [rbind] in H; try discriminate.
  assert (Q : forall s v r, strRow len ds s = Ok (v, r) -> shaped ds v).
  { intros s0 v0 r0 E0. destruct ds as [|m ds]; [constructor|]. cbn [strRow] in E0. unfold pbind in E0.
    destruct (allocRegularStrings len (m :: ds) s0) as [[x s2]| |] eqn:Ex; cbn [rbind] in E0; try discriminate.
    destruct (hty_eqb _ _); [|discriminate]. unfold pret in E0. assert (v0 = x) by congruence. subst v0. exact (IH _ _ _ Hds Ex). }
  destruct (repeatP_all _ (shaped ds) Q _ _ _ _ E) as [F L]. injection H as <- <-. constructor; [unfold zlen; lia|exact F].
Qed.

Definition no_enum (t : dty) : Prop :=
  match t with DEnum _ _ _ _ _ _ | DArray _ _ (DEnum _ _ _ _ _ _) => False | _ => True end.

Lemma shaped_prefix a : forall b v, shaped (a ++ b) v -> shaped a v.
Proof.
  induction a as [|n a IH]; intros b v H; [constructor|]. inversion H as [|? ? ? ? E F]; subst. constructor; [reflexivity|].
  eapply Forall_impl; [|exact F]. cbn beta. intros x Hx. exact (IH _ _ Hx).
Qed.

Lemma sized_shaped heap d : sized d -> no_enum d -> forall ds s v r, Forall (fun n => 0 <= n) ds -> alloc heap d ds s = Ok (v, r) -> shaped ds v.
Proof.
  intros Hs Hn ds s v r Hd H. revert ds Hd H Hn.
  induction Hs as [len sg big k E|big|big|len H0 H1|len H0|len ms H0| |len sg big names vals k E|d|dims d Hdd HA Hs IH]; intros ds Hd H Hn; cbn [alloc] in H.
  - rewrite E in H. exact (dims_shaped _ _ _ _ _ _ Hd H).
  - exact (dims_shaped _ _ _ _ _ _ Hd H).
  - exact (dims_shaped _ _ _ _ _ _ Hd H).
  - exact (strings_shaped len H1 _ _ _ _ Hd H).
  - exact (dims_shaped _ _ _ _ _ _ Hd H).
  - exact (dims_shaped _ _ _ _ _ _ Hd H).
  - exact (dims_shaped _ _ _ _ _ _ Hd H).
  - contradiction.
  - exact (dims_shaped _ _ _ _ _ _ Hd H).
  - apply (shaped_prefix ds dims). destruct d; try contradiction; apply IH; try exact I; (apply Forall_app; split; assumption) || exact H.
Qed.

Lemma sequence_shaped heap d ds s v r : sequence d -> Forall (fun n => 0 <= n) ds -> alloc heap d ds s = Ok (v, r) -> shaped ds v.
Proof.
  intros [d' Hd'] Hd H. cbn [alloc] in H. set (one := readVlenSeq heap (dlen d') (alloc heap d' [])) in *. unfold pbind in H.
  destruct (allocVariable one ds s) as [[w s1]| |] eqn:E; cbn [rbind] in H; try discriminate.
  assert (St : still w).
  { apply (variable_still one) in E; [exact E|]. apply seq_still. intros s0 v0 r0. apply sequence_elem, Hd'. }
  unfold pret in H. rewrite St in H. assert (w = v) by congruence. subst w. clear H St Hd'. revert s v s1 E.
  induction Hd as [|n ds Hn Hds IH]; intros s v s1 E; [constructor|]. cbn [allocVariable] in E. unfold pbind in E.
  destruct (repeatP (allocVariable one ds) (Z.to_nat n) s) as [[l s2]| |] eqn:Er; cbn [rbind] in E; try discriminate.
  destruct (make_slice l) as [w| |] eqn:M; cbn [rbind] in E; try discriminate. assert (w = v) by congruence. subst w.
  apply make_slice_is in M. destruct M as (t & -> & _).
  destruct (repeatP_all (allocVariable one ds) (shaped ds) IH _ _ _ _ Er) as [F L].
  constructor; [unfold zlen; lia|exact F].
Qed.

Lemma rmapM_ok {A B} (g : A -> res B) (l : list A) (Q : A -> B -> Prop) : Forall (fun x => exists y, g x = Ok y /\ Q x y) l ->
  exists l', rmapM g l = Ok l' /\ Forall2 Q l l'.
Proof.
  induction 1 as [|x l (y & E & q) _ (l' & E' & F)]; [exists []; split; [reflexivity|constructor]|].
  exists (y :: l'). cbn [rmapM]. rewrite E. cbn [rbind]. rewrite E'. split; [reflexivity|constructor; assumption].
Qed.

Lemma nth_part {A} (l : list A) b m i : 0 <= b -> 0 <= i < m -> b + m <= zlen l ->
  nth_error (ztake m (zdrop b l)) (Z.to_nat i) = nth_error l (Z.to_nat (b + i)).
Proof.
  intros Hb Hi Hl. unfold ztake, zdrop. rewrite Z2Nat.inj_add by lia.
  assert (E : forall k j, (j < k)%nat -> nth_error (firstn k (skipn (Z.to_nat b) l)) j = nth_error (skipn (Z.to_nat b) l) j).
  { intros k j. generalize (skipn (Z.to_nat b) l). intros q. revert k j. induction q as [|x q IH]; intros k j Hj.
    - rewrite firstn_nil. reflexivity.
    - destruct k as [|k]; [lia|]. destruct j as [|j]; [reflexivity|]. cbn [firstn nth_error]. apply IH. lia. }
  rewrite E by lia. generalize (Z.to_nat i). intros j. clear. generalize (Z.to_nat b). intros k. revert l.
  induction k as [|k IH]; intros l; [reflexivity|]. destruct l as [|x l]; [cbn; destruct j; reflexivity|]. cbn [skipn]. rewrite IH. reflexivity.
Qed.

Lemma Forall2_nth {A B} (Q : A -> B -> Prop) l l' : Forall2 Q l l' -> forall i x, nth_error l i = Some x -> exists y, nth_error l' i = Some y /\ Q x y.
Proof.
  induction 1 as [|a b l l' H _ IH]; intros [|i] x E; try discriminate; cbn [nth_error] in *.
  - injection E as <-. exists b. split; [reflexivity|exact H].
  - exact (IH i x E).
Qed.

(** Part of a list: length and elements *)
Lemma slice_rec_ok ds : forall v bs_ es, ds <> [] -> shaped ds v -> bounds ds bs_ es ->
  exists v', sliceRecursive (List.length ds) v bs_ es = Ok v' /\ shaped (vsub es bs_) v' /\
    forall idx, in_shape (vsub es bs_) idx -> vat v' idx = vat v (vadd bs_ idx).
Proof.
  induction ds as [|n ds IH]; intros v bs_ es Hne Hs Hb; [contradiction|].
  inversion Hs as [|? ? t l Ez F]; subst. inversion Hb as [|? ? b br e er B1 B2 B3]; subst. cbn [List.length sliceRecursive].
  unfold vslice. replace ((0 <=? b) && (b <=? e) && (e <=? zlen l)) with true by lia. cbn [rbind].
  set (p := ztake (e - b) (zdrop b l)). assert (Lp : zlen p = e - b) by (unfold p; rewrite zlen_ztake_min, zlen_zdrop; lia).
  assert (Fp : Forall (shaped ds) p).
  { unfold p, ztake, zdrop. rewrite Forall_forall in *. intros x Hx. apply F.
    assert (I1 : In x (skipn (Z.to_nat b) l)).
    { rewrite <- (firstn_skipn (Z.to_nat (e - b)) (skipn (Z.to_nat b) l)). apply in_or_app. left. exact Hx. }
    rewrite <- (firstn_skipn (Z.to_nat b) l). apply in_or_app. right. exact I1. }
  destruct ds as [|m ds'].
  - inversion B3; subst. exists (HSlice t p). split; [reflexivity|]. split; [constructor; [exact Lp|exact Fp]|].
    intros idx I. inversion I as [|? i ? r Hi Hr]; subst. inversion Hr; subst. cbn [vadd vat].
    replace (i <? 0) with false by lia. replace (b + i <? 0) with false by lia. unfold p. rewrite nth_part by lia. reflexivity.
  - assert (M : Forall (fun x => exists y, sliceRecursive (List.length (m :: ds')) x br er = Ok y /\
        (shaped (vsub er br) y /\ forall idx, in_shape (vsub er br) idx -> vat y idx = vat x (vadd br idx))) p).
    { eapply Forall_impl; [|exact Fp]. cbn beta. intros x Hx. destruct (IH x br er ltac:(discriminate) Hx B3) as (y & Y1 & Y2 & Y3).
      exists y. split; [exact Y1|split; assumption]. }
    destruct (rmapM_ok _ _ _ M) as (l' & E & F2). cbn [List.length] in E |- *. rewrite E. cbn [rbind].
    exists (HSlice t l'). split; [reflexivity|]. split.
    + cbn [vsub]. constructor.
      * rewrite <- Lp. unfold zlen. f_equal. symmetry. clear -F2. induction F2; cbn [List.length]; lia.
      * clear -F2. induction F2 as [|x y q q' (A & _) _ I]; constructor; assumption.
    + intros idx I. cbn [vsub] in I. inversion I as [|? i ? r Hi Hr]; subst. cbn [vadd vat].
      replace (i <? 0) with false by lia. replace (b + i <? 0) with false by lia. rewrite <- (nth_part l b (e - b) i) by lia. fold p.
      destruct (nth_error p (Z.to_nat i)) as [x|] eqn:Ep.
      * destruct (Forall2_nth _ _ _ F2 _ _ Ep) as (y & Ey & _ & Y2). rewrite Ey. apply Y2. exact Hr.
      * apply nth_error_None in Ep. unfold zlen in Lp. lia.
Qed.

Lemma bounds_ordered ds bs_ es : bounds ds bs_ es -> ordered bs_ es = true /\ List.length bs_ = List.length ds /\ List.length es = List.length ds.
Proof.
  induction 1 as [|n ds b br e er B1 B2 _ (I1 & I2 & I3)]; [repeat split|]. cbn [ordered List.length]. rewrite I1. split; [lia|]. lia.
Qed.

Theorem slices_md f heap d bl n ds bs_ es b br e er v v1 : bs_ = b :: br -> es = e :: er ->
  d_dims d = n :: ds -> Forall (fun n => 0 <= n < 2 ^ 63) (d_dims d) -> bounds (n :: ds) bs_ es ->
  shaped (n :: ds) v -> fst (getSlice f heap d b e (opened d bl)) = Ok v1 -> vpart v b e = Some v1 ->
  exists v', fst (getSliceMD f heap d bs_ es (opened d bl)) = Ok v' /\ shaped (vsub es bs_) v' /\
    forall idx, in_shape (vsub es bs_) idx -> vat v' idx = vat v (vadd bs_ idx).
Proof.
  intros -> -> Ed Hd Hb Hv E1 E2. rewrite Ed in Hd. inversion Hd as [|? ? Hn _]; subst x l.
  destruct (bounds_ordered _ _ _ Hb) as (O1 & O2 & O3). inversion Hb as [|? ? ? ? ? ? B1 B2 B3]; subst.
  inversion Hv as [|? ? t l Ez F]; subst. cbn [vpart] in E2.
  replace ((0 <=? b) && (b <=? e) && (e <=? zlen l)) with true in E2 by lia.
  set (p := part l b (e - b)) in *. assert (v1 = HSlice t p) by congruence. subst v1.
  assert (Lp : zlen p = e - b) by (unfold p, part; rewrite zlen_ztake_min, zlen_zdrop; lia).
  assert (Hs1 : shaped (e - b :: ds) (HSlice t p)).
  { constructor; [exact Lp|]. unfold p, part, ztake, zdrop. rewrite Forall_forall in *. intros x Hx. apply F.
    assert (I1 : In x (skipn (Z.to_nat b) l)).
    { rewrite <- (firstn_skipn (Z.to_nat (e - b)) (skipn (Z.to_nat b) l)). apply in_or_app. left. exact Hx. }
    rewrite <- (firstn_skipn (Z.to_nat b) l). apply in_or_app. right. exact I1. }
  assert (Hb1 : bounds (e - b :: ds) (0 :: br) (e - b :: er)) by (constructor; [lia|lia|exact B3]).
  destruct (slice_rec_ok (e - b :: ds) _ _ _ ltac:(discriminate) Hs1 Hb1) as (v' & R1 & R2 & R3).
  exists v'. cbn [vsub] in R2, R3. rewrite Z.sub_0_r in R2, R3. split; [|split; [exact R2|]].
  - unfold getSliceMD. rewrite Ed, O2, O3, Nat.eqb_refl, O1. cbn [negb orb].
    destruct (getSlice f heap d b e (opened d bl)) as [r st]. cbn [fst] in E1. subst r. cbn [fst rbind].
    rewrite i64_small by lia. exact R1.
  - intros idx I. rewrite (R3 idx I). inversion I as [|? i ? r Hi Hr]; subst. cbn [vadd vat].
    replace (0 + i <? 0) with false by lia. replace (b + i <? 0) with false by lia. unfold p, part. rewrite (nth_part l b (e - b) (0 + i)) by lia.
    replace (b + (0 + i)) with (b + i) by lia. reflexivity.
Qed.
