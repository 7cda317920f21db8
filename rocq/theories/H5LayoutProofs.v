(** The reader that puts chunks back into row-major order: proofs. *)
From Coq Require Import ZifyBool ZifyNat.
From Verif Require Import Prelude BaseLemmas ArraySpec ArrayProofs ChunkSpec H5Base H5LayoutModel H5ChunkProofs IndexProofs.

Lemma foldM_app {A B} (f : A -> B -> res A) l1 l2 a :
  foldM f (l1 ++ l2) a = (let* a' := foldM f l1 a in foldM f l2 a').
Proof. revert a. induction l1 as [|x l1 IH]; intros a; [reflexivity|]. cbn [app foldM]. destruct (f a x); cbn [rbind]; [apply IH|reflexivity|reflexivity]. Qed.

Lemma copy_range_ok buf off src so n : 0 <= n -> 0 <= off -> off + n <= zlen buf -> 0 <= so -> so + n <= zlen src ->
  exists b, copy_range buf off src so n = Ok b /\ zlen b = zlen buf /\
  forall p, 0 <= p < zlen buf ->
    znth b p = if (off <=? p) && (p <? off + n) then znth src (so + (p - off)) else znth buf p.
Proof.
  intros Hn Ho Hb Hs Hl. unfold copy_range.
  replace ((0 <=? n) && (0 <=? off) && (off + n <=? zlen buf) && (0 <=? so) && (so + n <=? zlen src)) with true by lia.
  eexists. split; [reflexivity|].
  assert (L1 : zlen (ztake off buf) = off) by (apply zlen_ztake; lia).
  assert (L2 : zlen (ztake n (zdrop so src)) = n) by (apply zlen_ztake; rewrite ?zlen_zdrop; lia).
  split.
  - rewrite !zlen_app, L1, L2, zlen_zdrop. lia.
  - intros p Hp. destruct ((off <=? p) && (p <? off + n)) eqn:E.
    + rewrite znth_app_r, L1 by lia. rewrite znth_app_l by lia. rewrite znth_take, znth_drop by lia. reflexivity.
    + destruct (Z.lt_ge_cases p off) as [H|H].
      * rewrite znth_app_l by lia. now rewrite znth_take by lia.
      * rewrite znth_app_r, L1 by lia. rewrite znth_app_r, L2 by lia. rewrite znth_drop by lia. f_equal. lia.
Qed.

(** ** Valid rows of a stripe *)

Lemma validCounts_spec dims layout coords :
  ext_ok dims layout -> in_shape (chunk_grid dims layout) coords ->
  Forall (fun v => 0 < v) (validCounts dims layout coords) /\
  forall delta, in_shape layout delta ->
    (in_shape (validCounts dims layout coords) delta <-> isValid dims layout coords delta = true).
Proof.
  intros H. revert coords. induction H as [|d l ds ls (Hd & Hl & Hs) Ht IH]; intros coords Hc.
  - inversion Hc; subst. split; [constructor|]. intros delta Hdl. inversion Hdl; subst.
    split; [reflexivity|constructor].
  - inversion Hc as [|? c ? cs Hcc Hcs]; subst. destruct (IH cs Hcs) as [I1 I2]. cbn [validCounts].
    assert (Hcl : c * l < d).
    { destruct Hcc as [C0 C1]. assert ((c + 1) * l <= d + l - 1); [|lia].
      etransitivity; [apply Z.mul_le_mono_nonneg_r with (m := (d + l - 1) / l); lia|].
      rewrite Z.mul_comm. apply Z.mul_div_le. lia. }
    split.
    + constructor; [|exact I1]. destruct (d <? c * l + l) eqn:E; lia.
    + intros delta Hdl. inversion Hdl as [|? x ? xs Hx Hxs]; subst. cbn [isValid].
      rewrite andb_true_iff, <- (I2 xs Hxs). split.
      * intros Hin. inversion Hin as [|? ? ? ? Hy Hys]; subst. split; [|exact Hys].
        destruct (d <? c * l + l) eqn:E; lia.
      * intros [Hy Hys]. constructor; [|exact Hys]. destruct (d <? c * l + l) eqn:E; lia.
Qed.

Lemma valid_in_layout dims layout coords delta :
  ext_ok dims layout -> in_shape (chunk_grid dims layout) coords ->
  in_shape (validCounts dims layout coords) delta -> in_shape layout delta.
Proof.
  intros H. revert coords delta. induction H as [|d l ds ls (Hd & Hl & Hs) Ht IH]; intros coords delta Hc Hv.
  - inversion Hc; subst. inversion Hv; subst. constructor.
  - inversion Hc as [|? c ? cs Hcc Hcs]; subst. cbn [validCounts] in Hv. inversion Hv as [|? x ? xs Hx Hxs]; subst.
    constructor; [|exact (IH _ _ Hcs Hxs)]. destruct (d <? c * l + l) eqn:E; lia.
Qed.

Section Stripe.
Variables (lead llead coords : list Z) (lineLen L dt : Z).
Hypothesis (Hext : ext_ok lead llead) (Hin : in_shape (chunk_grid lead llead) coords)
  (HL : 1 <= L) (Hline : 0 < lineLen) (Hdt : 1 <= dt).
Let valid := validCounts lead llead coords.
Let R := volume valid.
Let W := lineLen * dt.
Let LD := L * dt.
Let CS := volume llead * LD.

Lemma st_valid_pos : Forall (fun v => 0 < v) valid.
Proof. apply validCounts_spec; assumption. Qed.

Lemma st_llead_pos : Forall (fun v => 0 < v) llead.
Proof.
  clear -Hext. revert Hext. unfold ext_ok. induction 1 as [|d l ds ls H1 H2 IH]; [constructor|].
  constructor; [lia|exact (IH H2)].
Qed.

Definition rcOf (row : Z) : Z := offset llead (fst (decode valid row)).

Lemma rcOf_range row : 0 <= row < R -> 0 <= rcOf row < volume llead.
Proof.
  intros H. apply offset_range. destruct (decode_small valid row st_valid_pos H) as [I _].
  exact (valid_in_layout _ _ _ _ Hext Hin I).
Qed.

(** The rows of a chunk and the valid rows of the stripe *)
Lemma rc_valid rc row : 0 <= rc < volume llead -> 0 <= row < R ->
  isValid lead llead coords (fst (decode llead rc)) = true ->
  (rcOf row = rc <-> row = offset valid (fst (decode llead rc))).
Proof.
  intros Hrc Hrow Hv. destruct (decode_small llead rc st_llead_pos Hrc) as [I1 I2].
  destruct (decode_small valid row st_valid_pos Hrow) as [J1 J2].
  pose proof (valid_in_layout _ _ _ _ Hext Hin J1) as J3.
  assert (I3 : in_shape valid (fst (decode llead rc))).
  { apply (proj2 (validCounts_spec _ _ _ Hext Hin)); assumption. }
  unfold rcOf. split.
  - intros E. rewrite <- E in *. rewrite decode_offset by exact J3. congruence.
  - intros ->. rewrite decode_offset by exact I3. exact I2.
Qed.

Lemma rc_invalid rc row : 0 <= row < R -> 0 <= rc < volume llead ->
  isValid lead llead coords (fst (decode llead rc)) = false -> rcOf row <> rc.
Proof.
  intros Hrow Hrc Hv E. destruct (decode_small valid row st_valid_pos Hrow) as [J1 J2].
  pose proof (valid_in_layout _ _ _ _ Hext Hin J1) as J3.
  apply (proj2 (validCounts_spec _ _ _ Hext Hin)) in J1; [|exact J3].
  unfold rcOf in E. rewrite <- E, decode_offset in Hv by exact J3. congruence.
Qed.

Lemma W_pos : 0 < W. Proof. unfold W. apply Z.mul_pos_pos; lia. Qed.
Lemma LD_pos : 0 < LD. Proof. unfold LD. apply Z.mul_pos_pos; lia. Qed.

Lemma p_split p : 0 <= p < R * W -> 0 <= p / W < R /\ 0 <= p mod W < W /\ p = W * (p / W) + p mod W.
Proof.
  intros H. pose proof W_pos. split; [split|split].
  - apply Z.div_pos; lia.
  - apply Z.div_lt_upper_bound; lia.
  - apply Z.mod_pos_bound; lia.
  - apply Z.div_mod; lia.
Qed.

(** The byte of the stripe at [p], from the chunks of the stripe *)
Definition pcol (p : Z) : Z := (p mod W) / LD.
Definition cell (chunk : bytes) (p : Z) : Z := znth chunk (rcOf (p / W) * LD + (p mod W) mod LD).

Lemma copy_rows gc chunk buf : 0 <= gc -> gc * L < lineLen -> zlen chunk = CS -> zlen buf = R * W ->
  forall m : nat, Z.of_nat m <= volume llead ->
  exists b, foldM (copyRow lead llead coords valid lineLen L dt gc chunk) (zseq (Z.of_nat m)) buf = Ok b /\
  zlen b = R * W /\
  forall p, 0 <= p < R * W ->
    znth b p = if (pcol p =? gc) && (rcOf (p / W) <? Z.of_nat m) then cell chunk p else znth buf p.
Proof.
  intros Hg Hgl Hc Hb. pose proof LD_pos as HLD. induction m as [|m IH]; intros Hm.
  - exists buf. split; [reflexivity|]. split; [exact Hb|]. intros p Hp.
    destruct (p_split p Hp) as (P1 & _). pose proof (rcOf_range (p / W) P1).
    replace ((pcol p =? gc) && (rcOf (p / W) <? Z.of_nat 0)) with false by lia. reflexivity.
  - destruct (IH ltac:(lia)) as (b & E & Lb & Hnth).
    replace (Z.of_nat (S m)) with (Z.of_nat m + 1) by lia. rewrite zseq_S by lia.
    rewrite foldM_app, E. cbn [rbind foldM]. clear E.
    set (rc := Z.of_nat m) in *. assert (Hrc : 0 <= rc < volume llead) by lia.
    unfold copyRow. pose proof (surjective_pairing (decode llead rc)) as Es. rewrite Es. clear Es.
    destruct (decode_small llead rc st_llead_pos Hrc) as [D1 D2].
    destruct (isValid lead llead coords (fst (decode llead rc))) eqn:Ev; cbn [negb].
    + replace (lineLen <=? gc * L) with false by lia.
      assert (DV : in_shape valid (fst (decode llead rc))).
      { apply (proj2 (validCounts_spec _ _ _ Hext Hin)); assumption. }
      rewrite encode_spec by exact (in_shape_length _ _ DV). cbn [fst].
      pose proof (offset_range _ _ DV) as OR. fold R in OR.
      set (dest := offset valid (fst (decode llead rc))) in *.
      set (cl := if lineLen <? gc * L + L then lineLen - gc * L else L).
      assert (Hcl : 0 < cl <= L /\ gc * L + cl <= lineLen /\ (cl = L \/ gc * L + cl = lineLen)) by (unfold cl; destruct (lineLen <? gc * L + L) eqn:?; lia).
      clearbody cl.
      assert (B1 : 0 <= cl * dt <= LD) by (unfold LD; nia).
      assert (B2 : gc * LD + cl * dt <= W) by (unfold LD, W; nia).
      assert (B3 : (dest * lineLen + gc * L) * dt = dest * W + gc * LD) by (unfold W, LD; ring).
      assert (B4 : rc * L * dt = rc * LD) by (unfold LD; ring).
      assert (B5 : 0 <= gc * LD) by (apply Z.mul_nonneg_nonneg; lia).
      assert (B6 : (dest + 1) * W <= R * W) by (apply Z.mul_le_mono_nonneg_r; pose proof W_pos; lia).
      assert (B7 : 0 <= dest * W) by (apply Z.mul_nonneg_nonneg; pose proof W_pos; lia).
      assert (B8 : (rc + 1) * LD <= CS) by (unfold CS; apply Z.mul_le_mono_nonneg_r; lia).
      assert (B9 : 0 <= rc * LD) by (apply Z.mul_nonneg_nonneg; lia).
      rewrite B3, B4.
      destruct (copy_range_ok b (dest * W + gc * LD) chunk (rc * LD) (cl * dt)) as (b' & Eb & Lb' & Nb); try lia.
      exists b'. rewrite Eb. cbn [rbind]. split; [reflexivity|]. split; [lia|].
      intros p Hp. rewrite Nb by lia. destruct (p_split p Hp) as (P1 & P2 & P3).
      pose proof (rcOf_range (p / W) P1) as RR.
      pose proof (rc_valid rc (p / W) Hrc P1 Ev) as RV. fold dest in RV.
      assert (K : ((dest * W + gc * LD <=? p) && (p <? dest * W + gc * LD + cl * dt)) =
                  ((pcol p =? gc) && (rcOf (p / W) =? rc))).
      { unfold pcol. destruct (Z.eq_dec (p / W) dest) as [Ed|Ed].
        - rewrite (proj2 RV Ed), Z.eqb_refl, andb_true_r. rewrite Ed in P3.
          destruct (Z.eq_dec ((p mod W) / LD) gc) as [Eg|Eg].
          + rewrite Eg, Z.eqb_refl.
            pose proof (Z.mul_div_le (p mod W) LD HLD). pose proof (Z.mul_succ_div_gt (p mod W) LD HLD).
            rewrite Eg in *. destruct Hcl as (_ & _ & [->|Hcl]).
            * fold LD. lia.
            * assert (gc * LD + cl * dt = W) by (unfold LD, W; nia). lia.
          + replace (p mod W / LD =? gc) with false by lia.
            assert (p mod W < gc * LD \/ gc * LD + LD <= p mod W); [|lia].
            destruct (Z.lt_ge_cases (p mod W / LD) gc) as [Hlt|Hge].
            * left. pose proof (Z.mul_succ_div_gt (p mod W) LD HLD).
              assert (LD * Z.succ (p mod W / LD) <= LD * gc) by (apply Z.mul_le_mono_nonneg_l; lia). lia.
            * right. pose proof (Z.mul_div_le (p mod W) LD HLD).
              assert (LD * (gc + 1) <= LD * (p mod W / LD)) by (apply Z.mul_le_mono_nonneg_l; lia). lia.
        - replace (rcOf (p / W) =? rc) with false by (symmetry; apply Z.eqb_neq; intros E; apply Ed, RV, E).
          rewrite andb_false_r.
          destruct (Z.lt_ge_cases (p / W) dest) as [Hlt|Hge].
          + assert (W * (p / W + 1) <= W * dest) by (apply Z.mul_le_mono_nonneg_l; pose proof W_pos; lia). lia.
          + assert (W * (dest + 1) <= W * (p / W)) by (apply Z.mul_le_mono_nonneg_l; pose proof W_pos; lia). lia. }
      rewrite K. destruct (pcol p =? gc) eqn:Eg; cbn [andb].
      * destruct (rcOf (p / W) =? rc) eqn:Er.
        -- replace (rcOf (p / W) <? rc + 1) with true by lia. unfold cell. f_equal.
           assert (p / W = dest) as Ed by (apply RV; lia).
           assert (p mod W / LD = gc) as Eg' by (unfold pcol in Eg; lia).
           pose proof (Z.div_mod (p mod W) LD ltac:(lia)) as DM. rewrite Eg' in DM.
           replace (rcOf (p / W)) with rc by lia. rewrite Ed in P3. lia.
        -- rewrite Hnth by exact Hp. rewrite Eg. cbn [andb].
           replace (rcOf (p / W) <? rc + 1) with (rcOf (p / W) <? rc) by lia. reflexivity.
      * rewrite Hnth by exact Hp. rewrite Eg. reflexivity.
    + exists b. split; [reflexivity|]. split; [exact Lb|]. intros p Hp. rewrite Hnth by exact Hp.
      destruct (p_split p Hp) as (P1 & _).
      pose proof (rc_invalid rc (p / W) P1 Hrc Ev).
      replace (rcOf (p / W) <? rc + 1) with (rcOf (p / W) <? rc) by lia. reflexivity.
Qed.

Definition chunk_at (r : bytes) (j : Z) : bytes := ztake CS (zdrop (j * CS) r).

Lemma CS_nonneg : 0 < CS.
Proof. unfold CS. apply Z.mul_pos_pos; [apply volume_pos, st_llead_pos|apply LD_pos]. Qed.

Lemma read_chunks r buf0 (G : Z) : zlen buf0 = R * W -> (G - 1) * L < lineLen -> G * CS <= zlen r ->
  forall k : nat, Z.of_nat k <= G ->
  exists b, foldM (fun (st : bytes * bytes) gc =>
                   let* (chunk, r) := rd CS (snd st) in
                   let* buf := foldM (copyRow lead llead coords valid lineLen L dt gc chunk)
                                     (zseq (volume llead)) (fst st) in
                   Ok (buf, r)) (zseq (Z.of_nat k)) (buf0, r) = Ok (b, zdrop (Z.of_nat k * CS) r) /\
  zlen b = R * W /\
  forall p, 0 <= p < R * W ->
    znth b p = if pcol p <? Z.of_nat k then cell (chunk_at r (pcol p)) p else znth buf0 p.
Proof.
  intros Hb HG Hr. pose proof CS_nonneg as HCS. induction k as [|k IH]; intros Hk.
  - exists buf0. split; [reflexivity|]. split; [exact Hb|]. intros p Hp.
    destruct (p_split p Hp) as (_ & P2 & _).
    pose proof (Z.div_pos (p mod W) LD ltac:(lia) LD_pos) as Q. fold (pcol p) in Q.
    replace (pcol p <? Z.of_nat 0) with false by lia. reflexivity.
  - destruct (IH ltac:(lia)) as (b & E & Lb & Hnth).
    replace (Z.of_nat (S k)) with (Z.of_nat k + 1) by lia. rewrite zseq_S by lia.
    rewrite foldM_app, E. cbn [rbind foldM fst snd]. clear E. set (gc := Z.of_nat k) in *.
    assert (B0 : 0 <= gc * CS) by (apply Z.mul_nonneg_nonneg; lia).
    assert (B1 : (gc + 1) * CS <= G * CS) by (apply Z.mul_le_mono_nonneg_r; lia).
    unfold rd. rewrite zlen_zdrop. replace (CS <=? Z.max 0 (zlen r - Z.max (gc * CS) 0)) with true by lia.
    cbn [rbind]. fold (chunk_at r gc).
    assert (LC : zlen (chunk_at r gc) = CS) by (unfold chunk_at; apply zlen_ztake; rewrite ?zlen_zdrop; lia).
    assert (HgL : gc * L < lineLen).
    { assert (gc * L <= (G - 1) * L) by (apply Z.mul_le_mono_nonneg_r; lia). lia. }
    pose proof (volume_pos _ st_llead_pos) as VP.
    destruct (copy_rows gc (chunk_at r gc) b ltac:(lia) HgL LC Lb (Z.to_nat (volume llead)) ltac:(lia)) as (b' & E' & Lb' & Nb).
    rewrite Z2Nat.id in E' by lia. rewrite E'. cbn [rbind]. exists b'. split; [|split; [exact Lb'|]].
    + do 2 f_equal. rewrite zdrop_zdrop by lia. f_equal. lia.
    + intros p Hp. rewrite Nb by exact Hp. destruct (p_split p Hp) as (P1 & _).
      pose proof (rcOf_range _ P1) as RR. rewrite Z2Nat.id by lia.
      replace (rcOf (p / W) <? volume llead) with true by lia. rewrite andb_true_r.
      destruct (pcol p =? gc) eqn:Eg.
      * replace (pcol p <? gc + 1) with true by lia. replace (pcol p) with gc by lia. reflexivity.
      * rewrite Hnth by exact Hp. replace (pcol p <? gc + 1) with (pcol p <? gc) by lia. reflexivity.
Qed.
End Stripe.
