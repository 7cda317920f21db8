(** Blocks, holes and ranges: what newRecordReader delivers. *)
From Coq Require Import ZifyBool ZifyNat Permutation.
From Verif Require Import Prelude BaseLemmas GoVal FillModel FillProofs ArraySpec IndexProofs H5Base H5MetaRead
  H5ChecksumProofs H5LayoutModel H5Value H5TypeRead H5RecordModel ChunkSpec H5ChunkProofs MetaSpec H5MetaProofs RecordSpec.

(** ** The stream of pieces *)

Lemma zlen_stream pat ps lo hi : zlen (stream pat ps lo hi) = Z.max 0 (hi - lo).
Proof. unfold stream. rewrite zlen_map. unfold zlen. rewrite seq_length. lia. Qed.

Lemma znth_stream pat ps lo hi p : 0 <= p < hi - lo -> znth (stream pat ps lo hi) p = byte_at pat ps lo (lo + p).
Proof.
  intros H. unfold znth, stream.
  rewrite (nth_indep _ 0 (byte_at pat ps lo (lo + Z.of_nat 0))) by (rewrite map_length, seq_length; lia).
  rewrite (map_nth (fun i => byte_at pat ps lo (lo + Z.of_nat i))). rewrite seq_nth by lia. f_equal. lia.
Qed.

Lemma stream_ext pat ps ps' lo hi lo' : lo' = lo ->
  (forall p, lo <= p < hi -> byte_at pat ps lo p = byte_at pat ps' lo' p) -> stream pat ps lo hi = stream pat ps' lo' hi.
Proof.
  intros -> H. unfold stream. apply map_ext_in. intros i Hi. apply in_seq in Hi. apply H. lia.
Qed.

Lemma zlen_fill pat n : pat <> [] -> zlen (fillBytes pat n) = Z.max 0 n.
Proof.
  intros H. assert (0 < List.length pat)%nat by (destruct pat; [contradiction|cbn; lia]).
  unfold fillBytes, new_fvr. rewrite fv_read_spec by assumption. cbn [fst]. unfold zlen. rewrite cyc_length. lia.
Qed.
Lemma znth_fill pat n p : pat <> [] -> 0 <= p < n -> znth (fillBytes pat n) p = nth (Z.to_nat (p mod zlen pat)) pat 0.
Proof.
  intros H Hp. assert (L : (0 < List.length pat)%nat) by (destruct pat; [contradiction|cbn; lia]).
  unfold fillBytes, new_fvr. rewrite fv_read_spec by assumption. cbn [fst]. unfold znth, cyc.
  rewrite (nth_indep _ 0 (nth (0 mod List.length pat) pat 0)) by (rewrite map_length, seq_length; lia).
  rewrite (map_nth (fun i => nth (i mod List.length pat) pat 0)). rewrite seq_nth by lia. f_equal.
  rewrite Nat.add_0_l. unfold zlen. rewrite <- (Z2Nat.id p) at 2 by lia.
  rewrite <- Nat2Z.inj_mod. rewrite Nat2Z.id. reflexivity.
Qed.

Lemma hole_start_le ps lo p : lo <= p -> lo <= hole_start ps lo p <= p.
Proof.
  intros H. induction ps as [|x r IH]; cbn [hole_start fold_right]; [lia|].
  fold (hole_start r lo p). destruct (Z.leb_spec (p_end x) p); lia.
Qed.

(** Pieces that lie wholly before or behind do not matter *)
Lemma find_none_iff {A} (g : A -> bool) l : find g l = None <-> Forall (fun x => g x = false) l.
Proof.
  split.
  - intros H. apply Forall_forall. intros x Hx. exact (find_none g l H x Hx).
  - induction 1 as [|x r Hx Hr IH]; [reflexivity|]. cbn [find]. rewrite Hx. exact IH.
Qed.

Lemma stream_fill pat lo hi : pat <> [] -> lo <= hi -> stream pat [] lo hi = fillBytes pat (hi - lo).
Proof.
  intros Hp H. apply znth_ext.
  - rewrite zlen_stream, zlen_fill by assumption. reflexivity.
  - intros p. rewrite zlen_stream. intros B. rewrite znth_stream, znth_fill by (assumption || lia).
    unfold byte_at. cbn [find hole_start fold_right]. do 3 f_equal. lia.
Qed.

(** A later start of the hole is that of the last piece before *)
Lemma hole_start_cons x r lo p : Forall (fun y => p_end x <= fst y) r -> p_end x <= p -> lo <= p_end x ->
  hole_start (x :: r) lo p = hole_start r (p_end x) p.
Proof.
  intros F Hp Hl. cbn [hole_start fold_right]. fold (hole_start r lo p).
  replace (p_end x <=? p) with true by lia.
  induction r as [|y r IH]; cbn [hole_start fold_right].
  - lia.
  - inversion F as [|y' r' Fy Fr]; subst. fold (hole_start r lo p) (hole_start r (p_end x) p).
    specialize (IH Fr). assert (p_end x <= p_end y) by (unfold p_end in *; pose proof (zlen_nonneg (snd y)); lia).
    destruct (Z.leb_spec (p_end y) p); lia.
Qed.
Lemma nonempty_len {A} (l : list A) : l <> [] -> 0 < zlen l.
Proof. destruct l; [contradiction|]. intros _. rewrite zlen_cons. pose proof (zlen_nonneg l). lia. Qed.
Lemma hole_start_before (ps : list piece) lo p : Forall (fun y : piece => p <= fst y /\ snd y <> []) ps -> hole_start ps lo p = lo.
Proof.
  induction 1 as [|y r [Hy Ny] Hr IH]; [reflexivity|]. cbn [hole_start fold_right]. fold (hole_start r lo p). rewrite IH.
  pose proof (nonempty_len _ Ny).
  unfold p_end. destruct (Z.leb_spec (fst y + zlen (snd y)) p). all: lia.
Qed.

Lemma stream_cons pat o (b : bytes) (r : list piece) lo hi : pat <> [] -> lo <= o -> b <> [] -> o + zlen b <= hi ->
  Forall (fun y : piece => o + zlen b <= fst y /\ snd y <> []) r ->
  stream pat ((o, b) :: r) lo hi = fillBytes pat (o - lo) ++ b ++ stream pat r (o + zlen b) hi.
Proof.
  intros Hp Hlo Hb Hhi F. pose proof (zlen_nonneg b) as Lb.
  pose proof (nonempty_len _ Hb) as Lb'.
  apply znth_ext.
  - rewrite !zlen_app, !zlen_stream, zlen_fill by assumption. lia.
  - intros p. rewrite zlen_stream. intros B. rewrite znth_stream by lia.
    assert (LF : zlen (fillBytes pat (o - lo)) = o - lo) by (rewrite zlen_fill by assumption; lia).
    destruct (Z.lt_ge_cases p (o - lo)) as [C|C].
    + rewrite znth_app_l by lia. rewrite znth_fill by (assumption || lia).
      assert (N : Forall (fun y : piece => lo + p <= fst y /\ snd y <> []) ((o, b) :: r)).
      { constructor; [cbn [fst snd]; split; [lia|assumption]|].
        eapply Forall_impl; [|exact F]. cbn beta. intros y [? ?]. split; [lia|assumption]. }
      unfold byte_at. rewrite hole_start_before by exact N.
      assert (Fn : find (covers (lo + p)) ((o, b) :: r) = None).
      { apply find_none_iff. constructor.
        - unfold covers. cbn [fst]. lia.
        - eapply Forall_impl; [|exact F]. cbn beta. intros y [? ?]. unfold covers. lia. }
      rewrite Fn. do 3 f_equal. lia.
    + rewrite znth_app_r by lia. rewrite LF.
      destruct (Z.lt_ge_cases (p - (o - lo)) (zlen b)) as [D|D].
      * rewrite znth_app_l by lia. unfold byte_at. cbn [find].
        assert (C1 : covers (lo + p) (o, b) = true) by (unfold covers, p_end; cbn [fst snd]; lia).
        rewrite C1. cbn [fst snd]. unfold znth. do 2 f_equal. lia.
      * rewrite znth_app_r by lia. rewrite znth_stream by lia.
        replace (o + zlen b + (p - (o - lo) - zlen b)) with (lo + p) by lia.
        unfold byte_at. cbn [find].
        assert (C1 : covers (lo + p) (o, b) = false) by (unfold covers, p_end; cbn [fst snd]; lia).
        rewrite C1. destruct (find (covers (lo + p)) r); [reflexivity|].
        rewrite hole_start_cons; [reflexivity| | |].
        -- eapply Forall_impl; [|exact F]. cbn beta. intros y [? ?]. unfold p_end. cbn [fst snd]. lia.
        -- unfold p_end. cbn [fst snd]. lia.
        -- unfold p_end. cbn [fst snd]. lia.
Qed.

(** ** Joining segments *)

Definition seg_piece (s : segment) : piece := (s_off s, ztake (s_len s) (s_data s)).

(** Segments in order from [lo] on *)
Fixpoint in_row (lo hi : Z) (l : list segment) : Prop :=
  match l with
  | [] => lo <= hi
  | s :: r => lo <= s_off s /\ 0 <= s_len s <= zlen (s_data s) /\ in_row (s_off s + s_len s) hi r
  end.
Lemma in_row_le l : forall lo hi, in_row lo hi l -> lo <= hi.
Proof. induction l as [|s r IH]; cbn [in_row]; intros lo hi H; [exact H|]. destruct H as (A & B & C). apply IH in C. lia. Qed.
Lemma in_row_all l : forall lo hi, in_row lo hi l -> Forall (fun s => lo <= s_off s /\ s_off s + s_len s <= hi) l.
Proof.
  induction l as [|s r IH]; cbn [in_row]; intros lo hi H; [constructor|]. destruct H as (A & B & C).
  pose proof (in_row_le _ _ _ C). constructor; [lia|].
  eapply Forall_impl; [|exact (IH _ _ C)]. cbn beta. lia.
Qed.

Lemma fill_zero pat n : n <= 0 -> fillBytes pat n = [].
Proof. intros H. unfold fillBytes. replace (Z.to_nat n) with O by lia. unfold fv_read. cbn. reflexivity. Qed.

Lemma joinSegs_spec pat : pat <> [] -> forall l lo hi, 0 <= lo -> hi < 2 ^ 63 -> in_row lo hi l ->
  exists b off, joinSegs pat l lo = (b, off) /\ lo <= off <= hi /\ zlen b = off - lo /\
    (Forall (fun s => 0 < s_len s) l ->
       b ++ fillBytes pat (hi - off) = stream pat (map seg_piece l) lo hi /\
       (l = [] -> b = []) /\ (l <> [] -> Exists (fun s => off = s_off s + s_len s) l)).
Proof.
  intros Hp l. induction l as [|s r IH]; cbn [joinSegs in_row map]; intros lo hi Hlo Hhi H.
  - exists [], lo. split; [reflexivity|]. split; [lia|]. split; [rewrite zlen_nil; lia|]. intros _.
    split; [|split; [reflexivity|congruence]]. cbn [app]. rewrite stream_fill by (assumption || lia). reflexivity.
  - destruct H as (A & B & C). pose proof (in_row_le _ _ _ C) as D.
    replace (if lo <? s_off s then s_off s else lo) with (s_off s) by (destruct (Z.ltb_spec lo (s_off s)); lia).
    rewrite (u64_small (s_off s + s_len s)) by lia.
    assert (S0 : 0 <= s_off s + s_len s) by lia. destruct (IH _ _ S0 Hhi C) as (b & off & E & O & L & K). rewrite E.
    rewrite (i64_small (s_off s - lo)), (i64_small (s_len s)) by lia.
    set (hole := if lo <? s_off s then fillBytes pat (s_off s - lo) else []).
    assert (EH : hole = fillBytes pat (s_off s - lo)).
    { subst hole. destruct (Z.ltb_spec lo (s_off s)); [reflexivity|]. rewrite fill_zero by lia. reflexivity. }
    rewrite EH. clearbody hole. clear EH hole.
    eexists _, off. split; [reflexivity|]. split; [lia|].
    split; [rewrite !zlen_app, zlen_fill, zlen_ztake by (assumption || lia); lia|].
    intros P. inversion P as [|s' r' Ps Pr]; subst. destruct (K Pr) as (K1 & K2 & K3).
    split; [|split; [congruence|]].
    + unfold seg_piece at 1. rewrite stream_cons; try assumption; try lia.
      * rewrite zlen_ztake by lia. rewrite <- K1. rewrite <- !app_assoc. reflexivity.
      * intros X. apply (f_equal zlen) in X. rewrite zlen_ztake in X by lia. cbn in X. lia.
      * rewrite zlen_ztake by lia. lia.
      * rewrite zlen_ztake by lia. apply Forall_map.
        pose proof (in_row_all _ _ _ C) as AL. clear -AL Pr C.
        assert (G : forall l lo hi, in_row lo hi l -> Forall (fun s => 0 < s_len s) l -> Forall (fun s => 0 < s_len s <= zlen (s_data s)) l).
        { clear. induction l as [|s l IH]; intros lo hi H F; [constructor|]. cbn [in_row] in H. destruct H as (A & B & C).
          inversion F; subst. constructor; [lia|]. eapply IH; eassumption. }
        specialize (G _ _ _ C Pr). rewrite Forall_forall in *. intros x Hx. specialize (AL x Hx). specialize (G x Hx).
        unfold seg_piece. cbn [fst snd]. split; [lia|].
        intros X. apply (f_equal zlen) in X. rewrite zlen_ztake in X by lia. cbn in X. lia.
    + intros _. destruct r as [|s2 r].
      * left. cbn [joinSegs] in E. congruence.
      * right. apply K3. discriminate.
Qed.

(** ** Bytes by position *)

Lemma byte_covered pat ps lo p x : apart ps -> In x ps -> covers p x = true ->
  byte_at pat ps lo p = nth (Z.to_nat (p - fst x)) (snd x) 0.
Proof.
  intros A I C. unfold byte_at. assert (E : find (covers p) ps = Some x); [|rewrite E; reflexivity].
  induction A as [|y r F A IH]; [contradiction|]. cbn [find]. destruct I as [->|I].
  - rewrite C. reflexivity.
  - rewrite (IH I). destruct (covers p y) eqn:Cy; [|reflexivity]. exfalso.
    rewrite Forall_forall in F. specialize (F x I). unfold covers in *. lia.
Qed.
Lemma byte_hole pat ps lo p h : Forall (fun x => covers p x = false) ps ->
  (h = lo \/ exists x, In x ps /\ p_end x = h) -> lo <= h <= p ->
  Forall (fun x => p_end x <= p -> p_end x <= h) ps ->
  byte_at pat ps lo p = nth (Z.to_nat ((p - h) mod zlen pat)) pat 0.
Proof.
  intros N H B F. unfold byte_at. apply find_none_iff in N. rewrite N. clear N.
  assert (E : hole_start ps lo p = h); [|rewrite E; reflexivity].
  assert (U : hole_start ps lo p <= h).
  { clear H. induction F as [|x r Fx Fr IH]; cbn [hole_start fold_right]; [lia|]. fold (hole_start r lo p).
    destruct (Z.leb_spec (p_end x) p); lia. }
  assert (L : forall x, In x ps -> p_end x <= p -> p_end x <= hole_start ps lo p).
  { clear. induction ps as [|y r IH]; intros x I Hx; [contradiction|]. cbn [hole_start fold_right]. fold (hole_start r lo p).
    destruct I as [->|I].
    - replace (p_end x <=? p) with true by lia. lia.
    - specialize (IH x I Hx). destruct (Z.leb_spec (p_end y) p); lia. }
  destruct H as [->|(x & I & <-)].
  - pose proof (hole_start_le ps lo p). lia.
  - specialize (L x I). lia.
Qed.

(** The hole start is one of these *)
Lemma hole_start_is ps lo p : hole_start ps lo p = lo \/ exists x, In x ps /\ p_end x = hole_start ps lo p.
Proof.
  induction ps as [|y r IH]; cbn [hole_start fold_right]; [left; reflexivity|]. fold (hole_start r lo p).
  destruct (Z.leb_spec (p_end y) p).
  - destruct (Z.max_spec (hole_start r lo p) (p_end y)) as [[_ E]|[_ E]]; rewrite E.
    + right. exists y. split; [left|]; reflexivity.
    + destruct IH as [IH|(x & I & IH)]; [left; exact IH|]. right. exists x. split; [right; exact I|exact IH].
  - destruct IH as [IH|(x & I & IH)]; [left; exact IH|]. right. exists x. split; [right; exact I|exact IH].
Qed.
Lemma hole_start_max ps lo p : Forall (fun x => p_end x <= p -> p_end x <= hole_start ps lo p) ps.
Proof.
  apply Forall_forall. induction ps as [|y r IH]; intros x I Hx; [contradiction|]. cbn [hole_start fold_right]. fold (hole_start r lo p).
  destruct I as [->|I].
  - replace (p_end x <=? p) with true by lia. lia.
  - specialize (IH x I Hx). destruct (Z.leb_spec (p_end y) p); lia.
Qed.

(** ** Parts of pieces *)

Lemma end_ge x : fst x <= p_end x.
Proof. unfold p_end. pose proof (zlen_nonneg (snd x)). lia. Qed.

Definition touches (first last : Z) (x : piece) : bool := (first <? p_end x) && (fst x <? last).
Definition clip (first last : Z) (x : piece) : piece :=
  let a := Z.max (fst x) first in (a, part (snd x) (a - fst x) (Z.min (p_end x) last - a)).

Lemma clip_end first last x : first <= last -> touches first last x = true ->
  p_end (clip first last x) = Z.max (Z.min (p_end x) last) (Z.max (fst x) first).
Proof.
  unfold touches, clip, part, p_end. cbn [fst snd]. intros H T. pose proof (zlen_nonneg (snd x)).
  rewrite zlen_ztake_min, zlen_zdrop. lia.
Qed.

Lemma apart_In ps x y : apart ps -> In x ps -> In y ps -> x = y \/ p_end x <= fst y \/ p_end y <= fst x.
Proof.
  induction 1 as [|z r F A IH]; [contradiction|]. rewrite Forall_forall in F. intros [->|Ix] [->|Iy].
  - left. reflexivity.
  - right. exact (F y Iy).
  - right. specialize (F x Ix). tauto.
  - exact (IH Ix Iy).
Qed.

Lemma stream_clip pat ps qs first last : apart ps -> apart qs -> 0 < zlen pat ->
  Permutation qs (map (clip first last) (filter (touches first last) ps)) ->
  stream pat qs first last = stream pat ps first last.
Proof.
  intros A Aq Hp P. apply stream_ext; [reflexivity|]. intros p B.
  assert (Q : forall x, In x ps -> touches first last x = true -> In (clip first last x) qs).
  { intros x I T. eapply Permutation_in; [apply Permutation_sym; exact P|]. apply in_map. apply filter_In. split; assumption. }
  assert (Q' : forall y, In y qs -> exists x, In x ps /\ touches first last x = true /\ y = clip first last x).
  { intros y I. eapply Permutation_in in I; [|exact P]. apply in_map_iff in I. destruct I as (x & E & I).
    apply filter_In in I. exists x. split; [apply I|]. split; [apply I|]. symmetry. exact E. }
  destruct (find (covers p) ps) as [x|] eqn:Fx.
  - apply find_some in Fx. destruct Fx as [I C].
    assert (T : touches first last x = true) by (unfold touches, covers in *; lia).
    assert (C' : covers p (clip first last x) = true).
    { unfold covers. rewrite clip_end by (lia || assumption). unfold covers in C. cbn [clip fst]. lia. }
    rewrite (byte_covered pat qs first p _ Aq (Q _ I T) C'), (byte_covered pat ps first p x A I C).
    unfold covers, p_end in C. cbn [clip fst snd]. pose proof (zlen_nonneg (snd x)) as Ln.
    change (znth (part (snd x) (Z.max (fst x) first - fst x) (Z.min (p_end x) last - Z.max (fst x) first)) (p - Z.max (fst x) first) = znth (snd x) (p - fst x)).
    unfold part. rewrite znth_take by (unfold p_end; lia). rewrite znth_drop by lia. f_equal. lia.
  - pose proof (proj1 (find_none_iff _ _) Fx) as N. rewrite Forall_forall in N.
    pose proof (hole_start_max ps first p) as Mx. rewrite Forall_forall in Mx.
    assert (Hl : first <= p) by lia. pose proof (hole_start_le ps first p Hl) as HS.
    rewrite (byte_hole pat qs first p (hole_start ps first p)).
    + unfold byte_at. rewrite Fx. reflexivity.
    + apply Forall_forall. intros y I. destruct (Q' y I) as (x & Ix & T & ->). specialize (N x Ix).
      unfold covers in *. rewrite clip_end by (lia || assumption). unfold touches in T. cbn [clip fst]. lia.
    + destruct (hole_start_is ps first p) as [E|(x & I & E)]; [left; exact E|].
      destruct (Z.eq_dec (hole_start ps first p) first) as [E1|E1]; [left; exact E1|]. right.
      assert (T : touches first last x = true).
      { unfold touches, p_end in *. pose proof (zlen_nonneg (snd x)). lia. }
      exists (clip first last x). split; [exact (Q _ I T)|]. rewrite clip_end by (lia || assumption).
      unfold touches, p_end in *. pose proof (zlen_nonneg (snd x)). lia.
    + exact HS.
    + apply Forall_forall. intros y I. destruct (Q' y I) as (x & Ix & T & ->). specialize (Mx x Ix).
      rewrite clip_end by (lia || assumption). unfold touches in T. assert (fst x <= p_end x) by (unfold p_end; pose proof (zlen_nonneg (snd x)); lia). lia.
Qed.

Lemma apart_perm ps qs : Permutation ps qs -> apart ps -> apart qs.
Proof.
  induction 1 as [|x a b P IH|x y a|a b c P1 IH1 P2 IH2]; intros A.
  - constructor.
  - inversion A as [|x' r' F A']; subst. constructor; [|exact (IH A')]. eapply Permutation_Forall; eassumption.
  - inversion A as [|x' r' F A']; subst. inversion A' as [|x'' r'' F' A'']; subst. inversion F as [|x3 r3 G F3]; subst.
    constructor; [constructor; [tauto|assumption]|]. constructor; assumption.
  - exact (IH2 (IH1 A)).
Qed.

Lemma apart_clip ps first last : first <= last -> apart ps -> apart (map (clip first last) (filter (touches first last) ps)).
Proof.
  intros H A. induction A as [|x r F A IH]; [constructor|]. cbn [filter].
  destruct (touches first last x) eqn:T; [|exact IH]. cbn [map]. constructor; [|exact IH].
  apply Forall_forall. intros y I. apply in_map_iff in I. destruct I as (z & <- & I). apply filter_In in I. destruct I as [I Tz].
  rewrite Forall_forall in F. specialize (F z I). rewrite !clip_end by assumption.
  pose proof (end_ge x). pose proof (end_ge z). unfold touches in *. cbn [clip fst]. lia.
Qed.

(** ** From blocks to segments *)

Lemma part_app_l {A} (a b : list A) s n : 0 <= s -> s + n <= zlen a -> part (a ++ b) s n = part a s n.
Proof.
  intros Hs H. unfold part. destruct (Z.le_gt_cases s (zlen a)).
  - rewrite zdrop_app_l by lia. destruct (Z.le_gt_cases n 0); [rewrite !ztake_0 by lia; reflexivity|].
    apply ztake_app_l. rewrite zlen_zdrop. lia.
  - rewrite !ztake_0 by lia. reflexivity.
Qed.
Lemma part_take {A} (a : list A) m s n : 0 <= s -> s + n <= m -> part (ztake m a) s n = part a s n.
Proof.
  intros Hs H. unfold part. destruct (Z.le_gt_cases n 0); [rewrite !ztake_0 by lia; reflexivity|].
  rewrite !ztake_zdrop_comm by lia. rewrite ztake_ztake. do 2 f_equal. lia.
Qed.
Lemma zlen_part {A} (a : list A) s n : 0 <= s -> 0 <= n -> s + n <= zlen a -> zlen (part a s n) = n.
Proof. intros. unfold part. rewrite zlen_ztake; rewrite ?zlen_zdrop; lia. Qed.

Lemma readBlock_ok f d first last_ b o data : zlen f < 2 ^ 63 -> block_data f d b data ->
  0 <= o -> 0 <= first <= last_ -> last_ < 2 ^ 63 -> o + zlen data < 2 ^ 63 -> touches first last_ (o, data) = true ->
  exists s, readBlock f d first last_ b o = Ok s /\ seg_piece s = clip first last_ (o, data) /\
    s_len s = zlen (snd (clip first last_ (o, data))) /\ s_len s <= zlen (s_data s).
Proof.
  intros Hf (Ld & Nd & D) Ho Hr Hl Hs T. pose proof (nonempty_len _ Nd) as Pd.
  unfold touches in T. unfold p_end in T. cbn [fst snd] in T.
  unfold clip, p_end. cbn [fst snd]. set (a := Z.max o first). set (n := Z.min (o + zlen data) last_ - a).
  assert (Bn : 0 <= n) by lia. assert (Ba : 0 <= a - o) by lia. assert (Bs : a - o + n <= zlen data) by lia.
  unfold readBlock. rewrite <- Ld. cbv zeta. rewrite (u64_small (o + zlen data)) by lia.
  set (sb := if (o <=? first) && (first <? o + zlen data) then u64 (first - o) else 0).
  assert (Esb : sb = a - o).
  { subst sb. destruct ((o <=? first) && (first <? o + zlen data)) eqn:E; [rewrite u64_small by lia|]; lia. }
  set (se := if last_ <? o + zlen data then u64 (o + zlen data - last_) else 0).
  assert (Ese : se = zlen data - (a - o) - n).
  { subst se. destruct (Z.ltb_spec last_ (o + zlen data)); [rewrite u64_small by lia|]; lia. }
  clearbody sb se. subst sb se.
  rewrite (u64_small (a - o + _)) by lia. replace (zlen data - (a - o + (zlen data - (a - o) - n))) with n by lia.
  rewrite (u64_small n), (u64_small (o + (a - o))), (i64_small (a - o)) by lia.
  replace (o + (a - o)) with a by lia.
  destruct (b_raw b) as [raw|].
  - destruct D as [(more & ->) Hid].
    replace (zlen data - (zlen data - (a - o) - n)) with (a - o + n) by lia.
    rewrite (u64_small (a - o + n)), (i64_small (a - o + n)) by lia.
    unfold prefix_of. rewrite zlen_app. pose proof (zlen_nonneg more).
    replace ((0 <=? a - o + n) && (a - o + n <=? zlen data + zlen more)) with true by lia.
    cbn [rbind]. rewrite Hid. cbn [rbind]. rewrite ztake_app_l by lia.
    destruct (Z.ltb_spec 0 (a - o)).
    + unfold skip. rewrite zlen_ztake by lia. replace (a - o <=? a - o + n) with true by lia. cbn [rbind].
      eexists. split; [reflexivity|]. unfold seg_piece. cbn [s_off s_len s_data].
      split; [|split].
      * f_equal. change (part (ztake (a - o + n) data) (a - o) n = part data (a - o) n). apply part_take; lia.
      * rewrite zlen_part by lia. reflexivity.
      * rewrite zlen_zdrop, zlen_ztake by lia. lia.
    + cbn [rbind]. eexists. split; [reflexivity|]. unfold seg_piece. cbn [s_off s_len s_data].
      replace (a - o) with 0 by lia. split; [|split].
      * f_equal. rewrite ztake_ztake. unfold part. rewrite zdrop_0 by lia. f_equal. lia.
      * rewrite zlen_part by lia. reflexivity.
      * rewrite zlen_ztake by lia. lia.
  - destruct D as (disk & more & Hat & Lk & Nk & Hfl & Hseek). pose proof (nonempty_len _ Nk) as Pk.
    pose proof (has_at_bound _ _ _ Hat) as [Ab Ae].
    rewrite i64_small by lia. rewrite (newSeek_at _ _ _ _ Hat) by lia. cbn [rbind]. rewrite Hfl. cbn [rbind].
    pose proof (zlen_nonneg more).
    destruct (Z.ltb_spec 0 (a - o)).
    + destruct (d_seek d) eqn:Es.
      * destruct (Hseek eq_refl) as (more' & Ek). pose proof (zlen_nonneg more').
        assert (Lk' : zlen disk = zlen data + zlen more') by (rewrite Ek, zlen_app; reflexivity).
        rewrite u64_small by lia. rewrite (i64_small n) by lia.
        assert (Ha2 : has_at f (b_addr b + (a - o)) (zdrop (a - o) data)).
        { rewrite Ek in Hat. apply has_at_app_l in Hat. rewrite <- (ztake_zdrop (a - o) data) in Hat.
          apply has_at_app_r in Hat. rewrite zlen_ztake in Hat by lia. exact Hat. }
        destruct (Z.eq_dec n 0) as [N0|N0].
        -- rewrite N0. unfold newSeek. cbv zeta. pose proof (has_at_bound _ _ _ Ha2) as [B1 B2].
           rewrite zlen_zdrop in B2. rewrite (i64_small (b_addr b + (a - o))) by lia. rewrite (i64_small (b_addr b + (a - o) + 0)) by lia.
           replace (b_addr b + (a - o) + 0 <=? zlen f) with true by lia.
           replace (b_addr b + (a - o) <? 0) with false by lia. cbn [rbind].
           eexists. split; [reflexivity|]. unfold seg_piece. cbn [s_off s_len s_data].
           unfold part. rewrite !(ztake_0 0) by lia. split; [reflexivity|]. split; [reflexivity|]. apply zlen_nonneg.
        -- assert (Ha3 : has_at f (b_addr b + (a - o)) (part data (a - o) n)).
           { unfold part. rewrite <- (ztake_zdrop n (zdrop (a - o) data)) in Ha2. apply has_at_app_l in Ha2. exact Ha2. }
           rewrite (newSeek_at _ _ _ _ Ha3) by (rewrite ?zlen_part by lia; lia). cbn [rbind].
           eexists. split; [reflexivity|]. unfold seg_piece. cbn [s_off s_len s_data].
           rewrite zlen_part by lia. split; [|lia]. rewrite ztake_all by (rewrite zlen_part by lia; lia). reflexivity.
      * unfold skip. rewrite zlen_app. replace (a - o <=? zlen data + zlen more) with true by lia. cbn [rbind].
        eexists. split; [reflexivity|]. unfold seg_piece. cbn [s_off s_len s_data].
        split; [|split].
        -- f_equal. change (part (data ++ more) (a - o) n = part data (a - o) n). apply part_app_l; lia.
        -- rewrite zlen_part by lia. reflexivity.
        -- rewrite zlen_zdrop, zlen_app. lia.
    + cbn [rbind]. eexists. split; [reflexivity|]. unfold seg_piece. cbn [s_off s_len s_data].
      replace (a - o) with 0 by lia. split; [|split].
      * f_equal. unfold part. rewrite zdrop_0 by lia. apply ztake_app_l. lia.
      * rewrite zlen_part by lia. reflexivity.
      * rewrite zlen_app. lia.
Qed.

(** Every piece lies before the next ones *)
Inductive ascending : list piece -> Prop :=
| asc_nil : ascending []
| asc_cons x r : Forall (fun y => p_end x <= fst y) r -> ascending r -> ascending (x :: r).

Definition good_segs (first last_ : Z) (ps : list piece) (segs : list segment) : Prop :=
  map seg_piece segs = map (clip first last_) (filter (touches first last_) ps) /\
  Forall (fun s => s_len s <= zlen (s_data s) /\ s_len s = zlen (snd (seg_piece s))) segs.

Lemma filter_none {A} (g : A -> bool) l : Forall (fun x => g x = false) l -> filter g l = [].
Proof. induction 1 as [|x r H _ IH]; [reflexivity|]. cbn [filter]. rewrite H. exact IH. Qed.

Lemma readBlocks_ok f d first last_ : zlen f < 2 ^ 63 -> 0 <= first <= last_ -> last_ < 2 ^ 63 ->
  forall bl o ps, placed f d o bl ps ->
  (d_layout d <> [] -> Forall (fun b => calculateFlatOffset (b_offsets b) (d_dims d) (d_layout d) (d_length d) = chunk_pos d b) bl) ->
  Forall (fun x => 0 <= fst x /\ p_end x < 2 ^ 63) ps ->
  (ascending ps \/ Forall (fun x => fst x < last_) ps) ->
  exists segs, readBlocks f d first last_ bl o = Ok segs /\ good_segs first last_ ps segs.
Proof.
  intros Hf Hr Hl bl o ps Hpl. induction Hpl as [o|o b bl data ps Hb Hpl IH]; intros Hpos Hin Hord.
  - exists []. split; [reflexivity|]. split; [reflexivity|constructor].
  - cbn [readBlocks].
    set (pos := match d_layout d with [] => o | _ => chunk_pos d b end) in *.
    assert (Epos : (if match d_layout d with [] => false | _ :: _ => true end
                    then calculateFlatOffset (b_offsets b) (d_dims d) (d_layout d) (d_length d) else o) = pos).
    { subst pos. destruct (d_layout d) as [|l0 lr] eqn:El; [reflexivity|].
      specialize (Hpos ltac:(discriminate)). inversion Hpos; subst. assumption. }
    rewrite Epos. inversion Hin as [|x r [Hx1 Hx2] Hin']; subst. unfold p_end in Hx2. cbn [fst snd] in Hx1, Hx2.
    pose proof (proj1 Hb) as Ld. pose proof (nonempty_len _ (proj1 (proj2 Hb))) as Pd. rewrite <- Ld.
    rewrite (u64_small (pos + zlen data)) by lia.
    assert (IH' : exists segs, readBlocks f d first last_ bl (if match d_layout d with [] => false | _ :: _ => true end then pos else pos + zlen data) = Ok segs /\ good_segs first last_ ps segs).
    { assert (Hord' : ascending ps \/ Forall (fun x => fst x < last_) ps).
      { destruct Hord as [A|A]; inversion A; subst; [left|right]; assumption. }
      assert (Hpos' : d_layout d <> [] -> Forall (fun b => calculateFlatOffset (b_offsets b) (d_dims d) (d_layout d) (d_length d) = chunk_pos d b) bl).
      { intros N. specialize (Hpos N). inversion Hpos; subst. assumption. }
      destruct (IH Hpos' Hin' Hord') as (segs & E & G). exists segs. split; [|exact G].
      rewrite <- E. subst pos. destruct (d_layout d) as [|l0 lr] eqn:El; [rewrite Ld; reflexivity|].
      (* chunked: the running offset does not matter *)
      clear -El. revert o. generalize (chunk_pos d b). destruct bl as [|b1 bl]; intros; [reflexivity|].
      cbn [readBlocks]. rewrite El. reflexivity. }
    destruct IH' as (segs & E & G1 & G2).
    destruct (Z.leb_spec (pos + zlen data) first) as [C|C].
    + exists segs. split; [exact E|]. split; [|exact G2]. cbn [filter].
      replace (touches first last_ (pos, data)) with false by (unfold touches, p_end; cbn [fst snd]; lia). exact G1.
    + destruct (Z.leb_spec last_ pos) as [C2|C2].
      * exists []. split; [reflexivity|]. split; [|constructor]. cbn [map].
        destruct Hord as [A|A]; [|inversion A; subst; cbn [fst] in *; lia].
        inversion A as [|x r F A']; subst.
        rewrite filter_none; [reflexivity|]. constructor.
        -- unfold touches. cbn [fst]. lia.
        -- eapply Forall_impl; [|exact F]. cbn beta. unfold p_end at 1. cbn [fst snd]. intros y Hy. unfold touches. lia.
      * assert (T : touches first last_ (pos, data) = true) by (unfold touches, p_end; cbn [fst snd]; lia).
        destruct (readBlock_ok f d first last_ b pos data Hf Hb) as (s & Es & Ps & Ls & Lt); try assumption; try lia.
        rewrite Es. cbn [rbind]. rewrite E. cbn [rbind]. eexists. split; [reflexivity|]. split.
        -- cbn [filter]. rewrite T. cbn [map]. rewrite Ps, G1. reflexivity.
        -- constructor; [|exact G2]. split; [exact Lt|]. rewrite Ps. exact Ls.
Qed.

(** ** Sorting *)

Lemma insertSeg_perm s l : Permutation (insertSeg s l) (s :: l).
Proof.
  induction l as [|x r IH]; cbn [insertSeg]; [apply Permutation_refl|].
  destruct (s_off s <=? s_off x); [apply Permutation_refl|].
  eapply perm_trans; [apply perm_skip; exact IH|]. apply perm_swap.
Qed.
Lemma sortSegs_perm l : Permutation (sortSegs l) l.
Proof.
  induction l as [|x r IH]; cbn [sortSegs fold_right]; [apply perm_nil|]. fold (sortSegs r).
  eapply perm_trans; [apply insertSeg_perm|]. apply perm_skip. exact IH.
Qed.
Inductive sorted : list segment -> Prop :=
| sorted_nil : sorted []
| sorted_cons s r : Forall (fun x => s_off s <= s_off x) r -> sorted r -> sorted (s :: r).
Lemma insertSeg_sorted s l : sorted l -> sorted (insertSeg s l).
Proof.
  induction 1 as [|x r F S IH]; cbn [insertSeg]; [constructor; constructor|].
  destruct (Z.leb_spec (s_off s) (s_off x)).
  - constructor; [|constructor; assumption]. constructor; [lia|].
    eapply Forall_impl; [|exact F]. cbn beta. intros; lia.
  - constructor; [|exact IH]. eapply Permutation_Forall; [apply Permutation_sym, insertSeg_perm|].
    constructor; [lia|exact F].
Qed.
Lemma sortSegs_sorted l : sorted (sortSegs l).
Proof. induction l as [|x r IH]; cbn [sortSegs fold_right]; [constructor|]. apply insertSeg_sorted. exact IH. Qed.

(** Sorted segments that do not overlap are in a row *)
Lemma sorted_row hi l : forall lo, lo <= hi -> sorted l -> apart (map seg_piece l) ->
  Forall (fun s => s_len s <= zlen (s_data s) /\ s_len s = zlen (snd (seg_piece s)) /\
                   lo <= s_off s /\ s_off s + s_len s <= hi) l ->
  (Forall (fun s => 0 < s_len s) l \/ Forall (fun s => s_len s = 0) l) -> in_row lo hi l.
Proof.
  induction l as [|s r IH]; intros lo Hlo S A F Hz; [exact Hlo|]. cbn [in_row].
  inversion S as [|s' r' FS S']; subst. cbn [map] in A. inversion A as [|x' r'' FA A']; subst.
  inversion F as [|s'' r''' (F1 & F2 & F3 & F4) F']; subst.
  assert (0 <= s_len s) by (rewrite F2; apply zlen_nonneg).
  split; [exact F3|]. split; [lia|]. apply IH; [lia|exact S'|exact A'| |].
  - apply Forall_forall. intros x Hx. rewrite Forall_forall in F', FS. specialize (F' x Hx). specialize (FS x Hx).
    destruct F' as (G1 & G2 & G3 & G4). split; [exact G1|]. split; [exact G2|]. split; [|exact G4].
    rewrite Forall_forall in FA. specialize (FA (seg_piece x) (in_map _ _ _ Hx)).
    unfold p_end in FA. rewrite <- F2, <- G2 in FA. cbn [seg_piece fst] in FA.
    destruct Hz as [Hz|Hz]; inversion Hz as [|? ? Z1 Z2]; subst; rewrite Forall_forall in Z2; specialize (Z2 x Hx); lia.
  - destruct Hz as [Hz|Hz]; inversion Hz; subst; [left|right]; assumption.
Qed.

(** ** A range of the dataset *)

Lemma Forall_perm {A} (P : A -> Prop) l l' : Permutation l l' -> Forall P l -> Forall P l'.
Proof. intros H. apply Permutation_Forall. exact H. Qed.

Lemma range_ok f d first last_ bl ps : zlen f < 2 ^ 63 -> 0 <= first <= last_ -> last_ < 2 ^ 63 -> d_fill d <> [] ->
  placed f d 0 bl ps ->
  (d_layout d <> [] -> Forall (fun b => calculateFlatOffset (b_offsets b) (d_dims d) (d_layout d) (d_length d) = chunk_pos d b) bl) ->
  apart ps -> Forall (fun x => 0 <= fst x /\ p_end x < 2 ^ 63) ps ->
  (ascending ps \/ Forall (fun x => fst x < last_) ps) ->
  exists segs data off, readBlocks f d first last_ bl 0 = Ok segs /\
    joinSegs (d_fill d) (sortSegs segs) first = (data, off) /\ first <= off <= last_ /\ zlen data = off - first /\
    (first < last_ -> data ++ fillBytes (d_fill d) (last_ - off) = stream (d_fill d) ps first last_) /\
    (first < last_ -> off = first \/ off = last_ \/ Exists (fun x => off = p_end x) ps).
Proof.
  intros Hf Hr Hl Hp Hpl Hpos Ha Hin Hord.
  assert (Pp := nonempty_len _ Hp).
  destruct (readBlocks_ok f d first last_ Hf Hr Hl bl 0 ps Hpl Hpos Hin Hord) as (segs & E & G1 & G2).
  exists segs. pose proof (sortSegs_perm segs) as Pm. pose proof (sortSegs_sorted segs) as Ss.
  assert (A1 : apart (map seg_piece (sortSegs segs))).
  { eapply apart_perm; [apply Permutation_map, Permutation_sym, Pm|]. rewrite G1. apply apart_clip; [lia|exact Ha]. }
  assert (G3 : Forall (fun s => s_len s <= zlen (s_data s) /\ s_len s = zlen (snd (seg_piece s)) /\
                   first <= s_off s /\ s_off s + s_len s <= last_) segs).
  { apply Forall_forall. intros s Hs. rewrite Forall_forall in G2. destruct (G2 s Hs) as [L1 L2].
    split; [exact L1|]. split; [exact L2|].
    assert (I : In (seg_piece s) (map seg_piece segs)) by (apply in_map; exact Hs).
    rewrite G1 in I. apply in_map_iff in I. destruct I as (x & Ex & Ix). apply filter_In in Ix. destruct Ix as [Ix Tx].
    pose proof (clip_end first last_ x ltac:(lia) Tx) as Ce. rewrite Ex in Ce. unfold p_end in Ce at 1. rewrite <- L2 in Ce.
    apply (f_equal fst) in Ex. cbn [clip fst seg_piece] in Ex, Ce. unfold touches in Tx. lia. }
  assert (Hz : (first < last_ -> Forall (fun s => 0 < s_len s) segs) /\ (first = last_ -> Forall (fun s => s_len s = 0) segs)).
  { split; intros Hfl; apply Forall_forall; intros s Hs; rewrite Forall_forall in G2, G3; specialize (G3 s Hs); destruct (G2 s Hs) as [L1 L2];
    (assert (I : In (seg_piece s) (map seg_piece segs)) by (apply in_map; exact Hs));
    rewrite G1 in I; apply in_map_iff in I; destruct I as (x & Ex & Ix); apply filter_In in Ix; destruct Ix as [Ix Tx].
    - pose proof (clip_end first last_ x ltac:(lia) Tx) as Ce. rewrite Ex in Ce. unfold p_end in Ce at 1. rewrite <- L2 in Ce.
      apply (f_equal fst) in Ex. cbn [clip fst seg_piece] in Ex, Ce. unfold touches in Tx.
      rewrite Forall_forall in Hin. specialize (Hin x Ix).
      assert (fst x < p_end x); [|lia].
      assert (Nx : snd x <> []); [|unfold p_end; pose proof (nonempty_len _ Nx); lia].
      clear -Hpl Ix. induction Hpl as [|o b bl data ps Hb Hpl IH]; [contradiction|].
      destruct Ix as [<-|Ix]; [exact (proj1 (proj2 Hb))|exact (IH Ix)].
    - assert (0 <= s_len s) by (rewrite L2; apply zlen_nonneg). lia. }
  assert (Row : in_row first last_ (sortSegs segs)).
  { apply sorted_row; [lia|exact Ss|exact A1| |].
    - eapply Forall_perm; [apply Permutation_sym; exact Pm|exact G3].
    - destruct (Z.eq_dec first last_) as [Q|Q].
      + right. eapply Forall_perm; [apply Permutation_sym; exact Pm|]. apply Hz. exact Q.
      + left. eapply Forall_perm; [apply Permutation_sym; exact Pm|]. apply Hz. lia. }
  destruct (joinSegs_spec (d_fill d) Hp _ _ _ (proj1 Hr) Hl Row) as (data & off & Ej & Bo & Lo & K).
  exists data, off. split; [exact E|]. split; [exact Ej|]. split; [exact Bo|]. split; [exact Lo|].
  assert (K' : first < last_ -> Forall (fun s => 0 < s_len s) (sortSegs segs)).
  { intros Q. eapply Forall_perm; [apply Permutation_sym; exact Pm|]. apply Hz. exact Q. }
  split; intros Q; destruct (K (K' Q)) as (K1 & K2 & K3).
  - rewrite K1. apply stream_clip; [exact Ha|exact A1|exact Pp|]. rewrite <- G1. apply Permutation_map. exact Pm.
  - destruct (sortSegs segs) as [|s r] eqn:Es.
    + left. rewrite (K2 eq_refl) in Lo. cbn in Lo. lia.
    + right. specialize (K3 ltac:(discriminate)). apply Exists_exists in K3. destruct K3 as (t & It & Et).
      assert (It' : In t segs) by (eapply Permutation_in; [exact Pm|exact It]).
      assert (I : In (seg_piece t) (map seg_piece segs)) by (apply in_map; exact It').
      rewrite G1 in I. apply in_map_iff in I. destruct I as (x & Ex & Ix). apply filter_In in Ix. destruct Ix as [Ix Tx].
      pose proof (clip_end first last_ x ltac:(lia) Tx) as Ce. rewrite Ex in Ce.
      rewrite Forall_forall in G2. destruct (G2 t It') as [L1 L2]. unfold p_end in Ce at 1. rewrite <- L2 in Ce. cbn [seg_piece fst] in Ce.
      pose proof (end_ge x) as Ge. unfold touches in Tx.
      destruct (Z.le_gt_cases last_ (p_end x)); [left; lia|]. right. apply Exists_exists. exists x. split; [exact Ix|lia].
Qed.

(** ** The whole dataset *)

Lemma volume_nonneg ds : Forall (fun n => 0 <= n) ds -> 0 <= volume ds.
Proof. induction 1; cbn [volume]; [lia|]. apply Z.mul_nonneg_nonneg; assumption. Qed.

Lemma size_total d bl : fits d bl -> d_size d = total d /\ 0 <= total d.
Proof.
  intros (Hd & Hl & Ht & Hc). unfold d_size, total in *. destruct (d_layout d) as [|l0 lr] eqn:El.
  - cbn [H5LayoutModel.calcAttrSize]. unfold calcDataSize. rewrite prod64_volume, u64_mul_l.
    assert (0 <= volume (d_dims d)).
    { apply volume_nonneg. eapply Forall_impl; [|exact Hd]. cbn beta. intros; lia. }
    assert (0 <= volume (d_dims d) * d_length d) by (apply Z.mul_nonneg_nonneg; lia).
    rewrite u64_small by lia. split; [reflexivity|lia].
  - destruct Hc as (Hne & He & Hb). rewrite size_eq by assumption.
    pose proof (volume_nonneg _ (grid_nonneg _ _ He)). pose proof (layout_pos _ _ He).
    assert (0 <= volume (chunk_grid (d_dims d) (l0 :: lr)) * volume (l0 :: lr) * d_length d).
    { apply Z.mul_nonneg_nonneg; [apply Z.mul_nonneg_nonneg|]; lia. }
    rewrite u64_small by lia. split; [reflexivity|lia].
Qed.

Lemma chunk_places d bl : fits d bl -> d_layout d <> [] ->
  Forall (fun b => calculateFlatOffset (b_offsets b) (d_dims d) (d_layout d) (d_length d) = chunk_pos d b) bl.
Proof.
  intros (Hd & Hl & Ht & Hc) N. unfold total in Ht. destruct (d_layout d) as [|l0 lr] eqn:El; [contradiction|].
  destruct Hc as (Hne & He & Hb). eapply Forall_impl; [|exact Hb]. cbn beta. intros b [Lb Ib].
  assert (V : volume (chunk_grid (d_dims d) (l0 :: lr)) * volume (l0 :: lr) * d_length d < 2 ^ 64) by lia.
  destruct (placement _ _ _ He Hne (Z.lt_le_incl _ _ Hl) V _ Lb Ib) as (P1 & _).
  rewrite P1. unfold chunk_pos. rewrite El. reflexivity.
Qed.

Lemma inside_range size ps : size < 2 ^ 63 -> inside size ps -> Forall (fun x => 0 <= fst x /\ p_end x < 2 ^ 63) ps.
Proof. intros H. apply Forall_impl. intros x (A & B & C). lia. Qed.

Theorem whole_stream f d bl ps : zlen f < 2 ^ 63 -> fits d bl -> d_fill d <> [] -> placed f d 0 bl ps ->
  apart ps -> inside (total d) ps -> (bl = [] -> d_btree d = 0) ->
  newRecordReader f d bl None = Ok (stream (d_fill d) ps 0 (total d), total d, bl).
Proof.
  intros Hf Hfit Hp Hpl Ha Hi Hb. destruct (size_total _ _ Hfit) as [Es Pt].
  assert (Ht : total d < 2 ^ 63) by apply Hfit.
  unfold newRecordReader. rewrite Es. destruct (Z.eqb_spec (total d) 0) as [Z0|Z0].
  - rewrite Z0. reflexivity.
  - rewrite (i64_small (total d)) by lia. destruct bl as [|b0 br] eqn:Ebl.
    + rewrite (Hb eq_refl). cbn [Z.eqb rbind]. inversion Hpl; subst. rewrite stream_fill by (assumption || lia).
      rewrite Z.sub_0_r. reflexivity.
    + rewrite <- Ebl in *. cbn [rbind].
      assert (Hin := inside_range _ _ Ht Hi).
      assert (Hord : ascending ps \/ Forall (fun x => fst x < total d) ps).
      { right. eapply Forall_impl; [|exact Hi]. cbn beta. intros x (A & B & C). unfold p_end in B. pose proof (nonempty_len _ C). lia. }
      destruct (range_ok f d 0 (total d) bl ps Hf ltac:(lia) Ht Hp Hpl (chunk_places _ _ Hfit) Ha Hin Hord)
        as (segs & data & off & E & Ej & Bo & Lo & K & _).
      rewrite E. cbn [rbind]. rewrite Ej. specialize (K ltac:(lia)). rewrite Ebl. cbv zeta.
      assert (X : data ++ (if off <? total d then fillBytes (d_fill d) (i64 (total d - off)) else []) = stream (d_fill d) ps 0 (total d)).
      { rewrite <- K. f_equal. rewrite (i64_small (total d - off)) by lia.
        destruct (Z.ltb_spec off (total d)); [reflexivity|]. rewrite fill_zero by lia. reflexivity. }
      match goal with |- context [ztake (total d) ?y] => replace y with (stream (d_fill d) ps 0 (total d)) by (symmetry; exact X) end. replace ((if off <? total d then total d else off) <=? total d) with true
        by (destruct (Z.ltb_spec off (total d)); lia).
      rewrite ztake_all by (rewrite zlen_stream; lia). reflexivity.
Qed.
