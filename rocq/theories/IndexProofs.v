(** Index tuples: taking positions apart, enumeration, lists indexed by integers. *)
From Coq Require Import ZifyBool ZifyNat.
From Verif Require Import Prelude BaseLemmas ArraySpec ArrayProofs ChunkSpec H5LayoutModel H5ChunkProofs.

(** ** Lists indexed by integers *)

Definition znth (l : bytes) (p : Z) : Z := nth (Z.to_nat p) l 0.

Lemma znth_ext (a b : bytes) : zlen a = zlen b -> (forall p, 0 <= p < zlen a -> znth a p = znth b p) -> a = b.
Proof.
  intros E H. apply (nth_ext a b 0 0); [unfold zlen in E; lia|].
  intros n Hn. specialize (H (Z.of_nat n)). unfold znth in H. rewrite Nat2Z.id in H. apply H. unfold zlen. lia.
Qed.

Lemma znth_app_l a b p : 0 <= p < zlen a -> znth (a ++ b) p = znth a p.
Proof. intros H. unfold znth. apply app_nth1. unfold zlen in H. lia. Qed.
Lemma znth_app_r a b p : zlen a <= p -> znth (a ++ b) p = znth b (p - zlen a).
Proof.
  intros H. pose proof (zlen_nonneg a). unfold znth. rewrite app_nth2 by (unfold zlen in *; lia). f_equal. unfold zlen in *. lia.
Qed.
Lemma znth_take n l p : 0 <= p < n -> znth (ztake n l) p = znth l p.
Proof.
  intros H. unfold znth, ztake. destruct (Nat.lt_ge_cases (Z.to_nat p) (List.length l)) as [L|L].
  - rewrite <- (firstn_skipn (Z.to_nat n) l) at 2. rewrite app_nth1; [reflexivity|].
    rewrite firstn_length. lia.
  - rewrite !nth_overflow; [reflexivity|lia|]. rewrite firstn_length. lia.
Qed.
Lemma nth_skipn_add {A} n (l : list A) i d : nth i (skipn n l) d = nth (n + i) l d.
Proof. revert l. induction n; intros l; [reflexivity|]. destruct l; [destruct i; reflexivity|]. cbn [skipn]. rewrite IHn. reflexivity. Qed.
Lemma znth_drop n l p : 0 <= n -> 0 <= p -> znth (zdrop n l) p = znth l (n + p).
Proof. intros Hn Hp. unfold znth, zdrop. rewrite nth_skipn_add. f_equal. lia. Qed.
Lemma znth_rep n p : znth (zrep n 0) p = 0.
Proof.
  unfold znth, zrep. destruct (Nat.lt_ge_cases (Z.to_nat p) (Z.to_nat n)).
  - apply nth_repeat.
  - apply nth_overflow. rewrite repeat_length. lia.
Qed.

Lemma zseq_S n : 0 <= n -> zseq (n + 1) = zseq n ++ [n].
Proof.
  intros H. unfold zseq. replace (Z.to_nat (n + 1)) with (S (Z.to_nat n)) by lia.
  rewrite seq_S, map_app. cbn [map]. do 2 f_equal. lia.
Qed.
Lemma zlen_zseq n : 0 <= n -> zlen (zseq n) = n.
Proof. intros H. unfold zseq, zlen. rewrite map_length, seq_length. lia. Qed.
Lemma nth_zseq n i d : 0 <= i < n -> nth (Z.to_nat i) (zseq n) d = i.
Proof.
  intros H. unfold zseq. rewrite nth_indep with (d' := Z.of_nat 0) by (rewrite map_length, seq_length; lia).
  rewrite map_nth, seq_nth by lia. lia.
Qed.
Lemma In_zseq n i : In i (zseq n) <-> 0 <= i < n.
Proof.
  unfold zseq. rewrite in_map_iff. split.
  - intros (x & <- & Hx). apply in_seq in Hx. lia.
  - intros H. exists (Z.to_nat i). split; [lia|]. apply in_seq. lia.
Qed.

Lemma zlen_flat_map_uniform {A B} (f : A -> list B) l w :
  (forall x, In x l -> zlen (f x) = w) -> zlen (flat_map f l) = zlen l * w.
Proof.
  induction l as [|x l IH]; intros H; [reflexivity|]. cbn [flat_map]. rewrite zlen_app, zlen_cons, IH.
  - rewrite (H x (or_introl eq_refl)). lia.
  - intros y Hy. apply H. now right.
Qed.

Lemma nth_flat_map_uniform {A B} (f : A -> list B) l w d da : 0 < w ->
  (forall x, In x l -> zlen (f x) = w) -> forall p, 0 <= p < zlen l * w ->
  nth (Z.to_nat p) (flat_map f l) d = nth (Z.to_nat (p mod w)) (f (nth (Z.to_nat (p / w)) l da)) d.
Proof.
  intros Hw. induction l as [|x l IH]; intros H p Hp; [change (zlen (@nil A)) with 0 in Hp; lia|].
  cbn [flat_map]. pose proof (H x (or_introl eq_refl)) as Ex. rewrite zlen_cons in Hp.
  destruct (Z.lt_ge_cases p w) as [Hlt|Hge].
  - rewrite app_nth1 by (unfold zlen in Ex; lia). rewrite Z.div_small, Z.mod_small by lia. reflexivity.
  - rewrite app_nth2 by (unfold zlen in Ex; lia).
    assert (E1 : (p - w) / w = p / w - 1).
    { replace (p - w) with (p + (-1) * w) by lia. rewrite Z.div_add by lia. lia. }
    assert (E2 : (p - w) mod w = p mod w).
    { replace (p - w) with (p + (-1) * w) by lia. rewrite Z.mod_add by lia. reflexivity. }
    assert (1 <= p / w) by (apply Z.div_le_lower_bound; lia).
    specialize (IH (fun y Hy => H y (or_intror Hy)) (p - w) ltac:(lia)).
    rewrite E1, E2 in IH.
    replace (Z.to_nat p - List.length (f x))%nat with (Z.to_nat (p - w)) by (unfold zlen in Ex; lia).
    rewrite IH. replace (Z.to_nat (p / w)) with (S (Z.to_nat (p / w - 1))) by lia. reflexivity.
Qed.

(** ** Positions and index tuples *)

Lemma offset_inj ds : forall a b, in_shape ds a -> in_shape ds b -> offset ds a = offset ds b -> a = b.
Proof.
  induction ds as [|d ds IH]; intros a b Ha Hb E.
  - inversion Ha; subst; inversion Hb; subst; reflexivity.
  - inversion Ha as [|? i ? x Hi Hx]; subst. inversion Hb as [|? j ? y Hj Hy]; subst. cbn [offset] in E.
    pose proof (offset_range _ _ Hx). pose proof (offset_range _ _ Hy).
    assert (i = j) by nia. subst j. f_equal. apply IH; [assumption|assumption|lia].
Qed.

Lemma decode_spec ext : Forall (fun d => 0 < d) ext -> forall n, 0 <= n ->
  in_shape ext (fst (decode ext n)) /\ 0 <= snd (decode ext n) /\
  n = snd (decode ext n) * volume ext + offset ext (fst (decode ext n)).
Proof.
  induction 1 as [|g r Hg Hr IH]; intros n Hn.
  - cbn [decode fst snd volume offset]. split; [constructor|]. lia.
  - cbn [decode]. specialize (IH n Hn). destruct (decode r n) as [cs t]. cbn [fst snd] in *.
    destruct IH as (I1 & I2 & I3).
    pose proof (Z.mod_pos_bound t g Hg). pose proof (Z.div_pos t g I2 Hg).
    split; [constructor; [lia|exact I1]|]. split; [lia|].
    cbn [volume offset]. rewrite I3 at 1. rewrite (Z.div_mod t g) at 1 by lia. ring.
Qed.

Lemma decode_small ext n : Forall (fun d => 0 < d) ext -> 0 <= n < volume ext ->
  in_shape ext (fst (decode ext n)) /\ offset ext (fst (decode ext n)) = n.
Proof.
  intros H Hn. destruct (decode_spec ext H n ltac:(lia)) as (I1 & I2 & I3).
  split; [exact I1|]. pose proof (offset_range _ _ I1) as R. pose proof (volume_pos _ H).
  assert (snd (decode ext n) = 0) by nia. nia.
Qed.

Lemma decode_offset ext idx : in_shape ext idx -> fst (decode ext (offset ext idx)) = idx.
Proof.
  intros H. pose proof (offset_range _ _ H) as R. pose proof (in_shape_nonneg _ _ H) as Hp.
  destruct (decode_small ext (offset ext idx) Hp R) as [I1 I2]. exact (offset_inj ext _ _ I1 H I2).
Qed.

Lemma encode_spec ext : forall idx, List.length ext = List.length idx ->
  encode ext idx = (offset ext idx, volume ext).
Proof.
  induction ext as [|v vs IH]; intros [|d ds] E; cbn [List.length] in E; try discriminate; [reflexivity|].
  cbn [encode offset volume]. rewrite IH by lia. f_equal; lia.
Qed.

Lemma zlen_indices ds : Forall (fun d => 0 <= d) ds -> zlen (indices ds) = volume ds.
Proof.
  induction 1 as [|d ds Hd Hr IH]; [reflexivity|]. cbn [indices volume].
  fold (zseq d). rewrite (zlen_flat_map_uniform _ _ (volume ds)); [now rewrite zlen_zseq|].
  intros x _. rewrite zlen_map. exact IH.
Qed.

Lemma decode_mod ext : Forall (fun d => 0 < d) ext -> forall n, 0 <= n ->
  fst (decode ext n) = fst (decode ext (n mod volume ext)) /\ snd (decode ext n) = n / volume ext.
Proof.
  intros H n Hn. destruct (decode_spec ext H n Hn) as (I1 & I2 & I3).
  pose proof (volume_pos _ H) as V. pose proof (offset_range _ _ I1) as R.
  assert (E : snd (decode ext n) = n / volume ext).
  { apply (Z.div_unique_pos n (volume ext) _ (offset ext (fst (decode ext n)))); [exact R|]. rewrite I3 at 1. ring. }
  assert (E2 : offset ext (fst (decode ext n)) = n mod volume ext).
  { apply (Z.mod_unique_pos n (volume ext) (snd (decode ext n))); [exact R|]. rewrite I3 at 1. ring. }
  split; [|exact E]. rewrite <- E2. symmetry. apply decode_offset. exact I1.
Qed.

Lemma indices_nth ds : Forall (fun d => 0 < d) ds -> forall n dflt, 0 <= n < volume ds ->
  nth (Z.to_nat n) (indices ds) dflt = fst (decode ds n).
Proof.
  induction 1 as [|d ds Hd Hr IH]; intros n dflt Hn.
  - cbn [volume] in Hn. assert (n = 0) by lia. subst n. reflexivity.
  - cbn [indices]. fold (zseq d). pose proof (volume_pos _ Hr) as V. cbn [volume] in Hn.
    assert (N : Forall (fun d => 0 <= d) ds) by (eapply Forall_impl; [|exact Hr]; cbv beta; lia).
    rewrite (nth_flat_map_uniform _ _ (volume ds) dflt 0); [|exact V| |rewrite zlen_zseq; lia].
    2:{ intros x _. rewrite zlen_map. now apply zlen_indices. }
    pose proof (Z.mod_pos_bound n (volume ds) V) as Mb.
    assert (Db : 0 <= n / volume ds < d) by (split; [apply Z.div_pos; lia|apply Z.div_lt_upper_bound; lia]).
    rewrite nth_zseq by exact Db.
    rewrite (nth_indep _ dflt (cons (n / volume ds) [])).
    2:{ rewrite map_length. pose proof (zlen_indices ds N) as L. unfold zlen in L. lia. }
    rewrite map_nth, (IH _ [] Mb). cbn [decode].
    destruct (decode_mod ds Hr n ltac:(lia)) as [D1 D2].
    destruct (decode ds n) as [cs t]. cbn [fst snd] in *. rewrite <- D1, D2.
    now rewrite (Z.mod_small (n / volume ds) d) by lia.
Qed.

Lemma In_indices ds : forall idx, In idx (indices ds) <-> in_shape ds idx.
Proof.
  induction ds as [|d ds IH]; intros idx; cbn [indices].
  - split; [intros [<-|[]]; constructor|]. intros H; inversion H; subst. now left.
  - rewrite in_flat_map. split.
    + intros (i & Hi & Hm). apply in_map_iff in Hm as (x & <- & Hx). apply IH in Hx.
      change (map Z.of_nat (seq 0 (Z.to_nat d))) with (zseq d) in Hi. apply In_zseq in Hi.
      constructor; assumption.
    + intros H; inversion H as [|? i ? x Hi Hx]; subst. exists i. split.
      * change (map Z.of_nat (seq 0 (Z.to_nat d))) with (zseq d). now apply In_zseq.
      * apply in_map. now apply IH.
Qed.

Lemma volume_app a b : volume (a ++ b) = volume a * volume b.
Proof. induction a; cbn [app volume]; [lia|]. rewrite IHa. ring. Qed.
Lemma offset_app a : forall b i j, List.length a = List.length i ->
  offset (a ++ b) (i ++ j) = offset a i * volume b + offset b j.
Proof.
  induction a as [|d a IH]; intros b [|i0 i] j E; cbn [List.length] in E; try discriminate; cbn [app offset]; [lia|].
  rewrite IH by lia. rewrite volume_app. ring.
Qed.
Lemma product_volume l : product l = volume l.
Proof. induction l; cbn [volume]; [reflexivity|]. unfold product in *. cbn [fold_right]. now rewrite IHl. Qed.

Lemma flat_map_flat_map {A B C} (f : A -> list B) (g : B -> list C) l :
  flat_map g (flat_map f l) = flat_map (fun x => flat_map g (f x)) l.
Proof. induction l; cbn [flat_map]; [reflexivity|]. now rewrite flat_map_app, IHl. Qed.

Lemma indices_snoc ds n : indices (ds ++ [n]) = flat_map (fun i => map (fun c => i ++ [c]) (zseq n)) (indices ds).
Proof.
  induction ds as [|d ds IH]; cbn [app indices].
  - cbn [flat_map]. rewrite app_nil_r. fold (zseq n). induction (zseq n) as [|x l IHl]; [reflexivity|].
    cbn [flat_map map app] in *. now f_equal.
  - rewrite IH. rewrite flat_map_flat_map. apply flat_map_ext. intros i.
    rewrite flat_map_map. clear IH. induction (indices ds) as [|x l IHl]; [reflexivity|].
    cbn [flat_map]. rewrite map_app, IHl. f_equal. rewrite map_map. reflexivity.
Qed.
