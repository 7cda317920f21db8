(** Facts about the array specification. *)
From Coq Require Import ZifyBool ZifyNat.
From Verif Require Import Prelude GoVal BaseLemmas ArraySpec.

Lemma volume_nonneg ds : Forall (fun d => 0 <= d) ds -> 0 <= volume ds.
Proof. induction 1; cbn [volume]; [lia|]. apply Z.mul_nonneg_nonneg; lia. Qed.
Lemma volume_pos ds : Forall (fun d => 0 < d) ds -> 0 < volume ds.
Proof. induction 1; cbn [volume]; [lia|]. apply Z.mul_pos_pos; lia. Qed.

Lemma chunks_length {A} n sz (l : list A) : List.length (chunks n sz l) = n.
Proof. revert l; induction n; intros; cbn; [reflexivity|]. now rewrite IHn. Qed.

Lemma chunks_nth {A} n sz (l : list A) i : 0 <= sz -> (i < n)%nat ->
  nth_error (chunks n sz l) i = Some (ztake sz (zdrop (Z.of_nat i * sz) l)).
Proof.
  intros Hs. revert l i; induction n as [|n IH]; intros l i Hi; [lia|]. destruct i as [|i].
  - cbn [chunks nth_error]. rewrite zdrop_0 by lia. reflexivity.
  - cbn [chunks nth_error]. rewrite IH by lia.
    rewrite zdrop_zdrop by (try apply Z.mul_nonneg_nonneg; lia). do 3 f_equal. lia.
Qed.

Lemma chunks_app {A} n sz (a b : list A) : 0 <= sz -> Z.of_nat n * sz <= zlen a ->
  chunks n sz (a ++ b) = chunks n sz a.
Proof.
  intros Hs. revert a; induction n as [|n IH]; intros a H; [reflexivity|].
  assert (0 <= Z.of_nat n * sz) by (apply Z.mul_nonneg_nonneg; lia).
  cbn [chunks]. rewrite ztake_app_l by lia. rewrite zdrop_app_l by lia.
  rewrite IH; [reflexivity|]. rewrite zlen_zdrop. lia.
Qed.
Lemma chunks_take {A} n sz (l : list A) m : 0 <= sz -> Z.of_nat n * sz <= m ->
  Z.of_nat n * sz <= zlen l -> chunks n sz (ztake m l) = chunks n sz l.
Proof.
  intros Hs Hm Hl. rewrite <- (ztake_zdrop m l) at 2. rewrite chunks_app; auto.
  rewrite zlen_ztake_min. assert (0 <= Z.of_nat n * sz) by (apply Z.mul_nonneg_nonneg; lia). lia.
Qed.
Lemma chunks_concat {A} n sz (l : list A) : 0 <= sz -> Z.of_nat n * sz = zlen l ->
  List.concat (chunks n sz l) = l.
Proof.
  intros Hs. revert l; induction n as [|n IH]; intros l H.
  - symmetry in H. cbn in H. apply zlen_zero in H. now subst.
  - cbn [chunks List.concat]. assert (0 <= Z.of_nat n * sz) by (apply Z.mul_nonneg_nonneg; lia).
    rewrite IH by (rewrite zlen_zdrop; lia). apply ztake_zdrop.
Qed.
Lemma chunks_of_concat {A} sz (ls : list (list A)) : Forall (fun x => zlen x = sz) ls ->
  chunks (List.length ls) sz (List.concat ls) = ls.
Proof.
  induction 1 as [|x ls Hx _ IH]; [reflexivity|]. cbn [List.length chunks List.concat].
  rewrite ztake_app_exact, zdrop_app_exact by easy. now rewrite IH.
Qed.
Lemma chunks_len {A} n sz (l : list A) : 0 <= sz -> Z.of_nat n * sz <= zlen l ->
  Forall (fun x => zlen x = sz) (chunks n sz l).
Proof.
  intros Hs. revert l; induction n as [|n IH]; intros l H; [constructor|].
  assert (0 <= Z.of_nat n * sz) by (apply Z.mul_nonneg_nonneg; lia). cbn [chunks]. constructor.
  - apply zlen_ztake; lia.
  - apply IH. rewrite zlen_zdrop. lia.
Qed.

(** [nest] only looks at the first [volume ds] elements *)
Lemma nest_take t ds data m : Forall (fun d => 0 <= d) ds -> volume ds <= m -> volume ds <= zlen data ->
  nest t ds (ztake m data) = nest t ds data.
Proof.
  intros H Hm Hl. destruct ds as [|d [|d2 ds]].
  - cbn [volume] in *. destruct data as [|x data]; [unfold zlen in Hl; cbn in Hl; lia|].
    unfold nest, ztake. destruct (Z.to_nat m) eqn:E; [lia|]. reflexivity.
  - cbn [volume] in *. cbn [nest]. rewrite ztake_ztake. do 2 f_equal. lia.
  - cbn [nest]. do 2 f_equal. inversion H; subst. pose proof (volume_nonneg _ H3).
    set (ds2 := d2 :: ds) in *. change (volume (d :: ds2)) with (d * volume ds2) in *.
    apply chunks_take; lia.
Qed.

Lemma arr_type_S t n : n <> O -> arr_type t (S n) = GSlice (arr_type t n).
Proof. destruct n; easy. Qed.

Lemma nest_type t ds data : type_of (nest t ds data) = arr_type t (List.length ds).
Proof.
  destruct ds as [|d [|d2 ds]].
  - destruct t; reflexivity.
  - destruct t; reflexivity.
  - set (ds2 := d2 :: ds). change (nest t (d :: ds2) data) with
      (VSlice (arr_type t (List.length ds2)) (map (nest t ds2) (chunks (Z.to_nat d) (volume ds2) data))).
    cbn [type_of]. change (List.length (d :: ds2)) with (S (List.length ds2)).
    rewrite arr_type_S by (unfold ds2; easy). reflexivity.
Qed.

Lemma nth_error_map_full {A B} (f : A -> B) l n : nth_error (map f l) n = option_map f (nth_error l n).
Proof. revert n; induction l; destruct n; cbn; auto. Qed.

(** The index characterisation of the reconstruction *)
Lemma nest_index t ds data idx : ds <> [] -> Forall (fun d => 0 <= d) ds -> volume ds = zlen data ->
  in_shape ds idx ->
  exists z, nth_error data (Z.to_nat (offset ds idx)) = Some z /\
            vindex (nest t ds data) idx = Some (entry t z) /\
            0 <= offset ds idx < volume ds.
Proof.
  intros Hne Hp Hv Hi. revert data Hne Hp Hv.
  induction Hi as [|d i ds idx Hd Hi IH]; intros data Hne Hp Hv; [easy|].
  inversion Hp; subst.
  destruct ds as [|d2 ds].
  - inversion Hi; subst. cbn [volume offset] in *. rewrite Z.mul_1_r, Z.add_0_r.
    rewrite ?Z.mul_1_r in Hv.
    destruct (nth_error data (Z.to_nat i)) as [z|] eqn:E.
    2:{ apply nth_error_None in E. unfold zlen in Hv. lia. }
    exists z. split; [easy|]. split; [|lia]. cbn [nest]. rewrite ztake_all by lia.
    cbn [vindex]. replace (i <? 0) with false by lia.
    destruct t; cbn [row].
    + rewrite E. reflexivity.
    + rewrite (map_nth_error _ _ _ E). reflexivity.
  - set (ds2 := d2 :: ds) in *. change (volume (d :: ds2)) with (d * volume ds2) in *.
    pose proof (volume_nonneg _ H2) as Hvol.
    cbn [offset]. fold ds2.
    assert (B1 : (i + 1) * volume ds2 <= d * volume ds2) by (apply Z.mul_le_mono_nonneg_r; lia).
    assert (B0 : 0 <= i * volume ds2) by (apply Z.mul_nonneg_nonneg; lia).
    set (c := ztake (volume ds2) (zdrop (i * volume ds2) data)).
    assert (Hc : volume ds2 = zlen c).
    { unfold c. rewrite zlen_ztake; [easy|easy|]. rewrite zlen_zdrop. lia. }
    destruct (IH c) as (z & E1 & E2 & E3); [easy|easy|easy|].
    exists z. split; [|split].
    + rewrite <- E1. unfold c, ztake, zdrop.
      rewrite nth_error_firstn_lt by lia. rewrite nth_error_skipn_add. f_equal. lia.
    + change (nest t (d :: ds2) data) with
        (VSlice (arr_type t (List.length ds2)) (map (nest t ds2) (chunks (Z.to_nat d) (volume ds2) data))).
      cbn [vindex]. replace (i <? 0) with false by lia.
      assert (EN : nth_error (chunks (Z.to_nat d) (volume ds2) data) (Z.to_nat i) = Some c).
      { rewrite chunks_nth by lia. unfold c. do 3 f_equal. lia. }
      rewrite (map_nth_error _ _ _ EN). exact E2.
    + lia.
Qed.

Lemma nest_shape t ds data : Forall (fun d => 0 <= d) ds -> volume ds = zlen data ->
  has_shape ds (nest t ds data).
Proof.
  intros Hp. revert data; induction Hp as [|d ds Hd Hp IH]; intros data Hv.
  - destruct t; constructor.
  - destruct ds as [|d2 ds].
    + cbn [volume] in Hv. rewrite Z.mul_1_r in Hv. cbn [nest]. rewrite ztake_all by lia.
      subst d. destruct t; cbn [row].
      * constructor.
      * rewrite <- (zlen_map (VNum k)). constructor. apply Forall_forall. intros x Hx.
        apply in_map_iff in Hx. destruct Hx as (z & <- & _). constructor.
    + set (ds2 := d2 :: ds) in *. change (volume (d :: ds2)) with (d * volume ds2) in *.
      change (nest t (d :: ds2) data) with
        (VSlice (arr_type t (List.length ds2)) (map (nest t ds2) (chunks (Z.to_nat d) (volume ds2) data))).
      set (ch := chunks (Z.to_nat d) (volume ds2) data).
      assert (E : d = zlen (map (nest t ds2) ch)).
      { rewrite zlen_map. unfold zlen, ch. rewrite chunks_length. lia. }
      rewrite E at 1. constructor. apply Forall_forall. intros x Hx. apply in_map_iff in Hx.
      destruct Hx as (c & <- & Hc). apply IH. symmetry.
      pose proof (volume_nonneg _ Hp).
      pose proof (chunks_len (Z.to_nat d) (volume ds2) data) as HL. rewrite Forall_forall in HL.
      apply HL; try easy. lia.
Qed.

Lemma volume_app a b : volume (a ++ b) = volume a * volume b.
Proof. induction a; cbn [app volume]; [lia|]. rewrite IHa. lia. Qed.
