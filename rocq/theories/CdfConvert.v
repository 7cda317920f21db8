(** The reader's convert is row-major reconstruction. *)
From Coq Require Import ZifyBool ZifyNat.
From Verif Require Import Prelude GoVal BaseLemmas ArraySpec ArrayProofs CdfWriterModel CdfReaderModel.

Definition elt_of (t : cty) : elt := match t with TChar => EChar | TNum k => ENum k end.

Lemma zprod_volume l : zprod l = volume l.
Proof. induction l; cbn; [reflexivity|]. unfold zprod in *. now rewrite IHl. Qed.

Lemma type_of_erase v : type_of (erase v) = ctype_of v.
Proof. destruct v; reflexivity. Qed.

Lemma erase_conv_row t r sp : erase (conv_row t r sp) = row (elt_of t) r.
Proof.
  destruct t; cbn [conv_row erase row elt_of]; [reflexivity|]. now rewrite map_map.
Qed.
Lemma ctype_conv_row t r sp : ctype_of (conv_row t r sp) = arr_type (elt_of t) 1.
Proof. destruct t; reflexivity. Qed.
Lemma row_gtype_arr t : row_gtype t = arr_type (elt_of t) 1.
Proof. destruct t; reflexivity. Qed.

Lemma conv_rows_ok t n d1 data : 0 <= d1 -> Z.of_nat n * d1 <= zlen data ->
  exists rows, conv_rows t n d1 data = Ok rows /\
    map erase rows = map (row (elt_of t)) (chunks n d1 data).
Proof.
  intros Hd. revert data; induction n as [|n IH]; intros data H.
  - exists []. split; reflexivity.
  - assert (0 <= Z.of_nat n * d1) by (apply Z.mul_nonneg_nonneg; lia).
    destruct (IH (zdrop d1 data)) as (rows & E1 & E2); [rewrite zlen_zdrop; lia|].
    cbn [conv_rows]. replace (zlen data <? d1) with false by lia. rewrite E1. cbn [rbind].
    eexists. split; [reflexivity|]. cbn [map chunks]. now rewrite E2, erase_conv_row.
Qed.

Lemma map_ext_in' {A B} (f g : A -> B) l : (forall x, In x l -> f x = g x) -> map f l = map g l.
Proof. apply map_ext_in. Qed.

(** Unfolding of convert at rank >= 2 *)
Definition conv_loop (slow : bool) (t : cty) (ds : list Z) :=
  fix go (n : nat) (cur : list Z) {struct n} : res (list cval) :=
    match n with
    | O => Ok []
    | S m =>
        let* x := convert slow t ds cur in
        match m with
        | O => Ok [x]
        | S _ => if zlen cur <? zprod ds then Panic
                 else let* r := go m (zdrop (zprod ds) cur) in Ok (x :: r)
        end
    end.

Lemma convert_rank2 t d d1 data :
  convert false t [d; d1] data =
  let* _ := go_make d (match t with TChar => 16 | TNum _ => 24 end) in
  let* rows := conv_rows t (Z.to_nat d) d1 data in
  Ok (CSlice (row_gtype t) rows []).
Proof. reflexivity. Qed.

Lemma convert_generic slow t d d1 ds data :
  slow = true \/ ds <> [] ->
  convert slow t (d :: d1 :: ds) data =
  match data with
  | [] => empty_slice t (S (S (List.length ds)))
  | _ =>
      let* _ := go_make d 24 in
      let* l := conv_loop slow t (d1 :: ds) (Z.to_nat d) data in
      match l with
      | [] => Panic
      | x :: _ => Ok (CSlice (ctype_of x) l [])
      end
  end.
Proof.
  intros H. cbn [convert].
  assert (E : negb slow && (zlen (d1 :: ds) =? 1) = false).
  { destruct H as [-> | H]; [reflexivity|]. destruct ds; [easy|].
    rewrite !zlen_cons. pose proof (zlen_nonneg ds). lia. }
  rewrite E. destruct data; reflexivity.
Qed.

(** The loop, given that the sub-arrays are converted correctly from any long enough data. *)
Lemma conv_loop_ok slow t ds :
  Forall (fun d => 0 < d) ds ->
  (forall cur, volume ds <= zlen cur ->
     exists x, convert slow t ds cur = Ok x /\ erase x = nest (elt_of t) ds cur) ->
  forall n cur, Z.of_nat n * volume ds <= zlen cur ->
  exists l, conv_loop slow t ds n cur = Ok l /\
    map erase l = map (nest (elt_of t) ds) (chunks n (volume ds) cur).
Proof.
  intros Hp IHc. pose proof (volume_pos ds Hp) as Hv.
  assert (Hp' : Forall (fun d => 0 <= d) ds) by (eapply Forall_impl; [|exact Hp]; cbn; lia).
  induction n as [|n IH]; intros cur H.
  - exists []. split; reflexivity.
  - assert (0 <= Z.of_nat n * volume ds) by (apply Z.mul_nonneg_nonneg; lia).
    destruct (IHc cur) as (x & E1 & E2); [lia|].
    assert (Ex : erase x = nest (elt_of t) ds (ztake (volume ds) cur)).
    { rewrite E2. symmetry. apply nest_take; [easy|lia|lia]. }
    destruct (IH (zdrop (volume ds) cur)) as (l & E3 & E4); [rewrite zlen_zdrop; lia|].
    cbn [conv_loop]. rewrite E1. cbn [rbind]. destruct n as [|n].
    + exists [x]. split; [reflexivity|]. cbn [map chunks]. now rewrite Ex.
    + rewrite zprod_volume. replace (zlen cur <? volume ds) with false by lia.
      fold (conv_loop slow t ds). rewrite E3. cbn [rbind]. exists (x :: l). split; [reflexivity|].
      cbn [map]. rewrite Ex, E4. reflexivity.
Qed.

Lemma conv_loop_nonempty slow t ds n cur l :
  conv_loop slow t ds (S n) cur = Ok l -> exists x r, l = x :: r.
Proof.
  cbn [conv_loop]. destruct (convert slow t ds cur) as [x| |]; cbn [rbind]; try easy.
  destruct n as [|n].
  - intros [= <-]. eauto.
  - destruct (_ <? _); [easy|]. fold (conv_loop slow t ds).
    destruct (conv_loop slow t ds (S n) _); cbn [rbind]; try easy. intros [= <-]. eauto.
Qed.

Lemma go_make_ok n sz : 0 <= n -> n * sz <= 2 ^ 48 -> go_make n sz = Ok tt.
Proof.
  intros. unfold go_make. replace (n <? 0) with false by lia.
  replace (2 ^ 48 <? n * sz) with false by lia. reflexivity.
Qed.

Lemma volume_tail_le d ds : 0 < d -> Forall (fun d => 0 < d) ds -> volume ds <= d * volume ds.
Proof.
  intros. pose proof (volume_pos ds H0).
  assert (1 * volume ds <= d * volume ds) by (apply Z.mul_le_mono_nonneg_r; lia). lia.
Qed.
Lemma volume_head_le d ds : 0 < d -> Forall (fun d => 0 < d) ds -> d <= d * volume ds.
Proof.
  intros. pose proof (volume_pos ds H0).
  assert (d * 1 <= d * volume ds) by (apply Z.mul_le_mono_nonneg_l; lia). lia.
Qed.

(** Ranks of at least two, fast and slow code *)
Lemma convert_nest_ge2 slow t ds data :
  (2 <= List.length ds)%nat \/ (slow = true /\ (1 <= List.length ds)%nat) ->
  Forall (fun d => 0 < d) ds -> 24 * volume ds <= 2 ^ 48 -> volume ds <= zlen data ->
  exists x, convert slow t ds data = Ok x /\ erase x = nest (elt_of t) ds data.
Proof.
  intros Hr Hp. revert data Hr.
  induction Hp as [|d ds Hd Hp IH]; intros data Hr Hb Hl; [cbn in Hr; lia|].
  cbn [volume] in *. pose proof (volume_pos ds Hp) as Hv.
  pose proof (volume_tail_le d ds Hd Hp). pose proof (volume_head_le d ds Hd Hp).
  destruct ds as [|d1 ds].
  - (* rank 1, slow *)
    destruct Hr as [Hr|[-> _]]; [cbn in Hr; lia|]. cbn [convert].
    destruct data as [|z data].
    { unfold zlen in Hl; cbn in Hl. lia. }
    cbn [volume] in *. rewrite Z.mul_1_r in *.
    replace (zlen (z :: data) <? d) with false by lia.
    eexists. split; [reflexivity|]. now rewrite erase_conv_row.
  - assert (C : (slow = false /\ ds = []) \/ (slow = true \/ ds <> [])).
    { destruct slow; [tauto|]. destruct ds; [tauto|]. right; right; easy. }
    destruct C as [[-> ->]|C].
    + (* rank 2, fast *)
      cbn [volume] in *. rewrite Z.mul_1_r in *.
      rewrite convert_rank2.
      rewrite go_make_ok by (destruct t; lia). cbn [rbind].
      inversion Hp; subst.
      destruct (conv_rows_ok t (Z.to_nat d) d1 data) as (rows & E1 & E2); [lia|lia|].
      rewrite E1. cbn [rbind]. eexists. split; [reflexivity|].
      cbn [erase nest]. rewrite E2. change (List.length [d1]) with 1%nat. rewrite row_gtype_arr.
      cbn [volume]. rewrite Z.mul_1_r. f_equal. apply map_ext_in. intros c Hc.
      pose proof (chunks_len (Z.to_nat d) d1 data) as HL. rewrite Forall_forall in HL.
      specialize (HL ltac:(lia) ltac:(lia) c Hc). now rewrite ztake_all by lia.
    + rewrite convert_generic by easy. set (ds1 := d1 :: ds) in *.
      destruct data as [|z data].
      { unfold zlen in Hl. cbn [List.length] in Hl. lia. }
      set (dat := z :: data) in *. rewrite go_make_ok by lia. cbn [rbind].
      destruct (conv_loop_ok slow t ds1 Hp) with (n := Z.to_nat d) (cur := dat) as (l & E1 & E2).
      * intros cur Hcur. apply IH; [|lia|easy].
        destruct C as [->|C]; [right; split; [easy|]|left]; unfold ds1; cbn [List.length]; [lia|].
        destruct ds; [easy|cbn [List.length]; lia].
      * lia.
      * rewrite E1. cbn [rbind]. destruct (Z.to_nat d) as [|n] eqn:En; [lia|].
        destruct (conv_loop_nonempty _ _ _ _ _ _ E1) as (x & r & ->).
        eexists. split; [reflexivity|]. cbn [erase]. rewrite E2.
        unfold ds1 at 3. cbn [nest]. fold ds1. rewrite En. f_equal.
        cbn [chunks map] in E2.
        assert (Ex : erase x = nest (elt_of t) ds1 (ztake (volume ds1) dat)) by congruence.
        rewrite <- type_of_erase, Ex, nest_type. reflexivity.
Qed.

(** All ranks.  Scalars of char type need to be ASCII (see string_of_rune_byte). *)
Lemma convert_nest t ds data :
  Forall (fun d => 0 < d) ds -> 24 * volume ds <= 2 ^ 48 -> volume ds = zlen data ->
  (t = TChar -> ds = [] -> Forall (fun z => 0 <= z < 128) data) ->
  exists x, convert false t ds data = Ok x /\ erase x = nest (elt_of t) ds data.
Proof.
  intros Hp Hb Hv Hc. destruct ds as [|d [|d1 ds]].
  - cbn [volume] in Hv. destruct data as [|z [|? ?]].
    + rewrite zlen_nil in Hv. lia.
    + destruct t as [|k].
      * specialize (Hc eq_refl eq_refl). inversion Hc; subst.
        eexists. split; [reflexivity|]. cbn [convert erase string_of_rune_byte].
        unfold string_of_rune_byte. replace (z <? 128) with true by lia. reflexivity.
      * eexists. split; reflexivity.
    + rewrite !zlen_cons in Hv. pose proof (zlen_nonneg l). lia.
  - cbn [volume] in Hv. rewrite Z.mul_1_r in Hv.
    eexists. split; [reflexivity|]. rewrite erase_conv_row. cbn [nest]. now rewrite ztake_all by lia.
  - apply convert_nest_ge2; auto; [|lia]. left. cbn. lia.
Qed.

(** Slow code, all ranks *)
Lemma convert_slow_nest t ds data :
  Forall (fun d => 0 < d) ds -> 24 * volume ds <= 2 ^ 48 -> volume ds = zlen data ->
  exists x, convert true t ds data = Ok x /\ erase x = nest (elt_of t) ds data.
Proof.
  intros Hp Hb Hv. destruct ds as [|d ds].
  - cbn [volume] in Hv. destruct data as [|z [|? ?]].
    + rewrite zlen_nil in Hv. lia.
    + destruct t; eexists; (split; [reflexivity|reflexivity]).
    + rewrite !zlen_cons in Hv. pose proof (zlen_nonneg l). lia.
  - apply convert_nest_ge2; auto; [|lia]. right. split; [easy|]. cbn. lia.
Qed.

(** A request for no rows *)
Lemma convert_empty t d ds : (d = 0) -> ds = [] \/ t <> TChar \/ List.length ds = 1%nat ->
  exists x, convert false t (d :: ds) [] = Ok x /\ erase x = nest (elt_of t) (d :: ds) [].
Proof.
  intros -> H. destruct ds as [|d1 [|d2 ds]].
  - eexists. split; [reflexivity|]. rewrite erase_conv_row. reflexivity.
  - rewrite convert_rank2. rewrite go_make_ok by lia. cbn [rbind Z.to_nat conv_rows].
    eexists. split; [reflexivity|]. cbn [erase map nest Z.to_nat chunks]. now rewrite row_gtype_arr.
  - destruct H as [H|[H|H]]; [easy| |easy].
    rewrite convert_generic by (right; easy). destruct t as [|k]; [easy|].
    eexists. split; [reflexivity|]. cbn [erase map nest Z.to_nat chunks]. f_equal.
    cbn [List.length elt_of elem_gtype]. clear H. generalize (List.length ds) as n.
    induction n as [|n IH]; [reflexivity|].
    change (arr_type (ENum k) (S (S (S n)))) with (GSlice (arr_type (ENum k) (S (S n)))).
    rewrite <- IH. reflexivity.
Qed.
