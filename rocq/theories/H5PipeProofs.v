(** Lemmas: the filters of a chunk are undone. *)
From Coq Require Import Lia ZifyBool ZifyNat.
From Verif Require Import Prelude BaseLemmas GoVal H5Base H5FilterModel FilterSpec H5FilterProofs ForeignMsgSpec ForeignFilterSpec H5RecordModel H5PipeModel.
Ltac Zify.zify_post_hook ::= Z.div_mod_to_equations.

(** ** The stages *)

Lemma fletcher_stage r d s size again : are_bytes d -> sum_plain d -> r again = Ok s -> s = d ++ le 4 (fletcher32 d) ->
  size = zlen s -> (again = true -> zlen d mod 2 = 0) -> fletcherStage r size again = Ok d.
Proof.
  intros Hd (S1 & S2) Hr -> -> Hev. pose proof (zlen_nonneg d) as Z0. unfold fletcherStage. rewrite Hr. cbn [rbind].
  pose proof (fletcher32_range d Hd) as Hst.
  assert (EL : zlen (d ++ le 4 (fletcher32 d)) = zlen d + 4) by (rewrite zlen_app, zlen_le; lia). rewrite EL.
  unfold fletcher32Reader. replace (4 <=? zlen d + 4) with true by lia. cbn [rbind].
  replace (zlen d + 4 - 4) with (zlen d) by lia. cbn [fl_reads].
  destruct (fl_read_cases (mkFl (d ++ le 4 (fletcher32 d)) (zlen d + 4) 0 0 0 0 0 false) (zlen d + 4) [] d [] (fletcher32 d) (zlen d))
    as [_ H]; try (cbn [app]; rewrite app_nil_r); try assumption; try reflexivity.
  { unfold fl_at. cbn [fl_r fl_size fl_count fl_readck fl_sum1 fl_sum2]. repeat split; reflexivity. }
  specialize (H eq_refl). cbn [app] in H. rewrite go_fletcher_norm, norm_id, Z.eqb_refl in H by assumption.
  destruct H as (fl' & -> & Es & Ec & Ek & Eck & Esum). cbn [rbind]. destruct again.
  - cbn [fl_reads]. destruct (fl_read_end fl' (zlen d + 4) 0 Es Ec Ek ltac:(congruence)) as [fl'' ->].
    { replace (zlen d + 4 - 4) with (zlen d) by lia. apply Hev. reflexivity. }
    cbn [rbind List.concat]. rewrite !app_nil_r. reflexivity.
  - cbn [fl_reads rbind List.concat]. rewrite app_nil_r. reflexivity.
Qed.

Lemma shuffle_zlen n d : 1 <= n -> zlen (shuffle (Z.to_nat n) d) = zlen d.
Proof. intros H. unfold zlen. rewrite shuffle_length by lia. reflexivity. Qed.
Lemma shuffle_stage r d target n again : 1 <= n -> (n | zlen d) -> r true = Ok (shuffle (Z.to_nat n) d) -> target = zlen d ->
  shuffleStage r target n again = Ok d.
Proof.
  intros Hn Hd Hr ->. pose proof (zlen_nonneg d) as Z0. unfold shuffleStage. rewrite Hr. cbn [rbind].
  pose proof (unsh_reads_all n d [zlen d] Hn Hd ltac:(constructor; [lia|constructor])) as H. cbn [unsh_reads cut] in H.
  destruct (unsh_read _ _) as [[out u]| |]; cbn [rbind] in *; try discriminate. injection H as ->. rewrite ztake_all by lia. reflexivity.
Qed.

Section Pipe.
  Variable deflated : bytes -> bytes -> Prop.
  Variable inflate : bytes -> res bytes.
  Hypothesis inflates : forall d s, deflated d s -> inflate s = Ok d.

  Notation kinds := (map (fun d => (fd_id d, fd_vals d))).

  (** Nothing but checksums *)
  Lemma checks_undone mask j l d tr s : encoded deflated mask j l d tr s -> only_checked tr -> zlen s < 2 ^ 64 ->
    forall ts, List.length ts = List.length l ->
    exists r, stages inflate mask j (kinds l) ts (fun _ => Ok s, zlen s) = (r, zlen d) /\ r false = Ok d /\ zlen d <= zlen s.
  Proof.
    intros H. induction H as [j d|j x l d tr s Hm H IH|j x l d d' tr s Hm Hk Hdf H IH|j x l d n ns tr s Hm Hk Hv H IH|j x l d tr s Hm Hk Hb H IH];
      intros Ht Hs ts Hl; cbn [map stages].
    - exists (fun _ => Ok d). split; [destruct ts; reflexivity|]. split; [reflexivity|lia].
    - destruct ts as [|t ts]; [discriminate|]. injection Hl as Hl. unfold masked. rewrite Hm. exact (IH Ht Hs ts Hl).
    - destruct Ht.
    - destruct Ht.
    - destruct ts as [|t ts]; [discriminate|]. injection Hl as Hl. unfold masked. rewrite Hm. destruct Ht as [Hp Ht].
      destruct (IH Ht Hs ts Hl) as (r & E & Er & Le). rewrite E. unfold stage. rewrite Hk. cbn [Z.eqb Pos.eqb].
      pose proof (zlen_nonneg d) as Z0.
      assert (EL : zlen (d ++ le 4 (fletcher32 d)) = zlen d + 4) by (rewrite zlen_app, zlen_le; lia).
      eexists. split.
      { f_equal. rewrite EL. unfold u64. rewrite Z.mod_small by lia. lia. }
      split; [|lia]. eapply fletcher_stage; [exact Hb|exact Hp|exact Er|reflexivity|reflexivity|discriminate].
  Qed.

  Lemma targets_length mask l : forall j c, List.length (targetSizes mask j c (kinds l)) = List.length l.
  Proof. induction l as [|x l IH]; intros j c; cbn [map targetSizes List.length]; [reflexivity|]. rewrite IH. reflexivity. Qed.

  Lemma stages_undone mask j l d tr s : encoded deflated mask j l d tr s -> forall shuffled, undoable shuffled tr -> zlen s < 2 ^ 64 ->
    zlen d + 4 * zlen l < 2 ^ 63 ->
    exists r, stages inflate mask j (kinds l) (targetSizes mask j (zlen d) (kinds l)) (fun _ => Ok s, zlen s) = (r, zlen d) /\
      forall again, (again = true -> shuffled = true) -> r again = Ok d.
  Proof.
    intros H. induction H as [j d|j x l d tr s Hm H IH|j x l d d' tr s Hm Hk Hdf H IH|j x l d n ns tr s Hm Hk Hv H IH|j x l d tr s Hm Hk Hb H IH];
      intros sh Ht Hs Hn; cbn [map stages targetSizes]; try (rewrite zlen_cons in Hn); pose proof (zlen_nonneg d) as Z0; try pose proof (zlen_nonneg l) as Zl.
    - exists (fun _ => Ok d). split; [reflexivity|reflexivity].
    - unfold masked in *. rewrite Hm. cbn [negb andb]. apply IH; [exact Ht|exact Hs|lia].
    - unfold masked. rewrite Hm. cbn [negb andb]. rewrite Hk. cbn [Z.eqb Pos.eqb]. cbn [undoable] in Ht.
      destruct (checks_undone _ _ _ _ _ _ H Ht Hs (targetSizes mask (j + 1) (zlen d) (kinds l)) (targets_length _ _ _ _)) as (r & E & Er & _).
      rewrite E. unfold stage. cbn [Z.eqb Pos.eqb]. eexists. split; [reflexivity|]. intros again _. unfold deflateStage.
      rewrite Er. cbn [rbind]. rewrite (inflates _ _ Hdf). cbn [rbind]. rewrite ztake_all; [reflexivity|]. rewrite i64_small; lia.
    - destruct Ht as (H1 & H2 & Ht). unfold masked. rewrite Hm. cbn [negb andb]. rewrite Hk. cbn [Z.eqb Pos.eqb].
      pose proof (shuffle_zlen n d H1) as EZ. destruct (IH true Ht Hs ltac:(lia)) as (r & E & Er). rewrite EZ in E. rewrite E.
      unfold stage. cbn [Z.eqb Pos.eqb]. rewrite Hv. eexists. split; [reflexivity|]. intros again _.
      apply shuffle_stage; [exact H1|exact H2|apply Er; reflexivity|reflexivity].
    - destruct Ht as (H1 & H2 & Ht). unfold masked. rewrite Hm. cbn [negb andb]. rewrite Hk. cbn [Z.eqb Pos.eqb].
      assert (EL : zlen (d ++ le 4 (fletcher32 d)) = zlen d + 4) by (rewrite zlen_app, zlen_le; lia).
      replace (u64 (zlen d + 4)) with (zlen d + 4) by (unfold u64; rewrite Z.mod_small by lia; reflexivity).
      destruct (IH sh Ht Hs ltac:(lia)) as (r & E & Er). rewrite EL in E. rewrite E. unfold stage. cbn [Z.eqb Pos.eqb].
      eexists. split; [f_equal; unfold u64; rewrite Z.mod_small by lia; lia|]. intros again Ha.
      eapply fletcher_stage; [exact Hb|exact H1|apply Er; exact Ha|reflexivity|symmetry; exact EL|]. intros E'. apply H2, Ha, E'.
  Qed.

  Theorem filters_undone l b d tr s : encoded deflated (b_mask b) 0 l d tr s -> undoable false tr -> zlen s < 2 ^ 64 ->
    zlen d + 4 * zlen l < 2 ^ 63 -> b_ds b = zlen d -> b_length b = zlen s ->
    undoFilters inflate (kinds l) b s = Ok d.
  Proof.
    intros H Ht Hs Hn Hd Hl. unfold undoFilters. rewrite Hd, Hl.
    destruct (stages_undone _ _ _ _ _ _ H false Ht Hs Hn) as (r & E & Er). rewrite E. apply Er. discriminate.
  Qed.

  (** If only checksums are used the data are stored as they are *)
  Lemma unfiltered_prefix mask j l d tr s : encoded deflated mask j l d tr s -> forallb (fun x => fst x =? 3) (kinds l) = true ->
    exists more, s = d ++ more.
  Proof.
    intros H. induction H as [j d|j x l d tr s Hm H IH|j x l d d' tr s Hm Hk Hdf H IH|j x l d n ns tr s Hm Hk Hv H IH|j x l d tr s Hm Hk Hb H IH];
      cbn [map forallb fst]; intros E; try (apply andb_prop in E; destruct E as [E1 E2]).
    - exists []. rewrite app_nil_r. reflexivity.
    - apply IH, E2.
    - lia.
    - lia.
    - destruct (IH E2) as [more ->]. rewrite <- app_assoc. eexists. reflexivity.
  Qed.
End Pipe.
