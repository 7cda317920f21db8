(** C76: messages of the format that the reader refuses, whatever is in them.  These and those of [P_H5ForeignType] are all
    data layout, external file and filter messages that there are. *)
From Coq Require Import Lia ZifyBool ZifyNat.
From Verif Require Import Prelude GoVal BaseLemmas ArraySpec H5Base H5MetaWrite H5MetaRead MetaSpec DenseSpec H5MetaProofs H5Value
  TypeSpec H5TypeRead H5TypeProofs H5DenseProofs ForeignSpec ForeignTypeSpec ForeignMsgSpec ForeignLayoutSpec H5ForeignType H5PathModel
  H5RecordModel H5FileRead H5ForeignTree H5ForeignMsg.

Theorem C76_layout_refuted :
  (forall elem b p r, old_place_is elem b p -> readDataLayout (b ++ r) = Err ELayout) /\
  (forall b shape elem r, new_chunks_are b shape elem -> exists e, readDataLayout (b ++ r) = Err e) /\
  (forall b r, virtual_is b -> readDataLayout (b ++ r) = Err EVirtualStorage) /\
  (forall x b st, handle x 7 b st = Err EExternal).
Proof.
  split; [|split; [|split; [|reflexivity]]].
  - intros elem b p r [v dims data [-> | ->] H1 H2 H3|v dims a [-> | ->] H1 H2 H3|v shape a [-> | ->] H1 H2 H3 H4];
      unfold readDataLayout; rewrite <- !app_assoc; cbn [app]; step8; reflexivity.
  - intros b shape elem r (flags & n & kind & info & a & H1 & H2 & H3 & H4 & H5 & H6 & ->). exists ELayout.
    unfold readDataLayout; rewrite <- !app_assoc; cbn [app]. step8. rewrite (pbind_step _ _ _ _ _ (passert_true _ _)). step8. reflexivity.
  - intros b r (heap & index & H1 & H2 & ->).
    unfold readDataLayout; rewrite <- !app_assoc; cbn [app]. step8. rewrite (pbind_step _ _ _ _ _ (passert_true _ _)). step8. reflexivity.
Qed.

(** ** Filters *)
Lemma pbind_is_ok {A B} (p : P A) (k : A -> P B) s x r : pbind p k s = Ok (x, r) -> exists a s', p s = Ok (a, s') /\ k a s' = Ok (x, r).
Proof. unfold pbind. destruct (p s) as [[a s']| |]; cbn [rbind]; intros H; try discriminate H. exists a, s'. auto. Qed.
Lemma filter_needs_known total v id s x r : word 16 id -> readFilter total v (le 2 id ++ s) = Ok (x, r) -> 1 <= id <= 3.
Proof.
  intros Hi H. unfold readFilter in H. apply pbind_is_ok in H. destruct H as (fiv & s1 & E & H).
  rewrite (read16_le _ _ Hi) in E. injection E as <- <-.
  do 6 (apply pbind_is_ok in H; destruct H as (? & ? & _ & H)).
  apply pbind_is_ok in H. destruct H as (u & s2 & E & _). unfold passert in E.
  destruct ((1 <=? id) && (id <=? 3)) eqn:K; [lia|discriminate E].
Qed.
Lemma known_dec d : known_filter d \/ ~ known_filter d.
Proof. unfold known_filter. lia. Qed.

(** A pipeline with a filter other than compression, shuffling and checksums is not read. *)
Theorem C76_filters_refuted b l r : filters_are b l -> ~ Forall known_filter l ->
  forall x, readFilterPipeline (b ++ r) <> Ok x.
Proof.
  intros H Hk. unfold readFilterPipeline. destruct H as [l Hl Hok|l Hl Hok].
  - remember (zlen (([1; zlen l] ++ zrep 6 0 ++ flat_map filter_v1 l) ++ r)) as total eqn:Et.
    assert (Hr : (total - zlen (flat_map filter_v1 l ++ r)) mod 8 = 0).
    { subst total. rewrite <- !app_assoc. rewrite (zlen_app [1; zlen l]), (zlen_app (zrep 6 0)).
      change (zlen [1; zlen l]) with 2. rewrite zlen_zrep. Z.div_mod_to_equations. lia. }
    rewrite <- !app_assoc. cbn [app]. step8. rewrite (pbind_step _ _ _ _ _ (passert_true _ _)). step8.
    change (1 =? 1) with true. cbv iota.
    rewrite (pbind_step _ _ _ tt (flat_map filter_v1 l ++ r)).
    2:{ change (zrep 6 0) with (le 2 0 ++ le 4 0). rewrite <- !app_assoc.
        rewrite (pbind_step _ _ _ 0 (le 4 0 ++ flat_map filter_v1 l ++ r)) by (apply read16_le; lia).
        rewrite (pbind_step _ _ _ _ _ (checkVal_same _ _)).
        rewrite (pbind_step _ _ _ 0 (flat_map filter_v1 l ++ r)) by (apply read32_le'; lia). apply checkVal_same. }
    unfold zlen at 1. rewrite Nat2Z.id. clear Et Hl.
    induction l as [|d l IH]; [exfalso; apply Hk; constructor|]. cbn [flat_map List.length map] in *. rewrite <- app_assoc in Hr |- *. rewrite repeatP_S.
    pose proof (Forall_inv Hok) as [Ho Hn]. destruct (known_dec d) as [Hkd|Hkd].
    + rewrite (pbind_step _ _ _ _ _ (filter_v1_read total d _ Ho Hn Hkd Hr)).
      assert (Hr' : (total - zlen (flat_map filter_v1 l ++ r)) mod 8 = 0).
      { rewrite zlen_app in Hr. pose proof (zlen_filter_v1 d Hn). Z.div_mod_to_equations. lia. }
      intros [x q] E. apply pbind_is_ok in E. destruct E as (y & q' & E & _).
      apply (IH (Forall_inv_tail Hok) (fun K => Hk (Forall_cons d Hkd K)) Hr' _ E).
    + intros [x q] E. apply pbind_is_ok in E. destruct E as (y & q' & E & _). unfold filter_v1 in E. rewrite <- !app_assoc in E.
      apply Hkd. exact (filter_needs_known _ _ _ _ _ _ (proj1 Ho) E).
  - generalize (zlen (([2; zlen l] ++ flat_map filter_v2 l) ++ r)). intros total. rewrite <- !app_assoc. cbn [app].
    step8. rewrite (pbind_step _ _ _ _ _ (passert_true _ _)). step8.
    change (2 =? 1) with false. cbv iota. unfold pret at 1, pbind at 1. cbn [rbind].
    unfold zlen at 1. rewrite Nat2Z.id. clear Hl.
    induction l as [|d l IH]; [exfalso; apply Hk; constructor|]. cbn [flat_map List.length map]. rewrite <- app_assoc. rewrite repeatP_S.
    pose proof (Forall_inv Hok) as Ho. destruct (known_dec d) as [Hkd|Hkd].
    + rewrite (pbind_step _ _ _ _ _ (filter_v2_read total d _ Ho Hkd)).
      intros [x q] E. apply pbind_is_ok in E. destruct E as (y & q' & E & _).
      apply (IH (Forall_inv_tail Hok) (fun K => Hk (Forall_cons d Hkd K)) _ E).
    + intros [x q] E. apply pbind_is_ok in E. destruct E as (y & q' & E & _). unfold filter_v2 in E. rewrite <- !app_assoc in E.
      apply Hkd. exact (filter_needs_known _ _ _ _ _ _ (proj1 Ho) E).
Qed.

(** Messages of each kind: a contiguous dataset of version 1, one chunk in version 4, the filter "szip" *)
Example C76_refused_example :
  old_place_is 2 ([1; 1; 1] ++ zrep 5 0 ++ le 8 800 ++ flat_map (le 4) [3]) (Contiguous (Some 800) (volume [3] * 2)) /\
  new_chunks_are ([4; 2; 0; 2; 1] ++ flat_map (le 1) ([3] ++ [2]) ++ [1] ++ [] ++ le 8 800) [3] 2 /\
  filters_are ([2; 1] ++ flat_map filter_v2 [mkFilter 4 0 [] [141; 8]]) [mkFilter 4 0 [] [141; 8]] /\
  ~ Forall known_filter [mkFilter 4 0 [] [141; 8]].
Proof.
  split; [apply (old_contiguous 2 1 [3] (Some 800)); [left; reflexivity|reflexivity|repeat constructor; unfold word; lia|cbn; unfold undefined; lia]|].
  split.
  - exists 0, 1, 1, [], (Some 800). split; [lia|]. split; [lia|]. split; [cbn; lia|]. split; [repeat constructor; unfold word; lia|].
    split; [apply info_single|]. split; [cbn; unfold undefined; lia|reflexivity].
  - split; [apply (filters_v2 [mkFilter 4 0 [] [141; 8]]); [reflexivity|repeat constructor; cbn; unfold word; lia]|].
    intros H. apply Forall_inv in H. unfold known_filter in H. cbn in H. lia.
Qed.

Print Assumptions C76_layout_refuted.
Print Assumptions C76_filters_refuted.
