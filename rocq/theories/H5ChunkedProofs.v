(** Whole chunked variables, and ranges of them that start at the beginning. *)
From Coq Require Import ZifyBool ZifyNat.
From Verif Require Import Prelude BaseLemmas GoVal FillModel FillProofs ArraySpec IndexProofs H5Base H5MetaRead
  H5ChecksumProofs H5LayoutModel H5Value H5TypeRead H5RecordModel ChunkSpec H5ChunkProofs H5LayoutRead MetaSpec H5MetaProofs
  RecordSpec H5RecordProofs H5IndexProofs H5SliceProofs H5RunProofs.

(** ** The index, read whole *)

Lemma chunk_in_grid dims ls : ext_ok dims ls -> forall idx, in_shape dims idx -> in_shape (chunk_grid dims ls) (chunk_of ls idx).
Proof.
  induction 1 as [|d l ds ls (Hd & Hl & Hs) _ IH]; intros idx I; inversion I as [|? x ? r Hx I']; subst; cbn [chunk_grid chunk_of]; constructor.
  - split; [apply Z.div_pos; lia|]. apply Z.div_lt_upper_bound; [lia|].
    pose proof (Z.div_mod (d + l - 1) l ltac:(lia)). pose proof (Z.mod_pos_bound (d + l - 1) l ltac:(lia)). lia.
  - apply IH, I'.
Qed.

Lemma grid_covers dims ls : ext_ok dims ls -> volume dims <= volume (chunk_grid dims ls) * volume ls.
Proof.
  induction 1 as [|d l ds ls (Hd & Hl & Hs) He IH]; cbn [chunk_grid volume]; [lia|].
  pose proof (Z.div_mod (d + l - 1) l ltac:(lia)). pose proof (Z.mod_pos_bound (d + l - 1) l ltac:(lia)).
  set (q := (d + l - 1) / l) in *.
  assert (0 <= volume ds).
  { apply volume_nonneg. clear -He. induction He as [|? ? ? ? (A & _)]; constructor; assumption. }
  assert (d <= q * l) by lia.
  replace (q * volume (chunk_grid ds ls) * (l * volume ls)) with ((q * l) * (volume (chunk_grid ds ls) * volume ls)) by ring.
  apply Z.mul_le_mono_nonneg; lia.
Qed.

Section Whole.
Variables (f : bytes) (d : dset) (t : itree).
Notation dims := (d_dims d). Notation ls := (d_layout d). Notation n := (volume ls). Notation dt := (d_length d).
Notation G := (chunk_grid dims ls).
Hypothesis Hf : zlen f < 2 ^ 63.
Hypothesis Hfit : fits d [].
Hypothesis Hix : indexed_whole f d t.

Lemma wh_elem : d_elem d = dt. Proof. apply Hix. Qed.
Lemma wh_layout : ls <> []. Proof. apply Hix. Qed.
Lemma wh_ext : ext_ok dims ls.
Proof. destruct Hfit as (_ & _ & _ & F). pose proof wh_layout. destruct ls eqn:E; [contradiction|]. apply F. Qed.
Lemma wh_dims : dims <> [].
Proof. destruct Hfit as (_ & _ & _ & F). pose proof wh_layout. destruct ls eqn:E; [contradiction|]. apply F. Qed.
Lemma wh_dt : 0 < dt. Proof. apply Hfit. Qed.
Lemma wh_n : 0 < n. Proof. exact (layout_pos _ _ wh_ext). Qed.
Lemma wh_total : total d = volume G * n * dt.
Proof. unfold total. pose proof wh_layout. destruct ls eqn:E; [contradiction|]. reflexivity. Qed.

Lemma wh_key k : in_shape dims k -> offset dims k * dt < total d /\ 0 <= offset dims k * dt /\ n * dt <= total d.
Proof.
  intros I. destruct (offset_range _ _ I) as [R1 R2]. pose proof wh_dt. pose proof wh_n.
  pose proof (offset_range _ _ (chunk_in_grid _ _ wh_ext _ I)). pose proof (grid_covers _ _ wh_ext).
  rewrite wh_total. split; [|split].
  - apply Z.mul_lt_mono_pos_r; lia.
  - apply Z.mul_nonneg_nonneg; lia.
  - apply Z.mul_le_mono_nonneg_r; [lia|]. nia.
Qed.

Lemma wh_flat k a : in_shape dims k = in_shape dims k -> forall kk, k = k_index kk -> in_shape dims k ->
  calculateFlatOffsetFromKeys (e_offsets (entry_of kk a)) dims (d_elem d) = offset dims k * dt.
Proof.
  intros _ kk -> I. unfold calculateFlatOffsetFromKeys. cbn [entry_of e_offsets].
  assert (Hdt : 0 <= dt < 2 ^ 64) by (destruct Hix as (_ & H & _); unfold d_length; pose proof wh_dt; unfold d_length in *; lia).
  rewrite wh_elem, keyOffset_eq by (exact Hdt || (symmetry; exact (in_shape_length _ _ I))). cbn [fst].
  destruct (wh_key _ I) as (A & B & _). assert (total d < 2 ^ 63) by apply Hfit. apply u64_small. lia.
Qed.

Lemma wh_walk_leaf descend e es : Forall (fun c => in_shape dims (k_index (fst c))) es ->
  walkEntries descend (fun e => calculateFlatOffsetFromKeys (e_offsets e) dims (d_elem d)) 0 (u64 (d_number d * d_elem d)) e 0 (total d)
    (map (fun e => entry_of (fst e) (snd e)) es) = Ok (map (index_block d) es).
Proof.
  induction 1 as [|[k a] es Hk _ IH]; [reflexivity|].
  cbn [map walkEntries fst snd].
  fold (walkEntries descend (fun e => calculateFlatOffsetFromKeys (e_offsets e) dims (d_elem d)) 0 (u64 (d_number d * d_elem d)) e 0 (total d)).
  rewrite (wh_flat _ a eq_refl k eq_refl Hk). cbn [fst] in Hk. destruct (wh_key _ Hk) as (A & B & C).
  assert (total d < 2 ^ 63) by apply Hfit. assert (0 < n * dt) by (apply Z.mul_pos_pos; [exact wh_n|exact wh_dt]).
  replace (total d <=? offset dims (k_index k) * dt) with false by lia. cbn [orb].
  match goal with |- context [if (0 <? ?h) && (?h <=? 0) then _ else _] => replace ((0 <? h) && (h <=? 0)) with false by lia end.
  change (0 <? 0) with false. cbv iota. rewrite IH. cbn [rbind app]. unfold index_block at 2. cbn [fst snd entry_of e_addr e_size e_mask e_offsets].
  do 3 f_equal. destruct Hix as (_ & _ & -> & _). rewrite wh_elem. apply u64_small. lia.
Qed.

Lemma wh_walk fu : forall t a top, stored f (List.length dims) top a t -> ikeys dims t -> (idepth t <= fu)%nat ->
  readBTreeNodeAny fu f d a top 0 (total d) = Ok (map (index_block d) (ichunks t)).
Proof.
  assert (Hrank : d_rank d = Z.of_nat (List.length dims) + 1) by apply Hix.
  induction fu as [|fu IH]; intros t0 a top HS HO HD; [destruct t0; cbn [idepth] in HD; lia|].
  inversion HS as [top' a' left0 right0 es lastk HT HN HA|top' a' left0 right0 level es lastk HT HL HN HA HC]; subst top' a' t0.
  - rewrite (node_read _ _ _ _ _ _ _ _ 0 _ _ _ _ Hf Hrank ltac:(lia) HT HN HA).
    inversion HO; subst. apply wh_walk_leaf. assumption.
  - assert (HL' : 0 <= level < 256) by lia.
    rewrite (node_read _ _ _ _ _ _ _ _ level _ _ _ _ Hf Hrank HL' HT HN HA).
    inversion HO as [|? ? ? O1]; subst. rewrite ichunks_node. pose proof (idepth_node _ _ _ _ HD) as D. rewrite map_map.
    clear HS HO HD HN HA. induction es as [|[[k x] sub] es IHes]; [reflexivity|].
    inversion O1 as [|? ? [P1 P2] P3]; subst. inversion HC as [|? ? C1 C2]; subst. inversion D as [|? ? D1 D2]; subst.
    cbn [map walkEntries fst snd flat_map] in *.
    match goal with |- context [walkEntries ?a ?b ?c ?x ?y ?z ?w] => fold (walkEntries a b c x y z w) end ||
    fold (walkEntries (fun a => readBTreeNodeAny fu f d a false 0 (total d)) (fun e => calculateFlatOffsetFromKeys (e_offsets e) dims (d_elem d)) level (u64 (d_number d * d_elem d)) (entry_of lastk 0) 0 (total d)).
    rewrite (wh_flat _ x eq_refl k eq_refl P2). destruct (wh_key _ P2) as (A & B & C).
    replace (total d <=? offset dims (k_index k) * dt) with false by lia. cbn [orb].
    match goal with |- context [if (0 <? ?h) && (?h <=? 0) then _ else _] => replace ((0 <? h) && (h <=? 0)) with false by lia end.
    replace (0 <? level) with true by lia. change (e_addr (entry_of k x)) with x.
    rewrite (IH _ _ _ C1 P1 D1). cbn [rbind]. rewrite (IHes C2 P3 D2). cbn [rbind]. rewrite map_app. reflexivity.
Qed.

Lemma wh_keys m : forall t, (idepth t <= m)%nat -> ikeys dims t -> Forall (fun c => in_shape dims (k_index (fst c))) (ichunks t).
Proof.
  induction m as [|m IH]; intros t0 D O; [destruct t0; cbn [idepth] in D; lia|].
  destruct O as [es last H|level es last H]; [exact H|].
  apply idepth_node in D. rewrite ichunks_node. apply Forall_flat_map. revert H D. clear -IH.
  induction es as [|e r IHr]; intros H D; constructor.
  - inversion H as [|? ? [H1 _] _]; inversion D; subst. apply IH; assumption.
  - inversion H; inversion D; subst. apply IHr; assumption.
Qed.
Lemma wh_all : Forall (fun c => in_shape dims (k_index (fst c))) (ichunks t).
Proof. destruct Hix as (_ & _ & _ & _ & _ & _ & _ & O & D & _). exact (wh_keys _ t D O). Qed.

Lemma wh_index : readBTreeNode f d 0 (total d) = Ok (map (index_block d) (ichunks t)).
Proof. destruct Hix as (_ & _ & _ & _ & _ & _ & S0 & O & D & _). apply wh_walk; assumption. Qed.

Lemma wh_fits : fits d (map (index_block d) (ichunks t)).
Proof.
  destruct Hfit as (F1 & F2 & F3 & F4). split; [exact F1|]. split; [exact F2|]. split; [exact F3|].
  pose proof wh_layout as NL. pose proof wh_ext as R. destruct ls as [|l0 l1] eqn:E; [exact I|]. destruct F4 as (G1 & G2 & _).
  split; [exact G1|]. split; [exact G2|]. rewrite Forall_map. eapply Forall_impl; [|exact wh_all]. cbn beta. intros c I0.
  cbn [index_block b_offsets]. split; [symmetry; exact (in_shape_length _ _ I0)|]. exact (chunk_in_grid _ _ R _ I0).
Qed.

Variable ps : list piece.
Hypothesis Hpl : placed f d 0 (map (index_block d) (ichunks t)) ps.
Notation at_ c := (offset G (chunk_of ls (k_index (fst c)))).

Lemma wh_pieces : Forall2 (fun c (x : piece) => fst x = at_ c * (n * dt) /\ zlen (snd x) = n * dt /\ snd x <> []) (ichunks t) ps.
Proof.
  pose proof (placed_positions _ _ wh_layout _ _ _ Hpl) as P. revert P. generalize (ichunks t) ps.
  intros cs. induction cs as [|c cs IH]; intros qs P; inversion P as [|? y ? l' Q1 Q2]; subst; constructor.
  - unfold chunk_pos in Q1. cbn [index_block b_ds b_offsets] in Q1. rewrite wh_elem in Q1. exact Q1.
  - apply IH; assumption.
Qed.

Lemma wh_inside : inside (total d) ps.
Proof.
  pose proof wh_pieces as P. pose proof wh_all as K. revert P K. generalize (ichunks t) ps.
  intros cs qs P. induction P as [|c x cs qs (A & B & C) P IH]; intros K; inversion K as [|? ? K1 K2]; subst; constructor; [|apply IH; exact K2].
  pose proof (offset_range _ _ (chunk_in_grid _ _ wh_ext _ K1)) as R.
  assert (0 < n * dt) by (apply Z.mul_pos_pos; [exact wh_n|exact wh_dt]).
  unfold p_end. rewrite A, B, wh_total. split; [apply Z.mul_nonneg_nonneg; lia|]. split; [|exact C].
  replace (volume G * n * dt) with (volume G * (n * dt)) by ring.
  assert ((at_ c + 1) * (n * dt) <= volume G * (n * dt)) by (apply Z.mul_le_mono_nonneg_r; lia). lia.
Qed.

Lemma wh_apart : apart ps.
Proof.
  assert (ND : NoDup (map (fun c => chunk_of ls (k_index (fst c))) (ichunks t))) by apply Hix.
  pose proof wh_pieces as P. pose proof wh_all as K. revert ND K P. generalize (ichunks t) ps.
  intros cs0 qs0 ND K P. revert ND K. induction P as [|c x cs qs H P IH]; intros ND K; [constructor|].
  cbn [map] in ND. inversion ND as [|? ? N1 N2]; subst. inversion K as [|? ? K1 K2]; subst. constructor; [|apply IH; assumption].
  clear IH ND K N2. revert N1 K2. induction P as [|c' y cs qs H' P IH]; intros N1 K2; constructor.
  - inversion K2 as [|? ? K3 K4]; subst. destruct H as (A & B & C). destruct H' as (A' & B' & C'). unfold p_end.
    rewrite A, B, A', B'. assert (0 < n * dt) by (apply Z.mul_pos_pos; [exact wh_n|exact wh_dt]).
    destruct (Z.lt_trichotomy (at_ c) (at_ c')) as [L|[L|L]].
    + left. assert ((at_ c + 1) * (n * dt) <= at_ c' * (n * dt)) by (apply Z.mul_le_mono_nonneg_r; lia). lia.
    + exfalso. apply N1. left. symmetry. exact (offset_inj _ _ _ (chunk_in_grid _ _ wh_ext _ K1) (chunk_in_grid _ _ wh_ext _ K3) L).
    + right. assert ((at_ c' + 1) * (n * dt) <= at_ c * (n * dt)) by (apply Z.mul_le_mono_nonneg_r; lia). lia.
  - inversion K2; subst. apply IH; [|assumption]. intros Q. apply N1. right. exact Q.
Qed.

Lemma wh_range : total d <> 0 -> d_fill d <> [] -> let first := 0 in let last_ := total d in
  (let* bl := readBTreeNode f d first last_ in
   match bl with
    | [] => Ok (fillBytes (d_fill d) (i64 (total d)), i64 (total d), bl)
    | _ =>
        let* segs := readBlocks f d first last_ bl 0 in
        let '(data, off) := joinSegs (d_fill d) (sortSegs segs) first in
        let extra := if off <? total d then fillBytes (d_fill d) (i64 (total d - off)) else [] in
        let off := if off <? total d then total d else off in
        if off <=? last_ then Ok (ztake (i64 (total d)) (data ++ extra), i64 (total d), bl)
        else Err ECorrupted
    end) = Ok (stream (d_fill d) ps 0 (total d), total d, map (index_block d) (ichunks t)).
Proof.
  intros Z0 Np first last_. subst first last_.
  pose proof wh_fits as F2. destruct (size_total _ _ Hfit) as [Es Pt].
  assert (Ht : total d < 2 ^ 63) by apply Hfit. pose proof wh_apart as Ap. pose proof wh_inside as Ins.
  pose proof wh_index as W. pose proof Hpl as Hpl'. revert Hpl' W F2. generalize (map (index_block d) (ichunks t)). intros bl Hpl' W F2.
  rewrite W. cbn [rbind]. destruct bl as [|b0 br].
  - inversion Hpl'. rewrite (i64_small (total d)) by lia. rewrite stream_fill by (assumption || lia). rewrite Z.sub_0_r. reflexivity.
  - rewrite <- (whole_stream f d (b0 :: br) ps Hf F2 Np Hpl' Ap Ins ltac:(discriminate)).
    unfold newRecordReader. rewrite Es. replace (total d =? 0) with false by lia. reflexivity.
Qed.

Lemma wh_reader slice : slice = None \/ needsLayoutReader dims ls = true -> d_fill d <> [] ->
  exists bl, newRecordReader f d [] slice = Ok (stream (d_fill d) ps 0 (total d), total d, bl) /\
             (total d <> 0 -> bl = map (index_block d) (ichunks t)).
Proof.
  intros Hsl Np. destruct (size_total _ _ Hfit) as [Es Pt]. assert (NB : d_btree d <> 0) by apply Hix.
  unfold newRecordReader. cbv zeta. rewrite Es. destruct (Z.eqb_spec (total d) 0) as [Z0|Z0].
  - exists []. split; [|contradiction]. rewrite Z0. reflexivity.
  - exists (map (index_block d) (ichunks t)). split; [|reflexivity].
    assert (E : match slice with
      | Some (b, e) => match dims with
          | n :: _ => if negb (needsLayoutReader dims ls) && (0 <? n)
              then (u64 (u64 b * (total d / n)), u64 (u64 e * (total d / n)), u64 (u64 (u64 e * (total d / n)) - u64 (u64 b * (total d / n))))
              else (0, total d, total d)
          | [] => (0, total d, total d) end
      | None => (0, total d, total d) end = (0, total d, total d)).
    { destruct Hsl as [-> | ->]; [reflexivity|]. destruct slice as [[b e]|]; [|reflexivity]. destruct dims; reflexivity. }
    rewrite E. replace (d_btree d =? 0) with false by lia. exact (wh_range Z0 Np).
Qed.
End Whole.

(** ** Reassembly *)

Lemma lr_read_len dims ls dt s n b s' : 0 <= n -> lr_read dims ls dt s n = Ok (Some (b, s')) -> zlen b <= n.
Proof.
  intros Hn H. unfold lr_read in H.
  destruct (if zlen (lr_buf s) =? 0 then fillrow dims ls dt s else Ok (Some s)) as [[s1|]| |]; cbn [rbind] in H; try discriminate.
  assert (E : b = ztake n (lr_buf s1)) by congruence. rewrite E, zlen_ztake_min. lia.
Qed.

Lemma take_reads dims ls dt : forall fuel s n, 0 <= n ->
  (forall sizes, Forall (fun m => 0 <= m) sizes -> exists outs, lr_reads dims ls dt s sizes = Ok outs) ->
  exists sizes outs, Forall (fun m => 0 < m) sizes /\ lr_reads dims ls dt s sizes = Ok outs /\
    lr_take fuel dims ls dt s n = Ok (List.concat (map got outs)) /\ zlen (List.concat (map got outs)) <= n /\
    (zlen (List.concat (map got outs)) = n \/ In None outs \/ (fuel <= List.length outs)%nat).
Proof.
  induction fuel as [|fu IH]; intros s n Hn Hall.
  - exists [], []. cbn. repeat split; try lia. constructor.
  - cbn [lr_take]. destruct (Z.leb_spec n 0) as [L|L].
    + exists [], []. cbn. repeat split; try lia. constructor.
    + destruct (Hall [n] ltac:(constructor; [lia|constructor])) as [outs E]. cbn [lr_reads] in E.
      destruct (lr_read dims ls dt s n) as [[[b s']|]| |] eqn:Er; cbn [rbind] in E; try discriminate.
      * pose proof (lr_read_len _ _ _ _ _ _ _ Hn Er) as Lb. pose proof (zlen_nonneg b).
        assert (Hall' : forall sizes, Forall (fun m => 0 <= m) sizes -> exists outs, lr_reads dims ls dt s' sizes = Ok outs).
        { intros sizes Hs. destruct (Hall (n :: sizes) ltac:(constructor; [lia|exact Hs])) as [o Eo]. cbn [lr_reads] in Eo.
          rewrite Er in Eo. cbn [rbind] in Eo. destruct (lr_reads dims ls dt s' sizes) as [xs| |]; try discriminate. exists xs. reflexivity. }
        assert (Hn' : 0 <= n - zlen b) by lia.
        destruct (IH s' _ Hn' Hall') as (sizes & outs' & P1 & P2 & P3 & P4 & P5).
        exists (n :: sizes), (Some b :: outs'). split; [constructor; [lia|exact P1]|].
        split; [cbn [lr_reads]; rewrite Er; cbn [rbind]; rewrite P2; reflexivity|].
        cbn [rbind]. rewrite P3. cbn [rbind]. cbn [map List.concat got]. split; [reflexivity|].
        rewrite zlen_app. split; [lia|]. destruct P5 as [P5|[P5|P5]]; [left; lia|right; left; right; exact P5|right; right; cbn [List.length]; lia].
      * exists [n], [None]. split; [constructor; [lia|constructor]|]. split; [cbn [lr_reads]; rewrite Er; reflexivity|].
        cbn. split; [reflexivity|]. split; [lia|]. right. left. left. reflexivity.
Qed.

Lemma none_dec {A} (l : list (option A)) : In None l \/ ~ In None l.
Proof.
  induction l as [|[x|] l IH]; [right; exact (fun q => q)| |left; left; reflexivity].
  destruct IH as [H|H]; [left; right; exact H|right]. intros [Q|Q]; [discriminate|exact (H Q)].
Qed.

Lemma take_dataset dims ls dt s n fuel : orderly dims ls -> ext_ok dims ls -> 1 <= dt ->
  volume (chunk_grid dims ls) * volume ls * dt <= zlen s -> 0 <= n -> n < Z.of_nat fuel ->
  lr_take fuel dims ls dt (newLayoutReader s) n = Ok (ztake n (dataset dims ls dt s)).
Proof.
  intros Ho He Hdt Hs Hn Hfu.
  destruct (take_reads dims ls dt fuel (newLayoutReader s) n Hn) as (sizes & outs & P1 & P2 & P3 & P4 & P5).
  { intros sizes Hz. destruct (layout_reader_row_major dims ls dt s sizes Ho He Hdt Hs Hz) as (outs & _ & E & _). exists outs. exact E. }
  assert (P1' : Forall (fun m => 0 <= m) sizes) by (eapply Forall_impl; [|exact P1]; cbn beta; lia).
  destruct (layout_reader_row_major dims ls dt s sizes Ho He Hdt Hs P1') as (outs' & rest & E & E1 & E2 & E3).
  assert (outs' = outs) by congruence. subst outs'. rewrite P3. f_equal. rewrite <- E1.
  assert (G : zlen (List.concat (map got outs)) = n \/ rest = []).
  { destruct P5 as [P5|[P5|P5]]; [left; exact P5|right; exact (E2 P5)|].
    destruct (none_dec outs) as [N|N]; [right; exact (E2 N)|].
    destruct (Z.leb_spec (last dims 0) 0) as [Lz|Lz].
    - right. assert (D0 : dataset dims ls dt s = []).
      { assert (V0 : volume dims = 0).
        { clear -Ho He Lz. assert (Hd : Forall (fun x => 0 <= x) dims) by (clear -He; induction He as [|? ? ? ? (A & _)]; constructor; assumption).
          assert (Nd : dims <> []) by (destruct Ho; discriminate).
          clear Ho He. induction Hd as [|x r Hx Hr IH]; [contradiction|]. destruct r as [|y r]; cbn [last] in Lz; rewrite volume_cons.
          - change (volume []) with 1. lia.
          - rewrite IH by (assumption || discriminate). lia. }
        unfold dataset. assert (I0 : indices dims = []).
        { apply zlen_zero. rewrite zlen_indices; [exact V0|]. clear -He. induction He as [|? ? ? ? (A & _)]; constructor; assumption. }
        rewrite I0. reflexivity. }
      rewrite D0 in E1. destruct (app_eq_nil _ _ E1) as [_ R0]. exact R0.
    - exfalso. assert (LE : Z.of_nat (List.length outs) <= zlen (List.concat (map got outs))).
      { clear -E3 P1 N Lz. induction E3 as [|m o sizes outs H _ IH]; [reflexivity|]. inversion P1; subst.
        cbn [map List.concat List.length]. rewrite zlen_app. specialize (IH ltac:(assumption) ltac:(intros Q; apply N; right; exact Q)).
        assert (1 <= zlen (got o)); [|lia].
        destruct o as [b|]; [|exfalso; apply N; left; reflexivity]. cbn [got].
        assert (Nb : b <> []) by (intros ->; apply H; [assumption|exact Lz|reflexivity]).
        pose proof (nonempty_len _ Nb). lia. }
      lia. }
  destruct G as [G| ->].
  - rewrite ztake_app_exact by lia. reflexivity.
  - rewrite app_nil_r. symmetry. apply ztake_all. exact P4.
Qed.

Lemma zlen_dataset dims ls dt s : ext_ok dims ls -> 0 <= dt -> volume (chunk_grid dims ls) * volume ls * dt <= zlen s ->
  zlen (dataset dims ls dt s) = volume dims * dt.
Proof.
  intros He Hdt Hs. unfold dataset.
  assert (Hd : Forall (fun x => 0 <= x) dims) by (clear -He; induction He as [|? ? ? ? (A & _)]; constructor; assumption).
  rewrite <- (zlen_indices dims Hd).
  assert (F : Forall (fun i => zlen (chunk_elem dims ls dt s i) = dt) (indices dims)).
  { apply Forall_forall. intros i Hi. apply In_indices in Hi. unfold chunk_elem. cbv zeta.
    pose proof (offset_range _ _ (chunk_in_grid _ _ He _ Hi)) as R1.
    assert (R2 : 0 <= offset ls (within ls i) < volume ls).
    { apply offset_range. clear -He Hi. revert i Hi. induction He as [|d l ds ls (A & B & C) _ IH]; intros i Hi; inversion Hi; subst; cbn [within]; constructor.
      - apply Z.mod_pos_bound. lia.
      - apply IH. assumption. }
    set (g := offset (chunk_grid dims ls) (chunk_of ls i)) in *. set (w := offset ls (within ls i)) in *.
    assert (0 <= g * volume ls) by (apply Z.mul_nonneg_nonneg; lia).
    assert ((g + 1) * volume ls <= volume (chunk_grid dims ls) * volume ls) by (apply Z.mul_le_mono_nonneg_r; lia).
    assert (0 <= (g * volume ls + w) * dt) by (apply Z.mul_nonneg_nonneg; lia).
    assert ((g * volume ls + w + 1) * dt <= volume (chunk_grid dims ls) * volume ls * dt) by (apply Z.mul_le_mono_nonneg_r; lia).
    rewrite zlen_ztake; [reflexivity|exact Hdt|]. rewrite zlen_zdrop. lia. }
  clear -F. induction F as [|x r H _ IH]; [reflexivity|]. cbn [flat_map]. rewrite zlen_app, zlen_cons, H, IH. lia.
Qed.

(** ** Values *)

Lemma prefix_split (r D : bytes) m : 0 <= m -> m <= zlen r -> ztake m r = ztake m D -> r = ztake m D ++ zdrop m r.
Proof. intros H0 H1 E. rewrite <- E. symmetry. apply ztake_zdrop. Qed.

Lemma cut_bytes (D F : bytes) (limit sz m : Z) (c : bool) : 0 <= m <= limit -> m <= zlen D -> m <= sz ->
  let data1 := ztake limit D in
  let data2 := if c then ztake sz (data1 ++ F) else data1 in
  ztake m (ztake limit data2) = ztake m D /\ m <= zlen (ztake limit data2).
Proof.
  intros Hm HD Hs data1 data2.
  assert (E1 : ztake m data1 = ztake m D) by (unfold data1; rewrite ztake_ztake, Z.min_l by lia; reflexivity).
  assert (L1 : m <= zlen data1) by (unfold data1; rewrite zlen_ztake_min; lia).
  assert (E2 : ztake m data2 = ztake m D /\ m <= zlen data2).
  { unfold data2. destruct c; [|split; assumption]. split.
    - rewrite ztake_ztake, Z.min_l by lia. rewrite ztake_app_l by exact L1. exact E1.
    - rewrite zlen_ztake_min, zlen_app. pose proof (zlen_nonneg F). lia. }
  destruct E2 as [E2 L2]. split.
  - rewrite ztake_ztake, Z.min_l by lia. exact E2.
  - rewrite zlen_ztake_min. lia.
Qed.

Section Chunked.
Variables (f : bytes) (d : dset) (t : itree) (ps : list piece).
Notation dims := (d_dims d). Notation ls := (d_layout d). Notation dt := (d_length d).
Hypothesis Hf : zlen f < 2 ^ 63.
Hypothesis Hfit : fits d [].
Hypothesis Hix : indexed_whole f d t.
Hypothesis Hpl : placed f d 0 (map (index_block d) (ichunks t)) ps.
Hypothesis Hfill : d_fill d <> [].
Hypothesis Hord : orderly dims ls.
Hypothesis Hneeds : needsLayoutReader dims ls = true.
Notation D := (dataset dims ls dt (stream (d_fill d) ps 0 (total d))).

Lemma ch_stream : volume (chunk_grid dims ls) * volume ls * dt <= zlen (stream (d_fill d) ps 0 (total d)).
Proof.
  destruct (size_total _ _ Hfit) as [_ Pt]. rewrite zlen_stream, <- (wh_total f d t Hix). lia.
Qed.

Lemma ch_zlen : zlen D = volume dims * dt.
Proof. apply zlen_dataset; [exact (wh_ext f d t Hfit Hix)|pose proof (wh_dt d Hfit); lia|exact ch_stream]. Qed.

Lemma ch_room : volume dims * dt <= total d.
Proof.
  rewrite (wh_total f d t Hix). pose proof (wh_dt d Hfit). apply Z.mul_le_mono_nonneg_r; [lia|].
  apply grid_covers. exact (wh_ext f d t Hfit Hix).
Qed.

Lemma ch_bytes slice m limit : (slice = None /\ limit = total d) \/
    (exists b e n ds, slice = Some (b, e) /\ b <= e /\ e - b < 2 ^ 63 /\ dims = n :: ds /\ limit = (if n =? 0 then 0 else total d / n) * (e - b)) ->
  0 <= limit < 2 ^ 63 -> 0 <= m <= limit -> m <= volume dims * dt ->
  exists rest bl, dataBytes f d [] slice = Ok (ztake m D ++ rest, bl).
Proof.
  intros Hsl Hlim Hm HmD. destruct (size_total _ _ Hfit) as [Es Pt]. assert (Ht : total d < 2 ^ 63) by apply Hfit.
  destruct (wh_reader f d t Hf Hfit Hix ps Hpl slice (or_intror Hneeds) Hfill) as (bl & W & _).
  unfold dataBytes. cbv zeta. rewrite W, Es, Hneeds. cbn [rbind]. rewrite (i64_small (total d)) by lia.
  assert (EL : match slice with
       | None => Ok (total d)
       | Some (b, e) => if e <? b then Err EInternal
           else Ok (i64 (match dims with [] => 1 | n :: _ => if n =? 0 then 0 else Z.quot (total d) (i64 n) end * i64 (e - b))) end = Ok limit).
  { destruct Hsl as [[-> ->]|(b & e & n & ds & -> & H1 & H2 & H3 & ->)]; [reflexivity|].
    replace (e <? b) with false by lia. rewrite H3. f_equal.
    assert (Hd : Forall (fun n => 0 <= n < 2 ^ 63) (n :: ds)) by (rewrite <- H3; apply Hfit).
    inversion Hd as [|? ? Hn _]; subst. rewrite (i64_small (e - b)) by lia.
    destruct (Z.eqb_spec n 0) as [N0|N0]; [reflexivity|]. rewrite (i64_small n) by lia.
    rewrite Z.quot_div_nonneg by lia. apply i64_small. lia. }
  rewrite EL. cbn [rbind]. rewrite (take_dataset _ _ _ _ limit) by
    (assumption || exact ch_stream || exact (wh_ext f d t Hfit Hix) || (pose proof (wh_dt d Hfit); lia) || lia).
  cbn [rbind].
  match goal with |- context [ztake limit (if ?c then ztake (total d) (_ ++ ?F) else _)] =>
    pose proof (cut_bytes D F limit (total d) m c Hm ltac:(rewrite ch_zlen; exact HmD) ltac:(pose proof ch_room; lia)) as [C1 C2] end.
  cbv zeta in C1, C2. eexists _, bl. do 2 f_equal. apply (prefix_split _ D m); [lia|exact C2|exact C1].
Qed.

Theorem chunked_values heap : laid (d_ty d) ->
  fst (getData f heap d true (opened d [])) = let* (v, _) := alloc heap (d_ty d) dims D in Ok v.
Proof.
  intros Hs. pose proof ch_room as R. destruct (size_total _ _ Hfit) as [_ Pt]. assert (Ht : total d < 2 ^ 63) by apply Hfit.
  assert (Hd : Forall (fun n => 0 <= n) dims) by (eapply Forall_impl; [|exact (proj1 Hfit)]; cbn beta; lia).
  assert (V0 : 0 <= volume dims * dt) by (pose proof (wh_dt d Hfit); pose proof (volume_nonneg _ Hd); apply Z.mul_nonneg_nonneg; lia).
  destruct (ch_bytes None (volume dims * dt) (total d)) as (rest & bl & E); [left; split; reflexivity|lia|lia|lia|].
  rewrite ztake_all in E by (rewrite ch_zlen; lia).
  unfold getData, opened. cbn [v_slice v_blocks v_ty]. rewrite E. cbn [fst sliceDims].
  pose proof (wh_dims f d t Hfit Hix) as Nd. destruct dims as [|n ds] eqn:Ed; [contradiction|]. rewrite <- Ed in *.
  assert (L : local (alloc heap (d_ty d) dims) (volume dims * dlen (d_ty d))) by (rewrite Ed; apply laid_local; [exact Hs|rewrite <- Ed; exact Hd]).
  rewrite (L D rest ch_zlen).
  destruct (alloc heap (d_ty d) dims D) as [[v s]| |]; reflexivity.
Qed.

Theorem chunked_from_start heap n ds e v st' : sliced (d_ty d) n ds v 0 e -> dims = n :: ds -> 0 <= e <= n ->
  getData f heap d true (opened d []) = (Ok v, st') ->
  exists v', fst (getSlice f heap d 0 e (opened d [])) = Ok v' /\ vpart v 0 e = Some v' /\ (e = n -> v' = v).
Proof.
  intros Hs Ed He H. apply (f_equal fst) in H. cbn [fst] in H. rewrite (chunked_values heap (sliced_laid _ _ _ _ _ _ Hs)) in H.
  assert (Hd : Forall (fun n => 0 <= n < 2 ^ 63) (n :: ds)) by (rewrite <- Ed; apply Hfit).
  assert (Hd' : Forall (fun n => 0 <= n) (n :: ds)) by (eapply Forall_impl; [|exact Hd]; cbn beta; lia).
  inversion Hd as [|? ? Hn _]; subst x l. inversion Hd' as [|? ? _ Hds']; subst x l.
  assert (Nn : needsLayoutReader dims ls = true) by exact Hneeds.
  destruct (alloc heap (d_ty d) dims D) as [[w r]| |] eqn:Ea; cbn [rbind] in H; try discriminate.
  assert (w = v) by congruence. subst w. rewrite Ed in Ea at 1.
  pose proof (wh_dt d Hfit) as Pd. pose proof (volume_nonneg _ Hds') as Pv.
  set (row := volume ds * dt). assert (Hrow : 0 <= row) by (apply Z.mul_nonneg_nonneg; lia).
  assert (EV : volume dims * dt = n * row) by (rewrite Ed, volume_cons; unfold row; ring).
  pose proof ch_room as R. rewrite EV in R. assert (Ht : total d < 2 ^ 63) by apply Hfit. destruct (size_total _ _ Hfit) as [_ Pt].
  assert (Be : 0 <= e * row <= n * row) by (split; [apply Z.mul_nonneg_nonneg; lia|apply Z.mul_le_mono_nonneg_r; lia]).
  set (q := if n =? 0 then 0 else total d / n).
  assert (Q : 0 <= q * (e - 0) < 2 ^ 63 /\ e * row <= q * (e - 0)).
  { rewrite Z.sub_0_r. unfold q. destruct (Z.eqb_spec n 0) as [N0|N0]; [assert (e = 0) by lia; subst e; lia|].
    assert (Q1 : row <= total d / n) by (apply Z.div_le_lower_bound; lia).
    assert (Q2 : n * (total d / n) <= total d) by (apply Z.mul_div_le; lia).
    assert (Q3 : 0 <= total d / n) by (apply Z.div_pos; lia).
    assert (e * row <= total d / n * e) by (rewrite (Z.mul_comm _ e); apply Z.mul_le_mono_nonneg_l; lia).
    assert (total d / n * e <= n * (total d / n)) by (rewrite (Z.mul_comm n); apply Z.mul_le_mono_nonneg_l; lia).
    lia. }
  destruct (ch_bytes (Some (0, e)) (e * row) (q * (e - 0))) as (rest & bl & E).
  { right. exists 0, e, n, ds. repeat split; [lia|lia|exact Ed]. }
  { lia. } { lia. } { lia. }
  assert (Ez : volume (n :: ds) * dlen (d_ty d) <= zlen D) by (rewrite ch_zlen, EV, volume_cons; unfold row, d_length; lia).
  destruct (any_part heap _ _ _ _ _ _ 0 e Hs Hd' Ea Ez ltac:(lia) ltac:(lia)) as (v' & A1 & A2).
  exists v'. split; [|split; [exact A2|]].
  - unfold getSlice. replace (match dims with [] => true | _ => false end) with false by (rewrite Ed; reflexivity).
    rewrite andb_false_r. replace (e <? 0) with false by lia.
    unfold getData, opened. cbn [v_slice v_blocks v_ty]. rewrite E. cbn [fst].
    replace (sliceDims dims (Some (0, e))) with (e :: ds).
    2:{ rewrite Ed. cbn [sliceDims]. rewrite u64_small by lia. rewrite Z.sub_0_r. reflexivity. }
    fold (d_length d) in A1. fold row in A1.
    change (0 * row) with 0 in A1. rewrite Z.sub_0_r in A1. unfold part in A1. rewrite zdrop_0 in A1 by lia.
    assert (Ze : zlen (ztake (e * row) D) = volume (e :: ds) * dlen (d_ty d)).
    { rewrite zlen_ztake by (rewrite ?ch_zlen; lia). rewrite volume_cons. unfold row, d_length. ring. }
    assert (Fe : Forall (fun n => 0 <= n) (e :: ds)) by (constructor; [lia|exact Hds']).
    rewrite (laid_local heap (d_ty d) (sliced_laid _ _ _ _ _ _ Hs) e ds Fe (ztake (e * row) D) rest Ze), A1. reflexivity.
  - intros ->. change (0 * (volume ds * dlen (d_ty d))) with 0 in A1. rewrite Z.sub_0_r in A1. unfold part in A1. rewrite zdrop_0 in A1 by lia.
    rewrite ztake_all in A1 by (rewrite ch_zlen, EV; unfold row, d_length; lia). congruence.
Qed.
End Chunked.
