(** The reader that puts chunks back into row-major order: the whole stream. *)
From Coq Require Import ZifyBool ZifyNat.
From Verif Require Import Prelude BaseLemmas ArraySpec ArrayProofs ChunkSpec H5Base H5LayoutModel H5ChunkProofs IndexProofs H5LayoutProofs.

(** Index of the element with index [delta] in chunk [c] *)
Fixpoint place (ls c delta : list Z) : list Z :=
  match ls, c, delta with
  | l :: ls', x :: c', d :: delta' => (x * l + d) :: place ls' c' delta'
  | _, _, _ => []
  end.

Lemma place_length ls : forall c delta, List.length ls = List.length c -> List.length ls = List.length delta ->
  List.length (place ls c delta) = List.length ls.
Proof. induction ls as [|l ls IH]; intros [|x c] [|d delta] E1 E2; cbn [List.length place] in *; try lia. rewrite IH; lia. Qed.

Lemma chunk_of_place ls : forall c delta tl dl, List.length ls = List.length c -> in_shape ls delta ->
  chunk_of (ls ++ [tl]) (place ls c delta ++ [dl]) = c ++ [dl / tl] /\
  within (ls ++ [tl]) (place ls c delta ++ [dl]) = delta ++ [dl mod tl].
Proof.
  induction ls as [|l ls IH]; intros [|x c] delta tl dl E H; cbn [List.length] in E; try discriminate.
  - inversion H; subst. split; reflexivity.
  - inversion H as [|? y ? ys Hy Hys]; subst. cbn [app place chunk_of within].
    destruct (IH c ys tl dl ltac:(lia) Hys) as [-> ->].
    rewrite Z.add_comm, Z.div_add, Z.mod_add, Z.div_small, Z.mod_small by lia. split; reflexivity.
Qed.

Lemma chunk_grid_app a : forall b c d, List.length a = List.length b ->
  chunk_grid (a ++ c) (b ++ d) = chunk_grid a b ++ chunk_grid c d.
Proof.
  induction a as [|x a IH]; intros [|y b] c d E; cbn [List.length] in E; try discriminate; [reflexivity|].
  cbn [app chunk_grid]. rewrite IH by lia. reflexivity.
Qed.
Lemma chunk_grid_length a : forall b, List.length a = List.length b -> List.length (chunk_grid a b) = List.length a.
Proof. induction a as [|x a IH]; intros [|y b] E; cbn [List.length chunk_grid] in *; try lia. rewrite IH; lia. Qed.

Lemma Forall2_len {A B} (P : A -> B -> Prop) a b : Forall2 P a b -> List.length a = List.length b.
Proof. induction 1; cbn [List.length]; lia. Qed.

Lemma nth_ztake_drop a n (S0 : bytes) b : 0 <= a -> 0 <= b < n -> znth (ztake n (zdrop a S0)) b = znth S0 (a + b).
Proof. intros. rewrite znth_take, znth_drop by lia. reflexivity. Qed.

Lemma cell_bound o V m L b dt : 0 <= o < V -> 0 <= m < L -> 0 <= b < dt ->
  0 <= o * (L * dt) + (b + dt * m) < V * (L * dt).
Proof.
  intros Ho Hm Hb. assert (dt * m <= dt * (L - 1)) by (apply Z.mul_le_mono_nonneg_l; lia).
  assert (0 <= dt * m) by (apply Z.mul_nonneg_nonneg; lia).
  assert (0 <= L * dt) by (apply Z.mul_nonneg_nonneg; lia).
  assert (o * (L * dt) <= (V - 1) * (L * dt)) by (apply Z.mul_le_mono_nonneg_r; lia).
  assert (0 <= o * (L * dt)) by (apply Z.mul_nonneg_nonneg; lia). lia.
Qed.
Lemma mulsum_nonneg a b c d : 0 <= a -> 0 <= b -> 0 <= c -> 0 <= d -> 0 <= (a * b + c) * d.
Proof. intros. apply Z.mul_nonneg_nonneg; [|lia]. apply Z.add_nonneg_nonneg; [apply Z.mul_nonneg_nonneg; lia|lia]. Qed.

Lemma fillrow_snoc lead n llead L g dt s : zip cdiv (lead ++ [n]) (llead ++ [L]) = fst g ++ [snd g] ->
  fillrow (lead ++ [n]) (llead ++ [L]) dt s =
  if volume (fst g) <=? lr_stripe s then Ok None
  else
    let coords := fst (decode (fst g) (lr_stripe s)) in
    let valid := validCounts lead llead coords in
    let* (buf, r) :=
      foldM (fun (st : bytes * bytes) gc =>
               let* (chunk, r) := rd (volume llead * (L * dt)) (snd st) in
               let* buf := foldM (copyRow lead llead coords valid n L dt gc chunk) (zseq (volume llead)) (fst st) in
               Ok (buf, r))
            (zseq (snd g)) (zrep (volume valid * (n * dt)) 0, lr_r s) in
    Ok (Some (mkLR r buf (lr_stripe s + 1))).
Proof.
  intros E. unfold fillrow. destruct (lead ++ [n]) as [|d0 dr] eqn:Ed; [destruct lead; discriminate|]. rewrite <- Ed in *.
  rewrite E, !removelast_last, !last_last, !product_volume, volume_app. cbn [volume].
  destruct (volume (fst g) <=? lr_stripe s); [reflexivity|].
  destruct (decode (fst g) (lr_stripe s)) as [c0 rest0]. cbv zeta. cbn [fst]. rewrite ?product_volume.
  replace (volume llead * (L * 1) * dt) with (volume llead * (L * dt)) by ring.
  rewrite <- (Z.mul_assoc (volume (validCounts lead llead c0))). reflexivity.
Qed.

Section All.
Variables (lead llead : list Z) (n L dt : Z) (S0 : bytes).
Hypothesis (Hext : ext_ok lead llead) (HL : 1 <= L) (Hn : 0 <= n) (HnL : n + L <= 2 ^ 64) (Hdt : 1 <= dt).
Let dims := lead ++ [n].
Let layout := llead ++ [L].
Let glead := chunk_grid lead llead.
Let G := (n + L - 1) / L.
Let CS := volume llead * (L * dt).
Hypothesis (HS : volume glead * G * CS <= zlen S0).

Definition stripe (c : list Z) : bytes :=
  flat_map (fun delta => flat_map (fun col => chunk_elem dims layout dt S0 (place llead c delta ++ [col])) (zseq n))
           (indices (validCounts lead llead c)).

Lemma all_len : List.length lead = List.length llead.
Proof. exact (Forall2_len _ _ _ Hext). Qed.
Lemma glead_len : List.length glead = List.length llead.
Proof. unfold glead. rewrite chunk_grid_length; exact all_len. Qed.
Lemma G_bounds : (0 < n -> (G - 1) * L < n) /\ n <= G * L /\ 0 <= G /\ (n = 0 -> G = 0).
Proof.
  unfold G. pose proof (Z.div_mod (n + L - 1) L ltac:(lia)) as D. pose proof (Z.mod_pos_bound (n + L - 1) L ltac:(lia)) as M.
  split; [lia|]. split; [lia|]. split; [apply Z.div_pos; lia|]. intros ->. apply Z.div_small. lia.
Qed.
Lemma CS_pos : 0 < CS.
Proof. apply Z.mul_pos_pos; [eapply volume_pos, st_llead_pos; exact Hext|]. apply Z.mul_pos_pos; lia. Qed.

Lemma grid_all : chunk_grid dims layout = glead ++ [G].
Proof. unfold dims, layout. rewrite chunk_grid_app by exact all_len. reflexivity. Qed.
Lemma layout_vol : volume layout = volume llead * L.
Proof. unfold layout. rewrite volume_app. cbn [volume]. lia. Qed.

(** Position of an element of a stripe in the stream *)
Lemma elem_pos c delta col : in_shape glead c -> in_shape llead delta ->
  chunk_elem dims layout dt S0 (place llead c delta ++ [col]) =
  ztake dt (zdrop ((offset glead c * G + col / L) * CS + (offset llead delta * L + col mod L) * dt) S0).
Proof.
  intros Hc Hd. unfold chunk_elem. rewrite grid_all. unfold layout.
  destruct (chunk_of_place llead c delta L col) as [-> ->].
  { rewrite <- glead_len. exact (in_shape_length _ _ Hc). } { exact Hd. }
  rewrite (offset_app glead) by exact (in_shape_length _ _ Hc).
  rewrite (offset_app llead) by exact (in_shape_length _ _ Hd).
  fold layout. rewrite layout_vol. cbn [offset volume]. f_equal. f_equal. unfold CS. ring.
Qed.

Lemma elem_len c delta col : in_shape glead c -> in_shape llead delta -> 0 <= col < n ->
  zlen (chunk_elem dims layout dt S0 (place llead c delta ++ [col])) = dt.
Proof.
  intros Hc Hd Hcol. rewrite elem_pos by assumption.
  pose proof (offset_range _ _ Hc) as R1. pose proof (offset_range _ _ Hd) as R2.
  destruct G_bounds as (_ & B2 & B3 & _).
  assert (Q1 : 0 <= col / L < G) by (split; [apply Z.div_pos; lia|apply Z.div_lt_upper_bound; lia]).
  pose proof (Z.mod_pos_bound col L ltac:(lia)) as Q2.
  set (u := offset glead c) in *. set (v := offset llead delta) in *. set (x := col / L) in *. set (y := col mod L) in *.
  assert (I1 : (v * L + y + 1) * dt <= CS).
  { unfold CS. rewrite Z.mul_assoc. apply Z.mul_le_mono_nonneg_r; [lia|]. nia. }
  assert (I2 : (u * G + x + 1) * CS <= volume glead * G * CS).
  { apply Z.mul_le_mono_nonneg_r; [pose proof CS_pos; lia|]. nia. }
  assert (I3 : 0 <= (u * G + x) * CS) by (apply Z.mul_nonneg_nonneg; [nia|pose proof CS_pos; lia]).
  assert (I4 : 0 <= (v * L + y) * dt) by (apply Z.mul_nonneg_nonneg; nia).
  rewrite zlen_ztake; [reflexivity|lia|]. rewrite zlen_zdrop. lia.
Qed.

Lemma valid_shape c delta : in_shape glead c -> In delta (indices (validCounts lead llead c)) -> in_shape llead delta.
Proof. intros Hc Hd. apply In_indices in Hd. exact (valid_in_layout _ _ _ _ Hext Hc Hd). Qed.

Lemma row_len c delta : in_shape glead c -> in_shape llead delta ->
  zlen (flat_map (fun col => chunk_elem dims layout dt S0 (place llead c delta ++ [col])) (zseq n)) = n * dt.
Proof.
  intros Hc Hd. rewrite (zlen_flat_map_uniform _ _ dt); [now rewrite zlen_zseq by lia|].
  intros col Hcol. apply In_zseq in Hcol. now apply elem_len.
Qed.

Lemma stripe_len c : in_shape glead c -> zlen (stripe c) = volume (validCounts lead llead c) * (n * dt).
Proof.
  intros Hc. unfold stripe. rewrite (zlen_flat_map_uniform _ _ (n * dt)).
  - rewrite zlen_indices; [reflexivity|].
    pose proof (proj1 (validCounts_spec _ _ _ Hext Hc)) as V. eapply Forall_impl; [|exact V]. cbv beta. lia.
  - intros delta Hd. apply row_len; [exact Hc|]. exact (valid_shape _ _ Hc Hd).
Qed.

Lemma stripe_znth c p : 0 < n -> in_shape glead c -> 0 <= p < volume (validCounts lead llead c) * (n * dt) ->
  znth (stripe c) p =
  cell lead llead c n L dt (chunk_at llead L dt (zdrop (offset glead c * (G * CS)) S0) (pcol n L dt p)) p.
Proof.
  intros Hn0 Hc Hp. pose proof (proj1 (validCounts_spec _ _ _ Hext Hc)) as VP.
  assert (HW : 0 < n * dt) by (apply Z.mul_pos_pos; lia).
  unfold stripe, znth at 1.
  rewrite (nth_flat_map_uniform _ _ (n * dt) 0 [] HW).
  2:{ intros delta Hd. apply row_len; [exact Hc|]. exact (valid_shape _ _ Hc Hd). }
  2:{ rewrite zlen_indices; [exact Hp|]. eapply Forall_impl; [|exact VP]. cbv beta. lia. }
  destruct (p_split lead llead c n L dt Hn0 Hdt p Hp) as (P1 & P2 & P3).
  rewrite (indices_nth _ VP _ [] P1).
  destruct (decode_small _ _ VP P1) as [D1 D2].
  pose proof (valid_in_layout _ _ _ _ Hext Hc D1) as D3.
  set (delta := fst (decode (validCounts lead llead c) (p / (n * dt)))) in *.
  set (w := p mod (n * dt)) in *.
  rewrite (nth_flat_map_uniform _ _ dt 0 0 ltac:(lia)).
  2:{ intros col Hcol. apply In_zseq in Hcol. now apply elem_len. }
  2:{ rewrite zlen_zseq by lia. exact P2. }
  assert (Q0 : 0 <= w / dt < n).
  { split; [apply Z.div_pos; lia|apply Z.div_lt_upper_bound; lia]. }
  rewrite nth_zseq by exact Q0. rewrite elem_pos by assumption.
  pose proof (Z.mod_pos_bound w dt ltac:(lia)) as Mb.
  pose proof (Z.mod_pos_bound (w / dt) L ltac:(lia)) as ML.
  pose proof (offset_range _ _ Hc) as R1. pose proof (offset_range _ _ D3) as R2.
  destruct G_bounds as (_ & B2 & B3 & _). pose proof CS_pos as CP.
  assert (Q1 : 0 <= w / dt / L) by (apply Z.div_pos; lia).
  fold (znth (ztake dt (zdrop ((offset glead c * G + w / dt / L) * CS + (offset llead delta * L + (w / dt) mod L) * dt) S0)) (w mod dt)).
  rewrite nth_ztake_drop; [|apply Z.add_nonneg_nonneg; apply mulsum_nonneg; lia|exact Mb].
  unfold cell, chunk_at, pcol, rcOf. fold w. fold delta. fold CS.
  assert (E1 : w / (L * dt) = w / dt / L) by (rewrite Z.mul_comm, <- Z.div_div by lia; reflexivity).
  assert (E2 : w mod (L * dt) = w mod dt + dt * ((w / dt) mod L)) by (rewrite Z.mul_comm, Z.rem_mul_r by lia; reflexivity).
  rewrite E1, E2.
  pose proof (cell_bound _ _ _ _ _ _ R2 ML Mb) as I1. fold CS in I1.
  rewrite nth_ztake_drop.
  - rewrite znth_drop.
    + f_equal. ring.
    + apply Z.mul_nonneg_nonneg; [lia|apply Z.mul_nonneg_nonneg; lia].
    + apply Z.add_nonneg_nonneg; [apply Z.mul_nonneg_nonneg; lia|]. apply I1.
  - apply Z.mul_nonneg_nonneg; lia.
  - exact I1.
Qed.

Lemma glead_pos c : in_shape glead c -> Forall (fun g => 0 < g) glead.
Proof. apply in_shape_nonneg. Qed.

Lemma grid_zip : zip cdiv (lead ++ [n]) (llead ++ [L]) = glead ++ [G].
Proof.
  rewrite grid_eq; [exact grid_all|]. unfold ext_ok. apply Forall2_app; [exact Hext|].
  constructor; [lia|constructor].
Qed.

(** One stripe *)
Lemma fillrow_ok k b : 0 <= k < volume glead ->
  fillrow dims layout dt (mkLR (zdrop (k * (G * CS)) S0) b k) =
  Ok (Some (mkLR (zdrop ((k + 1) * (G * CS)) S0) (stripe (fst (decode glead k))) (k + 1))).
Proof.
  intros Hk. assert (GP : Forall (fun g => 0 < g) glead).
  { assert (NN : Forall (fun g => 0 <= g) glead) by (apply grid_nonneg; exact Hext).
    assert (0 < volume glead) as VP by lia. clear -NN VP.
    induction NN as [|g r Hg Hr IH]; [constructor|]. cbn [volume] in VP.
    pose proof (volume_nonneg r Hr). constructor; [nia|apply IH; nia]. }
  destruct (decode_small glead k GP Hk) as [Hc Eo]. set (c := fst (decode glead k)) in *.
  rewrite (fillrow_snoc lead n llead L (glead, G)) by exact grid_zip.
  cbn [lr_stripe lr_r fst snd]. replace (volume glead <=? k) with false by lia. cbv zeta. fold c. fold CS.
  destruct G_bounds as (B1 & B2 & B3 & B4). pose proof CS_pos as CP.
  assert (HR : G * CS <= zlen (zdrop (k * (G * CS)) S0)).
  { rewrite zlen_zdrop. assert (0 <= G * CS) by (apply Z.mul_nonneg_nonneg; lia).
    assert ((k + 1) * (G * CS) <= volume glead * (G * CS)) by (apply Z.mul_le_mono_nonneg_r; lia).
    assert (0 <= k * (G * CS)) by (apply Z.mul_nonneg_nonneg; lia). lia. }
  assert (Edrop : zdrop (G * CS) (zdrop (k * (G * CS)) S0) = zdrop ((k + 1) * (G * CS)) S0).
  { rewrite zdrop_zdrop by (apply Z.mul_nonneg_nonneg; [|apply Z.mul_nonneg_nonneg]; lia). f_equal. ring. }
  pose proof (proj1 (validCounts_spec _ _ _ Hext Hc)) as VP.
  pose proof (volume_pos _ VP) as VV.
  destruct (Z.eq_dec n 0) as [En|En].
  - rewrite (B4 En). change (zseq 0) with (@nil Z). cbn [foldM rbind].
    assert (ES : stripe c = []).
    { apply zlen_zero. rewrite stripe_len by exact Hc. rewrite En. lia. }
    rewrite ES. rewrite zrep_le0 by (rewrite En; lia). do 3 f_equal. 
    rewrite !Z.mul_0_l, !Z.mul_0_r. reflexivity.
  - destruct (read_chunks lead llead c n L dt Hext Hc HL ltac:(lia) Hdt (zdrop (k * (G * CS)) S0)
                (zrep (volume (validCounts lead llead c) * (n * dt)) 0) G) with (k := Z.to_nat G) as (b' & E' & Lb & Nb).
    + rewrite zlen_zrep. assert (0 <= n * dt) by (apply Z.mul_nonneg_nonneg; lia). nia.
    + apply B1. lia.
    + exact HR.
    + lia.
    + rewrite Z2Nat.id in E' by lia. fold CS in E'.
      match goal with |- rbind _ ?K = _ => refine (eq_trans (f_equal (fun x => rbind x K) E') _) end.
      cbn [rbind]. rewrite Edrop.
      do 3 f_equal. apply znth_ext; [rewrite stripe_len by exact Hc; exact Lb|].
      intros p Hp. rewrite Lb in Hp. rewrite Nb by exact Hp. rewrite stripe_znth; [|lia|exact Hc|exact Hp].
      rewrite Eo. rewrite Z2Nat.id by lia.
      assert (PC : pcol n L dt p < G).
      { unfold pcol. apply Z.div_lt_upper_bound; [apply Z.mul_pos_pos; lia|].
        pose proof (Z.mod_pos_bound p (n * dt) ltac:(apply Z.mul_pos_pos; lia)).
        assert (n * dt <= G * L * dt) by (apply Z.mul_le_mono_nonneg_r; lia). lia. }
      replace (pcol n L dt p <? G) with true by lia. reflexivity.
Qed.

Lemma fillrow_end k b r : volume glead <= k -> fillrow dims layout dt (mkLR r b k) = Ok None.
Proof.
  intros Hk. unfold dims, layout. rewrite (fillrow_snoc lead n llead L (glead, G)) by exact grid_zip.
  cbn [lr_stripe fst snd]. replace (volume glead <=? k) with true by lia. reflexivity.
Qed.

(** ** Any sequence of reads *)

Definition stripes : list bytes := map stripe (indices glead).

Definition lr_inv (s : lreader) : Prop :=
  0 <= lr_stripe s <= volume glead /\ lr_r s = zdrop (lr_stripe s * (G * CS)) S0.
Definition remaining (s : lreader) : bytes :=
  lr_buf s ++ List.concat (zdrop (lr_stripe s) stripes).

Lemma glead_nonneg : Forall (fun g => 0 <= g) glead.
Proof. apply grid_nonneg. exact Hext. Qed.

Lemma stripes_next k : 0 <= k < volume glead ->
  zdrop k stripes = stripe (fst (decode glead k)) :: zdrop (k + 1) stripes.
Proof.
  intros Hk. assert (GP : Forall (fun g => 0 < g) glead).
  { pose proof glead_nonneg as NN. assert (0 < volume glead) as VP by lia. clear -NN VP.
    induction NN as [|g r Hg Hr IH]; [constructor|]. cbn [volume] in VP.
    pose proof (volume_nonneg r Hr). constructor; [nia|apply IH; nia]. }
  pose proof (zlen_indices glead glead_nonneg) as Li.
  unfold stripes, zdrop. replace (Z.to_nat (k + 1)) with (S (Z.to_nat k)) by lia.
  rewrite !skipn_map. rewrite <- (indices_nth glead GP k [] Hk).
  assert (Hl : (Z.to_nat k < List.length (indices glead))%nat) by (unfold zlen in Li; lia).
  revert Hl. clear Li. generalize (Z.to_nat k). induction (indices glead) as [|x l IH]; intros m Hm; cbn [List.length] in Hm; [lia|].
  destruct m; [reflexivity|]. cbn [skipn nth]. apply IH. lia.
Qed.

Lemma lr_read_ok s m : lr_inv s -> 0 <= m ->
  (lr_read dims layout dt s m = Ok None /\ remaining s = []) \/
  exists b s', lr_read dims layout dt s m = Ok (Some (b, s')) /\ lr_inv s' /\ b ++ remaining s' = remaining s /\
    (0 < m -> 0 < n -> b <> []).
Proof.
  intros [I1 I2] Hm. unfold lr_read. destruct (zlen (lr_buf s) =? 0) eqn:E.
  - assert (EB : lr_buf s = []) by (apply zlen_zero; lia).
    destruct s as [r b k]. cbn [lr_r lr_buf lr_stripe] in *. subst b r.
    destruct (Z.eq_dec k (volume glead)) as [Ek|Ek].
    + left. rewrite fillrow_end by lia. cbn [rbind]. split; [reflexivity|].
      unfold remaining. cbn [lr_buf lr_stripe app]. rewrite zdrop_all; [reflexivity|].
      unfold stripes. rewrite zlen_map, zlen_indices by exact glead_nonneg. lia.
    + right. rewrite fillrow_ok by lia. cbn [rbind lr_buf lr_r lr_stripe].
      eexists _, _. split; [reflexivity|]. split; [split; cbn [lr_stripe lr_r]; [lia|reflexivity]|].
      split.
      * unfold remaining. cbn [lr_buf lr_stripe app]. rewrite (stripes_next k) by lia.
        cbn [List.concat]. rewrite app_assoc, ztake_zdrop. reflexivity.
      * intros Hm0 Hn0 Eb. assert (GP : Forall (fun g => 0 < g) glead).
        { pose proof glead_nonneg as NN. assert (0 < volume glead) as VP by lia. clear -NN VP.
          induction NN as [|g r Hg Hr IH]; [constructor|]. cbn [volume] in VP.
          pose proof (volume_nonneg r Hr). constructor; [nia|apply IH; nia]. }
        destruct (decode_small glead k GP ltac:(lia)) as [Hc _].
        apply (f_equal (@zlen Z)) in Eb. rewrite zlen_ztake_min, stripe_len in Eb by exact Hc.
        change (zlen (@nil Z)) with 0 in Eb.
        pose proof (volume_pos _ (proj1 (validCounts_spec _ _ _ Hext Hc))).
        assert (0 < n * dt) by (apply Z.mul_pos_pos; lia).
        assert (0 < volume (validCounts lead llead (fst (decode glead k))) * (n * dt)) by (apply Z.mul_pos_pos; lia). lia.
  - right. cbn [rbind]. eexists _, _. split; [reflexivity|]. split; [split; [exact I1|exact I2]|]. split.
    + unfold remaining. cbn [lr_buf lr_stripe]. rewrite app_assoc, ztake_zdrop. reflexivity.
    + intros Hm0 _ Eb. apply (f_equal (@zlen Z)) in Eb. rewrite zlen_ztake_min in Eb.
      change (zlen (@nil Z)) with 0 in Eb. pose proof (zlen_nonneg (lr_buf s)). lia.
Qed.

Definition got (o : option bytes) : bytes := match o with Some b => b | None => [] end.

Lemma lr_reads_ok sizes : Forall (fun m => 0 <= m) sizes -> forall s, lr_inv s ->
  exists outs rest, lr_reads dims layout dt s sizes = Ok outs /\
    List.concat (map got outs) ++ rest = remaining s /\
    (In None outs -> rest = []) /\
    Forall2 (fun m o => 0 < m -> 0 < n -> o <> Some []) sizes outs.
Proof.
  induction 1 as [|m sizes Hm _ IH]; intros s Hs.
  - exists [], (remaining s). split; [reflexivity|]. split; [reflexivity|]. split; [easy|constructor].
  - cbn [lr_reads]. destruct (lr_read_ok s m Hs Hm) as [[E Er]|(b & s' & E & Hs' & Er & Hp)]; rewrite E; cbn [rbind].
    + destruct (IH s Hs) as (outs & rest & E1 & E2 & E3 & E4). rewrite E1. cbn [rbind].
      exists (None :: outs), rest. split; [reflexivity|]. split; [exact E2|]. split.
      * intros _. rewrite Er in E2. now apply app_eq_nil in E2.
      * constructor; [discriminate|exact E4].
    + destruct (IH s' Hs') as (outs & rest & E1 & E2 & E3 & E4). rewrite E1. cbn [rbind].
      exists (Some b :: outs), rest. split; [reflexivity|]. split; [|split].
      * cbn [map List.concat got]. rewrite <- app_assoc, E2. exact Er.
      * intros [H|H]; [discriminate|now apply E3].
      * constructor; [|exact E4]. intros H1 H2 H3. injection H3 as ->. now apply Hp.
Qed.

Lemma new_inv : lr_inv (newLayoutReader S0) /\ remaining (newLayoutReader S0) = flat_map stripe (indices glead).
Proof.
  split.
  - unfold lr_inv, newLayoutReader. cbn [lr_stripe lr_r]. pose proof (volume_nonneg _ glead_nonneg).
    split; [lia|]. now rewrite zdrop_0 by lia.
  - unfold remaining, newLayoutReader. cbn [lr_buf lr_stripe app]. rewrite zdrop_0 by lia.
    unfold stripes. now rewrite flat_map_concat_map.
Qed.

(** The stripes are rows *)
Lemma stripes_rows :
  flat_map stripe (indices glead) =
  flat_map (fun i => flat_map (fun col => chunk_elem dims layout dt S0 (i ++ [col])) (zseq n))
    (flat_map (fun c => map (place llead c) (indices (validCounts lead llead c))) (indices glead)).
Proof.
  rewrite flat_map_flat_map. apply flat_map_ext. intros c. unfold stripe. rewrite flat_map_map. reflexivity.
Qed.

Lemma dataset_rows :
  dataset dims layout dt S0 =
  flat_map (fun i => flat_map (fun col => chunk_elem dims layout dt S0 (i ++ [col])) (zseq n)) (indices lead).
Proof.
  unfold dataset. unfold dims at 2. rewrite indices_snoc, flat_map_flat_map.
  apply flat_map_ext. intros i. now rewrite flat_map_map.
Qed.
End All.

(** ** The order of the rows *)

Inductive orderly_lead : list Z -> list Z -> Prop :=
| ol_nil : orderly_lead [] []
| ol_one d ds ls : orderly_lead ds ls -> orderly_lead (d :: ds) (1 :: ls)
| ol_whole d l ds ls : Forall2 (fun d l => d <= l) ds ls -> orderly_lead (d :: ds) (l :: ls).

Definition rows_of (ds ls : list Z) : list (list Z) :=
  flat_map (fun c => map (place ls c) (indices (validCounts ds ls c))) (indices (chunk_grid ds ls)).

Lemma whole_chunks ds ls : ext_ok ds ls -> Forall2 (fun d l => d <= l) ds ls ->
  (exists zs, indices (chunk_grid ds ls) = [zs] /\ validCounts ds ls zs = ds /\
     forall x, List.length x = List.length ds -> place ls zs x = x) \/
  (indices (chunk_grid ds ls) = [] /\ indices ds = []).
Proof.
  intros H. induction H as [|d l ds ls (Hd & Hl & Hs) Ht IH]; intros Hle.
  - left. exists []. split; [reflexivity|]. split; [reflexivity|]. intros [|y x] E; [reflexivity|discriminate].
  - inversion Hle as [|? ? ? ? Hdl Hr]; subst. cbn [chunk_grid].
    destruct (Z.eq_dec d 0) as [->|Hd0].
    + right. rewrite Z.div_small by lia. split; reflexivity.
    + assert (E1 : (d + l - 1) / l = 1).
      { replace (d + l - 1) with (d - 1 + 1 * l) by lia. rewrite Z.div_add, Z.div_small by lia. lia. }
      rewrite E1. destruct (IH Hr) as [(zs & I1 & I2 & I3)|[I1 I2]].
      * left. exists (0 :: zs). cbn [indices]. rewrite I1. split; [reflexivity|]. split.
        -- cbn [validCounts]. rewrite I2. f_equal. destruct (d <? 0 * l + l) eqn:E; lia.
        -- intros [|y x] E; cbn [List.length] in E; [discriminate|]. cbn [place]. rewrite I3 by lia.
           f_equal.
      * right. cbn [indices]. rewrite I1, I2. split; [reflexivity|].
        induction (map Z.of_nat (seq 0 (Z.to_nat d))); [reflexivity|exact IHl0].
Qed.

Lemma ranges_join d l G : 0 <= d -> 1 <= l -> (0 < G -> (G - 1) * l < d) ->
  forall k : nat, Z.of_nat k <= G ->
  flat_map (fun c => map (fun i => c * l + i) (zseq ((if d <? c * l + l then d else c * l + l) - c * l))) (zseq (Z.of_nat k))
  = zseq (Z.min d (Z.of_nat k * l)).
Proof.
  intros Hd Hl H1. induction k as [|k IH]; intros Hk.
  - replace (Z.min d (Z.of_nat 0 * l)) with 0 by lia. reflexivity.
  - replace (Z.of_nat (S k)) with (Z.of_nat k + 1) by lia. rewrite zseq_S by lia.
    rewrite flat_map_app, IH by lia. cbn [flat_map]. rewrite app_nil_r. set (c := Z.of_nat k) in *.
    assert (Hc : c * l < d).
    { assert (c * l <= (G - 1) * l) by (apply Z.mul_le_mono_nonneg_r; lia). lia. }
    assert (0 <= c * l) by (apply Z.mul_nonneg_nonneg; lia).
    replace (Z.min d (c * l)) with (c * l) by lia.
    replace (Z.min d ((c + 1) * l)) with (c * l + ((if d <? c * l + l then d else c * l + l) - c * l))
      by (destruct (d <? c * l + l) eqn:E; lia).
    set (v := (if d <? c * l + l then d else c * l + l) - c * l).
    assert (0 <= v) by (unfold v; destruct (d <? c * l + l) eqn:E; lia).
    unfold zseq. replace (Z.to_nat (c * l + v)) with (Z.to_nat (c * l) + Z.to_nat v)%nat by lia.
    rewrite seq_app, map_app. f_equal. rewrite map_map.
    replace (0 + Z.to_nat (c * l))%nat with (Z.to_nat (c * l) + 0)%nat by lia.
    rewrite <- (Nat.add_0_r (Z.to_nat (c * l))) at 1.
    assert (SH : forall a b m, map Z.of_nat (seq (a + b) m) = map (fun x => Z.of_nat a + Z.of_nat x) (seq b m)).
    { intros a b m. revert b. induction m as [|m IHm]; intros b; [reflexivity|]. cbn [seq map]. f_equal; [lia|].
      rewrite <- IHm. f_equal. f_equal. lia. }
    rewrite Nat.add_0_r, <- (Nat.add_0_r (Z.to_nat (c * l))), SH. apply map_ext. intros x. lia.
Qed.

Lemma flat_map_ext_In {A B} (f g : A -> list B) l : (forall x, In x l -> f x = g x) -> flat_map f l = flat_map g l.
Proof.
  induction l as [|x l IH]; intros H; [reflexivity|]. cbn [flat_map]. rewrite H by (left; reflexivity).
  rewrite IH; [reflexivity|]. intros y Hy. apply H. now right.
Qed.
Lemma flat_map_nil {A B} (l : list A) : flat_map (fun _ => @nil B) l = [].
Proof. induction l; [reflexivity|exact IHl]. Qed.
Lemma map_flat_map {A B C} (f : A -> list B) (g : B -> C) l : map g (flat_map f l) = flat_map (fun x => map g (f x)) l.
Proof. induction l as [|x l IH]; [reflexivity|]. cbn [flat_map]. now rewrite map_app, IH. Qed.
Lemma flat_map_single {A B} (f : A -> B) l : flat_map (fun x => [f x]) l = map f l.
Proof. induction l as [|x l IH]; [reflexivity|]. cbn [flat_map map app]. now rewrite IH. Qed.

Lemma indices_cons d ds : indices (d :: ds) = flat_map (fun i => map (cons i) (indices ds)) (zseq d).
Proof. reflexivity. Qed.
Lemma indices_len ds i : In i (indices ds) -> List.length i = List.length ds.
Proof. intros H. apply In_indices in H. symmetry. exact (in_shape_length _ _ H). Qed.

Lemma rows_orderly ds ls : ext_ok ds ls -> orderly_lead ds ls -> rows_of ds ls = indices ds.
Proof.
  intros He Ho. revert He. induction Ho as [|d ds ls Ho IH|d l ds ls Hw]; intros He.
  - reflexivity.
  - inversion He as [|? ? ? ? (Hd & Hl & Hs) Ht]; subst. specialize (IH Ht).
    unfold rows_of in *. cbn [chunk_grid]. rewrite Z.add_simpl_r, Z.div_1_r, !indices_cons.
    rewrite flat_map_flat_map. apply flat_map_ext_In. intros c0 Hc0. apply In_zseq in Hc0.
    rewrite flat_map_map, <- IH, map_flat_map. apply flat_map_ext. intros c. cbn [validCounts].
    replace ((if d <? c0 * 1 + 1 then d else c0 * 1 + 1) - c0 * 1) with 1
      by (destruct (d <? c0 * 1 + 1) eqn:E; lia).
    rewrite indices_cons. change (zseq 1) with [0]. cbn [flat_map]. rewrite app_nil_r, !map_map.
    apply map_ext. intros x. cbn [place]. f_equal. lia.
  - inversion He as [|? ? ? ? (Hd & Hl & Hs) Ht]; subst.
    unfold rows_of. cbn [chunk_grid]. rewrite !indices_cons, flat_map_flat_map.
    pose proof (Z.div_mod (d + l - 1) l ltac:(lia)) as D. pose proof (Z.mod_pos_bound (d + l - 1) l ltac:(lia)) as M.
    assert (HG : 0 <= (d + l - 1) / l) by (apply Z.div_pos; lia).
    set (G := (d + l - 1) / l) in *.
    destruct (whole_chunks ds ls Ht Hw) as [(zs & I1 & I2 & I3)|[I1 I2]]; rewrite I1.
    + pose proof (ranges_join d l G Hd Hl ltac:(lia) (Z.to_nat G) ltac:(lia)) as RJ.
      rewrite Z2Nat.id in RJ by lia. replace (Z.min d (G * l)) with d in RJ by lia. rewrite <- RJ.
      rewrite flat_map_flat_map. apply flat_map_ext. intros c0. cbn [map flat_map]. rewrite app_nil_r.
      cbn [validCounts]. rewrite I2, indices_cons, flat_map_map, map_flat_map. apply flat_map_ext. intros i.
      rewrite map_map. apply map_ext_in. intros x Hx. cbn [place]. rewrite I3; [reflexivity|now apply indices_len].
    + rewrite I2. cbn [map flat_map]. rewrite !flat_map_nil. reflexivity.
Qed.

Lemma orderly_split dims layout : orderly dims layout ->
  exists lead n llead L, dims = lead ++ [n] /\ layout = llead ++ [L] /\ orderly_lead lead llead.
Proof.
  induction 1 as [d l|d ds ls Ho (lead & n & llead & L & -> & -> & IH)|d l ds ls e m Hw].
  - exists [], d, [], l. split; [reflexivity|]. split; [reflexivity|constructor].
  - exists (d :: lead), n, (1 :: llead), L. split; [reflexivity|]. split; [reflexivity|now constructor].
  - exists (d :: ds), e, (l :: ls), m. split; [reflexivity|]. split; [reflexivity|now constructor].
Qed.

(** ** The stream delivered *)
Theorem layout_reader_row_major dims layout dt s sizes :
  orderly dims layout -> ext_ok dims layout -> 1 <= dt ->
  volume (chunk_grid dims layout) * volume layout * dt <= zlen s ->
  Forall (fun m => 0 <= m) sizes ->
  exists outs rest, lr_reads dims layout dt (newLayoutReader s) sizes = Ok outs /\
    List.concat (map got outs) ++ rest = dataset dims layout dt s /\
    (In None outs -> rest = []) /\
    Forall2 (fun m o => 0 < m -> 0 < last dims 0 -> o <> Some []) sizes outs.
Proof.
  intros Ho He Hdt HS Hsz. destruct (orderly_split _ _ Ho) as (lead & n & llead & L & -> & -> & Ol).
  assert (Hlen : List.length lead = List.length llead).
  { pose proof (Forall2_len _ _ _ He) as Q. rewrite !app_length in Q. cbn [List.length] in Q. lia. }
  apply Forall2_app_inv_l in He. destruct He as (l1 & l2 & H1 & H2 & E).
  inversion H2 as [|? ? ? ? (Hn & HL & HnL) H3]; subst. inversion H3; subst.
  apply app_inj_tail in E. destruct E as [<- <-]. rewrite last_last.
  rewrite chunk_grid_app, !volume_app in HS by exact Hlen. cbn [chunk_grid volume] in HS.
  rewrite !Z.mul_1_r in HS.
  assert (HS' : volume (chunk_grid lead llead) * ((n + L - 1) / L) * (volume llead * (L * dt)) <= zlen s) by lia.
  destruct (new_inv lead llead n L dt s H1) as [I1 I2].
  destruct (lr_reads_ok lead llead n L dt s H1 HL Hn HnL Hdt HS' sizes Hsz _ I1) as (outs & rest & E1 & E2 & E3 & E4).
  exists outs, rest. split; [exact E1|]. split; [|split; assumption].
  rewrite E2, I2, stripes_rows, dataset_rows. fold (rows_of lead llead). rewrite rows_orderly by assumption. reflexivity.
Qed.
