(** Proofs about the HDF5 reference count. *)
From Coq Require Import ZifyBool ZifyNat.
From Verif Require Import Prelude BaseLemmas H5RefModel.

Definition nopen (l : list bool) : Z := zlen (filter (fun b => b) l).

Lemma nopen_nonneg l : 0 <= nopen l.
Proof. apply zlen_nonneg. Qed.

Lemma nopen_app a b : nopen (a ++ b) = nopen a + nopen b.
Proof. unfold nopen. rewrite filter_app. apply zlen_app. Qed.

Lemma nopen_set l : forall i, nth_error l i = Some true -> nopen (set_nth l i false) = nopen l - 1.
Proof.
  unfold nopen. induction l as [|b l IH]; intros [|i] H; cbn [nth_error] in H; try discriminate.
  - injection H as ->. cbn [set_nth filter]. rewrite zlen_cons. lia.
  - cbn [set_nth filter]. specialize (IH i H). destruct b; rewrite ?zlen_cons; lia.
Qed.

Lemma nopen_zero l : nopen l = 0 <-> forall i b, nth_error l i = Some b -> b = false.
Proof.
  unfold nopen. split.
  - induction l as [|b l IH]; intros H [|i] c E; cbn [nth_error] in E; try discriminate.
    + injection E as <-. destruct b; [|reflexivity]. cbn [filter] in H. rewrite zlen_cons in H.
      pose proof (zlen_nonneg (filter (fun b => b) l)). lia.
    + refine (IH _ i c E). cbn [filter] in H. destruct b; [|exact H].
      rewrite zlen_cons in H. pose proof (zlen_nonneg (filter (fun b => b) l)). lia.
  - induction l as [|b l IH]; intros H; [reflexivity|].
    cbn [filter]. rewrite (H O b eq_refl). apply IH. intros i c E. exact (H (S i) c E).
Qed.

Lemma nopen_pos l i : nth_error l i = Some true -> 1 <= nopen l.
Proof.
  intros H. pose proof (nopen_nonneg l). destruct (Z.eq_dec (nopen l) 0) as [E|E]; [|lia].
  rewrite nopen_zero in E. specialize (E _ _ H). discriminate.
Qed.

Definition ref_inv (s : h5ref) : Prop :=
  r_count s = nopen (r_handles s) /\
  (r_file s = true <-> nopen (r_handles s) <> 0) /\
  r_closes s = (if nopen (r_handles s) =? 0 then 1%nat else 0%nat).

Lemma ref_step_inv s o : ref_inv s -> ref_inv (fst (ref_step s o)).
Proof.
  intros (Hc & Hf & Hk). destruct o as [i found|i]; cbn [ref_step].
  - destruct (nth_error (r_handles s) i) as [op|] eqn:E; [|exact (conj Hc (conj Hf Hk))].
    destruct found; [|exact (conj Hc (conj Hf Hk))]. destruct op; [|exact (conj Hc (conj Hf Hk))].
    pose proof (nopen_pos _ _ E) as Hp. unfold ref_inv. cbn [fst r_count r_file r_closes r_handles].
    rewrite nopen_app. change (nopen [true]) with 1.
    replace (nopen (r_handles s) + 1 =? 0) with false by lia.
    replace (nopen (r_handles s) =? 0) with false in Hk by lia.
    split; [lia|]. split; [|exact Hk]. rewrite Hf. split; lia.
  - destruct (nth_error (r_handles s) i) as [op|] eqn:E; [|exact (conj Hc (conj Hf Hk))].
    destruct op; [|exact (conj Hc (conj Hf Hk))].
    pose proof (nopen_pos _ _ E) as Hp. pose proof (nopen_set _ _ E) as Hs.
    unfold dereference. assert (EF : r_file s = true) by (apply Hf; lia).
    replace (nopen (r_handles s) =? 0) with false in Hk by lia.
    destruct (r_count s - 1 =? 0) eqn:E1.
    + unfold ref_inv. cbn [fst r_count r_file r_closes r_handles]. rewrite EF, Hs, Hk.
      replace (nopen (r_handles s) - 1 =? 0) with true by lia. split; [lia|]. split; [|reflexivity].
      split; [discriminate|lia].
    + replace (r_count s - 1 <? 0) with false by lia.
      unfold ref_inv. cbn [fst r_count r_file r_closes r_handles]. rewrite Hs.
      replace (nopen (r_handles s) - 1 =? 0) with false by lia.
      split; [lia|]. split; [|exact Hk]. split; [lia|]. intros _. exact EF.
Qed.

Lemma ref_run_snoc s a o : fst (ref_run s (a ++ [o])) = fst (ref_step (fst (ref_run s a)) o).
Proof.
  revert s. induction a as [|x a IH]; intros s; cbn [app ref_run].
  - cbn [fst]. destruct (ref_step s o); reflexivity.
  - destruct (ref_step s x) as [s1 r1]. specialize (IH s1).
    destruct (ref_run s1 (a ++ [o])), (ref_run s1 a). cbn [fst] in *. exact IH.
Qed.

Lemma ref_after_snoc a o : ref_after (a ++ [o]) = fst (ref_step (ref_after a) o).
Proof. apply ref_run_snoc. Qed.

Lemma ref_inv_all h : ref_inv (ref_after h).
Proof.
  induction h as [|o h IH] using rev_ind.
  - split; [reflexivity|]. split; [|reflexivity]. split; [|reflexivity].
    intros _. cbv. discriminate.
  - rewrite ref_after_snoc. apply ref_step_inv. exact IH.
Qed.

Lemma set_nth_length {A} (l : list A) : forall i x, List.length (set_nth l i x) = List.length l.
Proof. induction l; intros [|i] x; cbn [set_nth List.length]; try reflexivity. now rewrite IHl. Qed.

Lemma nth_set_same {A} (l : list A) : forall i x, (i < List.length l)%nat -> nth_error (set_nth l i x) i = Some x.
Proof.
  induction l; intros [|i] x H; cbn [set_nth nth_error List.length] in *; try lia; [reflexivity|].
  apply IHl. lia.
Qed.

Lemma nth_set_other {A} (l : list A) : forall i j x, i <> j -> nth_error (set_nth l i x) j = nth_error l j.
Proof.
  induction l; intros [|i] [|j] x H; cbn [set_nth nth_error]; try reflexivity; try congruence.
  apply IHl. congruence.
Qed.

(** Handles as seen from the history *)
Definition nhandles (h : list rop) : nat := List.length (r_handles (ref_after h)).

Lemma closed_iff h : forall i, (i < nhandles h)%nat ->
  nth_error (r_handles (ref_after h)) i = Some false <->
  exists pre post, h = pre ++ HClose i :: post /\ (i < nhandles pre)%nat.
Proof.
  unfold nhandles. induction h as [|o h IH] using rev_ind; intros i Hi.
  - change (r_handles (ref_after [])) with [true] in *. cbn [List.length] in Hi.
    assert (i = O) by lia. subst i. cbn [nth_error]. split; [discriminate|].
    intros (pre & post & E & _). destruct pre; discriminate.
  - rewrite ref_after_snoc in *. set (s := ref_after h) in *.
    assert (S1 : forall j, (j < List.length (r_handles s))%nat ->
      (exists pre post, h ++ [o] = pre ++ HClose j :: post /\ (j < List.length (r_handles (ref_after pre)))%nat) <->
      o = HClose j \/ nth_error (r_handles s) j = Some false).
    { intros j Hj. rewrite (IH j Hj). split.
      - intros (pre & post & E & Hp). destruct post as [|p post] using rev_ind.
        + apply app_inj_tail in E as [_ ->]. now left.
        + right. rewrite app_comm_cons, app_assoc in E. apply app_inj_tail in E as [-> _].
          exists pre, post. now split.
      - intros [->|(pre & post & -> & Hp)].
        + exists h, []. now split.
        + exists pre, (post ++ [o]). rewrite <- app_assoc. cbn [app]. now split. }
    destruct o as [k found|k]; cbn [ref_step] in *.
    + destruct (nth_error (r_handles s) k) as [op|] eqn:E.
      2:{ cbn [fst] in *. rewrite (S1 i Hi). split; [now right|]. intros [H|H]; [discriminate|exact H]. }
      destruct found.
      2:{ cbn [fst] in *. rewrite (S1 i Hi). split; [now right|]. intros [H|H]; [discriminate|exact H]. }
      destruct op.
      2:{ cbn [fst] in *. rewrite (S1 i Hi). split; [now right|]. intros [H|H]; [discriminate|exact H]. }
      cbn [fst r_handles] in *. rewrite app_length in Hi. cbn [List.length] in Hi.
      destruct (Nat.eq_dec i (List.length (r_handles s))) as [->|Hne].
      * rewrite nth_error_app2, Nat.sub_diag by lia. cbn [nth_error]. split; [discriminate|].
        intros (pre & post & Ep & Hp). exfalso.
        (* the handle did not exist before *)
        assert (G : forall a b, (List.length (r_handles (ref_after a)) <= List.length (r_handles (ref_after (a ++ b))))%nat).
        { clear. intros a b. induction b as [|o b IHb] using rev_ind; [rewrite app_nil_r; lia|].
          rewrite app_assoc, ref_after_snoc. etransitivity; [exact IHb|].
          set (s := ref_after (a ++ b)). destruct o as [k f|k]; cbn [ref_step];
            destruct (nth_error (r_handles s) k) as [[|]|]; cbn [fst]; try lia.
          - destruct f; cbn [fst r_handles]; [rewrite app_length; lia|lia].
          - destruct f; cbn [fst]; lia.
          - unfold dereference. destruct (r_count s - 1 =? 0); [|destruct (r_count s - 1 <? 0)];
              cbn [fst r_handles r_count]; rewrite set_nth_length; lia. }
        destruct post as [|p post] using rev_ind.
        -- apply app_inj_tail in Ep as [-> Ep]. discriminate.
        -- rewrite app_comm_cons, app_assoc in Ep. apply app_inj_tail in Ep as [Eh _].
           specialize (G pre (HClose (List.length (r_handles s)) :: post)).
           rewrite <- Eh in G. fold s in G. lia.
      * rewrite nth_error_app1 by lia. rewrite (S1 i) by lia. split; [now right|].
        intros [H|H]; [discriminate|exact H].
    + destruct (nth_error (r_handles s) k) as [op|] eqn:E.
      2:{ cbn [fst] in *. rewrite (S1 i Hi). split; [now right|]. intros [H|H]; [|exact H].
          injection H as ->. apply nth_error_None in E. lia. }
      destruct op.
      2:{ cbn [fst] in *. rewrite (S1 i Hi). split; [now right|]. intros [H|H]; [|exact H].
          injection H as ->. exact E. }
      assert (ER : r_handles (fst (let '(s', _) := dereference s in
          (mkRef (r_count s') (r_file s') (r_closes s') (set_nth (r_handles s') k false), @Ok unit tt)))
          = set_nth (r_handles s) k false).
      { unfold dereference. destruct (r_count s - 1 =? 0); [|destruct (r_count s - 1 <? 0)]; reflexivity. }
      rewrite ER in *. rewrite set_nth_length in Hi. rewrite (S1 i Hi).
      destruct (Nat.eq_dec k i) as [->|Hne].
      * rewrite nth_set_same by exact Hi. split; [now left|reflexivity].
      * rewrite nth_set_other by exact Hne. split; [now right|].
        intros [H|H]; [injection H as ->; contradiction|exact H].
Qed.

(** ** Concurrent increments *)

Definition ndone (l : list gpc) : Z := zlen (filter (fun p => match p with GDone => true | _ => false end) l).
Definition nloaded (l : list gpc) : Z := zlen (filter (fun p => match p with GLoaded _ => true | _ => false end) l).

Lemma ndone_set l : forall t p q, nth_error l t = Some p ->
  ndone (set_nth l t q) = ndone l - (match p with GDone => 1 | _ => 0 end) + (match q with GDone => 1 | _ => 0 end).
Proof.
  unfold ndone. induction l as [|x l IH]; intros [|t] p q H; cbn [nth_error] in H; try discriminate.
  - injection H as ->. cbn [set_nth filter]. destruct p, q; rewrite ?zlen_cons; lia.
  - cbn [set_nth filter]. specialize (IH t p q H). destruct x; rewrite ?zlen_cons; lia.
Qed.

Lemma nloaded_set l : forall t p q, nth_error l t = Some p ->
  nloaded (set_nth l t q) = nloaded l - (match p with GLoaded _ => 1 | _ => 0 end) + (match q with GLoaded _ => 1 | _ => 0 end).
Proof.
  unfold nloaded. induction l as [|x l IH]; intros [|t] p q H; cbn [nth_error] in H; try discriminate.
  - injection H as ->. cbn [set_nth filter]. destruct p, q; rewrite ?zlen_cons; lia.
  - cbn [set_nth filter]. specialize (IH t p q H). destruct x; rewrite ?zlen_cons; lia.
Qed.

Lemma nloaded_ge l t v : nth_error l t = Some (GLoaded v) -> 1 <= nloaded l.
Proof.
  revert t. unfold nloaded. induction l as [|x l IH]; intros [|t] H; cbn [nth_error] in H; try discriminate.
  - injection H as ->. cbn [filter]. rewrite zlen_cons. pose proof (zlen_nonneg (filter (fun p => match p with GLoaded _ => true | _ => false end) l)). lia.
  - specialize (IH t H). cbn [filter]. destruct x; rewrite ?zlen_cons; lia.
Qed.

Lemma nloaded_two l t v t' v' : t <> t' -> nth_error l t = Some (GLoaded v) -> nth_error l t' = Some (GLoaded v') ->
  2 <= nloaded l.
Proof.
  intros Hne H H'. pose proof (nloaded_set l t _ GIdle H) as E.
  rewrite <- (nth_set_other l t t' GIdle Hne) in H'. apply nloaded_ge in H'. cbv iota in E. lia.
Qed.

Definition g_inv (s : gstate) : Prop :=
  1 <= g_count s <= 1 + ndone (g_pcs s) /\ (1 <= ndone (g_pcs s) -> 2 <= g_count s) /\
  forall t v, nth_error (g_pcs s) t = Some (GLoaded v) -> 1 <= v <= 1 + ndone (g_pcs s).

Lemma g_step_inv s t : g_inv s -> g_inv (g_step s t).
Proof.
  intros (H1 & H2 & H3). unfold g_step.
  destruct (nth_error (g_pcs s) t) as [[|v|]|] eqn:E; try exact (conj H1 (conj H2 H3)).
  - assert (L : (t < List.length (g_pcs s))%nat) by (apply nth_error_Some; congruence).
    unfold g_inv. cbn [g_count g_pcs]. rewrite (ndone_set _ _ _ _ E).
    split; [lia|]. split; [intros; apply H2; lia|].
    intros t' v' E'. destruct (Nat.eq_dec t t') as [->|Hne].
    + rewrite nth_set_same in E' by exact L. injection E' as <-. lia.
    + rewrite nth_set_other in E' by exact Hne. specialize (H3 _ _ E'). lia.
  - assert (L : (t < List.length (g_pcs s))%nat) by (apply nth_error_Some; congruence).
    pose proof (H3 _ _ E) as Hv. unfold g_inv. cbn [g_count g_pcs]. rewrite (ndone_set _ _ _ _ E).
    split; [lia|]. split; [lia|].
    intros t' v' E'. destruct (Nat.eq_dec t t') as [->|Hne].
    + rewrite nth_set_same in E' by exact L. discriminate.
    + rewrite nth_set_other in E' by exact Hne. specialize (H3 _ _ E'). lia.
Qed.

Lemma repeat_idle n : ndone (repeat GIdle n) = 0 /\ nloaded (repeat GIdle n) = 0 /\
  forall t p, nth_error (repeat GIdle n) t = Some p -> p = GIdle.
Proof.
  split; [|split].
  - unfold ndone. induction n; [reflexivity|exact IHn].
  - unfold nloaded. induction n; [reflexivity|exact IHn].
  - intros t p H. apply nth_error_In in H. now apply repeat_spec in H.
Qed.

Lemma g_inv_all n sched : g_inv (g_run n sched).
Proof.
  unfold g_run. induction sched as [|t sched IH] using rev_ind.
  - cbn [fold_left]. unfold g_inv, g_new. cbn [g_count g_pcs].
    destruct (repeat_idle n) as (E1 & E2 & E3). rewrite E1. split; [lia|]. split; [lia|].
    intros t v H. apply E3 in H. discriminate.
  - rewrite fold_left_app. cbn [fold_left]. apply g_step_inv. exact IH.
Qed.

Lemma g_step_length s t : List.length (g_pcs (g_step s t)) = List.length (g_pcs s).
Proof.
  unfold g_step. destruct (nth_error (g_pcs s) t) as [[| |]|]; try reflexivity; cbn [g_pcs]; apply set_nth_length.
Qed.

Lemma g_run_length n sched : List.length (g_pcs (g_run n sched)) = n.
Proof.
  unfold g_run. induction sched as [|t sched IH] using rev_ind.
  - cbn [fold_left g_pcs g_new]. apply repeat_length.
  - rewrite fold_left_app. cbn [fold_left]. rewrite g_step_length. exact IH.
Qed.

Definition all_done (s : gstate) : Prop := forall t p, nth_error (g_pcs s) t = Some p -> p = GDone.

Lemma all_done_ndone s : all_done s -> ndone (g_pcs s) = zlen (g_pcs s).
Proof.
  unfold all_done, ndone. induction (g_pcs s) as [|x l IH]; intros H; [reflexivity|].
  pose proof (H O x eq_refl) as ->. cbn [filter]. rewrite !zlen_cons, IH; [reflexivity|].
  intros t p E. exact (H (S t) p E).
Qed.

Lemma g_bounds n sched : all_done (g_run n sched) ->
  g_count (g_run n sched) <= 1 + Z.of_nat n /\ ((0 < n)%nat -> 2 <= g_count (g_run n sched)).
Proof.
  intros H. destruct (g_inv_all n sched) as (H1 & H2 & _).
  pose proof (all_done_ndone _ H) as E. unfold zlen in E. rewrite g_run_length in E. split; [lia|].
  intros Hn. apply H2. lia.
Qed.

Lemma g_serial n sched : (forall k, nloaded (g_pcs (g_run n (firstn k sched))) <= 1) ->
  g_count (g_run n sched) = 1 + ndone (g_pcs (g_run n sched)) /\
  forall t v, nth_error (g_pcs (g_run n sched)) t = Some (GLoaded v) -> v = g_count (g_run n sched).
Proof.
  induction sched as [|t sched IH] using rev_ind; intros H.
  - unfold g_run. cbn [fold_left g_new g_count g_pcs]. destruct (repeat_idle n) as (E1 & _ & E3).
    rewrite E1. split; [reflexivity|]. intros t v E. apply E3 in E. discriminate.
  - assert (HP : forall k, nloaded (g_pcs (g_run n (firstn k sched))) <= 1).
    { intros k. destruct (Nat.le_gt_cases k (List.length sched)) as [L|L].
      - specialize (H k). rewrite firstn_app in H. replace (k - List.length sched)%nat with O in H by lia.
        cbn [firstn] in H. rewrite app_nil_r in H. exact H.
      - specialize (H (List.length sched)). rewrite firstn_app, Nat.sub_diag, firstn_all in H.
        cbn [firstn] in H. rewrite app_nil_r in H. rewrite firstn_all2 by lia. exact H. }
    destruct (IH HP) as [I1 I2]. clear IH.
    pose proof (H (List.length (sched ++ [t]))) as HL. rewrite firstn_all in HL.
    unfold g_run in *. rewrite fold_left_app in *. cbn [fold_left] in *.
    set (s := fold_left g_step sched (g_new n)) in *. unfold g_step in *.
    destruct (nth_error (g_pcs s) t) as [[|v|]|] eqn:E; try (split; assumption).
    + assert (L : (t < List.length (g_pcs s))%nat) by (apply nth_error_Some; congruence).
      cbn [g_count g_pcs] in *. rewrite (ndone_set _ _ _ _ E). split; [lia|].
      intros t' v' E'. destruct (Nat.eq_dec t t') as [->|Hne].
      * rewrite nth_set_same in E' by exact L. injection E' as <-. reflexivity.
      * rewrite nth_set_other in E' by exact Hne. exact (I2 _ _ E').
    + assert (L : (t < List.length (g_pcs s))%nat) by (apply nth_error_Some; congruence).
      pose proof (I2 _ _ E) as Ev. cbn [g_count g_pcs] in *. rewrite (ndone_set _ _ _ _ E). split; [lia|].
      intros t' v' E'. destruct (Nat.eq_dec t t') as [->|Hne].
      * rewrite nth_set_same in E' by exact L. discriminate.
      * rewrite nth_set_other in E' by exact Hne. exfalso.
        pose proof (nloaded_two _ _ _ _ _ Hne E E').
        specialize (HP (List.length sched)). rewrite firstn_all in HP. fold s in HP. lia.
Qed.
