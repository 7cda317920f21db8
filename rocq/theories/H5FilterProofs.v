(** Proofs about the shuffle and fletcher32 filters. *)
From Coq Require Import ZifyBool ZifyNat.
From Verif Require Import Prelude GoVal BaseLemmas H5Base H5FilterModel FilterSpec H5ChecksumProofs.
Ltac Zify.zify_post_hook ::= Z.div_mod_to_equations.

(** ** Shuffle *)

Lemma upd_length {A} (l : list A) : forall i x, List.length (upd l i x) = List.length l.
Proof. induction l; intros [|i] x; cbn [upd List.length]; try reflexivity. now rewrite IHl. Qed.

Lemma nth_upd_same {A} (l : list A) : forall i x d, (i < List.length l)%nat -> nth i (upd l i x) d = x.
Proof.
  induction l; intros [|i] x d H; cbn [upd nth List.length] in *; try lia; [reflexivity|].
  apply IHl. lia.
Qed.

Lemma nth_upd_other {A} (l : list A) : forall i j x d, i <> j -> nth j (upd l i x) d = nth j l d.
Proof.
  induction l; intros [|i] [|j] x d H; cbn [upd nth]; try reflexivity; try congruence.
  apply IHl. congruence.
Qed.

Section FoldUpd.
Context {X : Type} (f : X -> nat) (g : X -> Z).
Let step (t : bytes) (x : X) := upd t (f x) (g x).

Lemma fold_upd_length l : forall t, List.length (fold_left step l t) = List.length t.
Proof. induction l; intros t; cbn [fold_left]; [reflexivity|]. rewrite IHl. apply upd_length. Qed.

Lemma fold_upd_out l : forall t p, ~ In p (map f l) -> nth p (fold_left step l t) 0 = nth p t 0.
Proof.
  induction l as [|x l IH]; intros t p H; cbn [fold_left map In] in *; [reflexivity|].
  rewrite IH by tauto. apply nth_upd_other. intros E. apply H. now left.
Qed.

Lemma fold_upd_in l : forall t x, NoDup (map f l) -> In x l -> (f x < List.length t)%nat ->
  nth (f x) (fold_left step l t) 0 = g x.
Proof.
  induction l as [|y l IH]; intros t x N H Hf; cbn [map In] in *; [contradiction|].
  inversion N as [|? ? N1 N2]; subst. cbn [fold_left]. destruct H as [->|H].
  - rewrite fold_upd_out by exact N1. apply nth_upd_same. exact Hf.
  - apply IH; [exact N2|exact H|]. unfold step. rewrite upd_length. exact Hf.
Qed.
End FoldUpd.

Lemma fold_left_flat_map {A B C} (f : A -> B -> A) (h : C -> list B) l : forall a,
  fold_left f (flat_map h l) a = fold_left (fun a x => fold_left f (h x) a) l a.
Proof.
  induction l as [|x l IH]; intros a; cbn [flat_map fold_left]; [reflexivity|].
  rewrite fold_left_app. apply IH.
Qed.

Lemma fold_left_map {A B C} (f : A -> B -> A) (h : C -> B) l : forall a,
  fold_left f (map h l) a = fold_left (fun a x => f a (h x)) l a.
Proof. induction l; intros a0; cbn [map fold_left]; [reflexivity|]. apply IHl. Qed.

Lemma nth_rows (h : nat -> nat -> Z) k n : forall s i j, (i < n)%nat -> (j < k)%nat ->
  nth (i * k + j) (flat_map (fun i => map (h i) (seq 0 k)) (seq s n)) 0 = h (s + i)%nat j.
Proof.
  induction n as [|n IH]; intros s i j Hi Hj; [lia|].
  cbn [seq flat_map]. destruct i as [|i].
  - cbn [Nat.mul Nat.add]. rewrite app_nth1 by (rewrite map_length, seq_length; lia).
    rewrite (nth_indep _ 0 (h s 0%nat)) by (rewrite map_length, seq_length; lia).
    rewrite map_nth, seq_nth by lia. now rewrite Nat.add_0_r.
  - rewrite app_nth2 by (rewrite map_length, seq_length; nia).
    rewrite map_length, seq_length.
    replace (S i * k + j - k)%nat with (i * k + j)%nat by nia.
    rewrite IH by lia. f_equal. lia.
Qed.

Lemma length_rows {A} (h : nat -> nat -> A) k n : forall s,
  List.length (flat_map (fun i => map (h i) (seq 0 k)) (seq s n)) = (n * k)%nat.
Proof.
  induction n as [|n IH]; intros s; cbn [seq flat_map]; [reflexivity|].
  rewrite app_length, map_length, seq_length, IH. lia.
Qed.

Definition pairs (n k : nat) : list (nat * nat) :=
  flat_map (fun i => map (fun j => (i, j)) (seq 0 k)) (seq 0 n).

Lemma unshuffle_loops_pairs val n k t :
  unshuffle_loops val n k t =
  fold_left (fun t p => upd t (snd p * n + fst p) (nth (fst p * k + snd p) val 0)) (pairs n k) t.
Proof.
  unfold unshuffle_loops, unshuffle_inner, pairs. rewrite fold_left_flat_map.
  assert (E : forall l t0, fold_left (fun t i => fold_left (fun t j => upd t (j * n + i) (nth (i * k + j) val 0)) (seq 0 k) t) l t0 =
    fold_left (fun a x => fold_left (fun t p => upd t (snd p * n + fst p) (nth (fst p * k + snd p) val 0))
      (map (fun j => (x, j)) (seq 0 k)) a) l t0).
  { induction l as [|x l IH]; intros t0; cbn [fold_left]; [reflexivity|].
    rewrite fold_left_map. cbn [fst snd]. apply IH. }
  apply E.
Qed.

Lemma in_pairs n k i j : In (i, j) (pairs n k) <-> (i < n /\ j < k)%nat.
Proof.
  unfold pairs. rewrite in_flat_map. split.
  - intros (x & Hx & H). apply in_map_iff in H as (y & E & Hy). injection E as -> ->.
    apply in_seq in Hx, Hy. lia.
  - intros [Hi Hj]. exists i. split; [apply in_seq; lia|]. apply in_map_iff. exists j.
    split; [reflexivity|]. apply in_seq. lia.
Qed.

Lemma NoDup_map_inj {A B} (f : A -> B) l :
  (forall x y, In x l -> In y l -> f x = f y -> x = y) -> NoDup l -> NoDup (map f l).
Proof.
  induction l as [|a l IH]; intros Hf N; cbn [map]; [constructor|].
  inversion N as [|? ? N1 N2]; subst. constructor.
  - intros H. apply in_map_iff in H as (y & E & Hy). apply Hf in E; [|now right|now left]. congruence.
  - apply IH; [|exact N2]. intros x y Hx Hy. apply Hf; now right.
Qed.

Lemma NoDup_rows k n : forall s, NoDup (flat_map (fun i => map (fun j => (i, j)) (seq 0 k)) (seq s n)).
Proof.
  induction n as [|n IH]; intros s; cbn [seq flat_map]; [constructor|].
  assert (D : forall l1 l2 : list (nat * nat), NoDup l1 -> NoDup l2 -> (forall x, In x l1 -> ~ In x l2) -> NoDup (l1 ++ l2)).
  { clear. induction l1 as [|a l1 IH]; intros l2 N1 N2 H; cbn [app]; [exact N2|].
    inversion N1 as [|? ? M1 M2]; subst. constructor.
    - intros I. apply in_app_iff in I as [I|I]; [contradiction|]. apply (H a); [now left|exact I].
    - apply IH; [exact M2|exact N2|]. intros x Hx. apply H. now right. }
  apply D.
  - apply NoDup_map_inj; [|apply seq_NoDup]. intros x y _ _ E. now injection E.
  - apply IH.
  - intros [a b] H1 H2. apply in_map_iff in H1 as (j & E & _). injection E as <- <-.
    apply in_flat_map in H2 as (x & Hx & H2). apply in_map_iff in H2 as (y & E & _).
    injection E as -> _. apply in_seq in Hx. lia.
Qed.

Lemma pair_pos_inj (n i j i' j' : nat) : (i < n)%nat -> (i' < n)%nat ->
  (j * n + i = j' * n + i')%nat -> i = i' /\ j = j'.
Proof. intros H H' E. assert (j = j') by nia. subst. lia. Qed.

Lemma unshuffle_loops_nth val n k t i j : (i < n)%nat -> (j < k)%nat -> (n * k <= List.length t)%nat ->
  nth (j * n + i) (unshuffle_loops val n k t) 0 = nth (i * k + j) val 0.
Proof.
  intros Hi Hj Ht. rewrite unshuffle_loops_pairs.
  apply (fold_upd_in (fun p : nat * nat => (snd p * n + fst p)%nat) (fun p => nth (fst p * k + snd p) val 0)
           (pairs n k) t (i, j)).
  - apply NoDup_map_inj; [|apply NoDup_rows]. intros [a b] [a' b'] H H' E.
    apply in_pairs in H, H'. cbn [fst snd] in E. apply pair_pos_inj in E as [-> ->]; [reflexivity| |]; lia.
  - now apply in_pairs.
  - cbn [fst snd]. nia.
Qed.

Lemma unshuffle_loops_length val n k t : List.length (unshuffle_loops val n k t) = List.length t.
Proof.
  rewrite unshuffle_loops_pairs.
  exact (fold_upd_length (fun p : nat * nat => (snd p * n + fst p)%nat) (fun p => nth (fst p * k + snd p) val 0) _ _).
Qed.

Lemma shuffle_length n d : (0 < n)%nat -> List.length (shuffle n d) = List.length d.
Proof.
  intros Hn. unfold shuffle. rewrite app_length, skipn_length.
  rewrite (length_rows (fun i j => nth (j * n + i) d 0)).
  pose proof (Nat.mul_div_le (List.length d) n ltac:(lia)). lia.
Qed.

Lemma shuffle_nth n d i j : (i < n)%nat -> (j < List.length d / n)%nat ->
  nth (i * (List.length d / n) + j) (shuffle n d) 0 = nth (j * n + i) d 0.
Proof.
  intros Hi Hj. unfold shuffle. rewrite app_nth1.
  - rewrite (nth_rows (fun i j => nth (j * n + i) d 0)) by assumption. reflexivity.
  - rewrite (length_rows (fun i j => nth (j * n + i) d 0)). nia.
Qed.

Lemma nat_div_eq (L n : nat) : (0 < n)%nat -> Z.to_nat (Z.of_nat L / Z.of_nat n) = (L / n)%nat.
Proof. intros. rewrite <- Nat2Z.inj_div. apply Nat2Z.id. Qed.

Lemma unshuffle_loops_shuffle n d : (0 < n)%nat -> (List.length d mod n = 0)%nat ->
  unshuffle_loops (shuffle n d) n (List.length d / n) (zrep (zlen d) 0) = d.
Proof.
  intros Hn Hm. set (k := (List.length d / n)%nat).
  assert (EL : (List.length d = k * n)%nat) by (pose proof (Nat.div_mod (List.length d) n); unfold k; lia).
  apply (nth_ext _ _ 0 0).
  - rewrite unshuffle_loops_length. unfold zrep, zlen. rewrite repeat_length. lia.
  - intros p Hp. rewrite unshuffle_loops_length in Hp. unfold zrep, zlen in Hp. rewrite repeat_length in Hp.
    set (j := (p / n)%nat). set (i := (p mod n)%nat).
    assert (Hi : (i < n)%nat) by (apply Nat.mod_upper_bound; lia).
    assert (EP : (p = j * n + i)%nat) by (pose proof (Nat.div_mod p n); unfold i, j; lia).
    assert (Hj : (j < k)%nat) by nia.
    rewrite EP. rewrite unshuffle_loops_nth; [|exact Hi|exact Hj|].
    + unfold k. apply shuffle_nth; [exact Hi|exact Hj].
    + unfold zrep, zlen. rewrite repeat_length. lia.
Qed.

Lemma shuffle_1 d : shuffle 1 d = d.
Proof.
  apply (nth_ext _ _ 0 0); [apply shuffle_length; lia|].
  intros p Hp. rewrite shuffle_length in Hp by lia.
  pose proof (shuffle_nth 1 d 0 p) as H. rewrite Nat.div_1_r in H.
  rewrite Nat.mul_1_r, Nat.add_0_r in H. apply H; lia.
Qed.

Lemma unshuffle_shuffle n d : 1 <= n -> (n | zlen d) -> unshuffle (shuffle (Z.to_nat n) d) n = Ok d.
Proof.
  intros Hn [q Hq]. unfold unshuffle. destruct (n =? 1) eqn:E1.
  - replace n with 1 by lia. cbn [Z.to_nat Pos.to_nat Pos.iter_op]. now rewrite shuffle_1.
  - replace (n =? 0) with false by lia. f_equal.
    assert (EZ : zlen (shuffle (Z.to_nat n) d) = zlen d) by (unfold zlen; rewrite shuffle_length by lia; reflexivity).
    rewrite EZ. unfold zlen at 1. rewrite <- (Z2Nat.id n) at 3 by lia.
    rewrite nat_div_eq by lia. apply unshuffle_loops_shuffle; [lia|].
    unfold zlen in Hq. assert (Z.of_nat (List.length d mod Z.to_nat n) = 0); [|lia].
    rewrite Nat2Z.inj_mod, Z2Nat.id by lia. rewrite Hq. apply Z.mod_mul. lia.
Qed.

(** The reader after some bytes have been delivered *)
Lemma unsh_reads_some r param : forall sizes, Forall (fun p => 0 <= p) sizes ->
  forall rest, unsh_reads (mkUnsh r (Some rest) (zlen rest) param (zlen rest)) sizes = Ok (cut rest sizes).
Proof.
  induction sizes as [|p sizes IH]; intros Hs rest; [reflexivity|].
  inversion Hs as [|? ? Hp Hs']; subst. pose proof (zlen_nonneg rest) as Hr.
  cbn [unsh_reads cut]. unfold unsh_read. cbn [u_lim u_size u_b u_r u_param].
  destruct (zlen rest <=? 0) eqn:E0.
  - assert (E : zlen rest = 0) by lia. apply zlen_zero in E. subst rest. cbn [rbind].
    replace (ztake p []) with (@nil Z) by (unfold ztake; now rewrite firstn_nil).
    replace (zdrop p []) with (@nil Z) by (unfold zdrop; now rewrite skipn_nil).
    change 0 with (zlen (@nil Z)). rewrite IH by exact Hs'. reflexivity.
  - replace (zlen rest =? 0) with false by lia. cbn [rbind].
    assert (ET : ztake (Z.min (Z.min p (zlen rest)) (zlen rest)) rest = ztake p rest).
    { destruct (Z_le_gt_dec p (zlen rest)).
      - replace (Z.min (Z.min p (zlen rest)) (zlen rest)) with p by lia. reflexivity.
      - rewrite !ztake_all by lia. reflexivity. }
    assert (ED : zdrop (Z.min (Z.min p (zlen rest)) (zlen rest)) rest = zdrop p rest).
    { destruct (Z_le_gt_dec p (zlen rest)).
      - replace (Z.min (Z.min p (zlen rest)) (zlen rest)) with p by lia. reflexivity.
      - rewrite !zdrop_all by lia. reflexivity. }
    rewrite ET, ED.
    replace (zlen rest - Z.min (Z.min p (zlen rest)) (zlen rest)) with (zlen (zdrop p rest))
      by (rewrite zlen_zdrop; lia).
    rewrite IH by exact Hs'. reflexivity.
Qed.

Lemma unsh_reads_all n d sizes : 1 <= n -> (n | zlen d) -> Forall (fun p => 0 <= p) sizes ->
  unsh_reads (newUnshuffleReader (shuffle (Z.to_nat n) d) (zlen d) n) sizes = Ok (cut d sizes).
Proof.
  intros Hn Hd Hs. unfold newUnshuffleReader.
  destruct sizes as [|p sizes]; [reflexivity|].
  destruct (Z.eq_dec (zlen d) 0) as [E0|E0].
  - apply zlen_zero in E0. subst d.
    pose proof (unsh_reads_some (shuffle (Z.to_nat n) []) n (p :: sizes) Hs []) as H.
    cbn [unsh_reads cut] in *. unfold unsh_read in *. cbn [u_lim] in *. cbn [Z.leb rbind] in *.
    revert H.
    change (zlen (@nil Z)) with 0. cbn [Z.leb Z.compare rbind]. intros H.
    assert (G : forall u s, u_lim u = 0 -> Forall (fun p => 0 <= p) s -> unsh_reads u s = Ok (cut [] s)).
    { clear. induction s as [|q s IH]; intros Hu Hs; [reflexivity|]. inversion Hs; subst.
      cbn [unsh_reads cut]. unfold unsh_read. rewrite Hu. cbn [Z.leb Z.compare rbind].
      replace (ztake q []) with (@nil Z) by (unfold ztake; now rewrite firstn_nil).
      replace (zdrop q []) with (@nil Z) by (unfold zdrop; now rewrite skipn_nil).
      rewrite IH by assumption. reflexivity. }
    inversion Hs; subst. rewrite G by (reflexivity || assumption).
    replace (ztake p []) with (@nil Z) by (unfold ztake; now rewrite firstn_nil).
    replace (zdrop p []) with (@nil Z) by (unfold zdrop; now rewrite skipn_nil). reflexivity.
  - rewrite <- (unsh_reads_some (shuffle (Z.to_nat n) d) n (p :: sizes) Hs d).
    cbn [unsh_reads]. unfold unsh_read. cbn [u_lim u_size u_b u_r u_param].
    pose proof (zlen_nonneg d).
    replace (zlen d <=? 0) with false by lia. replace (zlen d =? 0) with false by lia.
    assert (EZ : zlen (shuffle (Z.to_nat n) d) = zlen d) by (unfold zlen; rewrite shuffle_length by lia; reflexivity).
    unfold readAll. rewrite ztake_all by lia. rewrite EZ, unshuffle_shuffle by assumption. cbn [rbind].
    rewrite (zrep_le0 (zlen d - zlen d)) by lia. rewrite app_nil_r. reflexivity.
Qed.

(** ** Fletcher32 *)

(** The sums with a possibly pending high byte *)
Definition fstate : Type := ((Z * Z) * option Z).
Definition fstep (s : fstate) (x : Z) : fstate :=
  match snd s with
  | None => (fst s, Some x)
  | Some p => (addToSums (fst s) (p * 256 + x), None)
  end.

Lemma fl_loop_fold n : forall b odd s p, (List.length b < n)%nat ->
  let r := fl_loop odd s p b in
  (fst r, if xorb odd (Nat.odd (List.length b)) then Some (snd r) else None) =
  fold_left fstep b (s, if odd then Some p else None).
Proof.
  induction n as [|n IH]; intros b odd s p Hb; [lia|].
  destruct b as [|x [|y b]].
  - cbn [fl_loop List.length Nat.odd Nat.even negb fold_left fst snd]. destruct odd; reflexivity.
  - destruct odd; reflexivity.
  - cbn [List.length] in Hb. destruct odd.
    + specialize (IH (y :: b) false (addToSums s (p * 256 + x)) p ltac:(cbn [List.length]; lia)).
      cbv zeta in *. cbn [fold_left] in *. unfold fstep at 3. cbn [snd fst].
      rewrite <- IH. cbn [fl_loop]. rewrite (eq_refl : List.length (x :: y :: b) = S (List.length (y :: b))).
      rewrite Nat.odd_succ, <- Nat.negb_odd. destruct (Nat.odd (List.length (y :: b))); reflexivity.
    + specialize (IH b false (addToSums s (x * 256 + y)) p ltac:(lia)).
      cbv zeta in *. cbn [fold_left fl_loop]. unfold fstep at 2 3. cbn [snd fst].
      rewrite <- IH. cbn [List.length]. rewrite Nat.odd_succ, Nat.even_succ. reflexivity.
Qed.

(** What the reader compares with the stored checksum after data [d] *)
Definition go_fletcher (d : bytes) : Z :=
  let s := fold_left fstep d ((0, 0), None) in
  let s := match snd s with Some p => addToSums (fst s) (p * 256) | None => fst s end in
  snd s * 2 ^ 16 + fst s.

(** The reader after delivering [pre] of the data *)
Definition fl_at (fl : fletcher) (size : Z) (pre rest : bytes) (stored : Z) : Prop :=
  fl_r fl = rest ++ le 4 stored /\ fl_size fl = size /\ fl_count fl = zlen pre /\
  fl_readck fl = false /\
  ((fl_sum1 fl, fl_sum2 fl), if fl_count fl mod 2 =? 1 then Some (fl_partial fl) else None)
   = fold_left fstep pre ((0, 0), None).

Lemma odd_mod2 n : Nat.odd n = (Z.of_nat n mod 2 =? 1).
Proof.
  destruct (Nat.odd n) eqn:E.
  - apply Nat.odd_spec in E as [m ->]. lia.
  - assert (E2 : Nat.even n = true) by (rewrite <- Nat.negb_odd, E; reflexivity).
    apply Nat.even_spec in E2 as [m ->]. lia.
Qed.

Lemma xorb_mod2 a b : 0 <= a -> 0 <= b -> xorb (a mod 2 =? 1) (b mod 2 =? 1) = ((a + b) mod 2 =? 1).
Proof.
  intros. destruct (a mod 2 =? 1) eqn:E1; destruct (b mod 2 =? 1) eqn:E2; cbn [xorb negb]; lia.
Qed.


Lemma fl_read_cases fl size pre part rest stored plen :
  are_bytes (pre ++ part ++ rest) ->
  fl_at fl size pre (part ++ rest) stored -> size = zlen (pre ++ part ++ rest) + 4 ->
  zlen part <= plen -> 0 <= stored < 2 ^ 32 ->
  (rest <> [] -> exists fl', fl_read fl plen (zlen part) = Ok (part, fl') /\ fl_at fl' size (pre ++ part) rest stored) /\
  (rest = [] -> if go_fletcher (pre ++ part) =? stored
                then exists fl', fl_read fl plen (zlen part) = Ok (part, fl') /\
                       fl_size fl' = size /\ fl_count fl' = size - 4 /\ fl_readck fl' = true /\
                       fl_checksum fl' = stored /\ fl_sum2 fl' * 2 ^ 16 + fl_sum1 fl' = stored
                else fl_read fl plen (zlen part) = Err EFletcher).
Proof.
  intros Hb (Er & Es & Ec & Ek & Ef) Hsz Hp Hst. rewrite !zlen_app in Hsz.
  pose proof (zlen_nonneg pre). pose proof (zlen_nonneg part). pose proof (zlen_nonneg rest).
  unfold fl_read. rewrite Es, Ec, Er. replace (size - 4) with (zlen pre + (zlen part + zlen rest)) by lia. cbv zeta.
  set (thisLen := if _ <? _ then _ else plen).
  assert (HT : zlen part <= thisLen) by (unfold thisLen; destruct (_ <? _) eqn:E; lia).
  replace (Z.max 0 (Z.min (Z.min (zlen part) thisLen) (zlen ((part ++ rest) ++ le 4 stored))))
    with (zlen part) by (rewrite !zlen_app, zlen_le; lia).
  rewrite <- app_assoc. rewrite ztake_app_exact, zdrop_app_exact by reflexivity.
  pose proof (fl_loop_fold (S (List.length part)) part (zlen pre mod 2 =? 1) (fl_sum1 fl, fl_sum2 fl) (fl_partial fl)
                ltac:(lia)) as HL.
  cbv zeta in HL. rewrite Ec in Ef. rewrite Ef in HL. rewrite <- fold_left_app in HL.
  rewrite odd_mod2 in HL. fold (zlen part) in HL. rewrite xorb_mod2 in HL by lia.
  destruct (fl_loop _ _ _ part) as [s partial] eqn:EL. cbn [fst snd] in HL.
  split.
  - intros Hr. assert (zlen rest <> 0) by (intros E; apply zlen_zero in E; contradiction).
    replace (zlen pre + zlen part =? zlen pre + (zlen part + zlen rest)) with false by lia.
    eexists. split; [reflexivity|]. unfold fl_at. cbn [fl_r fl_size fl_count fl_readck fl_sum1 fl_sum2 fl_partial].
    split; [reflexivity|]. split; [lia|]. split; [rewrite zlen_app; lia|]. split; [exact Ek|].
    rewrite <- HL. destruct s; reflexivity.
  - intros ->. change (zlen (@nil Z)) with 0.
    replace (zlen pre + zlen part =? zlen pre + (zlen part + 0)) with true by lia.
    rewrite Ek. cbn [app]. rewrite <- (app_nil_r (le 4 stored)), read32_le by exact Hst. cbn [rbind].
    assert (EG : go_fletcher (pre ++ part) =
      snd (if (zlen pre + (zlen part + 0)) mod 2 =? 1 then addToSums s (u16 (partial * 256)) else s) * 2 ^ 16 +
      fst (if (zlen pre + (zlen part + 0)) mod 2 =? 1 then addToSums s (u16 (partial * 256)) else s)).
    { unfold go_fletcher. rewrite <- HL. cbn [fst snd]. rewrite Z.add_0_r.
      destruct ((zlen pre + zlen part) mod 2 =? 1) eqn:EO; [|reflexivity].
      assert (HB : is_byte partial).
      { assert (G : forall l st p, are_bytes l -> (forall q, snd st = Some q -> is_byte q) ->
                     snd (fold_left fstep l st) = Some p -> is_byte p).
        { clear. induction l as [|x l IH]; intros st p Hl Hst; cbn [fold_left]; [apply Hst|].
          inversion Hl; subst. apply IH; [assumption|]. unfold fstep. destruct (snd st); cbn [snd]; [discriminate|].
          intros q [= <-]. assumption. }
        apply (G (pre ++ part) ((0, 0), None)).
        - rewrite app_nil_r in Hb. exact Hb.
        - discriminate.
        - rewrite <- HL. reflexivity. }
      unfold is_byte in HB. unfold u16. rewrite (Z.mod_small (partial * 256)) by lia. reflexivity. }
    rewrite <- EG. destruct (go_fletcher (pre ++ part) =? stored) eqn:EE; [|reflexivity].
    eexists. split; [reflexivity|]. cbn [fl_size fl_count fl_readck fl_checksum fl_sum1 fl_sum2].
    change (zlen (@nil Z)) with 0 in Hsz.
    split; [lia|]. split; [lia|]. split; [reflexivity|]. split; [reflexivity|].
    rewrite <- EG. lia.
Qed.

Lemma fl_reads_parts size stored : 0 <= stored < 2 ^ 32 -> forall reqs pre fl last,
  are_bytes (pre ++ List.concat (map snd reqs) ++ snd last) ->
  size = zlen (pre ++ List.concat (map snd reqs) ++ snd last) + 4 ->
  fl_at fl size pre (List.concat (map snd reqs) ++ snd last) stored ->
  Forall (fun q : Z * bytes => zlen (snd q) <= fst q) (reqs ++ [last]) ->
  (reqs <> [] -> snd last <> []) ->
  let d := pre ++ List.concat (map snd reqs) ++ snd last in
  rmap fst (fl_reads fl (map (fun q => (fst q, zlen (snd q))) (reqs ++ [last]))) =
  if go_fletcher d =? stored then Ok (map snd (reqs ++ [last])) else Err EFletcher.
Proof.
  intros Hst. induction reqs as [|[p part] reqs IH]; intros pre fl [pl lst] Hb Hsz Hat Hq Hl; cbv zeta.
  - cbn [map List.concat app fst snd] in *. inversion Hq as [|? ? Hq1 _]; subst. cbn [fst snd] in Hq1.
    pose proof (fl_read_cases fl (zlen (pre ++ lst) + 4) pre lst [] stored pl) as HC. rewrite app_nil_r in HC.
    destruct (HC Hb Hat eq_refl Hq1 Hst) as [_ H2]. specialize (H2 eq_refl).
    cbn [fl_reads]. destruct (go_fletcher (pre ++ lst) =? stored).
    + destruct H2 as (fl' & -> & _). reflexivity.
    + rewrite H2. reflexivity.
  - cbn [map List.concat app fst snd] in *. inversion Hq as [|? ? Hq1 Hq2]; subst. cbn [fst snd] in Hq1.
    rewrite <- !app_assoc in *.
    assert (Hne : List.concat (map snd reqs) ++ lst <> []).
    { intros E. apply app_eq_nil in E as [_ E]. apply Hl; [discriminate|exact E]. }
    destruct (fl_read_cases fl _ pre part _ stored p Hb Hat eq_refl Hq1 Hst) as [H1 _].
    destruct (H1 Hne) as (fl' & E & Hat').
    cbn [fl_reads]. rewrite E. cbn [rbind].
    specialize (IH (pre ++ part) fl' (pl, lst)). cbn [snd fst] in IH. rewrite <- !app_assoc in IH.
    specialize (IH Hb eq_refl Hat' Hq2 ltac:(intros _; apply Hl; discriminate)). cbv zeta in IH.
    revert IH. destruct (fl_reads fl' _) as [[outs fl'']| |]; cbn [rmap rbind];
      destruct (go_fletcher _ =? stored); cbn [fst]; intros IH;
      first [ congruence | injection IH as IH'; do 2 f_equal; exact IH' ].
Qed.

(** ** The library's checksum and the reader's *)

Definition M : Z := 65535.
Definition cong (a b : Z) : Prop := a mod M = b mod M.

Lemma cong_add a b c d : cong a b -> cong c d -> cong (a + c) (b + d).
Proof.
  unfold cong, M. intros. rewrite (Z.add_mod a c), (Z.add_mod b d) by lia. congruence.
Qed.

Lemma cong_mod a b : cong a b -> cong a (b mod M).
Proof. unfold cong, M. intros ->. now rewrite Z.mod_mod. Qed.

Lemma cong_fold a b : cong a b -> cong (fold16 a) b.
Proof.
  unfold cong, M, fold16. intros <-.
  rewrite (Z.div_mod a (2 ^ 16)) at 3 by lia.
  replace (2 ^ 16 * (a / 2 ^ 16) + a mod 2 ^ 16) with (a mod 2 ^ 16 + a / 2 ^ 16 + a / 2 ^ 16 * 65535) by lia.
  symmetry. apply Z.mod_add. lia.
Qed.

Lemma addToSums_cong l1 l2 g w : cong l1 (fst g) -> cong l2 (snd g) ->
  cong (l1 + w) (fst (addToSums g w)) /\ cong (l2 + (l1 + w)) (snd (addToSums g w)).
Proof.
  intros H1 H2. unfold addToSums. cbn [fst snd].
  assert (A : cong (l1 + w) ((fst g + w) mod 65535)).
  { apply cong_mod. apply cong_add; [exact H1|reflexivity]. }
  split; [exact A|]. apply cong_mod. rewrite (Z.add_comm l2). apply cong_add; assumption.
Qed.

Lemma run_words_ok n : forall l1 l2 d g, are_bytes d ->
  0 <= l1 -> 0 <= l2 -> cong l1 (fst g) -> cong l2 (snd g) ->
  let k := Z.of_nat n in
  l2 + k * l1 + 65535 * (k * (k + 1) / 2) < 2 ^ 32 -> l1 + k * 65535 < 2 ^ 32 ->
  exists l1' l2' c r, run_words n (l1, l2) d = ((l1', l2'), r) /\ d = c ++ r /\
    0 <= l1' <= l1 + k * 65535 /\ 0 <= l2' < 2 ^ 32 /\
    (r = [] \/ (exists x, r = [x]) \/ (List.length r < List.length d)%nat \/ n = O) /\
    exists g', fold_left fstep c (g, None) = (g', None) /\ cong l1' (fst g') /\ cong l2' (snd g').
Proof.
  induction n as [|n IH]; intros l1 l2 d g Hd H1 H2 C1 C2 k B2 B1.
  - exists l1, l2, [], d. unfold k in *. cbn [run_words]. split; [reflexivity|]. split; [reflexivity|].
    split; [lia|]. split; [lia|]. split; [now auto|]. exists g. split; [reflexivity|]. now split.
  - destruct d as [|x [|y d]].
    + exists l1, l2, [], []. cbn [run_words]. split; [reflexivity|]. split; [reflexivity|].
      split; [lia|]. split; [nia|]. split; [now left|]. exists g. split; [reflexivity|]. now split.
    + exists l1, l2, [], [x]. cbn [run_words]. split; [reflexivity|]. split; [reflexivity|].
      split; [lia|]. split; [nia|]. split; [right; left; now exists x|]. exists g. split; [reflexivity|]. now split.
    + inversion Hd as [|? ? Hx Hd1]; subst. inversion Hd1 as [|? ? Hy Hd2]; subst.
      unfold is_byte in Hx, Hy.
      set (w := 256 * x + y). assert (Hw : 0 <= w <= 65535) by (unfold w; lia).
      assert (EK : k = Z.of_nat n + 1) by (unfold k; lia). clearbody k. cbv zeta in IH.
      set (m := Z.of_nat n) in *.
      assert (ET : k * (k + 1) / 2 = m * (m + 1) / 2 + k).
      { rewrite EK. replace ((m + 1) * (m + 1 + 1)) with (m * (m + 1) + (m + 1) * 2) by lia.
        rewrite Z.div_add by lia. reflexivity. }
      assert (HT : 0 <= m * (m + 1) / 2) by (apply Z.div_pos; lia).
      assert (W1 : wrap32 (l1 + w) = l1 + w) by (unfold wrap32; apply Z.mod_small; nia).
      assert (W2 : wrap32 (l2 + (l1 + w)) = l2 + (l1 + w)) by (unfold wrap32; apply Z.mod_small; nia).
      destruct (addToSums_cong l1 l2 g w C1 C2) as [D1 D2].
      destruct (IH (l1 + w) (l2 + (l1 + w)) d (addToSums g (x * 256 + y)) Hd2) as (l1' & l2' & c & r & E & Ed & R1 & R2 & Rr & g' & Eg & G1 & G2).
      * lia.
      * lia.
      * replace (x * 256 + y) with w by (unfold w; lia). exact D1.
      * replace (x * 256 + y) with w by (unfold w; lia). exact D2.
      * fold m. nia.
      * fold m. nia.
      * fold m in R1.
        exists l1', l2', (x :: y :: c), r. split.
        { cbn [run_words fst snd]. fold w. rewrite W1, W2. exact E. }
        split; [cbn [app]; now rewrite Ed|]. split; [lia|]. split; [exact R2|].
        split; [right; right; left; rewrite Ed; cbn [List.length]; rewrite app_length; lia|].
        exists g'. split; [|now split]. cbn [fold_left]. unfold fstep at 2 3. cbn [fst snd]. exact Eg.
Qed.

Lemma fold16_range a : 0 <= a < 2 ^ 32 -> 0 <= fold16 a <= 131070.
Proof. unfold fold16. intros. lia. Qed.

Lemma flet_runs_ok fuel : forall l1 l2 d g, are_bytes d -> (List.length d <= fuel)%nat ->
  0 <= l1 <= 66000 -> 0 <= l2 <= 131070 -> cong l1 (fst g) -> cong l2 (snd g) ->
  exists l1' l2' c r g', flet_runs fuel (l1, l2) d = ((l1', l2'), r) /\ d = c ++ r /\
    (r = [] \/ exists x, r = [x]) /\ 0 <= l1' <= 66000 /\ 0 <= l2' <= 131070 /\
    fold_left fstep c (g, None) = (g', None) /\ cong l1' (fst g') /\ cong l2' (snd g').
Proof.
  induction fuel as [|fuel IH]; intros l1 l2 d g Hd Hf B1 B2 C1 C2.
  - destruct d; [|cbn [List.length] in Hf; lia]. exists l1, l2, [], [], g. cbn [flet_runs fold_left app].
    split; [reflexivity|]. split; [reflexivity|]. split; [now left|]. split; [exact B1|]. split; [exact B2|].
    split; [reflexivity|]. now split.
  - cbn [flet_runs]. destruct d as [|x [|y d]].
    + exists l1, l2, [], [], g. split; [reflexivity|]. split; [reflexivity|]. split; [now left|].
      split; [exact B1|]. split; [exact B2|]. split; [reflexivity|]. now split.
    + exists l1, l2, [], [x], g. split; [reflexivity|]. split; [reflexivity|]. split; [right; now exists x|].
      split; [exact B1|]. split; [exact B2|]. split; [reflexivity|]. now split.
    + destruct (run_words_ok 360 l1 l2 (x :: y :: d) g Hd) as (m1 & m2 & c & r & E & Ed & R1 & R2 & Rr & g' & Eg & G1 & G2);
        [lia|lia|exact C1|exact C2| | |].
      { change (Z.of_nat 360) with 360. change (360 * (360 + 1) / 2) with 64980. lia. }
      { change (Z.of_nat 360) with 360. lia. }
      rewrite E. unfold fold2. cbn [fst snd]. change (Z.of_nat 360) with 360 in R1.
      assert (Hr : are_bytes r) by (rewrite Ed in Hd; apply Forall_app in Hd; tauto).
      assert (Hlr : (List.length r <= fuel)%nat).
      { cbn [List.length] in Hf. destruct Rr as [->|[[z ->]|[H|H]]]; cbn [List.length] in *; lia. }
      destruct (IH (fold16 m1) (fold16 m2) r g' Hr Hlr) as (n1 & n2 & c' & r' & g'' & E' & Ed' & Rr' & S1 & S2 & Eg' & K1 & K2).
      * unfold fold16. lia.
      * apply fold16_range. exact R2.
      * apply cong_fold. exact G1.
      * apply cong_fold. exact G2.
      * exists n1, n2, (c ++ c'), r', g''. split; [exact E'|]. split; [rewrite Ed, Ed'; now rewrite app_assoc|].
        split; [exact Rr'|]. split; [exact S1|]. split; [exact S2|]. split; [|now split].
        rewrite fold_left_app, Eg. exact Eg'.
Qed.

Lemma addToSums_range g w : 0 <= fst (addToSums g w) < 65535 /\ 0 <= snd (addToSums g w) < 65535.
Proof. unfold addToSums. cbn [fst snd]. split; apply Z.mod_pos_bound; lia. Qed.

Lemma fold_range l : forall s, (0 <= fst (fst s) < 65535 /\ 0 <= snd (fst s) < 65535) ->
  let r := fold_left fstep l s in 0 <= fst (fst r) < 65535 /\ 0 <= snd (fst r) < 65535.
Proof.
  induction l as [|x l IH]; intros s Hs; cbn [fold_left]; [exact Hs|].
  apply IH. unfold fstep. destruct (snd s); cbn [fst]; [apply addToSums_range|exact Hs].
Qed.

(** Each half of the reader's value is the library's reduced modulo 65535: 0xFFFF becomes 0. *)
Definition norm (c : Z) : Z := (c / 2 ^ 16) mod 65535 * 2 ^ 16 + (c mod 2 ^ 16) mod 65535.

Lemma final_half l g : 0 <= l <= 131070 -> cong l g -> 0 <= g < 65535 ->
  0 <= fold16 l <= 65535 /\ fold16 l mod 65535 = g.
Proof.
  intros Hl Hc Hg. split; [unfold fold16; lia|].
  apply cong_fold in Hc. unfold cong, M in Hc. rewrite Hc. apply Z.mod_small. exact Hg.
Qed.

Theorem go_fletcher_norm d : are_bytes d -> go_fletcher d = norm (fletcher32 d).
Proof.
  intros Hd. unfold fletcher32, go_fletcher.
  destruct (flet_runs_ok (List.length d) 0 0 d (0, 0) Hd ltac:(lia) ltac:(lia) ltac:(lia) eq_refl eq_refl)
    as (l1 & l2 & c & r & g & E & Ed & Rr & B1 & B2 & Eg & C1 & C2).
  rewrite E. cbv zeta.
  assert (Hg : 0 <= fst g < 65535 /\ 0 <= snd g < 65535).
  { pose proof (fold_range c ((0, 0), None)) as H. rewrite Eg in H. cbn [fst snd] in H. apply H. lia. }
  replace (fold_left fstep d ((0, 0), None)) with (fold_left fstep r (g, None))
    by (rewrite Ed, fold_left_app, Eg; reflexivity).
  assert (K : forall m1 m2 g', 0 <= m1 <= 131070 -> 0 <= m2 <= 131070 -> cong m1 (fst g') -> cong m2 (snd g') ->
    0 <= fst g' < 65535 -> 0 <= snd g' < 65535 ->
    snd g' * 2 ^ 16 + fst g' = norm (snd (fold2 (m1, m2)) * 2 ^ 16 + fst (fold2 (m1, m2)))).
  { intros m1 m2 g' M1 M2 D1 D2 G1 G2. unfold fold2. cbn [fst snd].
    destruct (final_half m1 _ M1 D1 G1) as [R1 F1]. destruct (final_half m2 _ M2 D2 G2) as [R2 F2].
    unfold norm. set (a := fold16 m1) in *. set (b := fold16 m2) in *.
    replace ((b * 2 ^ 16 + a) / 2 ^ 16) with b by lia.
    replace ((b * 2 ^ 16 + a) mod 2 ^ 16) with a by lia. rewrite F1, F2. reflexivity. }
  destruct Rr as [->|[x ->]].
  - cbn [fold_left fst snd]. apply K; try tauto; lia.
  - cbn [fold_left]. unfold fstep. cbn [snd fst].
    assert (Hx : is_byte x).
    { rewrite Ed in Hd. apply Forall_app in Hd as [_ Hd]. now inversion Hd. }
    unfold is_byte in Hx.
    destruct (addToSums_cong l1 l2 g (x * 256) C1 C2) as [D1 D2].
    destruct (addToSums_range g (x * 256)) as [G1 G2].
    assert (W1 : wrap32 (l1 + 256 * x) = l1 + x * 256) by (unfold wrap32; rewrite Z.mod_small; lia).
    rewrite W1.
    assert (W2 : wrap32 (l2 + (l1 + x * 256)) = l2 + (l1 + x * 256)) by (unfold wrap32; rewrite Z.mod_small; lia).
    rewrite W2. unfold fold2 at 2 4. cbn [fst snd]. apply K; try assumption.
    + apply fold16_range. lia.
    + apply fold16_range. lia.
    + apply cong_fold. exact D1.
    + apply cong_fold. exact D2.
Qed.

Lemma norm_id c : 0 <= c < 2 ^ 32 -> c mod 2 ^ 16 <> 65535 -> c / 2 ^ 16 <> 65535 -> norm c = c.
Proof.
  unfold norm. intros.
  rewrite (Z.mod_small (c / 2 ^ 16)), (Z.mod_small (c mod 2 ^ 16)) by lia. lia.
Qed.

(** Reading a whole chunk *)
Theorem fletcher_reads d stored reqs last :
  are_bytes d -> 0 <= stored < 2 ^ 32 ->
  List.concat (map snd (reqs ++ [last])) = d ->
  Forall (fun q : Z * bytes => zlen (snd q) <= fst q) (reqs ++ [last]) ->
  (reqs <> [] -> snd last <> []) ->
  (let* fl := fletcher32Reader (d ++ le 4 stored) (zlen d + 4) in
   rmap fst (fl_reads fl (map (fun q => (fst q, zlen (snd q))) (reqs ++ [last])))) =
  if norm (fletcher32 d) =? stored then Ok (map snd (reqs ++ [last])) else Err EFletcher.
Proof.
  intros Hd Hst Ec Hq Hl. unfold fletcher32Reader. pose proof (zlen_nonneg d).
  replace (4 <=? zlen d + 4) with true by lia. cbn [rbind].
  rewrite map_app, concat_app in Ec. cbn [map List.concat] in Ec. rewrite app_nil_r in Ec.
  rewrite <- go_fletcher_norm by exact Hd.
  pose proof (fl_reads_parts (zlen d + 4) stored Hst reqs [] (mkFl (d ++ le 4 stored) (zlen d + 4) 0 0 0 0 0 false) last) as H1.
  cbn [app] in H1. rewrite Ec in H1. apply H1; try assumption; [reflexivity|].
  unfold fl_at. cbn [fl_r fl_size fl_count fl_readck fl_sum1 fl_sum2]. 
  split; [reflexivity|]. split; [reflexivity|]. split; [reflexivity|]. split; reflexivity.
Qed.

(** ** Shuffle on top of fletcher32 *)

Lemma fl_read_end fl size m : fl_size fl = size -> fl_count fl = size - 4 -> fl_readck fl = true ->
  fl_sum2 fl * 2 ^ 16 + fl_sum1 fl = fl_checksum fl -> (size - 4) mod 2 = 0 ->
  exists fl', fl_read fl 0 m = Ok ([], fl').
Proof.
  intros Es Ec Ek Eck Hev. unfold fl_read. rewrite Es, Ec, Ek. cbv zeta.
  replace (size - 4 <? 0 + (size - 4)) with false by lia.
  replace (Z.max 0 (Z.min (Z.min m 0) (zlen (fl_r fl)))) with 0
    by (pose proof (zlen_nonneg (fl_r fl)); lia).
  rewrite (ztake_0 0) by lia. rewrite (zdrop_0 0) by lia. cbn [fl_loop].
  replace (size - 4 + 0 =? size - 4) with true by lia. rewrite Hev. cbn [Z.eqb rbind].
  cbn [fst snd]. rewrite Eck, Z.eqb_refl. eexists. reflexivity.
Qed.

Lemma fl_readAll_parts size stored : 0 <= stored < 2 ^ 32 -> (size - 4) mod 2 = 0 ->
  forall parts pre fl m, are_bytes (pre ++ List.concat parts) ->
  size = zlen (pre ++ List.concat parts) + 4 ->
  parts <> [] -> Forall (fun q : bytes => q <> []) parts ->
  fl_at fl size pre (List.concat parts) stored ->
  fl_readAll fl (zlen (List.concat parts)) (map zlen parts ++ [m]) =
  if go_fletcher (pre ++ List.concat parts) =? stored then Ok (List.concat parts) else Err EFletcher.
Proof.
  intros Hst Hev. induction parts as [|part parts IH]; intros pre fl m Hb Hsz Hne Hq Hat; [congruence|].
  inversion Hq as [|? ? Hq1 Hq2]; subst x l. cbn [List.concat map app] in *.
  assert (Hp : zlen part <> 0) by (intros E; apply zlen_zero in E; contradiction).
  pose proof (zlen_nonneg part). pose proof (zlen_nonneg (List.concat parts)).
  destruct (fl_read_cases fl size pre part (List.concat parts) stored (zlen (part ++ List.concat parts)) Hb Hat Hsz)
    as [H1 H2]; [rewrite zlen_app; lia|exact Hst|].
  cbn [fl_readAll]. destruct parts as [|part2 parts].
  - specialize (H2 eq_refl). cbn [List.concat] in *. rewrite app_nil_r in *.
    destruct (go_fletcher (pre ++ part) =? stored); [|rewrite H2; reflexivity].
    destruct H2 as (fl' & -> & Es & Ec & Ek & Eck & Esum). cbn [rbind].
    replace (zlen part =? 0) with false by lia. cbn [map app fl_readAll].
    rewrite Z.sub_diag.
    destruct (fl_read_end fl' size m Es Ec Ek ltac:(congruence) Hev) as [fl'' ->]. cbn [rbind].
    change (zlen (@nil Z) =? 0) with true. cbn [rbind]. cbv iota. cbn [rbind]. rewrite app_nil_r. reflexivity.
  - assert (Hc : List.concat (part2 :: parts) <> []).
    { inversion Hq2 as [|? ? Hq3 _]; subst. cbn [List.concat]. intros E. apply app_eq_nil in E. tauto. }
    destruct (H1 Hc) as (fl' & -> & Hat'). cbn [rbind]. replace (zlen part =? 0) with false by lia.
    rewrite zlen_app. replace (zlen part + zlen (List.concat (part2 :: parts)) - zlen part)
      with (zlen (List.concat (part2 :: parts))) by lia.
    rewrite (IH (pre ++ part) fl' m); [|rewrite <- app_assoc; exact Hb|rewrite <- app_assoc; exact Hsz|discriminate|exact Hq2|exact Hat'].
    rewrite <- app_assoc.
    assert (EB : forall (b : bool) (u v : bytes), (let* more := (if b then Ok v else Err EFletcher) in Ok (u ++ more)) =
      if b then Ok (u ++ v) else Err EFletcher) by (intros [|] u v; reflexivity).
    apply EB.
Qed.

Lemma shuffle_bytes n d : (0 < n)%nat -> are_bytes d -> are_bytes (shuffle n d).
Proof.
  intros Hn Hd. unfold shuffle. apply Forall_app. split.
  - apply Forall_forall. intros x Hx. apply in_flat_map in Hx as (i & Hi & Hx).
    apply in_map_iff in Hx as (j & <- & Hj). apply in_seq in Hi, Hj.
    eapply Forall_forall; [exact Hd|]. apply nth_In.
    pose proof (Nat.mul_div_le (List.length d) n ltac:(lia)). nia.
  - rewrite <- (firstn_skipn (List.length d / n * n) d) in Hd. apply Forall_app in Hd. tauto.
Qed.

Theorem shuffled_fletcher n d stored parts m :
  1 <= n -> (n | zlen d) -> zlen d mod 2 = 0 -> are_bytes d -> 0 <= stored < 2 ^ 32 ->
  parts <> [] -> Forall (fun q : bytes => q <> []) parts ->
  List.concat parts = shuffle (Z.to_nat n) d ->
  read_shuffled_fletcher (shuffle (Z.to_nat n) d ++ le 4 stored) (zlen d) n (map zlen parts ++ [m]) =
  if norm (fletcher32 (shuffle (Z.to_nat n) d)) =? stored then Ok d else Err EFletcher.
Proof.
  intros Hn Hd Hev Hb Hst Hne Hq Ec.
  assert (HB : are_bytes (shuffle (Z.to_nat n) d)) by (apply shuffle_bytes; [lia|exact Hb]).
  rewrite <- go_fletcher_norm by exact HB.
  assert (EZ : zlen (shuffle (Z.to_nat n) d) = zlen d) by (unfold zlen; rewrite shuffle_length by lia; reflexivity).
  unfold read_shuffled_fletcher, fletcher32Reader. pose proof (zlen_nonneg d).
  replace (4 <=? zlen d + 4) with true by lia. cbn [rbind].
  pose proof (fl_readAll_parts (zlen d + 4) stored Hst) as HR.
  replace (zlen d + 4 - 4) with (zlen d) in HR by lia.
  specialize (HR Hev parts [] (mkFl (shuffle (Z.to_nat n) d ++ le 4 stored) (zlen d + 4) 0 0 0 0 0 false) m).
  cbn [app] in HR. rewrite Ec, EZ in HR. rewrite HR; try assumption.
  - destruct (go_fletcher _ =? stored); [|reflexivity]. cbn [rbind]. apply unshuffle_shuffle; assumption.
  - reflexivity.
  - unfold fl_at. cbn [fl_r fl_size fl_count fl_readck fl_sum1 fl_sum2].
    split; [reflexivity|]. split; [reflexivity|]. split; [reflexivity|]. split; reflexivity.
Qed.

Lemma fletcher32_range d : are_bytes d -> 0 <= fletcher32 d < 2 ^ 32.
Proof.
  intros Hd. unfold fletcher32.
  destruct (flet_runs_ok (List.length d) 0 0 d (0, 0) Hd ltac:(lia) ltac:(lia) ltac:(lia) eq_refl eq_refl)
    as (l1 & l2 & c & r & g & E & Ed & Rr & B1 & B2 & Eg & C1 & C2).
  rewrite E. cbv zeta.
  assert (K : forall m1 m2, 0 <= m1 <= 131070 -> 0 <= m2 <= 131070 ->
    0 <= snd (fold2 (m1, m2)) * 2 ^ 16 + fst (fold2 (m1, m2)) < 2 ^ 32).
  { intros m1 m2 M1 M2. unfold fold2, fold16. cbn [fst snd]. lia. }
  destruct Rr as [->|[x ->]]; [apply K; lia|].
  assert (W : forall z, 0 <= fold16 (wrap32 z) <= 131070) by (intros z; apply fold16_range; unfold wrap32; lia).
  unfold fold2 at 2 4. cbn [fst snd]. apply K; apply W.
Qed.
