(** Lemmas about byte lists, integer encodings and association lists. *)
From Coq Require Import ZifyBool ZifyNat.
From Verif Require Import Prelude GoVal.

Lemma zlen_nonneg {A} (l : list A) : 0 <= zlen l.
Proof. unfold zlen; lia. Qed.
Lemma zlen_nil {A} : zlen (@nil A) = 0.
Proof. reflexivity. Qed.
Lemma zlen_cons {A} (x : A) l : zlen (x :: l) = 1 + zlen l.
Proof. unfold zlen; cbn [List.length]; lia. Qed.
Lemma zlen_app {A} (a b : list A) : zlen (a ++ b) = zlen a + zlen b.
Proof. unfold zlen; rewrite app_length; lia. Qed.
Lemma zlen_zrep {A} n (x : A) : zlen (zrep n x) = Z.max n 0.
Proof. unfold zlen, zrep; rewrite repeat_length; lia. Qed.
Lemma zlen_rev {A} (l : list A) : zlen (rev l) = zlen l.
Proof. unfold zlen; rewrite rev_length; lia. Qed.
Lemma zlen_map {A B} (f : A -> B) l : zlen (map f l) = zlen l.
Proof. unfold zlen; rewrite map_length; lia. Qed.
Lemma zlen_zero {A} (l : list A) : zlen l = 0 -> l = [].
Proof. destruct l; [easy|rewrite zlen_cons; pose proof (zlen_nonneg l); lia]. Qed.

Global Hint Rewrite @zlen_nil @zlen_cons @zlen_app @zlen_zrep @zlen_rev @zlen_map : zl.

Lemma zlen_ztake {A} n (l : list A) : 0 <= n -> n <= zlen l -> zlen (ztake n l) = n.
Proof. unfold zlen, ztake; intros; rewrite firstn_length; lia. Qed.
Lemma zlen_ztake_min {A} n (l : list A) : zlen (ztake n l) = Z.min (Z.max n 0) (zlen l).
Proof. unfold zlen, ztake; rewrite firstn_length; lia. Qed.
Lemma zlen_zdrop {A} n (l : list A) : zlen (zdrop n l) = Z.max 0 (zlen l - Z.max n 0).
Proof. unfold zlen, zdrop; rewrite skipn_length; lia. Qed.

Lemma ztake_zdrop {A} n (l : list A) : ztake n l ++ zdrop n l = l.
Proof. apply firstn_skipn. Qed.
Lemma ztake_all {A} n (l : list A) : zlen l <= n -> ztake n l = l.
Proof. unfold ztake, zlen; intros; apply firstn_all2; lia. Qed.
Lemma zdrop_all {A} n (l : list A) : zlen l <= n -> zdrop n l = [].
Proof. unfold zdrop, zlen; intros; apply skipn_all2; lia. Qed.
Lemma ztake_0 {A} n (l : list A) : n <= 0 -> ztake n l = [].
Proof. unfold ztake; intros. replace (Z.to_nat n) with O by lia. reflexivity. Qed.
Lemma zdrop_0 {A} n (l : list A) : n <= 0 -> zdrop n l = l.
Proof. unfold zdrop; intros. replace (Z.to_nat n) with O by lia. reflexivity. Qed.
Lemma zdrop_zdrop {A} n m (l : list A) : 0 <= n -> 0 <= m -> zdrop n (zdrop m l) = zdrop (m + n) l.
Proof.
  unfold zdrop; intros. replace (Z.to_nat (m + n)) with (Z.to_nat m + Z.to_nat n)%nat by lia.
  generalize (Z.to_nat n) as a. generalize (Z.to_nat m) as b. intros b; revert l.
  induction b as [|b IH]; intros l a; [reflexivity|].
  destruct l; cbn; [now rewrite skipn_nil|apply IH].
Qed.
Lemma ztake_ztake {A} n m (l : list A) : ztake n (ztake m l) = ztake (Z.min n m) l.
Proof.
  unfold ztake. rewrite firstn_firstn. f_equal; lia.
Qed.
Lemma firstn_skipn_swap {A} : forall (a b : nat) (l : list A),
  firstn a (skipn b l) = skipn b (firstn (b + a) l).
Proof.
  intros a b; revert a; induction b as [|b IH]; intros a l; [reflexivity|].
  destruct l; cbn; [now rewrite firstn_nil|apply IH].
Qed.
Lemma ztake_zdrop_comm {A} n m (l : list A) : 0 <= n -> 0 <= m ->
  ztake n (zdrop m l) = zdrop m (ztake (m + n) l).
Proof.
  intros; unfold ztake, zdrop. rewrite firstn_skipn_swap. do 2 f_equal; lia.
Qed.
Lemma ztake_app_exact {A} n (a b : list A) : n = zlen a -> ztake n (a ++ b) = a.
Proof.
  intros ->. unfold ztake, zlen. rewrite Nat2Z.id.
  rewrite firstn_app, Nat.sub_diag, firstn_all. cbn. apply app_nil_r.
Qed.
Lemma zdrop_app_exact {A} n (a b : list A) : n = zlen a -> zdrop n (a ++ b) = b.
Proof.
  intros ->. unfold zdrop, zlen. rewrite Nat2Z.id.
  rewrite skipn_app, Nat.sub_diag, skipn_all. reflexivity.
Qed.
Lemma ztake_app_l {A} n (a b : list A) : n <= zlen a -> ztake n (a ++ b) = ztake n a.
Proof.
  intros. unfold ztake, zlen in *. rewrite firstn_app.
  replace (Z.to_nat n - List.length a)%nat with O by lia. cbn. apply app_nil_r.
Qed.
Lemma zdrop_app_l {A} n (a b : list A) : n <= zlen a -> zdrop n (a ++ b) = zdrop n a ++ b.
Proof.
  intros. unfold zdrop, zlen in *. rewrite skipn_app.
  replace (Z.to_nat n - List.length a)%nat with O by lia. reflexivity.
Qed.
Lemma zdrop_app_r {A} n (a b : list A) : zlen a <= n -> zdrop n (a ++ b) = zdrop (n - zlen a) b.
Proof.
  intros. unfold zdrop, zlen in *. rewrite skipn_app.
  rewrite skipn_all2 by lia. cbn. f_equal. lia.
Qed.
Lemma ztake_app_r {A} n (a b : list A) : zlen a <= n -> ztake n (a ++ b) = a ++ ztake (n - zlen a) b.
Proof.
  intros. unfold ztake, zlen in *. rewrite firstn_app.
  rewrite firstn_all2 by lia. do 2 f_equal. lia.
Qed.
Lemma zrep_app {A} n m (x : A) : 0 <= n -> 0 <= m -> zrep (n + m) x = zrep n x ++ zrep m x.
Proof. intros. unfold zrep. rewrite <- repeat_app. f_equal. lia. Qed.
Lemma zrep_le0 {A} n (x : A) : n <= 0 -> zrep n x = [].
Proof. intros. unfold zrep. replace (Z.to_nat n) with O by lia. reflexivity. Qed.

(** Encodings *)
Lemma le_length n z : List.length (le n z) = n.
Proof. revert z; induction n; intros; cbn; [reflexivity|f_equal; apply IHn]. Qed.
Lemma be_length n z : List.length (be n z) = n.
Proof. unfold be; rewrite rev_length; apply le_length. Qed.
Lemma zlen_le n z : zlen (le n z) = Z.of_nat n.
Proof. unfold zlen; now rewrite le_length. Qed.
Lemma zlen_be n z : zlen (be n z) = Z.of_nat n.
Proof. unfold zlen; now rewrite be_length. Qed.
Global Hint Rewrite zlen_le zlen_be : zl.

Lemma le_bytes n z : are_bytes (le n z).
Proof.
  revert z; induction n; intros z; cbn; constructor.
  - unfold is_byte. apply Z.mod_pos_bound. lia.
  - apply IHn.
Qed.
Lemma be_bytes n z : are_bytes (be n z).
Proof. unfold be, are_bytes. apply Forall_rev. apply le_bytes. Qed.

Lemma pow256 n : 256 ^ Z.of_nat (S n) = 256 * 256 ^ Z.of_nat n.
Proof. rewrite Nat2Z.inj_succ, Z.pow_succ_r; lia. Qed.

Lemma of_le_le n z : of_le (le n z) = z mod 256 ^ Z.of_nat n.
Proof.
  revert z; induction n as [|n IH]; intros z.
  - cbn. now rewrite Z.mod_1_r.
  - cbn [le of_le]. rewrite IH, pow256.
    rewrite Z.rem_mul_r by (try lia; apply Z.pow_pos_nonneg; lia). lia.
Qed.
Lemma of_be_be n z : of_be (be n z) = z mod 256 ^ Z.of_nat n.
Proof. unfold of_be, be. rewrite rev_involutive. apply of_le_le. Qed.

Lemma of_le_range l : are_bytes l -> 0 <= of_le l < 256 ^ zlen l.
Proof.
  induction 1 as [|b l Hb _ IH].
  - cbn. lia.
  - cbn [of_le]. unfold zlen in *. cbn [List.length]. rewrite pow256. unfold is_byte in Hb. lia.
Qed.
Lemma le_of_le l : are_bytes l -> le (List.length l) (of_le l) = l.
Proof.
  induction 1 as [|b l Hb _ IH]; [reflexivity|].
  cbn [List.length le of_le]. unfold is_byte in Hb.
  replace (b + 256 * of_le l) with (b + of_le l * 256) by lia.
  rewrite Z.mod_add by lia. rewrite Z.div_add by lia.
  rewrite Z.mod_small, Z.div_small by lia. cbn. now rewrite IH.
Qed.
Lemma be_of_be l : are_bytes l -> be (List.length l) (of_be l) = l.
Proof.
  intros H. unfold be, of_be. rewrite <- (rev_length l). rewrite le_of_le.
  - apply rev_involutive.
  - now apply Forall_rev.
Qed.

Lemma of_be_be4 z : 0 <= z < 2 ^ 32 -> of_be (be 4 z) = z.
Proof. intros. rewrite of_be_be. apply Z.mod_small. exact H. Qed.
Lemma of_be_be8 z : 0 <= z < 2 ^ 64 -> of_be (be 8 z) = z.
Proof. intros. rewrite of_be_be. apply Z.mod_small. exact H. Qed.

Lemma signed_small w z : 0 < w -> - 2 ^ (w - 1) <= z < 2 ^ (w - 1) -> signed w z = z.
Proof.
  intros Hw Hz. unfold signed.
  assert (E : 2 ^ w = 2 * 2 ^ (w - 1)).
  { rewrite <- Z.pow_succ_r by lia. f_equal. lia. }
  rewrite E.
  destruct (Z.ltb_spec z 0).
  - rewrite <- (Z.mod_unique_pos z (2 * 2 ^ (w - 1)) (-1) (z + 2 * 2 ^ (w - 1))) by lia.
    destruct (Z.ltb_spec (z + 2 * 2 ^ (w - 1)) (2 ^ (w - 1))); lia.
  - rewrite Z.mod_small by lia. destruct (Z.ltb_spec z (2 ^ (w - 1))); lia.
Qed.
Lemma signed_mod w z : 0 < w -> signed w (z mod 2 ^ w) = signed w z.
Proof. intros. unfold signed. rewrite Z.mod_mod; [reflexivity|]. apply Z.pow_nonzero; lia. Qed.
Lemma signed_range w z : 0 < w -> - 2 ^ (w - 1) <= signed w z < 2 ^ (w - 1).
Proof.
  intros Hw. unfold signed.
  assert (E : 2 ^ w = 2 * 2 ^ (w - 1)).
  { rewrite <- Z.pow_succ_r by lia. f_equal. lia. }
  assert (0 < 2 ^ (w - 1)) by (apply Z.pow_pos_nonneg; lia).
  pose proof (Z.mod_pos_bound z (2 ^ w) ltac:(lia)).
  destruct (Z.ltb_spec (z mod 2 ^ w) (2 ^ (w - 1))); lia.
Qed.

Lemma i64_small z : - 2 ^ 63 <= z < 2 ^ 63 -> i64 z = z.
Proof. intros. apply signed_small; lia. Qed.
Lemma u64_small z : 0 <= z < 2 ^ 64 -> u64 z = z.
Proof. intros. apply Z.mod_small; lia. Qed.
Lemma i32_small z : - 2 ^ 31 <= z < 2 ^ 31 -> i32 z = z.
Proof. intros. apply signed_small; lia. Qed.

Lemma ksize_pos k : 1 <= ksize k <= 8.
Proof. destruct k; cbn; lia. Qed.
Lemma zlen_enc_be k z : zlen (enc_be k z) = ksize k.
Proof. unfold enc_be. rewrite zlen_be. pose proof (ksize_pos k); lia. Qed.
Lemma zlen_enc_le k z : zlen (enc_le k z) = ksize k.
Proof. unfold enc_le. rewrite zlen_le. pose proof (ksize_pos k); lia. Qed.
Global Hint Rewrite zlen_enc_be zlen_enc_le : zl.

Lemma of_unsigned_ok k z : in_range k z = true -> of_unsigned k (z mod 2 ^ (8 * ksize k)) = z.
Proof.
  unfold in_range, kmin, kmax, of_unsigned. intros H.
  apply andb_true_iff in H. destruct H as [H1 H2].
  apply Z.leb_le in H1. apply Z.leb_le in H2.
  pose proof (ksize_pos k).
  destruct (ksigned k).
  - rewrite signed_mod by lia. apply signed_small; lia.
  - apply Z.mod_small. lia.
Qed.
Lemma pow256_8 k : 256 ^ Z.of_nat (Z.to_nat (ksize k)) = 2 ^ (8 * ksize k).
Proof. destruct k; reflexivity. Qed.
Lemma dec_enc_be k z : in_range k z = true -> dec_be k (enc_be k z) = z.
Proof.
  intros. unfold dec_be, enc_be. rewrite of_be_be, pow256_8. now apply of_unsigned_ok.
Qed.
Lemma dec_enc_le k z : in_range k z = true -> dec_le k (enc_le k z) = z.
Proof.
  intros. unfold dec_le, enc_le. rewrite of_le_le, pow256_8. now apply of_unsigned_ok.
Qed.

(** Byte-string equality *)
Lemma beqb_refl a : beqb a a = true.
Proof. induction a; cbn; [reflexivity|]. now rewrite Z.eqb_refl. Qed.
Lemma beqb_eq a b : beqb a b = true <-> a = b.
Proof.
  split.
  - revert b; induction a as [|x a IH]; destruct b as [|y b]; cbn; try easy.
    intros H. apply andb_true_iff in H. destruct H as [H1 H2].
    apply Z.eqb_eq in H1. subst. f_equal. now apply IH.
  - intros ->. apply beqb_refl.
Qed.
Lemma beqb_neq a b : beqb a b = false <-> a <> b.
Proof.
  split.
  - intros H ->. rewrite beqb_refl in H. easy.
  - intros H. destruct (beqb a b) eqn:E; [|reflexivity]. apply beqb_eq in E. easy.
Qed.
Lemma beqb_spec a b : reflect (a = b) (beqb a b).
Proof.
  destruct (beqb a b) eqn:E; constructor.
  - now apply beqb_eq.
  - now apply beqb_neq.
Qed.
Lemma bytes_dec (a b : bytes) : {a = b} + {a <> b}.
Proof. destruct (beqb_spec a b); [now left|now right]. Qed.

Lemma mem_In k l : mem k l = true <-> In k l.
Proof.
  unfold mem. rewrite existsb_exists. split.
  - intros (x & H & E). apply beqb_eq in E. now subst.
  - intros H. exists k. split; [easy|apply beqb_refl].
Qed.
Lemma mem_nIn k l : mem k l = false <-> ~ In k l.
Proof.
  split.
  - intros H H1. apply mem_In in H1. congruence.
  - intros H. destruct (mem k l) eqn:E; [|reflexivity]. apply mem_In in E. easy.
Qed.

(** Association lists *)
Section Assoc.
Context {V : Type}.
Implicit Types m : list (bytes * V).

Lemma assoc_set_same k v m : assoc k (assoc_set k v m) = Some v.
Proof.
  induction m as [|[k' v'] m IH]; cbn; [now rewrite beqb_refl|].
  destruct (beqb_spec k k'); cbn.
  - subst. now rewrite beqb_refl.
  - destruct (beqb_spec k k'); [easy|apply IH].
Qed.
Lemma assoc_set_other k k' v m : k <> k' -> assoc k (assoc_set k' v m) = assoc k m.
Proof.
  intros N. induction m as [|[k1 v1] m IH]; cbn.
  - destruct (beqb_spec k k'); [easy|reflexivity].
  - destruct (beqb_spec k' k1); cbn.
    + subst. destruct (beqb_spec k k1); [easy|reflexivity].
    + destruct (beqb_spec k k1); [reflexivity|apply IH].
Qed.
Lemma assoc_None k m : assoc k m = None <-> ~ In k (map fst m).
Proof.
  induction m as [|[k1 v1] m IH]; cbn; [easy|].
  destruct (beqb_spec k k1).
  - subst. split; [easy|]. intros H; exfalso; apply H; now left.
  - rewrite IH. split; intros H; [intros [E|E]; [now subst|easy]|intros E; apply H; now right].
Qed.
Lemma assoc_Some_In k v m : assoc k m = Some v -> In (k, v) m.
Proof.
  induction m as [|[k1 v1] m IH]; cbn; [easy|].
  destruct (beqb_spec k k1).
  - subst. intros [= ->]. now left.
  - intros H. right. now apply IH.
Qed.
Lemma In_assoc k v m : NoDup (map fst m) -> In (k, v) m -> assoc k m = Some v.
Proof.
  induction m as [|[k1 v1] m IH]; cbn; [easy|].
  intros ND [E|E]; inversion ND; subst.
  - inversion E; subst. now rewrite beqb_refl.
  - destruct (beqb_spec k k1).
    + subst. exfalso. apply H1. change k1 with (fst (k1, v)). now apply in_map.
    + now apply IH.
Qed.
Lemma assoc_set_new k v m : ~ In k (map fst m) -> assoc_set k v m = m ++ [(k, v)].
Proof.
  induction m as [|[k1 v1] m IH]; cbn; [easy|].
  intros H. destruct (beqb_spec k k1).
  - subst. exfalso; apply H; now left.
  - f_equal. apply IH. intros E; apply H; now right.
Qed.
Lemma assoc_set_keys k v m :
  map fst (assoc_set k v m) = if mem k (map fst m) then map fst m else map fst m ++ [k].
Proof.
  induction m as [|[k1 v1] m IH]; cbn; [reflexivity|].
  destruct (beqb_spec k k1); cbn.
  - now subst.
  - rewrite IH. unfold mem. destruct (existsb (beqb k) (map fst m)); reflexivity.
Qed.
Lemma assoc_app k m1 m2 :
  assoc k (m1 ++ m2) = match assoc k m1 with Some v => Some v | None => assoc k m2 end.
Proof.
  induction m1 as [|[k1 v1] m IH]; cbn; [reflexivity|].
  destruct (beqb k k1); [reflexivity|apply IH].
Qed.
End Assoc.

Lemma bs_app a b : bs (a ++ b) = bs a ++ bs b.
Proof.
  unfold bs. rewrite <- map_app. f_equal.
  induction a; cbn; [reflexivity|]. f_equal. apply IHa.
Qed.

Lemma rbind_ok {A B} (x : res A) (f : A -> res B) b :
  rbind x f = Ok b -> exists a, x = Ok a /\ f a = Ok b.
Proof. destruct x; cbn; intros; try easy. now exists a. Qed.
Lemma rmapM_length {A B} (f : A -> res B) l r : rmapM f l = Ok r -> List.length r = List.length l.
Proof.
  revert r; induction l as [|x l IH]; cbn; intros r H.
  - now inversion H.
  - apply rbind_ok in H. destruct H as (y & _ & H).
    apply rbind_ok in H. destruct H as (ys & Hy & H). inversion H; subst. cbn. f_equal. now apply IH.
Qed.
Lemma flat_map_concat_map' {A B} (f : A -> list B) l : flat_map f l = List.concat (map f l).
Proof. apply flat_map_concat_map. Qed.

Lemma nth_error_firstn_lt {A} n (l : list A) i : (i < n)%nat -> nth_error (firstn n l) i = nth_error l i.
Proof.
  revert l i; induction n as [|n IH]; intros l i H; [lia|].
  destruct l, i; cbn; auto. apply IH. lia.
Qed.
Lemma nth_error_skipn_add {A} n (l : list A) i : nth_error (skipn n l) i = nth_error l (n + i).
Proof.
  revert l; induction n as [|n IH]; intros l; [reflexivity|].
  destruct l; cbn; [now destruct i|apply IH].
Qed.
Lemma flat_map_map {A B C} (f : A -> B) (g : B -> list C) l :
  flat_map g (map f l) = flat_map (fun x => g (f x)) l.
Proof. induction l; cbn; [reflexivity|]. now rewrite IHl. Qed.
