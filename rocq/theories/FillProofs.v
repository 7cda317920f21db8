(** FillValueReader: the stream does not depend on how it is read. *)
From Coq Require Import ZifyBool ZifyNat.
From Verif Require Import Prelude GoVal BaseLemmas FillModel.

(** Specification: bytes [i0, i0+n) of the endless repetition of [pat]. *)
Definition cyc (pat : bytes) (i0 n : nat) : bytes :=
  map (fun i => nth (i mod List.length pat) pat 0) (seq i0 n).

Lemma cyc_app pat i0 a b : cyc pat i0 (a + b) = cyc pat i0 a ++ cyc pat (i0 + a) b.
Proof. unfold cyc. rewrite seq_app, map_app. reflexivity. Qed.

Lemma cyc_length pat i0 n : List.length (cyc pat i0 n) = n.
Proof. unfold cyc. now rewrite map_length, seq_length. Qed.

Lemma cyc_period pat i0 n : pat <> [] ->
  cyc pat (i0 mod List.length pat) n = cyc pat i0 n.
Proof.
  intros Hp. assert (L : List.length pat <> O) by (destruct pat; easy).
  unfold cyc. revert i0; induction n as [|n IH]; intros i0; [reflexivity|].
  cbn [seq map]. f_equal.
  - now rewrite Nat.mod_mod.
  - transitivity (map (fun i => nth (i mod List.length pat) pat 0)
                      (seq (S (i0 mod List.length pat) mod List.length pat) n)).
    + symmetry. apply IH.
    + replace (S (i0 mod List.length pat) mod List.length pat)%nat
        with (S i0 mod List.length pat)%nat; [apply IH|].
      rewrite <- (Nat.add_1_l (i0 mod _)), <- (Nat.add_1_l i0).
      now rewrite Nat.add_mod_idemp_r.
Qed.

Lemma cyc_whole pat i0 : (i0 mod List.length pat = 0)%nat -> pat <> [] ->
  cyc pat i0 (List.length pat) = pat.
Proof.
  intros H Hp. rewrite <- cyc_period by easy. rewrite H.
  unfold cyc. apply nth_ext with (d := 0) (d' := 0).
  - now rewrite map_length, seq_length.
  - intros n. rewrite map_length, seq_length. intros Hn.
    rewrite nth_indep with (d' := (fun i => nth (i mod List.length pat) pat 0) O)
      by (rewrite map_length, seq_length; lia).
    rewrite (map_nth (fun i => nth (i mod List.length pat) pat 0) (seq 0 (List.length pat)) O n).
    rewrite seq_nth by easy. cbn. now rewrite Nat.mod_small.
Qed.

Lemma fv_slow_spec rep n ri :
  fv_slow n ri rep = (cyc rep ri n, (ri + n)%nat).
Proof.
  revert ri; induction n as [|n IH]; intros ri; cbn.
  - now rewrite Nat.add_0_r.
  - rewrite IH. f_equal. lia.
Qed.

Lemma fv_fast_spec rep fuel i0 i len : rep <> [] ->
  (i0 mod List.length rep = 0)%nat -> Z.of_nat i0 = i -> i <= len -> len - i <= Z.of_nat fuel ->
  exists q, fv_fast fuel i len (zlen rep) rep = cyc rep i0 (q * List.length rep) /\
            i + Z.of_nat (q * List.length rep) <= len /\
            len < i + Z.of_nat (q * List.length rep) + zlen rep.
Proof.
  intros Hrep. assert (L : (0 < List.length rep)%nat) by (destruct rep; cbn; [easy|lia]).
  revert i0 i. induction fuel as [|fuel IH]; intros i0 i Hm Hi Hl Hf; cbn [fv_fast].
  - exists O. split; [reflexivity|]. unfold zlen. lia.
  - destruct (Z.ltb_spec i (len - zlen rep + 1)).
    + destruct (IH (i0 + List.length rep)%nat (i + zlen rep)) as (q & E & B1 & B2).
      * rewrite Nat.add_mod by lia. rewrite Nat.mod_same by lia. rewrite Hm. cbn.
        apply Nat.mod_0_l; lia.
      * unfold zlen; lia.
      * unfold zlen in *; lia.
      * unfold zlen in *; lia.
      * exists (S q). rewrite E. cbn [Nat.mul]. rewrite cyc_app.
        rewrite cyc_whole by easy. split; [reflexivity|]. unfold zlen in *. lia.
    + exists O. split; [reflexivity|]. unfold zlen in *. lia.
Qed.

Lemma fv_read_spec rep i0 n : rep <> [] -> (i0 < List.length rep)%nat ->
  fv_read (mkFvr rep i0) n = (cyc rep i0 n, mkFvr rep ((i0 + n) mod List.length rep)).
Proof.
  intros Hrep Hi. unfold fv_read. cbn [fv_repeat fv_index].
  destruct i0 as [|i0].
  - destruct (fv_fast_spec rep n 0 0 (Z.of_nat n)) as (q & E & B1 & B2); auto; try lia.
    { apply Nat.mod_0_l. lia. }
    rewrite E, cyc_length, fv_slow_spec.
    f_equal.
    + replace n with (q * List.length rep + (n - q * List.length rep))%nat at 2 by lia.
      rewrite cyc_app. f_equal.
      rewrite <- (cyc_period rep (0 + q * List.length rep)) by easy.
      f_equal. rewrite Nat.add_0_l, Nat.mod_mul by lia. reflexivity.
    + f_equal. replace (0 + n)%nat with ((n - q * List.length rep) + q * List.length rep)%nat by lia.
      now rewrite Nat.mod_add by lia.
  - cbn [app List.length]. rewrite Nat.sub_0_r, fv_slow_spec. reflexivity.
Qed.

(** Read through a sequence of calls of the given sizes. *)
Fixpoint fv_reads (s : fvr) (ns : list nat) : list bytes :=
  match ns with
  | [] => []
  | n :: r => let '(b, s') := fv_read s n in b :: fv_reads s' r
  end.

Lemma fv_reads_spec rep i0 ns : rep <> [] -> (i0 < List.length rep)%nat ->
  List.concat (fv_reads (mkFvr rep i0) ns) = cyc rep i0 (list_sum ns).
Proof.
  intros Hrep. revert i0; induction ns as [|n ns IH]; intros i0 Hi; cbn [fv_reads].
  - reflexivity.
  - rewrite fv_read_spec by easy. cbn [List.concat].
    assert (List.length rep <> O) by lia.
    rewrite IH by (now apply Nat.mod_upper_bound).
    cbn [list_sum fold_right]. change (fold_right Init.Nat.add 0%nat ns) with (list_sum ns).
    rewrite cyc_app. f_equal. now rewrite cyc_period.
Qed.

Lemma fv_reads_chunk_lengths rep i0 ns : rep <> [] -> (i0 < List.length rep)%nat ->
  map (@List.length Z) (fv_reads (mkFvr rep i0) ns) = ns.
Proof.
  intros Hrep. revert i0; induction ns as [|n ns IH]; intros i0 Hi; cbn [fv_reads].
  - reflexivity.
  - rewrite fv_read_spec by easy. cbn [map]. rewrite cyc_length. f_equal.
    apply IH. apply Nat.mod_upper_bound. lia.
Qed.

Lemma fv_reads_new pat ns : pat <> [] ->
  List.concat (fv_reads (new_fvr pat) ns) =
    map (fun i => nth (i mod List.length pat) pat 0) (seq 0 (list_sum ns)) /\
  map (@List.length Z) (fv_reads (new_fvr pat) ns) = ns.
Proof.
  intros H. assert (0 < List.length pat)%nat by (destruct pat; [easy|cbn; lia]). split.
  - now apply fv_reads_spec.
  - now apply fv_reads_chunk_lengths.
Qed.
