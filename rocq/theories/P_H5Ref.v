(** C46, C48: reference counting of the file behind HDF5 groups. *)
From Coq Require Import ZifyBool ZifyNat.
From Verif Require Import Prelude BaseLemmas H5RefModel H5RefProofs.

(** Handles are numbered in the order they are obtained: 0 is New's, the others GetGroup's.
    After history [h], [obtained h] handles exist. *)
Definition obtained (h : list rop) : nat := List.length (r_handles (ref_after h)).
(** Handle [i] was closed during [h], after it had been obtained. *)
Definition was_closed (h : list rop) (i : nat) : Prop :=
  exists pre post, h = pre ++ HClose i :: post /\ (i < obtained pre)%nat.

(** C46.  After every history of GetGroup and Close calls on any handles the operating system
    file has been closed at most once; it has been closed exactly when every handle
    obtained has been closed, and until then the shared file is still usable. *)
Theorem C46_closed_exactly_when : forall h,
  (r_closes (ref_after h) <= 1)%nat /\
  (r_closes (ref_after h) = 1%nat <-> forall i, (i < obtained h)%nat -> was_closed h i) /\
  (r_file (ref_after h) = true <-> r_closes (ref_after h) = 0%nat).
Proof.
  intros h. destruct (ref_inv_all h) as (Hc & Hf & Hk).
  assert (Z1 : nopen (r_handles (ref_after h)) = 0 <-> (forall i, (i < obtained h)%nat -> was_closed h i)).
  { rewrite nopen_zero. split.
    - intros H i Hi. apply (closed_iff h i Hi).
      destruct (nth_error (r_handles (ref_after h)) i) as [b|] eqn:E.
      + now rewrite (H i b E).
      + apply nth_error_None in E. unfold obtained in Hi. lia.
    - intros H i b E. assert (Hi : (i < obtained h)%nat) by (apply nth_error_Some; congruence).
      pose proof (proj2 (closed_iff h i Hi) (H i Hi)) as E'. congruence. }
  destruct (nopen (r_handles (ref_after h)) =? 0) eqn:E0; rewrite Hk.
  - split; [lia|]. split; [split; intros _; [apply Z1; lia|reflexivity]|].
    rewrite Hf. split; [lia|discriminate].
  - split; [lia|]. split; [split; [discriminate|intros H; apply Z1 in H; lia]|].
    rewrite Hf. split; [reflexivity|intros _; lia].
Qed.

(** Closing a handle that was closed before does nothing and succeeds. *)
Theorem C46_close_twice : forall h i, (i < obtained h)%nat -> was_closed h i ->
  ref_step (ref_after h) (HClose i) = (ref_after h, Ok tt).
Proof.
  intros h i Hi Hc. pose proof (proj2 (closed_iff h i Hi) Hc) as E. cbn [ref_step]. now rewrite E.
Qed.

(** Through an open handle GetGroup of an existing group always yields a new, open handle, and
    Close succeeds; through a closed one GetGroup crashes. *)
Theorem C46_calls : forall h i, (i < obtained h)%nat ->
  snd (ref_step (ref_after h) (HClose i)) = Ok tt /\
  (~ was_closed h i -> snd (ref_step (ref_after h) (HGet i true)) = Ok tt /\
     obtained (h ++ [HGet i true]) = S (obtained h)) /\
  (was_closed h i -> snd (ref_step (ref_after h) (HGet i true)) = Panic).
Proof.
  intros h i Hi. pose proof (closed_iff h i Hi) as Hc. unfold obtained. rewrite ref_after_snoc. cbn [ref_step].
  destruct (nth_error (r_handles (ref_after h)) i) as [[|]|] eqn:E.
  - split; [destruct (dereference _); reflexivity|]. split.
    + intros _. split; [reflexivity|]. cbn [fst r_handles]. rewrite app_length. cbn [List.length]. lia.
    + intros H. apply Hc in H. discriminate.
  - split; [reflexivity|]. split; [|reflexivity]. intros H. exfalso. apply H. now apply Hc.
  - apply nth_error_None in E. unfold obtained in Hi. lia.
Qed.

Example C46_example :
  let h := [HGet 0 true; HClose 0; HGet 1 true; HClose 0; HGet 1 false; HClose 2; HClose 1] in
  obtained h = 3%nat /\ r_closes (ref_after h) = 1%nat /\ r_closes (ref_after (removelast h)) = 0%nat /\
  was_closed h 1.
Proof.
  cbv zeta. split; [reflexivity|]. split; [reflexivity|]. split; [reflexivity|].
  exists [HGet 0 true; HClose 0; HGet 1 true; HClose 0; HGet 1 false; HClose 2], []. split; [reflexivity|].
  cbv. lia.
Qed.

(** C48.  Full statement: for every number [n] of goroutines that call GetGroup at once and every
    schedule in which all of them finish, the counter is 1 + n.  False: see C48_refuted.
    Proved: the counter never exceeds that, never falls below 2, and is exactly that if no two
    goroutines are ever between the load and the store of the counter at the same time. *)
Theorem C48_bounds_partial : forall n sched, all_done (g_run n sched) ->
  g_count (g_run n sched) <= 1 + Z.of_nat n /\ ((0 < n)%nat -> 2 <= g_count (g_run n sched)).
Proof. exact g_bounds. Qed.

(** how many goroutines are between load and store *)
Definition between (s : gstate) : Z :=
  zlen (filter (fun p => match p with GLoaded _ => true | _ => false end) (g_pcs s)).

Theorem C48_serial_partial : forall n sched, all_done (g_run n sched) ->
  (forall k, between (g_run n (firstn k sched)) <= 1) ->
  g_count (g_run n sched) = 1 + Z.of_nat n.
Proof.
  intros n sched Hd Hs. destruct (g_serial n sched Hs) as [E _].
  pose proof (all_done_ndone _ Hd) as E'. unfold zlen in E'. rewrite g_run_length in E'. lia.
Qed.

Example C48_example :
  all_done (g_run 2 [1; 1; 0; 0]%nat) /\ (forall k, between (g_run 2 (firstn k [1; 1; 0; 0]%nat)) <= 1) /\
  g_count (g_run 2 [1; 1; 0; 0]%nat) = 3.
Proof.
  split; [|split; [|reflexivity]].
  - intros [|[|t]] p E; cbn in E; try congruence. destruct t; discriminate.
  - intros [|[|[|[|[|k]]]]]; vm_compute; discriminate.
Qed.

Theorem C48_refuted : exists n sched, all_done (g_run n sched) /\ g_count (g_run n sched) <> 1 + Z.of_nat n.
Proof.
  exists 2%nat, [0; 1; 0; 1]%nat. split; [|vm_compute; discriminate].
  intros [|[|t]] p E; cbn in E; try congruence. destruct t; discriminate.
Qed.

Print Assumptions C46_closed_exactly_when.
Print Assumptions C46_close_twice.
Print Assumptions C46_calls.
Print Assumptions C48_bounds_partial.
Print Assumptions C48_serial_partial.
Print Assumptions C48_refuted.
