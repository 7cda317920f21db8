(** C47: concurrent reads through different handles. *)
From Coq Require Import ZifyBool ZifyNat.
From Verif Require Import Prelude BaseLemmas H5ConcModel ConcSpec H5ConcProofs.

(** C47.  Any number of goroutines, each with a list of reads to do, run in any interleaving of
    their lock, seek, read and unlock steps.  On every handle, the completed reads delivered, in
    order, exactly what they deliver when that handle is used alone; and every goroutine did its
    reads in its own order. *)
Theorem C47_independent : forall f views todo sched,
  let d := c_done (c_run (c_init f views todo) sched) in
  (forall v, outs_of (on_view v d) = alone f (views v) (ops_of (on_view v d))) /\
  (forall t, exists rest, ops_of (done_by t d) ++ rest = todo t).
Proof.
  intros f views todo sched. destruct (conc_inv_all f views todo sched) as (_ & Ho & Ht & _).
  split; [exact Ho|]. intros t. eexists. exact (Ht t).
Qed.

(** A goroutine with a handle of its own gets what it would get running alone, whatever the others
    do; when it is finished it has got all of it. *)
Theorem C47_own_handle : forall f views todo sched t v,
  (forall o, In o (todo t) -> op_view o = v) ->
  (forall t' o, t' <> t -> In o (todo t') -> op_view o <> v) ->
  let s := c_run (c_init f views todo) sched in
  let d := done_by t (c_done s) in
  outs_of d = firstn (List.length d) (alone f (views v) (todo t)) /\
  (c_pcs s t = PIdle -> c_todo s t = [] -> outs_of d = alone f (views v) (todo t)).
Proof.
  intros f views todo sched t v H1 H2 s d.
  destruct (conc_inv_all f views todo sched) as (_ & Ho & Ht & _). fold s in Ho, Ht.
  assert (E : d = on_view v (c_done s)) by exact (private_view f views todo sched t v H1 H2).
  assert (E2 : outs_of d = alone f (views v) (ops_of d)) by (rewrite E; apply Ho).
  split.
  - rewrite E2, <- (Ht t). fold d. rewrite alone_app.
    assert (L : List.length d = List.length (alone f (views v) (ops_of d))).
    { rewrite alone_length. unfold ops_of. now rewrite map_length. }
    rewrite L, firstn_app, Nat.sub_diag, firstn_all. cbn [firstn]. now rewrite app_nil_r.
  - intros Hp Htd. rewrite E2, <- (Ht t), Hp, Htd. cbn [cin_progress app]. now rewrite app_nil_r.
Qed.

(** The lock never blocks everybody: while something is left to do, some goroutine can move. *)
Theorem C47_no_deadlock : forall f views todo sched,
  let s := c_run (c_init f views todo) sched in
  (exists t, c_pcs s t <> PIdle \/ c_todo s t <> []) -> exists t, c_step s t <> s.
Proof. exact progress. Qed.

Definition C47_todo (t : nat) : list cop :=
  match t with
  | O => [CRead 0 2; CReadAt 0 5 2; CRead 0 9]
  | S O => [CRead 1 3; CRead 1 1]
  | _ => []
  end.

Example C47_example :
  let s := c_run (c_init [10; 11; 12; 13; 14; 15; 16] (fun v => Z.of_nat v) C47_todo)
                 [0; 1; 0; 0; 1; 0; 1; 0; 1; 0; 1; 1; 0; 0; 0; 0; 1; 1; 0; 1; 1; 0; 0; 0; 0]%nat in
  c_done s = [(0%nat, CRead 0 2, [10; 11]); (1%nat, CRead 1 3, [11; 12; 13]);
              (0%nat, CReadAt 0 5 2, [15; 16]); (1%nat, CRead 1 1, [14]);
              (0%nat, CRead 0 9, [12; 13; 14; 15; 16])] /\
  alone [10; 11; 12; 13; 14; 15; 16] 0 (C47_todo 0) = [[10; 11]; [15; 16]; [12; 13; 14; 15; 16]].
Proof. split; vm_compute; reflexivity. Qed.

Print Assumptions C47_independent.
Print Assumptions C47_own_handle.
Print Assumptions C47_no_deadlock.
