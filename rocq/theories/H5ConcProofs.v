(** Proofs about concurrent reads. *)
From Coq Require Import ZifyBool ZifyNat.
From Verif Require Import Prelude BaseLemmas H5ConcModel ConcSpec.

Fixpoint after (f : bytes) (pos : Z) (ops : list cop) : Z :=
  match ops with
  | [] => pos
  | CRead _ n :: r => after f (pos + zlen (bytes_at f pos n)) r
  | CReadAt _ _ _ :: r => after f pos r
  end.

Lemma after_app f ops1 : forall pos ops2, after f pos (ops1 ++ ops2) = after f (after f pos ops1) ops2.
Proof. induction ops1 as [|[v n|v off n] r IH]; intros; cbn [app after]; [reflexivity|apply IH|apply IH]. Qed.

Lemma alone_app f ops1 : forall pos ops2,
  alone f pos (ops1 ++ ops2) = alone f pos ops1 ++ alone f (after f pos ops1) ops2.
Proof.
  induction ops1 as [|[v n|v off n] r IH]; intros; cbn [app after alone]; [reflexivity| |]; now rewrite IH.
Qed.

Lemma alone_length f ops : forall pos, List.length (alone f pos ops) = List.length ops.
Proof. induction ops as [|[v n|v off n] r IH]; intros; cbn [alone List.length]; [reflexivity| |]; now rewrite IH. Qed.

Section Run.
Variables (f : bytes) (views : nat -> Z) (todo : nat -> list cop).

Definition ptr (d : list (nat * cop * bytes)) (v : nat) : Z := after f (views v) (ops_of (on_view v d)).
Definition cin_progress (p : pc) : list cop :=
  match p with PIdle => [] | PLocked o | PSought o _ | PRead o _ => [o] end.
Definition outs_ok (d : list (nat * cop * bytes)) : Prop :=
  forall v, outs_of (on_view v d) = alone f (views v) (ops_of (on_view v d)).
Definition result (d : list (nat * cop * bytes)) (o : cop) : bytes :=
  match o with CRead v n => bytes_at f (ptr d v) n | CReadAt v off n => bytes_at f off n end.

(** What holds of the positions, given where the goroutine holding the lock is *)
Definition pos_inv (s : cstate) (p : pc) : Prop :=
  match p with
  | PIdle | PLocked _ => forall v, c_views s v = ptr (c_done s) v
  | PSought (CRead v n) None => c_pos s = c_views s v /\ forall w, c_views s w = ptr (c_done s) w
  | PSought (CReadAt v off n) (Some old) =>
      old = ptr (c_done s) v /\ c_views s v = off /\ forall w, w <> v -> c_views s w = ptr (c_done s) w
  | PSought _ _ => False
  | PRead o out => out = result (c_done s) o /\
      forall w, c_views s w = ptr (c_done s ++ [(0%nat, o, out)]) w
  end.

Definition conc_inv (s : cstate) : Prop :=
  c_file s = f /\ outs_ok (c_done s) /\
  (forall t, ops_of (done_by t (c_done s)) ++ cin_progress (c_pcs s t) ++ c_todo s t = todo t) /\
  (if c_lock s
   then exists h, c_pcs s h <> PIdle /\ (forall t, t <> h -> c_pcs s t = PIdle) /\ pos_inv s (c_pcs s h)
   else (forall t, c_pcs s t = PIdle) /\ pos_inv s PIdle).

Lemma setf_same {A} (g : nat -> A) k x : setf g k x k = x.
Proof. unfold setf. now rewrite Nat.eqb_refl. Qed.
Lemma setf_other {A} (g : nat -> A) k x i : i <> k -> setf g k x i = g i.
Proof. intros H. unfold setf. now replace (Nat.eqb i k) with false by lia. Qed.

Lemma ptr_snoc d t o out v :
  ptr (d ++ [(t, o, out)]) v =
  if Nat.eqb (op_view o) v then after f (ptr d v) [o] else ptr d v.
Proof.
  unfold ptr, on_view, ops_of. rewrite filter_app, map_app. cbn [filter fst snd].
  destruct (Nat.eqb (op_view o) v) eqn:E; cbn [map fst snd].
  - now rewrite after_app.
  - now rewrite app_nil_r.
Qed.

Lemma by_snoc d t o out t' : ops_of (done_by t' (d ++ [(t, o, out)])) =
  ops_of (done_by t' d) ++ if Nat.eqb t t' then [o] else [].
Proof.
  unfold done_by, ops_of. rewrite filter_app, map_app. cbn [filter fst snd]. now destruct (Nat.eqb t t').
Qed.

Lemma conc_init_inv : conc_inv (c_init f views todo).
Proof.
  split; [reflexivity|]. split; [intros v; reflexivity|]. split; [intros t; reflexivity|].
  cbn [c_init c_lock c_pcs]. split; [reflexivity|]. intros v. reflexivity.
Qed.

Lemma holder (s : cstate) t : conc_inv s -> c_pcs s t <> PIdle ->
  c_lock s = true /\ (forall t', t' <> t -> c_pcs s t' = PIdle) /\ pos_inv s (c_pcs s t).
Proof.
  intros (_ & _ & _ & H) Hn. destruct (c_lock s).
  - destruct H as (h & Hh & Ho & Hp). split; [reflexivity|].
    destruct (Nat.eq_dec t h) as [->|Hne]; [now split|]. elim Hn. now apply Ho.
  - elim Hn. apply H.
Qed.

Lemma c_step_inv s t : conc_inv s -> conc_inv (c_step s t).
Proof.
  intros I. pose proof I as (Hf & Ho & Ht & Hl). unfold c_step.
  destruct (c_pcs s t) as [|o|o saved|o out] eqn:Ep.
  - destruct (c_todo s t) as [|o rest] eqn:Et; [exact I|].
    destruct (c_lock s) eqn:El; [exact I|]. destruct Hl as [Hi Hp].
    split; [exact Hf|]. split; [exact Ho|]. cbn [c_done c_pcs c_todo c_lock].
    split.
    + intros t'. specialize (Ht t'). destruct (Nat.eq_dec t' t) as [->|Hne].
      * rewrite !setf_same. rewrite Ep, Et in Ht. exact Ht.
      * now rewrite !setf_other by exact Hne.
    + exists t. rewrite setf_same. split; [discriminate|]. split; [|exact Hp].
      intros t' Hne. rewrite setf_other by exact Hne. apply Hi.
  - destruct (holder s t I ltac:(now rewrite Ep)) as (El & Hi & Hp). rewrite Ep in Hp. cbn [pos_inv] in Hp.
    destruct o as [v n|v off n].
    + split; [exact Hf|]. split; [exact Ho|]. cbn [c_done c_pcs c_todo c_lock]. rewrite El. split.
      * intros t'. specialize (Ht t'). destruct (Nat.eq_dec t' t) as [->|Hne].
        -- rewrite setf_same. rewrite Ep in Ht. exact Ht.
        -- now rewrite setf_other by exact Hne.
      * exists t. rewrite setf_same. split; [discriminate|]. split.
        -- intros t' Hne. rewrite setf_other by exact Hne. now apply Hi.
        -- cbn [pos_inv c_pos c_views c_done]. split; [reflexivity|exact Hp].
    + split; [exact Hf|]. split; [exact Ho|]. cbn [c_done c_pcs c_todo c_lock]. rewrite El. split.
      * intros t'. specialize (Ht t'). destruct (Nat.eq_dec t' t) as [->|Hne].
        -- rewrite setf_same. rewrite Ep in Ht. exact Ht.
        -- now rewrite setf_other by exact Hne.
      * exists t. rewrite setf_same. split; [discriminate|]. split.
        -- intros t' Hne. rewrite setf_other by exact Hne. now apply Hi.
        -- cbn [pos_inv c_pos c_views c_done]. split; [apply Hp|]. split; [apply setf_same|].
           intros w Hw. rewrite setf_other by exact Hw. apply Hp.
  - destruct (holder s t I ltac:(now rewrite Ep)) as (El & Hi & Hp). rewrite Ep in Hp. cbn [pos_inv] in Hp.
    split; [exact Hf|]. split; [exact Ho|]. cbn [c_done c_pcs c_todo c_lock]. rewrite El. split.
    + intros t'. specialize (Ht t'). destruct (Nat.eq_dec t' t) as [->|Hne].
      * rewrite setf_same. rewrite Ep in Ht. exact Ht.
      * now rewrite setf_other by exact Hne.
    + exists t. rewrite setf_same. split; [discriminate|]. split.
      * intros t' Hne. rewrite setf_other by exact Hne. now apply Hi.
      * cbn [pos_inv c_pos c_views c_done]. rewrite Hf.
        destruct o as [v n|v off n], saved as [old|]; try contradiction; cbn [op_view result].
        -- destruct Hp as [Hpos Hv]. rewrite Hpos, (Hv v). split; [reflexivity|].
           intros w. rewrite ptr_snoc. cbn [op_view]. destruct (Nat.eqb v w) eqn:E.
           ++ assert (v = w) by lia. subst w. rewrite setf_same. reflexivity.
           ++ rewrite setf_other by lia. apply Hv.
        -- destruct Hp as (-> & Hoff & Hv). rewrite Hoff. split; [reflexivity|].
           intros w. rewrite ptr_snoc. cbn [op_view]. destruct (Nat.eqb v w) eqn:E.
           ++ assert (v = w) by lia. subst w. rewrite setf_same. reflexivity.
           ++ rewrite setf_other by lia. apply Hv. lia.
  - destruct (holder s t I ltac:(now rewrite Ep)) as (El & Hi & Hp). rewrite Ep in Hp. cbn [pos_inv] in Hp.
    destruct Hp as [Hout Hv].
    split; [exact Hf|]. cbn [c_done c_pcs c_todo c_lock]. split; [|split].
    + intros v. specialize (Ho v). unfold on_view, outs_of, ops_of in *. rewrite filter_app, !map_app. cbn [filter fst snd].
      destruct (Nat.eqb (op_view o) v) eqn:E; cbn [map fst snd].
      * rewrite alone_app, Ho. f_equal. assert (op_view o = v) by lia. subst v.
        change (after f (views (op_view o)) (map (fun x => snd (fst x))
          (filter (fun x => Nat.eqb (op_view (snd (fst x))) (op_view o)) (c_done s)))) with (ptr (c_done s) (op_view o)).
        rewrite Hout. destruct o; reflexivity.
      * now rewrite !app_nil_r.
    + intros t'. specialize (Ht t'). rewrite by_snoc. destruct (Nat.eq_dec t' t) as [->|Hne].
      * rewrite setf_same, Nat.eqb_refl. rewrite Ep in Ht. rewrite <- app_assoc. exact Ht.
      * rewrite setf_other by exact Hne. replace (Nat.eqb t t') with false by lia. now rewrite app_nil_r.
    + split.
      * intros t'. destruct (Nat.eq_dec t' t) as [->|Hne]; [apply setf_same|].
        rewrite setf_other by exact Hne. now apply Hi.
      * cbn [pos_inv c_views c_done]. intros w. rewrite Hv, !ptr_snoc. reflexivity.
Qed.

Lemma conc_inv_all sched : conc_inv (c_run (c_init f views todo) sched).
Proof.
  unfold c_run. induction sched as [|t sched IH] using rev_ind; [exact conc_init_inv|].
  rewrite fold_left_app. cbn [fold_left]. now apply c_step_inv.
Qed.

(** A goroutine whose handle nobody else uses *)
Lemma private_view sched t v :
  (forall o, In o (todo t) -> op_view o = v) ->
  (forall t' o, t' <> t -> In o (todo t') -> op_view o <> v) ->
  done_by t (c_done (c_run (c_init f views todo) sched)) = on_view v (c_done (c_run (c_init f views todo) sched)).
Proof.
  intros H1 H2. destruct (conc_inv_all sched) as (_ & _ & Ht & _).
  set (s := c_run (c_init f views todo) sched) in *.
  assert (G : forall x, In x (c_done s) -> In (snd (fst x)) (todo (fst (fst x)))).
  { intros x Hx. rewrite <- (Ht (fst (fst x))). apply in_or_app. left. unfold ops_of. apply in_map_iff.
    exists x. split; [reflexivity|]. unfold done_by. apply filter_In. split; [exact Hx|]. apply Nat.eqb_refl. }
  unfold done_by, on_view. apply filter_ext_in. intros x Hx. specialize (G x Hx).
  destruct (Nat.eqb (fst (fst x)) t) eqn:E.
  - assert (fst (fst x) = t) as Et by lia. rewrite Et in G. rewrite (H1 _ G). now rewrite Nat.eqb_refl.
  - assert (fst (fst x) <> t) as Et by lia. specialize (H2 _ _ Et G). lia.
Qed.

(** Some goroutine can always move while something is left to do *)
Lemma progress sched :
  let s := c_run (c_init f views todo) sched in
  (exists t, c_pcs s t <> PIdle \/ c_todo s t <> []) -> exists t, c_step s t <> s.
Proof.
  intros s (t & H). destruct (conc_inv_all sched) as (_ & _ & _ & Hl). fold s in Hl.
  destruct (c_lock s) eqn:El.
  - destruct Hl as (h & Hh & _ & _). exists h. unfold c_step. intros E.
    assert (F : forall x, c_pcs x h <> c_pcs s h -> x = s -> False) by (intros x Hx ->; now apply Hx).
    destruct (c_pcs s h) as [|o|o saved|o out] eqn:Ep; [now elim Hh| | |].
    + destruct o; (apply (F _) in E; [exact E|]); cbn [c_pcs]; rewrite setf_same; discriminate.
    + apply (F _) in E; [exact E|]; cbn [c_pcs]; rewrite setf_same; discriminate.
    + apply (F _) in E; [exact E|]; cbn [c_pcs]; rewrite setf_same; discriminate.
  - destruct Hl as [Hi _]. destruct H as [H|H]; [elim H; apply Hi|].
    exists t. unfold c_step. rewrite Hi, El. destruct (c_todo s t) as [|o rest]; [now elim H|].
    intros E. assert (C : c_lock s = true) by (rewrite <- E; reflexivity). congruence.
Qed.
End Run.
