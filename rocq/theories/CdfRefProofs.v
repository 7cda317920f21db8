(** Reference count of a CDF group. *)
From Coq Require Import ZifyBool ZifyNat.
From Verif Require Import Prelude BaseLemmas CdfRefModel.

(** ** Specification: counting calls in a history *)
Definition closes (h : list rcop) : nat :=
  List.length (filter (fun o => match o with RClose => true | _ => false end) h).
(** GetGroup succeeds for "" and "/" *)
Definition root_path (p : bytes) : Prop := p = [] \/ p = bs "/".
Definition root_pathb (p : bytes) : bool := match p with [] => true | [47] => true | _ => false end.
Definition gets (h : list rcop) : nat :=
  List.length (filter (fun o => match o with RGet p => root_pathb p | _ => false end) h).
(** All handles handed out so far have been closed at some point of the history *)
Definition exhausted (h : list rcop) : Prop :=
  exists h1 h2, h = h1 ++ h2 /\ closes h1 = (1 + gets h1)%nat.

Lemma root_pathb_spec p : root_pathb p = true <-> root_path p.
Proof.
  unfold root_path. change (bs "/") with [47]. destruct p as [|x [|y p]]; cbn.
  - tauto.
  - destruct (Z.eqb_spec x 47).
    + subst. tauto.
    + assert (E : match x with 47 => true | _ => false end = false).
      { destruct x as [|q|q]; try easy. do 6 (destruct q; try easy). }
      rewrite E. split; [easy|]. intros [?|[= ?]]; easy.
  - assert (E : match x with 47 => false | _ => false end = false) by
      (destruct x as [|q|q]; try easy; do 6 (destruct q; try easy)).
    rewrite E. split; [easy|]. intros [?|?]; easy.
Qed.

Lemma root_pathb_model p : beqb p [] || beqb p (bs "/") = root_pathb p.
Proof.
  destruct (root_pathb p) eqn:E.
  - apply root_pathb_spec in E. apply orb_true_iff. rewrite !beqb_eq. exact E.
  - apply not_true_iff_false. rewrite orb_true_iff, !beqb_eq.
    intros H. apply root_pathb_spec in H. congruence.
Qed.

Lemma closes_app a b : closes (a ++ b) = (closes a + closes b)%nat.
Proof. unfold closes. rewrite filter_app, app_length. reflexivity. Qed.
Lemma gets_app a b : gets (a ++ b) = (gets a + gets b)%nat.
Proof. unfold gets. rewrite filter_app, app_length. reflexivity. Qed.

Lemma rc_run_snoc s h o :
  fst (rc_run s (h ++ [o])) = fst (rc_step (fst (rc_run s h)) o).
Proof.
  revert s; induction h as [|x h IH]; intros s; cbn [app rc_run fst].
  - destruct (rc_step s o). reflexivity.
  - destruct (rc_step s x) as [s1 r]. specialize (IH s1).
    destruct (rc_run s1 (h ++ [o])), (rc_run s1 h). exact IH.
Qed.

Definition rc_state (h : list rcop) : rcst := fst (rc_run rc_new h).

Lemma exhausted_snoc h o : exhausted h -> exhausted (h ++ [o]).
Proof. intros (h1 & h2 & -> & E). exists h1, (h2 ++ [o]). now rewrite <- app_assoc. Qed.

Lemma exhausted_nil : ~ exhausted [].
Proof.
  intros (h1 & h2 & E & H). symmetry in E. apply app_eq_nil in E. destruct E as [-> ->]. easy.
Qed.

Lemma exhausted_snoc_inv h o : exhausted (h ++ [o]) ->
  exhausted h \/ closes (h ++ [o]) = (1 + gets (h ++ [o]))%nat.
Proof.
  intros (h1 & h2 & E & H). destruct h2 as [|x h2] using rev_ind.
  - right. rewrite app_nil_r in E. now rewrite E.
  - left. rewrite app_assoc in E. apply app_inj_tail in E. destruct E as [-> _].
    now exists h1, h2.
Qed.

(** While no prefix is exhausted, the count is 1 + gets - closes and the file is open and
    was never closed; afterwards it stays closed and was closed once. *)
Lemma rc_inv h :
  (exhausted h /\ rc_file (rc_state h) = false /\ rc_closes (rc_state h) = 1%nat /\
   0 <= rc_count (rc_state h)) \/
  (~ exhausted h /\ rc_file (rc_state h) = true /\ rc_closes (rc_state h) = 0%nat /\
   rc_count (rc_state h) = 1 + Z.of_nat (gets h) - Z.of_nat (closes h) /\
   0 < rc_count (rc_state h)).
Proof.
  induction h as [|o h IH] using rev_ind.
  - right. split; [apply exhausted_nil|]. cbn. lia.
  - unfold rc_state in *. rewrite rc_run_snoc. set (s := fst (rc_run rc_new h)) in *.
    destruct IH as [(H1 & H2 & H3 & H4)|(H1 & H2 & H3 & H4 & H5)].
    + left. split; [now apply exhausted_snoc|].
      destruct o as [p|]; cbn [rc_step].
      * destruct (_ || _); cbn; lia.
      * destruct (rc_count s <=? 0) eqn:E1; [cbn; lia|].
        destruct (rc_count s - 1 =? 0) eqn:E2; [rewrite H2; cbn; lia|cbn; lia].
    + pose proof (closes_app h [o]) as EC. pose proof (gets_app h [o]) as EG.
      destruct o as [p|]; cbn [rc_step].
      * change (closes [RGet p]) with 0%nat in EC.
        assert (NX : ~ exhausted (h ++ [RGet p])).
        { intros X. apply exhausted_snoc_inv in X. destruct X; [easy|]. lia. }
        right. split; [exact NX|]. rewrite root_pathb_model.
        assert (Eg : gets [RGet p] = if root_pathb p then 1%nat else 0%nat).
        { unfold gets. cbn. destruct (root_pathb p); reflexivity. }
        rewrite Eg in EG.
        destruct (root_pathb p); cbn [fst rc_count rc_file rc_closes]; lia.
      * change (closes [RClose]) with 1%nat in EC. change (gets [RClose]) with 0%nat in EG.
        replace (rc_count s <=? 0) with false by lia.
        destruct (Z.eqb_spec (rc_count s - 1) 0) as [E2|E2].
        { left. rewrite H2. cbn [fst rc_count rc_file rc_closes]. split; [|lia].
          exists (h ++ [RClose]), []. rewrite app_nil_r. split; [easy|]. lia. }
        { right. cbn [fst rc_count rc_file rc_closes]. split; [|lia].
          intros X. apply exhausted_snoc_inv in X. destruct X; [easy|]. lia. }
Qed.

Lemma rc_closed_exactly h :
  (rc_closes (rc_state h) <= 1)%nat /\
  (rc_closes (rc_state h) = 1%nat <-> exhausted h).
Proof. destruct (rc_inv h) as [(?&?&->&?)|(?&?&->&?)]; split; try lia; split; intros; easy. Qed.

(** The outcome of the next call is never a panic before the file is closed. *)
Lemma rc_no_panic h o : ~ exhausted h -> snd (rc_step (rc_state h) o) <> Panic.
Proof.
  intros N. destruct (rc_inv h) as [(?&_)|(_&H2&_&_&H5)]; [easy|].
  destruct o; cbn [rc_step].
  - destruct (_ || _); easy.
  - destruct (rc_count _ <=? 0); [easy|]. rewrite H2. destruct (_ =? 0); easy.
Qed.

Lemma rc_calls h o : ~ exhausted h ->
  snd (rc_step (rc_state h) o) <> Panic /\
  (forall p, o = RGet p -> (snd (rc_step (rc_state h) o) = Ok tt <-> root_path p)).
Proof.
  intros N. split; [now apply rc_no_panic|]. intros p ->. cbn [rc_step].
  rewrite root_pathb_model, <- root_pathb_spec. destruct (root_pathb p); cbn; split; easy.
Qed.

Lemma rc_example :
  exhausted [RGet (bs "/"); RGet (bs "x"); RClose; RClose; RClose] /\
  ~ exhausted [RGet (bs "/"); RGet (bs "x"); RClose].
Proof.
  split.
  - exists [RGet (bs "/"); RGet (bs "x"); RClose; RClose], [RClose]. split; reflexivity.
  - intros X. apply rc_closed_exactly in X. vm_compute in X. easy.
Qed.

Lemma rc_reopen_panics : exists h, exhausted h /\ snd (rc_step (rc_state h) RClose) = Panic.
Proof.
  exists [RClose; RGet []]. split; [|reflexivity]. exists [RClose], [RGet []]. split; reflexivity.
Qed.
