(** C73, for all files: the root of a file that opens is a group. *)
From Coq Require Import Lia ZifyBool.
From Verif Require Import Prelude BaseLemmas H5Base H5PathModel H5Value H5TypeRead H5DenseRead H5MetaWrite H5FileRead P_H5Foreign.

Ltac peel H := repeat match type of H with
  | rbind ?m _ = Ok _ => let E := fresh "E" in destruct m eqn:E; cbn [rbind] in H; [|discriminate H|discriminate H]
  | (let (_, _) := ?p in _) = Ok _ => destruct p
  end.

(** What links and attributes do not change, a B-tree of them does not change. *)
Section Keeps.
  Context {S : Type} (f : bytes) (onLink onAttr : Z -> Z -> Z -> S -> res S) (lh ah : option fheap) (Q : S -> Prop)
    (KL : forall a l c st st', onLink a l c st = Ok st' -> Q st -> Q st')
    (KA : forall a l c st st', onAttr a l c st = Ok st' -> Q st -> Q st').

  Lemma data_keeps (k : Z -> Z -> Z -> S -> res S) : (forall a l c st st', k a l c st = Ok st' -> Q st -> Q st') ->
    forall h o l c st st', readLinkData f h k o l c st = Ok st' -> Q st -> Q st'.
  Proof. intros KK h o l c st st' H. unfold readLinkData in H. destruct h; [|discriminate]. peel H. exact (KK _ _ _ _ _ H). Qed.

  Lemma record_keeps ty s st st' s' : readRecord f onLink onAttr lh ah ty s st = Ok (st', s') -> Q st -> Q st'.
  Proof.
    intros H HQ. unfold readRecord in H. destruct (ty =? 5).
    - peel H. match goal with E : readLinkData _ _ _ _ _ _ _ = Ok ?x |- _ => assert (X : st' = x) by congruence; subst; exact (data_keeps onLink KL _ _ _ _ _ _ E HQ) end.
    - destruct (ty =? 8); [|destruct ((ty =? 6) || (ty =? 9)); discriminate].
      peel H. match goal with E : readLinkData _ _ _ _ _ _ _ = Ok ?x |- _ => assert (X : st' = x) by congruence; subst; exact (data_keeps onAttr KA _ _ _ _ _ _ E HQ) end.
  Qed.
  Lemma records_keep n : forall ty s st st' s', readRecords f onLink onAttr lh ah n ty s st = Ok (st', s') -> Q st -> Q st'.
  Proof.
    induction n as [|n IH]; intros ty s st st' s' H HQ; cbn [readRecords] in H; [assert (st' = st) by congruence; subst; exact HQ|].
    peel H. eapply IH; [exact H|]. eapply record_keeps; eassumption.
  Qed.
  Lemma leaf_keeps a n sz st st' : readBTreeLeaf f onLink onAttr lh ah a n sz st = Ok st' -> Q st -> Q st'.
  Proof.
    intros H HQ. unfold readBTreeLeaf in H. peel H.
    match goal with E : readRecords _ _ _ _ _ _ _ _ _ = Ok (?x, _) |- _ => assert (X : st' = x) by congruence; subst; exact (records_keep _ _ _ _ _ _ E HQ) end.
  Qed.
  Lemma children_keep (child : Z -> Z -> S -> res S) : (forall a n st st', child a n st = Ok st' -> Q st -> Q st') ->
    forall i depth rs ns bf st st', readChildren i depth rs ns child bf st = Ok st' -> Q st -> Q st'.
  Proof.
    intros KC. induction i as [|i IH]; intros depth rs ns bf st st' H HQ; cbn [readChildren] in H; [assert (st' = st) by congruence; subst; exact HQ|].
    cbv zeta in H. peel H. eapply IH; [exact H|]. eapply KC; eassumption.
  Qed.
  Lemma internal_keeps d : forall a n rs ns st st', readBTreeInternal f onLink onAttr lh ah d a n rs ns st = Ok st' -> Q st -> Q st'.
  Proof.
    induction d as [|d IH]; intros a n rs ns st st' H HQ; cbn [readBTreeInternal] in H; cbv zeta in H; peel H.
    - match goal with E : readRecords _ _ _ _ _ _ _ _ _ = Ok _, C : readChildren _ _ _ _ _ _ _ = Ok ?x |- _ =>
        assert (X : st' = x) by congruence; subst; refine (children_keep _ _ _ _ _ _ _ _ _ C (records_keep _ _ _ _ _ _ E HQ)) end.
      intros; eapply leaf_keeps; eassumption.
    - match goal with E : readRecords _ _ _ _ _ _ _ _ _ = Ok _, C : readChildren _ _ _ _ _ _ _ = Ok ?x |- _ =>
        assert (X : st' = x) by congruence; subst; refine (children_keep _ _ _ _ _ _ _ _ _ C (records_keep _ _ _ _ _ _ E HQ)) end.
      intros; eapply IH; eassumption.
  Qed.
  Lemma btree_keeps a st st' : readBTree f onLink onAttr lh ah a st = Ok st' -> Q st -> Q st'.
  Proof.
    intros H HQ. unfold readBTree in H. peel H. match type of H with (if ?c then _ else _) = _ => destruct c end.
    - exact (internal_keeps _ _ _ _ _ _ _ H HQ).
    - exact (leaf_keeps _ _ _ _ _ H HQ).
  Qed.
End Keeps.

Definition grouped (st : rstate) : Prop := ri_group (rs_info st) = true.

Lemma follow_keeps x name addr st st' : followLink x name addr st = Ok st' -> grouped st -> grouped st'.
Proof.
  intros H HQ. unfold followLink in H. destruct (mem name _); [discriminate|]. destruct (existsb _ _); [assert (st' = st) by congruence; subst; exact HQ|].
  peel H. match type of H with Ok ?x = _ => assert (X : st' = x) by congruence; subst; exact HQ end.
Qed.
Lemma dense_link_keeps x a l c st st' : denseLink x a l c st = Ok st' -> grouped st -> grouped st'.
Proof. intros H HQ. unfold denseLink in H. peel H. exact (follow_keeps _ _ _ _ _ H HQ). Qed.
Lemma dense_attr_keeps x a l c st st' : denseAttr x a l c st = Ok st' -> grouped st -> grouped st'.
Proof. intros H HQ. unfold denseAttr in H. peel H. match type of H with Ok ?x = _ => assert (X : st' = x) by congruence; subst; exact HQ end. Qed.

Lemma dump_keeps x st st' : dumpObject x st = Ok st' -> grouped st -> grouped st'.
Proof.
  intros H HQ. unfold dumpObject in H. cbv zeta in H.
  assert (T : forall s ah, grouped s -> match ri_link (rs_info s) with
    | Some (heap, bt) => if heap =? invalidAddress then Ok s else let* h := readHeap (e_file x) heap in readBTree (e_file x) (denseLink x) (denseAttr x) (Some h) ah bt s
    | None => Ok s end = Ok st' -> grouped st').
  { intros s ah G E. destruct (ri_link (rs_info s)) as [[heap bt]|]; [destruct (heap =? invalidAddress)|].
    - assert (st' = s) by congruence. subst. exact G.
    - peel E. exact (btree_keeps _ _ _ _ _ grouped (dense_link_keeps x) (dense_attr_keeps x) _ _ _ E G).
    - assert (st' = s) by congruence. subst. exact G. }
  destruct (ri_ainfo (rs_info st)) as [[heap bt]|]; [destruct (heap =? invalidAddress)|]; cbn [rbind] in H.
  - exact (T _ _ HQ H).
  - destruct (readHeap (e_file x) heap) as [h| |]; cbn [rbind] in H; [|discriminate|discriminate].
    match type of H with rbind (rbind ?m _) _ = _ => destruct m as [s| |] eqn:E end; cbn [rbind] in H; [|discriminate|discriminate].
    refine (T s _ _ H). exact (btree_keeps _ _ _ _ _ grouped (dense_link_keeps x) (dense_attr_keeps x) _ _ _ E HQ).
  - exact (T _ _ HQ H).
Qed.

(** Whatever bytes a file has: if it opens, its root is a group, which is the one at "/". *)
Theorem C73_root : forall f o, openFile f = Ok o ->
  ri_group (r_info o) = true /\ forall h, rgetGroup o h [slash] = Ok (mkRh [slash] o).
Proof.
  intros f o H. assert (G : ri_group (r_info o) = true).
  { unfold openFile in H. cbv zeta in H. peel H. match type of H with (if ?c then _ else _) = _ => destruct c; [discriminate|] end. peel H.
    match goal with E : dumpObject _ _ = Ok ?s |- _ => assert (X : o = RObj (rs_info s) (rs_children s)) by congruence; subst;
      exact (dump_keeps _ _ _ E eq_refl) end. }
  split; [exact G|]. intros h. unfold rgetGroup. change (canonicalizePath [slash]) with [slash]. cbv zeta.
  change (has_slash [slash]) with true. change (beqb [slash] [slash]) with true. cbv iota.
  destruct (rdepth o) as [|k] eqn:E; [destruct o; discriminate|]. cbn [rdescend]. rewrite G. reflexivity.
Qed.

(** A root without any message *)
Definition root_file : bytes := gx_super 64 ++ [1; 0] ++ le 2 0 ++ le 4 1 ++ le 4 0 ++ [0; 0; 0; 0].
Example C73_root_example : exists o, openFile root_file = Ok o /\ rgetGroup o (mkRh [slash] o) [slash] = Ok (mkRh [slash] o).
Proof.
  destruct (openFile root_file) as [o|e|] eqn:E; [|vm_compute in E; discriminate|vm_compute in E; discriminate].
  exists o. split; [reflexivity|]. apply (C73_root root_file o E).
Qed.

Print Assumptions C73_root.
