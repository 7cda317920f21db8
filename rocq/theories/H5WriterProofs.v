(** The groups kept by the HDF5 writer represent the tree described by the calls. *)
From Verif Require Import Prelude BaseLemmas GoVal ValidNameModel H5MetaWrite H5Value H5FileWrite H5WriterModel
  WriterSpec.
From Coq Require Import Lia ZifyBool ZifyNat.

(** ** Lists *)
Lemma set_nth_length {A} (l : list A) : forall i x, List.length (set_nth i x l) = List.length l.
Proof. induction l as [|y r IH]; intros [|i] x; cbn; auto. Qed.
Lemma set_nth_same {A} (l : list A) : forall i x, (i < List.length l)%nat -> nth_error (set_nth i x l) i = Some x.
Proof. induction l as [|y r IH]; intros [|i] x; cbn; intros H; auto; try lia. apply IH. lia. Qed.
Lemma set_nth_other {A} (l : list A) : forall i j x, i <> j -> nth_error (set_nth i x l) j = nth_error l j.
Proof. induction l as [|y r IH]; intros [|i] [|j] x H; cbn; auto; try congruence. Qed.
Lemma nth_lt {A} (l : list A) i x : nth_error l i = Some x -> (i < List.length l)%nat.
Proof. intros H. apply nth_error_Some. congruence. Qed.
Lemma nth_app {A} (l : list A) x i :
  nth_error (l ++ [x]) i =
  if (i <? List.length l)%nat then nth_error l i
  else if (i =? List.length l)%nat then Some x else None.
Proof.
  destruct (i <? List.length l)%nat eqn:E.
  - apply nth_error_app1. lia.
  - rewrite nth_error_app2 by lia. destruct (i =? List.length l)%nat eqn:E2.
    + replace (i - List.length l)%nat with 0%nat by lia. reflexivity.
    + destruct (i - List.length l)%nat as [|k] eqn:E3; [lia|]. cbn. destruct k; reflexivity.
Qed.

Lemma NoDup_app_single {A} (l : list A) x : NoDup l -> ~ In x l -> NoDup (l ++ [x]).
Proof.
  intros H Hx. apply NoDup_rev in H. rewrite <- (rev_involutive (l ++ [x])). apply NoDup_rev.
  rewrite rev_app_distr. cbn [rev app]. constructor; [|exact H]. intros Hi. apply Hx, in_rev. exact Hi.
Qed.

Lemma Forall2_mono {A B} (P Q : A -> B -> Prop) l m : (forall a b, P a b -> Q a b) -> Forall2 P l m -> Forall2 Q l m.
Proof. intros H F. induction F; constructor; auto. Qed.

Lemma path_eqb_eq p q : path_eqb p q = true <-> p = q.
Proof. unfold path_eqb. destruct (list_eq_dec (list_eq_dec Z.eq_dec) p q); split; congruence. Qed.
Lemma path_eqb_refl p : path_eqb p p = true.
Proof. apply path_eqb_eq. reflexivity. Qed.
Lemma name_eqb_eq p q : name_eqb p q = true <-> p = q.
Proof. unfold name_eqb. destruct (list_eq_dec Z.eq_dec p q); split; congruence. Qed.

(** ** Following names through the groups *)
Fixpoint resolve (gs : list hgroup) (g : nat) (p : path) : option nat :=
  match p with
  | [] => Some g
  | n :: r => match nth_error gs g with
              | Some G => match assoc n (hg_groups G) with
                          | Some i => resolve gs i r
                          | None => None
                          end
              | None => None
              end
  end.

Lemma resolve_app gs p : forall g q,
  resolve gs g (p ++ q) = match resolve gs g p with Some i => resolve gs i q | None => None end.
Proof.
  induction p as [|n r IH]; intros g q; [reflexivity|]. cbn [resolve app].
  destruct (nth_error gs g) as [G|]; [|reflexivity].
  destruct (assoc n (hg_groups G)) as [i|]; [apply IH|reflexivity].
Qed.

(** A group [i] is the child called [n] of the group [g] *)
Definition child (gs : list hgroup) (g : nat) (n : bytes) (i : nat) : Prop :=
  exists G, nth_error gs g = Some G /\ assoc n (hg_groups G) = Some i.

Lemma resolve_child gs p n i : resolve gs 0 (p ++ [n]) = Some i ->
  exists g, resolve gs 0 p = Some g /\ child gs g n i.
Proof.
  rewrite resolve_app. destruct (resolve gs 0 p) as [g|]; [|discriminate]. cbn [resolve].
  intros H. exists g. split; [reflexivity|]. unfold child.
  destruct (nth_error gs g) as [G|]; [|discriminate]. exists G. split; [reflexivity|].
  destruct (assoc n (hg_groups G)); congruence.
Qed.
Lemma child_resolve gs p n i g : resolve gs 0 p = Some g -> child gs g n i ->
  resolve gs 0 (p ++ [n]) = Some i.
Proof. intros H (G & HG & Hi). rewrite resolve_app, H. cbn [resolve]. rewrite HG, Hi. reflexivity. Qed.

(** The groups form a tree *)
Record wf (gs : list hgroup) : Prop := {
  wf_root : (0 < List.length gs)%nat;
  wf_child : forall g n i, child gs g n i -> (g < i < List.length gs)%nat;
  wf_uniq : forall g n g' n' i, child gs g n i -> child gs g' n' i -> g = g' /\ n = n';
  wf_names : forall g G, nth_error gs g = Some G ->
    NoDup (map fst (hg_groups G)) /\ NoDup (map fst (hg_vars G))
}.

Lemma resolve_lt gs p g : wf gs -> resolve gs 0 p = Some g -> (g < List.length gs)%nat.
Proof.
  intros W. destruct p as [|x p] using rev_ind; intros H.
  - injection H as <-. apply W.
  - apply resolve_child in H. destruct H as (i & _ & H). apply (wf_child _ W) in H. lia.
Qed.
Lemma resolve_inj gs p : wf gs -> forall q g, resolve gs 0 p = Some g -> resolve gs 0 q = Some g -> p = q.
Proof.
  intros W. induction p as [|n p IH] using rev_ind; intros q g Hp Hq.
  - injection Hp as <-. destruct q as [|m q] using rev_ind; [reflexivity|].
    apply resolve_child in Hq. destruct Hq as (i & _ & H). apply (wf_child _ W) in H. lia.
  - apply resolve_child in Hp. destruct Hp as (i & Hi & Hc).
    destruct q as [|m q] using rev_ind.
    + injection Hq as <-. apply (wf_child _ W) in Hc. lia.
    + apply resolve_child in Hq. destruct Hq as (j & Hj & Hd).
      destruct (wf_uniq _ W _ _ _ _ _ Hc Hd) as [<- <-]. f_equal. eapply IH; eassumption.
Qed.

(** Changing variables and attributes only *)
Lemma resolve_same_children gs gs' : (forall g n i, child gs g n i <-> child gs' g n i) ->
  forall p g, resolve gs g p = resolve gs' g p.
Proof.
  intros H. induction p as [|n r IH]; intros g; [reflexivity|]. cbn [resolve].
  destruct (nth_error gs g) as [G|] eqn:E.
  - destruct (assoc n (hg_groups G)) as [i|] eqn:E2.
    + assert (C : child gs' g n i) by (apply H; exists G; auto).
      destruct C as (G' & -> & ->). apply IH.
    + destruct (nth_error gs' g) as [G'|] eqn:E'; [|reflexivity].
      destruct (assoc n (hg_groups G')) as [j|] eqn:E3; [|reflexivity].
      assert (C : child gs g n j) by (apply H; exists G'; auto).
      destruct C as (G0 & A & B). congruence.
  - destruct (nth_error gs' g) as [G'|] eqn:E'; [|reflexivity].
    destruct (assoc n (hg_groups G')) as [j|] eqn:E3; [|reflexivity].
    assert (C : child gs g n j) by (apply H; exists G'; auto).
    destruct C as (G0 & A & B). congruence.
Qed.

Lemma set_children gs g G G' : nth_error gs g = Some G -> hg_groups G' = hg_groups G ->
  forall i n j, child gs i n j <-> child (set_nth g G' gs) i n j.
Proof.
  intros HG He i n j. pose proof (nth_lt _ _ _ HG) as Hl. unfold child.
  destruct (Nat.eq_dec g i) as [<-|Hn].
  - rewrite set_nth_same by exact Hl. rewrite HG. split; intros (H & A & B).
    + exists G'. split; [reflexivity|]. rewrite He. congruence.
    + exists G. split; [reflexivity|]. rewrite <- He. congruence.
  - rewrite set_nth_other by exact Hn. reflexivity.
Qed.

Lemma wf_set gs g G G' : wf gs -> nth_error gs g = Some G -> hg_groups G' = hg_groups G ->
  NoDup (map fst (hg_vars G')) -> wf (set_nth g G' gs).
Proof.
  intros W HG He Hd. pose proof (set_children gs g G G' HG He) as C. constructor.
  - rewrite set_nth_length. apply W.
  - intros i n j H. apply C in H. rewrite set_nth_length. exact (wf_child _ W _ _ _ H).
  - intros i n i' n' j H H'. apply C in H. apply C in H'. exact (wf_uniq _ W _ _ _ _ _ H H').
  - intros i H Hi. destruct (Nat.eq_dec g i) as [<-|Hn].
    + rewrite set_nth_same in Hi by exact (nth_lt _ _ _ HG). injection Hi as <-.
      split; [|exact Hd]. rewrite He. apply (wf_names _ W _ _ HG).
    + rewrite set_nth_other in Hi by exact Hn. exact (wf_names _ W _ _ Hi).
Qed.

(** A new empty group *)
Section NewGroup.
Context (gs : list hgroup) (g : nat) (G : hgroup) (name : bytes).
Hypothesis W : wf gs.
Hypothesis HG : nth_error gs g = Some G.
Hypothesis Hnew : assoc name (hg_groups G) = None.
Let i := List.length gs.
Let G' := mkHgroup (assoc_set name i (hg_groups G)) (hg_vars G) (hg_attrs G).
Let gs' := set_nth g G' gs ++ [mkHgroup [] [] None].

Lemma new_length : List.length gs' = S i.
Proof. unfold gs'. rewrite app_length, set_nth_length. cbn. unfold i. lia. Qed.
Lemma new_nth j : nth_error gs' j =
  if (j =? g)%nat then Some G' else if (j =? i)%nat then Some (mkHgroup [] [] None) else nth_error gs j.
Proof.
  pose proof (nth_lt _ _ _ HG) as Hl. unfold gs'. rewrite nth_app, set_nth_length. fold i. fold i in Hl.
  destruct (j =? g)%nat eqn:E1.
  - assert (j = g) by lia. subst j. replace (g <? i)%nat with true by lia. apply set_nth_same. exact Hl.
  - destruct (j =? i)%nat eqn:E2.
    + replace (j <? i)%nat with false by lia. reflexivity.
    + destruct (j <? i)%nat eqn:E3.
      * apply set_nth_other. lia.
      * symmetry. apply nth_error_None. fold i. lia.
Qed.
Lemma new_child j n k : child gs' j n k <-> child gs j n k \/ (j = g /\ n = name /\ k = i).
Proof.
  pose proof (nth_lt _ _ _ HG) as Hl. fold i in Hl. unfold child. rewrite new_nth.
  destruct (j =? g)%nat eqn:E1.
  - assert (j = g) by lia. subst j. split.
    + intros (H & A & B). injection A as <-. cbn [hg_groups G'] in B.
      destruct (list_eq_dec Z.eq_dec n name) as [->|Hn].
      * rewrite assoc_set_same in B. right. split; [reflexivity|]. split; [reflexivity|congruence].
      * rewrite assoc_set_other in B by exact Hn. left. exists G. auto.
    + intros [(H & A & B)|(_ & -> & ->)].
      * exists G'. split; [reflexivity|]. cbn [hg_groups G'].
        destruct (list_eq_dec Z.eq_dec n name) as [->|Hn]; [congruence|].
        rewrite assoc_set_other by exact Hn. congruence.
      * exists G'. split; [reflexivity|]. apply assoc_set_same.
  - destruct (j =? i)%nat eqn:E2.
    + split.
      * intros (H & A & B). injection A as <-. discriminate B.
      * intros [(H & A & _)|(-> & _)]; [|lia]. apply nth_lt in A. fold i in A. lia.
    + split; [intros H; left; exact H|]. intros [H|(-> & _)]; [exact H|lia].
Qed.
Lemma new_wf : wf gs'.
Proof.
  pose proof (nth_lt _ _ _ HG) as Hl. fold i in Hl. constructor.
  - rewrite new_length. lia.
  - intros j n k H. rewrite new_length. apply new_child in H. destruct H as [H|(-> & _ & ->)]; [|lia].
    pose proof (wf_child _ W _ _ _ H) as H1. fold i in H1. lia.
  - intros j n j' n' k H H'. apply new_child in H. apply new_child in H'.
    destruct H as [H|(-> & -> & ->)], H' as [H'|(-> & -> & E)].
    + exact (wf_uniq _ W _ _ _ _ _ H H').
    + subst k. pose proof (wf_child _ W _ _ _ H) as H1. fold i in H1. lia.
    + pose proof (wf_child _ W _ _ _ H') as H1. fold i in H1. lia.
    + auto.
  - intros j H. rewrite new_nth. destruct (j =? g)%nat.
    + intros E. injection E as <-. cbn [hg_groups hg_vars G']. destruct (wf_names _ W _ _ HG) as [A B].
      split; [|exact B]. rewrite assoc_set_new by (apply assoc_None; exact Hnew).
      rewrite map_app. cbn [map fst]. apply NoDup_app_single; [exact A|].
      apply assoc_None. exact Hnew.
    + destruct (j =? i)%nat.
      * intros E. injection E as <-. split; constructor.
      * intros E. exact (wf_names _ W _ _ E).
Qed.
(** Paths to the groups there were still lead to them *)
Lemma new_resolve_old p : forall j k, resolve gs j p = Some k -> resolve gs' j p = Some k.
Proof.
  induction p as [|n r IH]; intros j k H; [exact H|]. cbn [resolve] in *.
  destruct (nth_error gs j) as [H0|] eqn:E; [|discriminate].
  destruct (assoc n (hg_groups H0)) as [m|] eqn:E2; [|discriminate].
  assert (C : child gs' j n m) by (apply new_child; left; exists H0; auto).
  destruct C as (H1 & -> & ->). apply IH. exact H.
Qed.
Lemma new_resolve p q : resolve gs 0 p = Some g ->
  resolve gs' 0 q = if path_eqb q (p ++ [name]) then Some i else resolve gs 0 q.
Proof.
  intros Hp. destruct (path_eqb q (p ++ [name])) eqn:E.
  - apply path_eqb_eq in E. subst q. apply child_resolve with (g := g).
    + apply new_resolve_old. exact Hp.
    + apply new_child. right. auto.
  - assert (Hq : q <> p ++ [name]) by (intros H; apply path_eqb_eq in H; congruence). clear E.
    destruct (resolve gs 0 q) as [k|] eqn:E.
    + apply new_resolve_old. exact E.
    + destruct (resolve gs' 0 q) as [k|] eqn:E'; [|reflexivity]. exfalso.
      revert k E E' Hq. induction q as [|n q IH] using rev_ind; intros k E E' Hq; [discriminate|].
      apply resolve_child in E'. destruct E' as (j & Hj & Hc). apply new_child in Hc.
      assert (Hj0 : resolve gs 0 q = Some j \/ q = p ++ [name]).
      { destruct (resolve gs 0 q) as [j0|] eqn:E2.
        - left. apply new_resolve_old in E2. congruence.
        - right. destruct (list_eq_dec (list_eq_dec Z.eq_dec) q (p ++ [name])) as [H|H]; [exact H|].
          exfalso. eapply IH; [reflexivity|exact Hj|exact H]. }
      destruct Hj0 as [Hj0| ->].
      * destruct Hc as [Hc|(-> & -> & ->)].
        -- rewrite (child_resolve _ _ _ _ _ Hj0 Hc) in E. discriminate.
        -- apply Hq. f_equal. eapply resolve_inj; eassumption.
      * assert (Hi : j = i).
        { assert (A : resolve gs' 0 (p ++ [name]) = Some i).
          { apply child_resolve with (g := g); [apply new_resolve_old; exact Hp|].
            apply new_child. right. auto. }
          congruence. }
        subst j. pose proof (nth_lt _ _ _ HG) as Hl. fold i in Hl.
        destruct Hc as [(H0 & A & _)|(A & _)]; [|lia].
        apply nth_lt in A. fold i in A. lia.
Qed.
End NewGroup.

(** ** The invariant *)
Record inv (gs : list hgroup) (ws : list nat) (ps : list path) (es : list event) : Prop := {
  inv_wf : wf gs;
  inv_writers : Forall2 (fun g p => resolve gs 0 p = Some g) ws ps;
  inv_groups : forall p, resolve gs 0 p <> None <-> group_made es p;
  inv_content : forall p g G, resolve gs 0 p = Some g -> nth_error gs g = Some G ->
    hg_attrs G = last_attrs es p /\ forall n, assoc n (hg_vars G) = last_var es p n
}.

Lemma last_attrs_app es e p : last_attrs (es ++ [e]) p =
  match e with EAttrs q a => if path_eqb p q then a else last_attrs es p | _ => last_attrs es p end.
Proof. unfold last_attrs. rewrite fold_left_app. reflexivity. Qed.
Lemma last_var_app es e p n : last_var (es ++ [e]) p n =
  match e with
  | EVar q m v => if path_eqb p q && name_eqb n m then Some v else last_var es p n
  | _ => last_var es p n
  end.
Proof. unfold last_var. rewrite fold_left_app. reflexivity. Qed.
Lemma made_app es e p : group_made (es ++ [e]) p <-> group_made es p \/ e = EGroup p.
Proof.
  unfold group_made. rewrite in_app_iff. cbn [In]. split.
  - intros [H|[H|[H|[]]]]; auto.
  - intros [[H|H]|H]; auto.
Qed.
Lemma made_other es e p : (forall q, e <> EGroup q) -> group_made (es ++ [e]) p <-> group_made es p.
Proof. intros H. rewrite made_app. split; [intros [A|A]; [exact A|destruct (H _ A)]|auto]. Qed.

(** no event about a group that was not made *)
Lemma inv_writer gs ws ps es w g : inv gs ws ps es -> nth_error ws w = Some g ->
  exists p, nth_error ps w = Some p /\ resolve gs 0 p = Some g.
Proof.
  intros I H. destruct I as [_ F _ _]. revert w H. induction F as [|g' p ws ps Hr F IH]; intros [|w] H;
    try discriminate.
  - injection H as <-. exists p. auto.
  - apply IH. exact H.
Qed.

Lemma inv_set gs ws ps es p g G G' e : inv gs ws ps es -> resolve gs 0 p = Some g ->
  nth_error gs g = Some G -> hg_groups G' = hg_groups G -> NoDup (map fst (hg_vars G')) ->
  (forall q, e <> EGroup q) ->
  hg_attrs G' = last_attrs (es ++ [e]) p -> (forall n, assoc n (hg_vars G') = last_var (es ++ [e]) p n) ->
  (forall q, q <> p -> last_attrs (es ++ [e]) q = last_attrs es q) ->
  (forall q n, q <> p -> last_var (es ++ [e]) q n = last_var es q n) ->
  inv (set_nth g G' gs) ws ps (es ++ [e]).
Proof.
  intros [W F M C] Hp HG He Hd Hn Ha Hv Ho1 Ho2.
  assert (R : forall q j, resolve (set_nth g G' gs) j q = resolve gs j q).
  { intros q j. symmetry. apply resolve_same_children. apply (set_children gs g G); assumption. }
  constructor.
  - apply (wf_set gs g G); assumption.
  - eapply Forall2_mono; [|exact F]. intros i q H. rewrite R. exact H.
  - intros q. rewrite R, (made_other es e q Hn). apply M.
  - intros q j H Hr Hj. rewrite R in Hr. destruct (Nat.eq_dec g j) as [<-|Hne].
    + rewrite set_nth_same in Hj by exact (nth_lt _ _ _ HG). injection Hj as <-.
      rewrite (resolve_inj gs q W p g Hr Hp). split; [exact Ha|exact Hv].
    + rewrite set_nth_other in Hj by exact Hne.
      assert (Hq : q <> p) by (intros ->; congruence).
      destruct (C q j H Hr Hj) as [A B]. rewrite Ho1 by exact Hq. split; [exact A|].
      intros n. rewrite Ho2 by exact Hq. apply B.
Qed.


(** events only concern groups that were made *)
Definition about (e : event) : path := match e with EGroup p | EVar p _ _ | EAttrs p _ => p end.
Definition covered (es : list event) : Prop := forall e, In e es -> group_made es (about e).

Lemma made_mono es e p : group_made es p -> group_made (es ++ [e]) p.
Proof. intros H. apply made_app. auto. Qed.
Lemma covered_app es e : covered es -> group_made (es ++ [e]) (about e) -> covered (es ++ [e]).
Proof.
  intros H He x Hx. apply in_app_iff in Hx. destruct Hx as [Hx|[<-|[]]]; [|exact He].
  apply made_mono. auto.
Qed.
Lemma unmade_attrs es p : covered es -> ~ group_made es p -> last_attrs es p = None.
Proof.
  intros Hc Hm. unfold last_attrs. destruct p as [|n r]; [destruct Hm; left; reflexivity|].
  assert (H : forall e, In e es -> about e <> n :: r) by (intros e He E; apply Hm; rewrite <- E; auto).
  clear Hc Hm. revert H. induction es as [|e es IH] using rev_ind; intros H; [reflexivity|].
  rewrite fold_left_app. cbn [fold_left]. rewrite IH by (intros x Hx; apply H, in_app_iff; auto).
  specialize (H e ltac:(apply in_app_iff; right; left; reflexivity)). destruct e as [q|q m v|q a]; try reflexivity.
  cbn [about] in H. destruct (path_eqb (n :: r) q) eqn:E; [|reflexivity].
  apply path_eqb_eq in E. congruence.
Qed.
Lemma unmade_var es p n : covered es -> ~ group_made es p -> last_var es p n = None.
Proof.
  intros Hc Hm. unfold last_var.
  assert (H : forall e, In e es -> about e <> p) by (intros e He E; apply Hm; rewrite <- E; auto).
  clear Hc Hm. revert H. induction es as [|e es IH] using rev_ind; intros H; [reflexivity|].
  rewrite fold_left_app. cbn [fold_left]. rewrite IH by (intros x Hx; apply H, in_app_iff; auto).
  specialize (H e ltac:(apply in_app_iff; right; left; reflexivity)). destruct e as [q|q m v|q a]; try reflexivity.
  cbn [about] in H. destruct (path_eqb p q) eqn:E; [|reflexivity].
  apply path_eqb_eq in E. congruence.
Qed.

Section Run.
Context (U : ucd) (big : bool) (pick : wtree -> orders).

Lemma step_inv s o x s' ps es : inv (st_groups s) (st_writers s) ps es -> covered es ->
  step U big pick s o = (s', x) ->
  let y := observe (ps, es) (o, x) in
  inv (st_groups s') (st_writers s') (fst y) (snd y) /\ covered (snd y) /\
  (forall e, x = Err e -> match o with OClose _ => True | _ => s' = s end).
Proof.
  intros I Hc. unfold step. destruct (nth_error (st_writers s) (op_writer o)) as [g|] eqn:Ew.
  2:{ intros E. injection E as <- <-. split; [exact I|]. split; [exact Hc|].
      intros e _. destruct o; exact Logic.I || reflexivity. }
  destruct (inv_writer _ _ _ _ _ _ I Ew) as (p & Hp & Hr).
  destruct (nth_error (st_groups s) g) as [G|] eqn:EG.
  2:{ intros E. injection E as <- <-. split; [exact I|]. split; [exact Hc|].
      intros e _. destruct o; exact Logic.I || reflexivity. }
  pose proof (inv_wf _ _ _ _ I) as W.
  assert (Hmade : group_made es p) by (apply (inv_groups _ _ _ _ I); congruence).
  destruct (inv_content _ _ _ _ I p g G Hr EG) as [Ca Cv].
  destruct (wf_names _ W _ _ EG) as [Ng Nv].
  destruct o as [w a|w name v dims a|w name|w]; cbn [op_writer] in *.
  - unfold add_attributes. destruct (negb (hasValidNames U a)).
    { intros E. injection E as <- <-. split; [exact I|]. split; [exact Hc|]. intros; reflexivity. }
    destruct (negb (attrs_supported a)).
    { intros E. injection E as <- <-. split; [exact I|]. split; [exact Hc|]. intros; reflexivity. }
    intros E. injection E as <- <-. cbn [observe op_writer]. rewrite Hp. cbn [fst snd with_group st_groups st_writers].
    split; [|split; [|discriminate]].
    + apply (inv_set (st_groups s) (st_writers s) ps es p g G); auto.
      * discriminate.
      * rewrite last_attrs_app, path_eqb_refl. reflexivity.
      * intros n. rewrite last_var_app. apply Cv.
      * intros q Hq. rewrite last_attrs_app. destruct (path_eqb q p) eqn:E; [|reflexivity].
        apply path_eqb_eq in E. contradiction.
      * intros q n _. rewrite last_var_app. reflexivity.
    + apply covered_app; [exact Hc|]. apply made_mono. exact Hmade.
  - unfold add_var. destruct (negb (valid_name U name)).
    { intros E. injection E as <- <-. split; [exact I|]. split; [exact Hc|]. intros; reflexivity. }
    destruct (negb (hasValidNames U a)).
    { intros E. injection E as <- <-. split; [exact I|]. split; [exact Hc|]. intros; reflexivity. }
    destruct (negb (supported v)).
    { intros E. injection E as <- <-. split; [exact I|]. split; [exact Hc|]. intros; reflexivity. }
    destruct (negb (attrs_supported a)).
    { intros E. injection E as <- <-. split; [exact I|]. split; [exact Hc|]. intros; reflexivity. }
    intros E. injection E as <- <-. cbn [observe op_writer]. rewrite Hp. cbn [fst snd with_group st_groups st_writers].
    split; [|split; [|discriminate]].
    + apply (inv_set (st_groups s) (st_writers s) ps es p g G); auto.
      * cbn [hg_vars]. rewrite assoc_set_keys. destruct (mem name (map fst (hg_vars G))) eqn:Em; [exact Nv|].
        apply NoDup_app_single; [exact Nv|]. intros H. apply mem_In in H. congruence.
      * discriminate.
      * rewrite last_attrs_app. exact Ca.
      * intros n. rewrite last_var_app, path_eqb_refl. cbn [andb hg_vars].
        destruct (name_eqb n name) eqn:En.
        -- apply name_eqb_eq in En. subst n. apply assoc_set_same.
        -- rewrite assoc_set_other; [apply Cv|]. intros ->. assert (name_eqb name name = true) by (apply name_eqb_eq; reflexivity).
           congruence.
      * intros q Hq. rewrite last_attrs_app. reflexivity.
      * intros q n Hq. rewrite last_var_app. destruct (path_eqb q p) eqn:E; [|reflexivity].
        apply path_eqb_eq in E. contradiction.
    + apply covered_app; [exact Hc|]. apply made_mono. exact Hmade.
  - unfold create_group. destruct (negb (valid_name U name)).
    { intros E. injection E as <- <-. split; [exact I|]. split; [exact Hc|]. intros; reflexivity. }
    destruct (assoc name (hg_groups G)) as [i|] eqn:Ei.
    + intros E. injection E as <- <-. cbn [observe op_writer]. rewrite Hp. cbn [fst snd st_groups st_writers].
      assert (Hri : resolve (st_groups s) 0 (p ++ [name]) = Some i).
      { apply child_resolve with (g := g); [exact Hr|]. exists G. auto. }
      assert (Hm : group_made es (p ++ [name])) by (apply (inv_groups _ _ _ _ I); congruence).
      split; [|split; [|discriminate]].
      * destruct I as [_ F M C]. constructor.
        -- exact W.
        -- apply Forall2_app; [exact F|]. constructor; [exact Hri|constructor].
        -- intros q. rewrite made_app, M. split; [auto|]. intros [H|H]; [exact H|]. injection H as <-. exact Hm.
        -- intros q j H Hq Hj. rewrite last_attrs_app. destruct (C q j H Hq Hj) as [A B]. split; [exact A|].
           intros n. rewrite last_var_app. apply B.
      * apply covered_app; [exact Hc|]. apply made_mono. exact Hm.
    + intros E. injection E as <- <-. cbn [observe op_writer]. rewrite Hp. cbn [fst snd st_groups st_writers].
      pose proof (new_resolve (st_groups s) g G name W EG Ei p) as NR. cbv zeta in NR.
      assert (Hum : ~ group_made es (p ++ [name])).
      { intros H. apply (inv_groups _ _ _ _ I) in H. apply H. rewrite resolve_app, Hr. cbn [resolve].
        rewrite EG, Ei. reflexivity. }
      split; [|split; [|discriminate]].
      * destruct I as [_ F M C]. constructor.
        -- apply (new_wf (st_groups s) g G name W EG Ei).
        -- apply Forall2_app.
           ++ eapply Forall2_mono; [|exact F]. intros j q H. apply (new_resolve_old (st_groups s) g G name EG Ei). exact H.
           ++ constructor; [|constructor]. rewrite (NR _ Hr), path_eqb_refl. reflexivity.
        -- intros q. rewrite (NR q Hr), made_app. destruct (path_eqb q (p ++ [name])) eqn:E.
           ++ apply path_eqb_eq in E. subst q. split; [auto|congruence].
           ++ rewrite M. split; [auto|]. intros [H|H]; [exact H|]. injection H as <-.
              rewrite path_eqb_refl in E. discriminate.
        -- intros q j H Hq Hj. rewrite (NR q Hr) in Hq. rewrite (new_nth (st_groups s) g G name EG) in Hj.
           rewrite last_attrs_app.
           destruct (path_eqb q (p ++ [name])) eqn:E.
           ++ apply path_eqb_eq in E. subst q. injection Hq as <-. pose proof (nth_lt _ _ _ EG) as Hl.
              replace (List.length (st_groups s) =? g)%nat with false in Hj by lia.
              rewrite Nat.eqb_refl in Hj. injection Hj as <-. cbn [hg_attrs hg_vars].
              rewrite (unmade_attrs es _ Hc Hum). split; [reflexivity|]. intros n. rewrite last_var_app.
              rewrite (unmade_var es _ n Hc Hum). reflexivity.
           ++ destruct (j =? g)%nat eqn:Ej.
              ** assert (j = g) by lia. subst j. injection Hj as <-. cbn [hg_attrs hg_vars].
                 destruct (C q g G Hq EG) as [A B]. split; [exact A|]. intros n. rewrite last_var_app. apply B.
              ** pose proof (resolve_lt _ _ _ W Hq) as Hl. replace (j =? List.length (st_groups s))%nat with false in Hj by lia.
                 destruct (C q j H Hq Hj) as [A B]. split; [exact A|]. intros n. rewrite last_var_app. apply B.
      * apply covered_app; [exact Hc|]. apply made_app. right. reflexivity.
  - intros E. assert (Hx : observe (ps, es) (OClose w, x) = (ps, es)).
    { unfold observe. destruct x; try reflexivity. destruct (nth_error ps (op_writer (OClose w))); reflexivity. }
    cbv zeta. rewrite Hx. cbn [fst snd]. split; [|split; [exact Hc|intros; exact Logic.I]].
    destruct w as [|w].
    + unfold close_root in E. destruct (st_closed s).
      { injection E as <- <-. exact I. }
      destruct (render big pick (content s)); injection E as <- <-; exact I.
    + injection E as <- <-. exact I.
Qed.

Lemma run_inv ops : forall s outs s' x, inv (st_groups s) (st_writers s) (fst x) (snd x) -> covered (snd x) ->
  run U big pick s ops = (s', outs) ->
  let y := fold_left observe (combine ops outs) x in
  inv (st_groups s') (st_writers s') (fst y) (snd y) /\ covered (snd y).
Proof.
  induction ops as [|o r IH]; intros s outs s' [ps es] I Hc E; cbn [run] in E.
  - injection E as <- <-. split; assumption.
  - destruct (step U big pick s o) as [s1 x1] eqn:E1. destruct (run U big pick s1 r) as [s2 xs] eqn:E2.
    injection E as <- <-. cbn [combine fold_left].
    destruct (step_inv s o x1 s1 ps es I Hc E1) as (A & B & _). cbv zeta in A, B.
    exact (IH s1 xs s2 (observe (ps, es) (o, x1)) A B E2).
Qed.
End Run.

Lemma inv_open : inv (st_groups open_writer) (st_writers open_writer) [[]] [].
Proof.
  constructor.
  - constructor.
    + cbn. lia.
    + intros [|[|g]] n i (G & A & B); try discriminate. injection A as <-. discriminate.
    + intros [|[|g]] n g' n' i (G & A & B); try discriminate. injection A as <-. discriminate.
    + intros [|[|g]] G H; try discriminate. injection H as <-. split; constructor.
  - constructor; [reflexivity|constructor].
  - intros [|n p]; cbn [resolve st_groups open_writer nth_error hg_groups assoc]; split.
    + intros _. left. reflexivity.
    + discriminate.
    + congruence.
    + intros [H|[]]. discriminate.
  - intros [|n p] g G Hr HG; [|discriminate]. injection Hr as <-. injection HG as <-. split; reflexivity.
Qed.

(** ** From the groups to the tree *)
Lemma tree_fuel gs : wf gs -> forall f g f', (g < List.length gs)%nat ->
  (List.length gs - g <= f)%nat -> (List.length gs - g <= f')%nat -> tree_of f gs g = tree_of f' gs g.
Proof.
  intros W. induction f as [|f IH]; intros g f' Hg Hf Hf'; [lia|]. destruct f' as [|f']; [lia|].
  cbn [tree_of]. destruct (nth_error gs g) as [G|] eqn:EG; [|reflexivity]. f_equal. apply map_ext_in.
  intros [n i] Hin. cbn [fst snd]. f_equal.
  assert (C : child gs g n i).
  { exists G. split; [exact EG|]. apply In_assoc; [apply (wf_names _ W _ _ EG)|exact Hin]. }
  pose proof (wf_child _ W _ _ _ C) as H. apply IH; lia.
Qed.
Lemma assoc_map {A B} (f : A -> B) n l :
  assoc n (map (fun c : bytes * A => (fst c, f (snd c))) l) = option_map f (assoc n l).
Proof.
  induction l as [|[m x] r IH]; [reflexivity|]. cbn [map assoc fst snd]. destruct (beqb n m); [reflexivity|exact IH].
Qed.
Lemma walk_tree gs : wf gs -> forall p g f, (g < List.length gs)%nat -> (List.length gs - g <= f)%nat ->
  walk (tree_of f gs g) p = option_map (fun i => tree_of (List.length gs) gs i) (resolve gs g p).
Proof.
  intros W. induction p as [|n p IH]; intros g f Hg Hf; cbn [walk resolve].
  - cbn [option_map]. f_equal. apply tree_fuel; auto; lia.
  - destruct f as [|f]; [lia|]. cbn [tree_of]. destruct (nth_error gs g) as [G|] eqn:EG; [|reflexivity].
    cbn [w_groups]. rewrite assoc_map. destruct (assoc n (hg_groups G)) as [i|] eqn:Ei; [|reflexivity].
    cbn [option_map]. assert (C : child gs g n i) by (exists G; auto).
    pose proof (wf_child _ W _ _ _ C) as H. apply IH; lia.
Qed.

Lemma inv_described gs ws ps es : inv gs ws ps es -> described es (tree_of (List.length gs) gs 0).
Proof.
  intros I p. pose proof (inv_wf _ _ _ _ I) as W. pose proof (wf_root _ W) as W0.
  rewrite (walk_tree gs W p 0 (List.length gs)) by lia.
  pose proof (inv_groups _ _ _ _ I p) as M. destruct (resolve gs 0 p) as [g|] eqn:E; cbn [option_map].
  - split; [apply M; discriminate|]. pose proof (resolve_lt _ _ _ W E) as Hl.
    destruct (List.length gs) as [|f] eqn:El; [lia|]. cbn [tree_of].
    destruct (nth_error gs g) as [G|] eqn:EG.
    2:{ apply nth_error_None in EG. lia. }
    cbn [w_attrs w_vars w_groups]. destruct (inv_content _ _ _ _ I p g G E EG) as [A B].
    destruct (wf_names _ W _ _ EG) as [C D]. split; [exact A|]. split; [exact B|]. split; [exact D|].
    rewrite map_map. exact C.
  - intros H. apply M in H. congruence.
Qed.

Theorem run_described U big pick ops s outs : run U big pick open_writer ops = (s, outs) ->
  described (events ops outs) (content s).
Proof.
  intros H. destruct (run_inv U big pick ops open_writer outs s ([[]], []) inv_open) as [I _].
  - intros e [].
  - exact H.
  - cbv zeta in I. exact (inv_described _ _ _ _ I).
Qed.

(** A call that returned an error changed nothing, except that a failed Close closes the
    writer *)
Lemma rejected U big pick s o s' e : step U big pick s o = (s', Err e) ->
  match o with OClose _ => True | _ => s' = s end.
Proof.
  unfold step. destruct (nth_error (st_writers s) (op_writer o)) as [g|].
  2:{ intros E. injection E as <- _. destruct o; reflexivity || exact I. }
  destruct (nth_error (st_groups s) g) as [G|].
  2:{ intros E. injection E as <- _. destruct o; reflexivity || exact I. }
  destruct o as [w a|w name v dims a|w name|w]; [| | |intros _; exact I].
  - unfold add_attributes. repeat (destruct (negb _); [intros E; injection E as <- _; reflexivity|]). discriminate.
  - unfold add_var. repeat (destruct (negb _); [intros E; injection E as <- _; reflexivity|]). discriminate.
  - unfold create_group. destruct (negb _); [intros E; injection E as <- _; reflexivity|].
    destruct (assoc _ _); discriminate.
Qed.

(** ** Close *)
Lemma step_closed U big pick s o s' x : st_closed s = true -> step U big pick s o = (s', x) ->
  st_closed s' = true /\ st_file s' = st_file s.
Proof.
  intros Hc. unfold step. destruct (nth_error (st_writers s) (op_writer o)) as [g|].
  2:{ intros E. injection E as <- _. auto. }
  destruct (nth_error (st_groups s) g) as [G|].
  2:{ intros E. injection E as <- _. auto. }
  destruct o as [w a|w name v dims a|w name|w].
  - unfold add_attributes. repeat (destruct (negb _); [intros E; injection E as <- _; auto|]).
    intros E; injection E as <- _; auto.
  - unfold add_var. repeat (destruct (negb _); [intros E; injection E as <- _; auto|]).
    intros E; injection E as <- _; auto.
  - unfold create_group. destruct (negb _); [intros E; injection E as <- _; auto|].
    destruct (assoc _ _); intros E; injection E as <- _; auto.
  - destruct w as [|w].
    + unfold close_root. rewrite Hc. intros E. injection E as <- _. auto.
    + intros E. injection E as <- _. auto.
Qed.
Lemma run_closed U big pick ops : forall s s' xs, st_closed s = true -> run U big pick s ops = (s', xs) ->
  st_closed s' = true /\ st_file s' = st_file s.
Proof.
  induction ops as [|o r IH]; intros s s' xs Hc E; cbn [run] in E.
  - injection E as <- <-. auto.
  - destruct (step U big pick s o) as [s1 x1] eqn:E1. destruct (run U big pick s1 r) as [s2 ys] eqn:E2.
    injection E as <- <-. destruct (step_closed _ _ _ _ _ _ _ Hc E1) as [A B].
    destruct (IH _ _ _ A E2) as [C D]. split; [exact C|]. congruence.
Qed.
