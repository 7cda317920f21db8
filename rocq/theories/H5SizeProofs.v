(** How many objects the writer puts into the global heap: at most one for each string and each
    dimension.  And a way to say that something holds at every node of a tree. *)
From Verif Require Import Prelude GoVal H5MetaWrite H5Value H5FileWrite TypeSpec FileSpec BaseLemmas H5TypeProofs
  H5StoreProofs H5TreeProofs H5PlaceProofs H5HeapProofs H5PrepareProofs.
From Coq Require Import Lia ZifyBool ZifyNat Permutation.

(** ** The heap *)
Section Count.
Variables (K : list bytes) (X : Z).
Definition counted (h : heapst) : Prop :=
  zlen (hs_objs h) <= zlen (hs_map h) + X /\ NoDup (map fst (hs_map h)) /\ incl (map fst (hs_map h)) K.
Lemma counted_bound h : counted h -> zlen (hs_objs h) <= zlen K + X.
Proof.
  intros (A & B & C). pose proof (NoDup_incl_length B C) as H. rewrite map_length in H. unfold zlen in *. lia.
Qed.
Lemma bassoc_None (m : list (bytes * Z)) k : bassoc k m = None -> ~ In k (map fst m).
Proof.
  induction m as [|[x v] m IH]; intros E H; [contradiction|]. cbn [bassoc map fst] in *. destruct (beqb k x) eqn:Eb; [discriminate|].
  destruct H as [->|H]; [rewrite beqb_refl in Eb; discriminate|]. exact (IH E H).
Qed.
Lemma counted_string h s : counted h -> In s K -> counted (addStringToHeap h s).
Proof.
  intros (A & B & C) Hs. unfold addStringToHeap. destruct (bassoc s (hs_map h)) eqn:E; [split; [exact A|split; assumption]|].
  apply bassoc_None in E. unfold counted. cbn [hs_objs hs_map map fst]. rewrite zlen_app, !zlen_cons.
  change (zlen (@nil bytes)) with 0. split; [lia|]. split; [constructor; assumption|]. intros x [<-|Hx]; [exact Hs|apply C; exact Hx].
Qed.
Lemma counted_ref addrs h d : counted h -> In (dimref d) K -> counted (addDimRef addrs h d).
Proof.
  intros (A & B & C) Hs. assert (G : counted h) by (split; [exact A|split; assumption]).
  unfold addDimRef. destruct (beqb d []); [exact G|]. destruct (bassoc (dimref d) (hs_map h)) eqn:E; [exact G|].
  destruct (assoc d addrs) as [a|]; [|exact G].
  apply bassoc_None in E. unfold counted. cbn [hs_objs hs_map map fst]. rewrite zlen_app, !zlen_cons.
  change (zlen (@nil bytes)) with 0. split; [lia|]. split; [constructor; assumption|]. intros x [<-|Hx]; [exact Hs|apply C; exact Hx].
Qed.
Lemma counted_actual v : forall h, counted h -> (forall s, In s (strings_of v) -> In s K) -> counted (collectStringsActual h v).
Proof.
  induction v as [k z|t|fs IH|o|w ns vs IH|t l IH|] using hval_ind'; intros h H Hs; try exact H.
  - apply counted_string; [exact H|]. apply Hs. left. reflexivity.
  - rewrite csa_slice. assert (Hl : forall s, In s (strings_list l) -> In s K) by exact Hs. clear Hs.
    revert h H Hl. induction IH as [|x r Hx _ IHr]; intros h H Hl; [exact H|].
    change (counted (csaList (collectStringsActual h x) r)). cbn [strings_list] in Hl. apply IHr.
    + apply Hx; [exact H|]. intros s Hs. apply Hl, in_or_app. left. exact Hs.
    + intros s Hs. apply Hl, in_or_app. right. exact Hs.
Qed.
Lemma heap_strings_incl v s : In s (heap_strings v) -> In s (strings_of v).
Proof. destruct v; cbn [heap_strings]; auto. intros []. Qed.
Lemma counted_strings v : forall h, counted h -> (forall s, In s (heap_strings v) -> In s K) -> counted (collectStrings h v).
Proof.
  induction v as [k z|t|fs IH|o|w ns vs IH|t l IH|] using hval_ind'; intros h H Hs; try exact H.
  - rewrite cs_comp. assert (Hl : forall s, In s (strings_fields fs) -> In s K) by exact Hs. clear Hs.
    revert h H Hl. induction IH as [|[nm x] r Hx _ IHr]; intros h H Hl; [exact H|].
    change (counted (csFields (match x with HStr s => addStringToHeap h s | _ => collectStrings h x end) r)).
    cbn [strings_fields snd] in *. apply IHr.
    + assert (Hx' : forall s, In s (heap_strings x) -> In s K).
      { intros s Hs. apply Hl, in_or_app. left. apply heap_strings_incl. exact Hs. }
      destruct x; try (apply Hx; assumption). apply counted_string; [exact H|]. apply Hl. left. reflexivity.
    + intros s Hs. apply Hl, in_or_app. right. exact Hs.
  - apply IH; [exact H|]. intros s Hs'. apply Hs. apply heap_strings_incl in Hs'. exact Hs'.
  - rewrite cs_slice. assert (Hl : forall s, In s (strings_list l) -> In s K) by exact Hs.
    destruct (shouldUseVLen (HSlice t l)).
    + apply (counted_actual (HSlice t l)); [exact H|exact Hl].
    + clear Hs. revert h H Hl. induction IH as [|x r Hx _ IHr]; intros h H Hl; [exact H|].
      change (counted (csList (collectStrings h x) r)). cbn [strings_list] in Hl. apply IHr.
      * apply Hx; [exact H|]. intros s Hs. apply Hl, in_or_app. left. apply heap_strings_incl. exact Hs.
      * intros s Hs. apply Hl, in_or_app. right. exact Hs.
Qed.
Lemma counted_values vs : forall h, counted h -> (forall v s, In v vs -> In s (heap_strings v) -> In s K) ->
  counted (fold_left collectStrings vs h).
Proof.
  induction vs as [|v vs IH]; intros h H Hs; [exact H|]. cbn [fold_left]. apply IH.
  - apply counted_strings; [exact H|]. intros s. apply Hs. left. reflexivity.
  - intros w s Hw. apply Hs. right. exact Hw.
Qed.
Lemma counted_refs addrs vs : forall h, counted h ->
  (forall kv d, In kv vs -> hv_scale (snd kv) = false -> In d (hv_dims (snd kv)) -> In (dimref d) K) ->
  counted (collectDimReferences addrs vs h).
Proof.
  unfold collectDimReferences. induction vs as [|kv vs IH]; intros h H Hd; [exact H|]. cbn [fold_left]. apply IH.
  - destruct (hv_scale (snd kv)) eqn:Es; [exact H|].
    assert (G : forall ds h, counted h -> (forall d, In d ds -> In (dimref d) K) -> counted (fold_left (addDimRef addrs) ds h)).
    { clear. induction ds as [|d ds IH]; intros h H Hd; [exact H|]. cbn [fold_left]. apply IH.
      - apply counted_ref; [exact H|]. apply Hd. left. reflexivity.
      - intros d' H'. apply Hd. right. exact H'. }
    apply G; [exact H|]. intros d Hi. apply (Hd kv d); [left; reflexivity|exact Es|exact Hi].
  - intros kv' d Hk. apply Hd. right. exact Hk.
Qed.
End Count.

Lemma heap_count o addrs n b c e hf (S D : list bytes) : heap_facts o addrs n b c e hf ->
  (forall v s, In v (o_strings o) -> In s (heap_strings v) -> In s S) ->
  (forall kv d, In kv (o_dims o) -> hv_scale (snd kv) = false -> In d (hv_dims (snd kv)) -> In d D) ->
  zlen (hs_objs hf) <= zlen S + zlen D + (seq_total (o_vlen o) + aseq_total (o_attrs o)).
Proof.
  intros H Hs Hd. destruct (hf_objs _ _ _ _ _ _ _ H) as (h3 & M & L & ->).
  assert (G : counted (S ++ map dimref D) (seq_total (o_vlen o) + aseq_total (o_attrs o)) (collectDimReferences addrs (o_dims o) h3)).
  { apply counted_refs.
    - assert (G : counted (S ++ map dimref D) 0 (fold_left collectStrings (o_strings o) emptyHeap)).
      { apply counted_values; [split; [reflexivity|split; [constructor|intros x []]]|].
        intros v s A B. apply in_or_app. left. exact (Hs v s A B). }
      destruct G as (A & B & C). unfold counted. rewrite M. split; [lia|split; assumption].
    - intros kv d A B C. apply in_or_app. right. apply in_map. exact (Hd kv d A B C). }
  apply counted_bound in G. rewrite zlen_app in G. rewrite zlen_map in G. exact G.
Qed.

(** ** Every node of a tree *)
Section Tall.
Variable P : path -> wtree -> Prop.
Fixpoint tall (p : path) (t : wtree) : Prop :=
  P p t /\
  match t with
  | WNode _ _ gs =>
      (fix go (gs : list (bytes * wtree)) : Prop :=
         match gs with [] => True | (n, g) :: r => tall (p ++ [n]) g /\ go r end) gs
  end.
Definition talls (p : path) := fix go (gs : list (bytes * wtree)) : Prop :=
  match gs with [] => True | (n, g) :: r => tall (p ++ [n]) g /\ go r end.
Lemma tall_eq p a vs gs : tall p (WNode a vs gs) <-> P p (WNode a vs gs) /\ talls p gs.
Proof. reflexivity. Qed.
Lemma talls_iff p gs : talls p gs <-> forall g, In g gs -> tall (p ++ [fst g]) (snd g).
Proof.
  induction gs as [|[n g] gs IH]; cbn [talls].
  - split; [intros _ g []|auto].
  - rewrite IH. split.
    + intros [A B] g' [<-|Hg]; [exact A|apply B; exact Hg].
    + intros H. split; [apply (H (n, g)); left; reflexivity|]. intros g' Hg. apply H. right. exact Hg.
Qed.
Lemma tall_here p t : tall p t -> P p t.
Proof. destruct t. intros [H _]. exact H. Qed.
Lemma tall_walk t : forall p,
  (forall q g, WriterSpec.walk t q = Some g -> NoDup (map fst (w_groups g)) /\ P (p ++ q) g) -> tall p t.
Proof.
  induction t as [a vs gs IH] using wtree_ind'. intros p H. rewrite tall_eq. split.
  - destruct (H [] _ eq_refl) as [_ A]. rewrite app_nil_r in A. exact A.
  - apply talls_iff. intros [n g] Hg. rewrite Forall_forall in IH. apply (IH (n, g) Hg). cbn [fst snd].
    intros q g' Hw. destruct (H [] _ eq_refl) as [N _]. cbn [w_groups] in N.
    rewrite <- app_assoc. cbn [app]. apply (H (n :: q)). cbn [WriterSpec.walk w_groups].
    rewrite (In_assoc n g gs N Hg). exact Hw.
Qed.
End Tall.

Lemma tall_mono (P Q : path -> wtree -> Prop) t : (forall p g, P p g -> Q p g) -> forall p, tall P p t -> tall Q p t.
Proof.
  intros H. induction t as [a vs gs IH] using wtree_ind'. intros p. rewrite !tall_eq, !talls_iff. intros [A B].
  split; [apply H; exact A|]. intros g Hg. rewrite Forall_forall in IH. apply (IH g Hg). apply B. exact Hg.
Qed.
Lemma tall_and (P Q : path -> wtree -> Prop) t : forall p, tall P p t -> tall Q p t -> tall (fun p g => P p g /\ Q p g) p t.
Proof.
  induction t as [a vs gs IH] using wtree_ind'. intros p. rewrite !tall_eq, !talls_iff. intros [A B] [C D].
  split; [split; assumption|]. intros g Hg. rewrite Forall_forall in IH. apply (IH g Hg); [apply B|apply D]; exact Hg.
Qed.
Lemma tall_sort (P : path -> wtree -> Prop) t :
  (forall p a vs gs gs', P p (WNode a vs gs) -> Permutation (map fst gs) (map fst gs') -> P p (WNode a (nsort vs) gs')) ->
  forall p, tall P p t -> tall P p (sort_tree t).
Proof.
  intros H. induction t as [a vs gs IH] using wtree_ind'. intros p. rewrite sort_tree_eq, !tall_eq, !talls_iff. intros [A B].
  pose proof (nsort_perm (map (fun g : bytes * wtree => (fst g, sort_tree (snd g))) gs)) as Pm. split.
  - apply (H p a vs gs); [exact A|]. apply (Permutation_map fst) in Pm. rewrite map_map in Pm. cbn [fst] in Pm. exact Pm.
  - intros g Hg. apply (Permutation_in _ (Permutation_sym Pm)) in Hg. apply in_map_iff in Hg. destruct Hg as (g' & <- & Hg').
    rewrite Forall_forall in IH. cbn [fst snd]. apply (IH g' Hg'). apply B. exact Hg'.
Qed.
(** Every variable of a tree is at one of its nodes *)
Lemma tall_vars (X : list (vkey * hvar)) t : forall p, (forall x, In x (all_vars p t) -> In x X) ->
  tall (fun q g => forall v, In v (w_vars g) -> In ((q, fst v), snd v) X) p t.
Proof.
  induction t as [a vs gs IH] using wtree_ind'. intros p H. rewrite all_vars_eq in H. rewrite tall_eq, talls_iff. split.
  - intros v Hv. apply H, in_or_app. left. apply in_map_iff. exists v. auto.
  - intros g Hg. rewrite Forall_forall in IH. apply (IH g Hg). intros x Hx. apply H, in_or_app. right. apply all_vars_in_In.
    exists g. auto.
Qed.
Lemma tall_attrs (X : list (akey * hval)) t : forall p, (forall x, In x (all_attrs p t) -> In x X) ->
  tall (fun q g => (forall k, In k (attrs_at q None (w_attrs g)) -> In k X) /\
                   forall v k, In v (w_vars g) -> In k (attrs_at q (Some (fst v)) (hv_attrs (snd v))) -> In k X) p t.
Proof.
  induction t as [a vs gs IH] using wtree_ind'. intros p H. rewrite all_attrs_eq in H. rewrite tall_eq, talls_iff. split.
  - split.
    + intros k Hk. apply H, in_or_app. right. apply in_or_app. left. exact Hk.
    + intros v k Hv Hk. apply H, in_or_app. left. apply in_flat_map. exists v. auto.
  - intros g Hg. rewrite Forall_forall in IH. apply (IH g Hg). intros x Hx. apply H, in_or_app. right. apply in_or_app. right.
    apply all_attrs_in_In. exists g. auto.
Qed.
Lemma vars_tall (P : path -> wtree -> Prop) t : forall p, tall P p t -> forall x, In x (all_vars p t) ->
  exists g, P (fst (fst x)) g /\ In (snd (fst x), snd x) (w_vars g).
Proof.
  induction t as [a vs gs IH] using wtree_ind'. intros p. rewrite tall_eq, talls_iff, all_vars_eq. intros [A B] x Hx.
  apply in_app_or in Hx. destruct Hx as [Hx|Hx].
  - apply in_map_iff in Hx. destruct Hx as ([n v] & <- & Hv). exists (WNode a vs gs). split; [exact A|exact Hv].
  - apply all_vars_in_In in Hx. destruct Hx as (g & Hg & Hx). rewrite Forall_forall in IH.
    apply (IH g Hg _ (B g Hg) x Hx).
Qed.
Lemma attrs_tall (P : path -> wtree -> Prop) t : forall p, tall P p t -> forall x, In x (all_attrs p t) ->
  exists q g, P q g /\
    (In (snd (fst x), snd x) (attr_list (w_attrs g)) \/
     exists v, In v (w_vars g) /\ In (snd (fst x), snd x) (attr_list (hv_attrs (snd v)))).
Proof.
  induction t as [a vs gs IH] using wtree_ind'. intros p. rewrite tall_eq, talls_iff, all_attrs_eq. intros [A B] x Hx.
  apply in_app_or in Hx. destruct Hx as [Hx|Hx]; [|apply in_app_or in Hx; destruct Hx as [Hx|Hx]].
  - apply in_flat_map in Hx. destruct Hx as (v & Hv & Hx). apply in_map_iff in Hx. destruct Hx as ([k w] & <- & Hk).
    exists p, (WNode a vs gs). split; [exact A|]. right. exists v. split; [exact Hv|exact Hk].
  - apply in_map_iff in Hx. destruct Hx as ([k w] & <- & Hk). exists p, (WNode a vs gs). split; [exact A|]. left. exact Hk.
  - apply all_attrs_in_In in Hx. destruct Hx as (g & Hg & Hx). rewrite Forall_forall in IH.
    apply (IH g Hg _ (B g Hg) x Hx).
Qed.

Lemma tall_attrs_key (P : path -> wtree -> Prop) t : forall p, tall P p t -> forall x, In x (all_attrs p t) ->
  exists q g, P q g /\
    (In x (attrs_at q None (w_attrs g)) \/ exists v, In v (w_vars g) /\ In x (attrs_at q (Some (fst v)) (hv_attrs (snd v)))).
Proof.
  induction t as [a vs gs IH] using wtree_ind'. intros p. rewrite tall_eq, talls_iff, all_attrs_eq. intros [A B] x Hx.
  apply in_app_or in Hx. destruct Hx as [Hx|Hx]; [|apply in_app_or in Hx; destruct Hx as [Hx|Hx]].
  - apply in_flat_map in Hx. destruct Hx as (v & Hv & Hx).
    exists p, (WNode a vs gs). split; [exact A|]. right. exists v. split; [exact Hv|exact Hx].
  - exists p, (WNode a vs gs). split; [exact A|]. left. exact Hx.
  - apply all_attrs_in_In in Hx. destruct Hx as (g & Hg & Hx). rewrite Forall_forall in IH.
    apply (IH g Hg _ (B g Hg) x Hx).
Qed.

Lemma tall_tgood f c t p :
  tall (fun p t => Forall (fun kv => agood f c (p, None, fst kv) (snd kv)) (attr_list (w_attrs t)) /\
     Forall (vgood f c p) (w_vars t) /\ Forall (fun n => zlen n < 256) (map fst (w_vars t) ++ map fst (w_groups t)) /\
     NoDup (map fst (w_vars t) ++ map fst (w_groups t)) /\
     zlen (attr_list (w_attrs t)) + zlen (w_vars t) + zlen (w_groups t) <= 64000) p t -> tgood f c p t.
Proof.
  revert p. induction t as [a vs gs IH] using wtree_ind'. intros p. rewrite tall_eq, tgood_eq. cbn [w_attrs w_vars w_groups].
  intros ((A & B & C & D & E) & F). repeat (split; [assumption|]). revert F. induction IH as [|[n g] gs Hg _ IHg]; intros F; [exact I|].
  cbn [talls tgoods] in *. destruct F as [F1 F2]. split; [apply Hg; exact F1|]. apply IHg; [| | |exact F2].
  - rewrite Forall_app in *. destruct C as [C1 C2]. split; [exact C1|]. inversion C2; assumption.
  - cbn [map] in D. apply NoDup_remove_1 in D. exact D.
  - rewrite zlen_cons in E. lia.
Qed.
Lemma tall_noscale t p : tall (fun _ g => Forall (fun v => hv_scale (snd v) = false) (w_vars g)) p t -> noscale t = true.
Proof.
  revert p. induction t as [a vs gs IH] using wtree_ind'. intros p. rewrite tall_eq, noscale_eq. cbn [w_vars]. intros [A B].
  apply andb_true_iff. split.
  - apply forallb_forall. intros v Hv. rewrite Forall_forall in A. rewrite (A v Hv). reflexivity.
  - clear A. induction IH as [|[n g] gs Hg _ IHg]; [reflexivity|]. cbn [noscales talls snd] in *. destruct B as [B1 B2].
    rewrite (Hg _ B1). apply IHg. exact B2.
Qed.
Lemma tall_distinct t p : tall (fun _ g => NoDup (map fst (w_vars g))) p t -> distinct t.
Proof.
  revert p. induction t as [a vs gs IH] using wtree_ind'. intros p. rewrite tall_eq, distinct_eq. cbn [w_vars]. intros [A B].
  split; [exact A|]. clear A. induction IH as [|[n g] gs Hg _ IHg]; [exact I|]. cbn [distincts talls snd] in *. destruct B as [B1 B2].
  split; [exact (Hg _ B1)|apply IHg; exact B2].
Qed.

(** ** Sums *)
Definition sum {A} (g : A -> Z) (l : list A) : Z := fold_right (fun x n => g x + n) 0 l.
Lemma sum_app {A} (g : A -> Z) l r : sum g (l ++ r) = sum g l + sum g r.
Proof. induction l as [|x l IH]; cbn [sum fold_right app]; [reflexivity|]. fold (sum g (l ++ r)) (sum g l). lia. Qed.
Lemma sum_nonneg {A} (g : A -> Z) l : (forall x, 0 <= g x) -> 0 <= sum g l.
Proof. intros H. induction l as [|x l IH]; cbn [sum fold_right]; [lia|]. fold (sum g l). specialize (H x). lia. Qed.
Lemma sum_perm {A} (g : A -> Z) l r : Permutation l r -> sum g l = sum g r.
Proof. induction 1; cbn [sum fold_right] in *; unfold sum in *; lia. Qed.
Lemma sum_map {A B} (f : A -> B) (g : B -> Z) l : sum g (map f l) = sum (fun x => g (f x)) l.
Proof. induction l as [|x l IH]; cbn [sum fold_right map]; [reflexivity|]. unfold sum in IH. rewrite IH. reflexivity. Qed.
(** Different elements [x] with [g x <> 0] have different partners in [l2]. *)
Lemma sum_partner {A B} (R : A -> B -> Prop) (g : A -> Z) (h : B -> Z) : (forall x, 0 <= h x) ->
  forall l1 l2, ForallOrdPairs (fun a a' => forall b, R a b -> ~ R a' b) l1 ->
  Forall (fun a => g a = 0 \/ exists b, In b l2 /\ R a b /\ g a <= h b) l1 -> sum g l1 <= sum h l2.
Proof.
  intros Hh. induction l1 as [|a l1 IH]; intros l2 Hr Hl; [apply sum_nonneg; exact Hh|].
  inversion Hr as [|x r R1 R2]; subst x r. inversion Hl as [|x r L1 L2]; subst x r. cbn [sum fold_right]. fold (sum g l1).
  destruct L1 as [L1|(b & Hb & Hab & Hgh)]; [specialize (IH l2 R2 L2); lia|].
  apply in_split in Hb. destruct Hb as (u & w & ->). rewrite sum_app. cbn [sum fold_right]. fold (sum h w).
  enough (sum g l1 <= sum h (u ++ w)) by (rewrite sum_app in *; lia).
  apply IH; [exact R2|]. rewrite Forall_forall in *. intros x Hx. destruct (L2 x Hx) as [E|(b' & Hb' & Hxb & E)]; [left; exact E|].
  right. exists b'. split; [|split; assumption]. apply in_app_or in Hb'. destruct Hb' as [Hb'|[->|Hb']].
  - apply in_or_app. left. exact Hb'.
  - exfalso. exact (R1 x Hx b' Hab Hxb).
  - apply in_or_app. right. exact Hb'.
Qed.
Lemma NoDup_pairs {A B} (f : A -> B) (R : A -> A -> Prop) l : (forall a a', f a <> f a' -> R a a') -> NoDup (map f l) ->
  ForallOrdPairs R l.
Proof.
  intros H. induction l as [|x l IH]; intros N; [constructor|]. cbn [map] in N. inversion N as [|y r N1 N2]; subst y r. constructor; [|exact (IH N2)].
  apply Forall_forall. intros y Hy. apply H. intros E. apply N1. rewrite E. apply in_map. exact Hy.
Qed.

(** ** The keys of variables *)
Lemma all_vars_path t : forall p x, In x (all_vars p t) -> exists q, fst (fst x) = p ++ q.
Proof.
  induction t as [a vs gs IH] using wtree_ind'. intros p x. rewrite all_vars_eq. intros H. apply in_app_or in H. destruct H as [H|H].
  - apply in_map_iff in H. destruct H as (v & <- & _). exists []. rewrite app_nil_r. reflexivity.
  - apply all_vars_in_In in H. destruct H as (g & Hg & Hx). rewrite Forall_forall in IH. destruct (IH g Hg _ _ Hx) as (q & E).
    exists ([fst g] ++ q). rewrite app_assoc. exact E.
Qed.
Lemma all_vars_NoDup t : forall p, tall (fun _ g => NoDup (map fst (w_vars g)) /\ NoDup (map fst (w_groups g))) p t ->
  NoDup (map fst (all_vars p t)).
Proof.
  induction t as [a vs gs IH] using wtree_ind'. intros p. rewrite tall_eq, talls_iff, all_vars_eq. cbn [w_vars w_groups].
  intros [[N1 N2] H]. rewrite map_app. apply NoDup_union.
  - rewrite map_map. cbn [fst]. rewrite <- (map_map fst (fun n : bytes => (p, n))). apply FinFun.Injective_map_NoDup; [|exact N1].
    intros n m E. congruence.
  - assert (G : forall x, In x (map fst (all_vars_in p gs)) -> exists n q, In n (map fst gs) /\ fst x = p ++ [n] ++ q).
    { intros x Hx. apply in_map_iff in Hx. destruct Hx as (y & <- & Hy). apply all_vars_in_In in Hy. destruct Hy as (g & Hg & Hy).
      destruct (all_vars_path _ _ _ Hy) as (q & E). exists (fst g), q. split; [apply in_map; exact Hg|]. rewrite E, <- app_assoc. reflexivity. }
    revert G. induction gs as [|[n g] gs IHg]; intros G; [constructor|]. cbn [all_vars_in]. rewrite map_app.
    cbn [map fst] in N2. inversion N2 as [|y r M1 M2]; subst y r. inversion IH as [|y r I1 I2]; subst y r.
    apply NoDup_union.
    + apply (I1 (p ++ [n])). apply (H (n, g)). left. reflexivity.
    + apply IHg; [exact I2|exact M2| |].
      * intros x Hx. apply H. right. exact Hx.
      * intros x Hx. apply in_map_iff in Hx. destruct Hx as (y & <- & Hy). apply all_vars_in_In in Hy. destruct Hy as (g' & Hg & Hy).
        destruct (all_vars_path _ _ _ Hy) as (q & E). exists (fst g'), q. split; [apply in_map; exact Hg|]. rewrite E, <- app_assoc. reflexivity.
    + intros x H1 H2. apply in_map_iff in H1. destruct H1 as (y & <- & Hy). destruct (all_vars_path _ _ _ Hy) as (q & E).
      apply in_map_iff in H2. destruct H2 as (z & Ez & Hz). apply all_vars_in_In in Hz. destruct Hz as (g' & Hg & Hz).
      destruct (all_vars_path _ _ _ Hz) as (q' & E'). rewrite Ez, E, <- !app_assoc in E'. apply app_inv_head in E'. cbn [app] in E'.
      apply M1. assert (n = fst g') by congruence. subst n. apply in_map. exact Hg.
  - intros x H1 H2. apply in_map_iff in H1. destruct H1 as (y & <- & Hy). apply in_map_iff in Hy. destruct Hy as (v & <- & _). cbn [fst] in H2.
    apply in_map_iff in H2. destruct H2 as (z & Ez & Hz). apply all_vars_in_In in Hz. destruct Hz as (g & Hg & Hz).
    destruct (all_vars_path _ _ _ Hz) as (q & E). rewrite Ez in E. cbn [fst] in E. rewrite <- app_assoc in E.
    rewrite <- (app_nil_r p) in E at 1. apply app_inv_head in E. discriminate.
Qed.

(** ** The keys of attributes *)
Lemma all_attrs_path t : forall p x, In x (all_attrs p t) -> exists q, fst (fst (fst x)) = p ++ q.
Proof.
  induction t as [a vs gs IH] using wtree_ind'. intros p x. rewrite all_attrs_eq. intros H.
  apply in_app_or in H. destruct H as [H|H]; [|apply in_app_or in H; destruct H as [H|H]].
  - apply in_flat_map in H. destruct H as (v & _ & H). apply in_map_iff in H. destruct H as (kv & <- & _). exists []. rewrite app_nil_r. reflexivity.
  - apply in_map_iff in H. destruct H as (kv & <- & _). exists []. rewrite app_nil_r. reflexivity.
  - apply all_attrs_in_In in H. destruct H as (g & Hg & H). rewrite Forall_forall in IH. destruct (IH g Hg (p ++ [fst g]) x H) as (q & E).
    exists ([fst g] ++ q). rewrite app_assoc. exact E.
Qed.
Lemma attrs_at_NoDup p o a : NoDup (map fst (attr_list a)) -> NoDup (map fst (attrs_at p o a)).
Proof.
  intros N. unfold attrs_at. rewrite map_map. cbn [fst]. rewrite <- (map_map fst (fun n : bytes => (p, o, n))).
  apply FinFun.Injective_map_NoDup; [|exact N]. intros n m E. congruence.
Qed.
Lemma all_attrs_NoDup t : forall p, tall (fun _ g => NoDup (map fst (w_vars g)) /\ NoDup (map fst (w_groups g)) /\
    NoDup (map fst (attr_list (w_attrs g))) /\ Forall (fun v => NoDup (map fst (attr_list (hv_attrs (snd v))))) (w_vars g)) p t ->
  NoDup (map fst (all_attrs p t)).
Proof.
  induction t as [a vs gs IH] using wtree_ind'. intros p. rewrite tall_eq, talls_iff, all_attrs_eq. cbn [w_vars w_groups w_attrs].
  intros [(N1 & N2 & N3 & N4) H].
  assert (G : forall x, In x (map fst (all_attrs_in p gs)) -> exists n q, In n (map fst gs) /\ fst (fst x) = p ++ [n] ++ q).
  { intros x Hx. apply in_map_iff in Hx. destruct Hx as (y & <- & Hy). apply all_attrs_in_In in Hy. destruct Hy as (g & Hg & Hy).
    destruct (all_attrs_path _ _ _ Hy) as (q & E). exists (fst g), q. split; [apply in_map; exact Hg|]. rewrite E, <- app_assoc. reflexivity. }
  assert (Deep : forall x, In x (map fst (all_attrs_in p gs)) -> fst (fst x) <> p).
  { intros x Hx E. destruct (G x Hx) as (n & q & _ & E'). rewrite E in E'. rewrite <- (app_nil_r p) in E' at 1. apply app_inv_head in E'. discriminate. }
  rewrite map_app. apply NoDup_union; [|rewrite map_app; apply NoDup_union|].
  - clear - N1 N4. induction vs as [|[n v] vs IHv]; [constructor|]. cbn [flat_map map fst snd] in *. rewrite map_app.
    inversion N1 as [|y r M1 M2]; subst y r. inversion N4 as [|y r M3 M4]; subst y r. cbn [snd] in M3. apply NoDup_union.
    + apply attrs_at_NoDup. exact M3.
    + apply IHv; assumption.
    + intros x H1 H2. apply in_map_iff in H1. destruct H1 as (y & <- & H1). apply in_map_iff in H1. destruct H1 as (kv & <- & _).
      apply in_map_iff in H2. destruct H2 as (z & E & H2). apply in_flat_map in H2. destruct H2 as ([n' v'] & Hv & H2).
      apply in_map_iff in H2. destruct H2 as (kv' & <- & _). cbn [fst snd] in E. apply M1.
      assert (n' = n) by congruence. subst n'. apply (in_map fst) in Hv. exact Hv.
  - apply attrs_at_NoDup. exact N3.
  - clear Deep. revert G. induction gs as [|[n g] gs IHg]; intros G; [constructor|]. cbn [all_attrs_in]. rewrite map_app.
    cbn [map fst] in N2. inversion N2 as [|y r M1 M2]; subst y r. inversion IH as [|y r I1 I2]; subst y r.
    apply NoDup_union.
    + apply (I1 (p ++ [n])). apply (H (n, g)). left. reflexivity.
    + apply IHg; [exact I2|exact M2| |].
      * intros x Hx. apply H. right. exact Hx.
      * intros x Hx. apply in_map_iff in Hx. destruct Hx as (y & <- & Hy). apply all_attrs_in_In in Hy. destruct Hy as (g' & Hg & Hy).
        destruct (all_attrs_path _ _ _ Hy) as (q & E). exists (fst g'), q. split; [apply in_map; exact Hg|]. rewrite E, <- app_assoc. reflexivity.
    + intros x H1 H2. apply in_map_iff in H1. destruct H1 as (y & <- & Hy). destruct (all_attrs_path _ _ _ Hy) as (q & E).
      apply in_map_iff in H2. destruct H2 as (z & Ez & Hz). apply all_attrs_in_In in Hz. destruct Hz as (g' & Hg & Hz).
      destruct (all_attrs_path _ _ _ Hz) as (q' & E'). rewrite Ez, E, <- !app_assoc in E'. apply app_inv_head in E'. cbn [app] in E'.
      apply M1. assert (n = fst g') by congruence. subst n. apply in_map. exact Hg.
  - intros x H1 H2. apply (Deep x H2). apply in_map_iff in H1. destruct H1 as (y & <- & H1). apply in_map_iff in H1. destruct H1 as (kv & <- & _). reflexivity.
  - intros x H1 H2. rewrite map_app in H2. apply in_map_iff in H1. destruct H1 as (y & <- & H1). apply in_flat_map in H1. destruct H1 as (v & _ & H1).
    apply in_map_iff in H1. destruct H1 as (kv & <- & _). apply in_app_or in H2. destruct H2 as [H2|H2].
    + apply in_map_iff in H2. destruct H2 as (z & E & H2). apply in_map_iff in H2. destruct H2 as (kv' & <- & _). discriminate E.
    + apply (Deep _ H2). reflexivity.
Qed.
