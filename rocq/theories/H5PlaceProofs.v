(** Where the writer puts the parts of a tree of groups. *)
From Verif Require Import Prelude GoVal OrderedMapModel H5Base H5ChecksumModel H5MetaWrite H5MetaRead H5Value H5TypeRead
  H5FileWrite H5PathModel H5LayoutModel H5RecordModel H5FileRead MetaSpec BaseLemmas
  H5ChecksumProofs H5MetaProofs H5TreeProofs.
From Coq Require Import Lia ZifyBool ZifyNat.

(** ** Addresses *)
Definition spread (lo hi : Z) (l : list Z) : Prop := NoDup l /\ Forall (fun a => lo <= a < hi) l.
Lemma spread_nil lo hi : spread lo hi [].
Proof. split; constructor. Qed.
Lemma spread_cons lo hi a l : spread (a + 1) hi l -> lo <= a < hi -> spread lo hi (a :: l).
Proof.
  intros [A B] H. split.
  - constructor; [|exact A]. intros Hi. rewrite Forall_forall in B. specialize (B a Hi). lia.
  - constructor; [lia|]. eapply Forall_impl; [|exact B]. cbv beta. intros x Hx. lia.
Qed.
Lemma spread_weaken lo hi lo' hi' l : spread lo hi l -> lo' <= lo -> hi <= hi' -> spread lo' hi' l.
Proof.
  intros [A B] H H'. split; [exact A|]. eapply Forall_impl; [|exact B]. cbv beta. intros x Hx. lia.
Qed.
Lemma NoDup_union {A} (l m : list A) : NoDup l -> NoDup m -> (forall x, In x l -> ~ In x m) -> NoDup (l ++ m).
Proof.
  intros Hl Hm Hd. induction Hl as [|x l Hx _ IH]; [exact Hm|]. cbn [app]. constructor.
  - rewrite in_app_iff. intros [H|H]; [contradiction|]. exact (Hd x (or_introl eq_refl) H).
  - apply IH. intros y Hy. apply Hd. right. exact Hy.
Qed.
Lemma spread_app lo mid hi l m : spread lo mid l -> spread mid hi m -> lo <= mid <= hi -> spread lo hi (l ++ m).
Proof.
  intros [A B] [C D] H. rewrite Forall_forall in B, D. split.
  - apply NoDup_union; [exact A|exact C|]. intros x Hx Hm. specialize (B x Hx). specialize (D x Hm). cbv beta in *. lia.
  - apply Forall_app. split; apply Forall_forall; intros x Hx; [specialize (B x Hx)|specialize (D x Hx)]; cbv beta in *; lia.
Qed.
Lemma spread_under lo hi a l : spread lo a l -> lo <= a < hi -> spread lo hi (a :: l).
Proof.
  intros [A B] H. rewrite Forall_forall in B. split.
  - constructor; [|exact A]. intros Hi. specialize (B a Hi). cbv beta in *. lia.
  - constructor; [lia|]. apply Forall_forall. intros x Hx. specialize (B x Hx). cbv beta in *. lia.
Qed.
(** as many numbers as there are places *)
Lemma spread_length lo hi l : spread lo hi l -> lo <= hi -> zlen l <= hi - lo.
Proof.
  intros [A B] H. set (m := map Z.to_nat (map (fun a => a - lo) l)).
  assert (E : incl m (seq 0 (Z.to_nat (hi - lo)))).
  { intros x Hx. unfold m in Hx. apply in_map_iff in Hx. destruct Hx as (y & <- & Hy).
    apply in_map_iff in Hy. destruct Hy as (a & <- & Ha). rewrite Forall_forall in B. specialize (B a Ha). cbv beta in B.
    apply in_seq. lia. }
  assert (N : NoDup m).
  { unfold m. clear E. induction A as [|a l Ha _ IH]; [constructor|]. cbn [map].
    inversion B as [|x y B1 B2]; subst x y. constructor; [|apply IH; exact B2].
    rewrite map_map. intros Hi. apply in_map_iff in Hi. destruct Hi as (b & Eb & Hb).
    rewrite Forall_forall in B2. specialize (B2 b Hb). cbv beta in B2. assert (b = a) by lia. subst b. contradiction. }
  pose proof (NoDup_incl_length N E) as L. unfold m in L. rewrite !map_length, seq_length in L. unfold zlen. lia.
Qed.

Lemma header_nonempty ms oh : objectHeaderV2 ms = Ok oh -> 0 < zlen oh.
Proof.
  unfold objectHeaderV2. cbv zeta. destruct (checksum _) as [k| |]; try discriminate. cbn [rbind]. intros E.
  assert (E2 : exists r, oh = bs "OHDR" ++ r).
  { apply (f_equal (fun r => match r with Ok x => x | _ => [] end)) in E. rewrite <- E, <- !app_assoc.
    eexists. reflexivity. }
  destruct E2 as (r & ->). rewrite zlen_app. change (zlen (bs "OHDR")) with 4. pose proof (zlen_nonneg r). lia.
Qed.

(** ** The loop over the subgroups *)
Definition groupsGo (big : bool) (c : wctx) (p : path) :=
  fix go (gs : list (bytes * wtree)) (n : Z) : res (bytes * list (bytes * Z)) :=
    match gs with
    | [] => Ok ([], [])
    | (name, g) :: r =>
        let q := p ++ [name] in
        let* (b, va, ga) := groupContents big c q g n in
        let addr := n + zlen b in
        let* ms := groupMessages big c q (w_attrs g) (addrs_in (w_vars g) va) ga in
        let* oh := objectHeaderV2 ms in
        let* (b', addrs) := go r (addr + zlen oh) in
        Ok (b ++ oh ++ b', (name, addr) :: addrs)
    end.
Lemma groupContents_eq big c p a vs gs n : groupContents big c p (WNode a vs gs) n =
  let* (b1, va) := writeVars big c p (others vs) n in
  let* (b2, ga) := groupsGo big c p gs (n + zlen b1) in
  Ok (b1 ++ b2, va, ga).
Proof. reflexivity. Qed.

(** No dimension scales *)
Fixpoint noscale (t : wtree) : bool :=
  match t with
  | WNode _ vs gs =>
      forallb (fun v => negb (hv_scale (snd v))) vs &&
      (fix go (gs : list (bytes * wtree)) : bool :=
         match gs with [] => true | (_, g) :: r => noscale g && go r end) gs
  end.
Definition noscales := fix go (gs : list (bytes * wtree)) : bool :=
  match gs with [] => true | (_, g) :: r => noscale g && go r end.
Lemma noscale_eq a vs gs : noscale (WNode a vs gs) =
  forallb (fun v => negb (hv_scale (snd v))) vs && noscales gs.
Proof. reflexivity. Qed.

Lemma filter_all {A} (p : A -> bool) l : forallb p l = true -> filter p l = l.
Proof.
  induction l as [|x l IH]; [reflexivity|]. cbn [forallb filter]. intros H. apply andb_true_iff in H.
  destruct H as [H1 H2]. rewrite H1, (IH H2). reflexivity.
Qed.

(** No two variables of a group have the same name *)
Fixpoint distinct (t : wtree) : Prop :=
  match t with
  | WNode _ vs gs =>
      NoDup (map fst vs) /\
      (fix go (gs : list (bytes * wtree)) : Prop :=
         match gs with [] => True | (_, g) :: r => distinct g /\ go r end) gs
  end.
Definition distincts := fix go (gs : list (bytes * wtree)) : Prop :=
  match gs with [] => True | (_, g) :: r => distinct g /\ go r end.
Lemma distinct_eq a vs gs : distinct (WNode a vs gs) <-> NoDup (map fst vs) /\ distincts gs.
Proof. reflexivity. Qed.

Lemma addrs_in_self vs va : NoDup (map fst vs) -> map fst va = map fst vs -> addrs_in vs va = va.
Proof.
  unfold addrs_in. revert va. induction vs as [|[n v] vs IH]; intros [|[m a] va] Hd E; try discriminate; [reflexivity|].
  cbn [map fst] in *. assert (m = n) by congruence. subst m. inversion Hd as [|x l H1 H2]; subst x l.
  cbn [assoc]. rewrite beqb_refl. f_equal.
  etransitivity; [|apply (IH va H2); congruence]. apply map_ext_in. intros [k w] Hk. cbn [fst]. cbn [assoc].
  destruct (beqb k n) eqn:Eb; [|reflexivity]. apply beqb_eq in Eb. subst k. exfalso. apply H1.
  apply (in_map fst) in Hk. exact Hk.
Qed.

Section Place.
Variable f : bytes.
Variable c : wctx.

Lemma place_var p nv n b addr sc : hv_scale (snd nv) = sc -> 0 < n ->
  writeVar false (if sc then c0 else c) p nv n = Ok (b, addr) -> has_at f n b ->
  var_at f c p nv (fst nv, addr) /\ n <= addr < n + zlen b.
Proof.
  destruct nv as [name v]. intros Hs Hn E Hat. cbn [fst snd] in *. unfold writeVar in E.
  set (x := if sc then c0 else c) in *.
  destruct (valueBytes _ _ _ _ _) as [data| |] eqn:Ed; try discriminate. cbn [rbind] in E.
  set (block := data ++ pad8 (n + zlen data)) in *.
  destruct (varMessages _ _ _ _ _ _ _) as [ms| |] eqn:Em; try discriminate. cbn [rbind] in E.
  destruct (objectHeaderV2 ms) as [oh| |] eqn:Eo; try discriminate. cbn [rbind] in E.
  assert (Eb : b = block ++ oh) by congruence. assert (Ea : addr = n + zlen block) by congruence. clear E.
  pose proof (header_nonempty _ _ Eo) as Hoh. pose proof (zlen_nonneg block) as Hbl.
  subst b addr. rewrite zlen_app. split; [|lia].
  unfold var_at. cbn [fst snd]. split; [reflexivity|]. split; [lia|].
  assert (Ex : ctx_of c v = x) by (unfold ctx_of, x; rewrite Hs; reflexivity). rewrite Ex.
  exists n, data, ms, oh. split; [exact Ed|]. split.
  { apply has_at_app_l in Hat. unfold block in Hat. apply has_at_app_l in Hat. exact Hat. }
  split; [exact Em|]. split; [exact Eo|]. apply has_at_app_r in Hat. exact Hat.
Qed.

Lemma place_vars p sc vs : Forall (fun nv => hv_scale (snd nv) = sc) vs -> forall n b vas, 0 < n ->
  writeVars false (if sc then c0 else c) p vs n = Ok (b, vas) -> has_at f n b ->
  Forall2 (var_at f c p) vs vas /\ spread n (n + zlen b) (map snd vas) /\ map fst vas = map fst vs.
Proof.
  induction 1 as [|nv vs Hnv _ IH]; intros n b vas Hn E Hat; cbn [writeVars] in E.
  - assert (b = []) by congruence. assert (vas = []) by congruence. subst b vas.
    split; [constructor|]. split; [apply spread_nil|reflexivity].
  - destruct (writeVar false _ p nv n) as [[b1 addr]| |] eqn:E1; try discriminate. cbn [rbind] in E.
    destruct (writeVars false _ p vs (n + zlen b1)) as [[b2 addrs]| |] eqn:E2; try discriminate. cbn [rbind] in E.
    assert (b = b1 ++ b2) by congruence. assert (vas = (fst nv, addr) :: addrs) by congruence. subst b vas. clear E.
    destruct (place_var p nv n b1 addr sc Hnv Hn E1 (has_at_app_l _ _ _ _ Hat)) as [V1 V2].
    pose proof (zlen_nonneg b1) as Z1. pose proof (zlen_nonneg b2) as Z2.
    destruct (IH (n + zlen b1) b2 addrs ltac:(lia) E2 (has_at_app_r _ _ _ _ Hat)) as (W1 & W2 & W3).
    rewrite zlen_app. split; [constructor; assumption|]. split; [|cbn [map fst]; f_equal; exact W3].
    cbn [map snd]. apply spread_cons; [|lia]. eapply spread_weaken; [exact W2|lia|lia].
Qed.

Lemma place_groups_aux gs :
  Forall (fun g => forall p n b va ga, 0 < n -> noscale (snd g) = true -> distinct (snd g) ->
     groupContents false c p (snd g) n = Ok (b, va, ga) -> has_at f n b ->
     exists L, contents_at f c p (snd g) va ga L /\ spread n (n + zlen b) L /\ map fst va = map fst (w_vars (snd g))) gs ->
  forall p n b ga, 0 < n -> noscales gs = true -> distincts gs ->
  groupsGo false c p gs n = Ok (b, ga) -> has_at f n b ->
  exists Ls, groups_at f c p gs ga Ls /\ spread n (n + zlen b) (List.concat Ls) /\ map fst ga = map fst gs.
Proof.
  induction 1 as [|[name g] gs Hg _ IH]; intros p n b ga Hn Hsc Hd E Hat.
  - cbn [groupsGo] in E. assert (b = []) by congruence. assert (ga = []) by congruence. subst b ga.
    exists []. split; [exact I|]. split; [apply spread_nil|reflexivity].
  - cbn [snd] in Hg. cbn [noscales] in Hsc. apply andb_true_iff in Hsc. destruct Hsc as [S1 S2].
    cbn [distincts] in Hd. destruct Hd as [D1 D2].
    cbn [groupsGo] in E. cbv zeta in E.
    destruct (groupContents false c (p ++ [name]) g n) as [[[b1 va1] ga1]| |] eqn:E1; try discriminate.
    cbn [rbind] in E.
    destruct (groupMessages false c (p ++ [name]) (w_attrs g) (addrs_in (w_vars g) va1) ga1) as [ms| |] eqn:E2; try discriminate.
    cbn [rbind] in E. destruct (objectHeaderV2 ms) as [oh| |] eqn:E3; try discriminate. cbn [rbind] in E.
    match type of E with context [groupsGo _ _ _ gs ?m] => destruct (groupsGo false c p gs m) as [[b' addrs]| |] eqn:E4 end; try discriminate.
    cbn [rbind] in E.
    assert (b = b1 ++ oh ++ b') by congruence. assert (ga = (name, n + zlen b1) :: addrs) by congruence. subst b ga. clear E.
    pose proof (zlen_nonneg b1) as Z1. pose proof (zlen_nonneg b') as Z2. pose proof (header_nonempty _ _ E3) as Z3.
    destruct (Hg (p ++ [name]) n b1 va1 ga1 Hn S1 D1 E1 (has_at_app_l _ _ _ _ Hat)) as (L & L1 & L2 & L3).
    pose proof (has_at_app_r _ _ _ _ Hat) as Hat2.
    destruct (IH p (n + zlen b1 + zlen oh) b' addrs ltac:(lia) S2 D2 E4 (has_at_app_r _ _ _ _ Hat2)) as (Ls & W1 & W2 & W3).
    exists (((n + zlen b1) :: L) :: Ls). split; [|split].
    + cbn [groups_at]. split; [reflexivity|]. split; [|exact W1].
      exists va1, ga1, L. split; [reflexivity|]. split; [exact L1|].
      split; [lia|]. exists ms, oh. rewrite addrs_in_self in E2.
      * split; [exact E2|]. split; [exact E3|]. apply has_at_app_l in Hat2. exact Hat2.
      * destruct g as [ga_ gv gg]. destruct (proj1 (distinct_eq _ _ _) D1) as [D3 _]. exact D3.
      * exact L3.
    + cbn [List.concat]. rewrite !zlen_app. apply (spread_app n (n + zlen b1 + zlen oh)); [| |lia].
      * apply spread_under; [exact L2|lia].
      * eapply spread_weaken; [exact W2|lia|lia].
    + cbn [map fst]. f_equal. exact W3.
Qed.

Lemma place_tree t : forall p n b va ga, 0 < n -> noscale t = true -> distinct t ->
  groupContents false c p t n = Ok (b, va, ga) -> has_at f n b ->
  exists L, contents_at f c p t va ga L /\ spread n (n + zlen b) L /\ map fst va = map fst (w_vars t).
Proof.
  induction t as [a vs gs IH] using wtree_ind'. intros p n b va ga Hn Hs Hd E Hat.
  rewrite noscale_eq in Hs. apply andb_true_iff in Hs. destruct Hs as [S1 S2].
  destruct (proj1 (distinct_eq _ _ _) Hd) as [D1 D2].
  rewrite groupContents_eq in E. unfold others in E. rewrite filter_all in E by exact S1.
  destruct (writeVars false c p vs n) as [[b1 va1]| |] eqn:E1; try discriminate. cbn [rbind] in E.
  destruct (groupsGo false c p gs (n + zlen b1)) as [[b2 ga1]| |] eqn:E2; try discriminate. cbn [rbind] in E.
  assert (b = b1 ++ b2) by congruence. assert (va1 = va) by congruence. assert (ga1 = ga) by congruence. subst b va1 ga1. clear E.
  pose proof (zlen_nonneg b1) as Z1. pose proof (zlen_nonneg b2) as Z2.
  destruct (place_vars p false vs) with (n := n) (b := b1) (vas := va) as (V1 & V2 & V3).
  { apply Forall_forall. intros x Hx. rewrite forallb_forall in S1. specialize (S1 x Hx). destruct (hv_scale (snd x)); [discriminate|reflexivity]. }
  { exact Hn. }
  { exact E1. }
  { apply has_at_app_l in Hat. exact Hat. }
  destruct (place_groups_aux gs IH p (n + zlen b1) b2 ga ltac:(lia) S2 D2 E2 (has_at_app_r _ _ _ _ Hat)) as (Ls & W1 & W2 & W3).
  exists (map snd va ++ List.concat Ls). split; [|split].
  - apply contents_at_eq. split; [exact V1|]. exists Ls. split; [reflexivity|exact W1].
  - rewrite zlen_app. apply (spread_app n (n + zlen b1)); [exact V2| |lia].
    eapply spread_weaken; [exact W2|lia|lia].
  - exact V3.
Qed.

Lemma place_groups gs p n b ga : 0 < n -> noscales gs = true -> distincts gs ->
  groupsGo false c p gs n = Ok (b, ga) -> has_at f n b ->
  exists Ls, groups_at f c p gs ga Ls /\ spread n (n + zlen b) (List.concat Ls) /\ map fst ga = map fst gs.
Proof.
  apply place_groups_aux. apply Forall_forall. intros g _. apply place_tree.
Qed.
End Place.

(** ** The whole file *)
From Coq Require Import Permutation.

Lemma put_at_len off b d r : put_at off b d = Ok r -> 0 <= off -> zlen r = zlen d.
Proof.
  unfold put_at. destruct (off + zlen b <=? zlen d) eqn:E; [|discriminate]. intros H H0.
  assert (r = ztake off d ++ b ++ zdrop (off + zlen b) d) by congruence. subst r.
  pose proof (zlen_nonneg b). rewrite !zlen_app, zlen_ztake, zlen_zdrop by lia. lia.
Qed.
Lemma finalize_len d root r : finalize d root = Ok r -> zlen r = zlen d.
Proof.
  unfold finalize. cbv zeta. destruct (put_at 28 _ d) as [d1| |] eqn:E1; try discriminate. cbn [rbind].
  destruct (put_at 36 _ d1) as [d2| |] eqn:E2; try discriminate. cbn [rbind].
  destruct (checksum _) as [k| |]; try discriminate. cbn [rbind]. intros E3.
  apply put_at_len in E1; [|lia]. apply put_at_len in E2; [|lia]. apply put_at_len in E3; [|lia]. congruence.
Qed.

Lemma has_at_mid pre b post a : zlen pre = a -> has_at (pre ++ b ++ post) a b.
Proof. intros E. exists pre, post. auto. Qed.

Lemma render_parts pick t f : render false pick t = Ok f -> zlen f < 2 ^ 63 ->
  exists t1 b1 dimAddrs b2 c b3 va ga ms oh,
    prepare t = Ok t1 /\
    writeVars false c0 [] (scales (w_vars (sort_tree t1))) 48 = Ok (b1, dimAddrs) /\
    buildHeap false (pick t1) dimAddrs (48 + zlen b1) = Ok (b2, c) /\
    groupContents false c [] (sort_tree t1) (48 + zlen b1 + zlen b2) = Ok (b3, va, ga) /\
    groupMessages false c [] (w_attrs (sort_tree t1)) (addrs_in (w_vars (sort_tree t1)) (dimAddrs ++ va)) ga = Ok ms /\
    objectHeaderV2 ms = Ok oh /\
    has_at f 48 b1 /\ has_at f (48 + zlen b1) b2 /\ has_at f (48 + zlen b1 + zlen b2) b3 /\
    has_at f (48 + zlen b1 + zlen b2 + zlen b3) oh /\
    forall ext, readSuperblock ext f = Ok (48 + zlen b1 + zlen b2 + zlen b3).
Proof.
  unfold render. intros E Hf.
  destruct (prepare t) as [t1| |] eqn:E0; try discriminate. cbn [rbind] in E. cbv zeta in E.
  destruct (writeVars false (mkCtx None [] [] []) [] (scales (w_vars (sort_tree t1))) 48) as [[b1 dimAddrs]| |] eqn:E1; try discriminate.
  cbn [rbind] in E.
  destruct (buildHeap false (pick t1) dimAddrs (48 + zlen b1)) as [[b2 c]| |] eqn:E2; try discriminate. cbn [rbind] in E.
  destruct (groupContents false c [] (sort_tree t1) (48 + zlen b1 + zlen b2)) as [[[b3 va] ga]| |] eqn:E3; try discriminate.
  cbn [rbind] in E.
  destruct (groupMessages false c [] (w_attrs (sort_tree t1)) (addrs_in (w_vars (sort_tree t1)) (dimAddrs ++ va)) ga) as [ms| |] eqn:E4; try discriminate.
  cbn [rbind] in E. destruct (objectHeaderV2 ms) as [oh| |] eqn:E5; try discriminate. cbn [rbind] in E.
  pose proof (finalize_len _ _ _ E) as Hl. set (body := b1 ++ b2 ++ b3 ++ oh) in *.
  change (zlen (superblockV2 ++ body)) with (zlen (superblockV2 ++ body)) in Hl. rewrite zlen_app in Hl.
  change (zlen superblockV2) with 48 in Hl.
  destruct (finalize_eq body (48 + zlen b1 + zlen b2 + zlen b3)) as (h & Eh & Hh & Ef); [lia|].
  rewrite Ef in E. set (root := 48 + zlen b1 + zlen b2 + zlen b3) in *.
  assert (EF : f = sb_head (48 + zlen body) root ++ le 4 h ++ body) by congruence. clear E Ef.
  set (pre := sb_head (48 + zlen body) root ++ le 4 h).
  assert (Lp : zlen pre = 48) by (unfold pre; rewrite zlen_app, zlen_sb_head, zlen_le; lia).
  assert (EF2 : f = pre ++ body) by (unfold pre; rewrite <- app_assoc; exact EF).
  exists t1, b1, dimAddrs, b2, c, b3, va, ga, ms, oh.
  split; [reflexivity|]. split; [exact E1|]. split; [exact E2|]. split; [exact E3|]. split; [exact E4|]. split; [exact E5|].
  split; [|split; [|split; [|split]]].
  - rewrite EF2. unfold body. apply has_at_mid. exact Lp.
  - rewrite EF2. unfold body. rewrite app_assoc. apply has_at_mid. rewrite zlen_app. lia.
  - rewrite EF2. unfold body. rewrite (app_assoc b1), app_assoc. apply has_at_mid. rewrite !zlen_app. lia.
  - rewrite EF2. unfold body. rewrite (app_assoc b2), (app_assoc b1), app_assoc.
    rewrite <- (app_nil_r oh) at 1. apply has_at_mid. rewrite !zlen_app. unfold root. lia.
  - intros ext. assert (Hb : zlen body = zlen b1 + zlen b2 + zlen b3 + zlen oh) by (unfold body; rewrite !zlen_app; lia).
    pose proof (zlen_nonneg b1). pose proof (zlen_nonneg b2). pose proof (zlen_nonneg b3). pose proof (zlen_nonneg oh).
    rewrite EF. rewrite readSuperblock_head; try assumption; try (unfold root; lia).
    + rewrite <- EF. replace (48 + zlen body <=? zlen f) with true by lia. reflexivity.
    + rewrite <- EF. exact Hf.
Qed.

Lemma parts_perm vs : Permutation (scales vs ++ others vs) vs.
Proof.
  unfold scales, others. induction vs as [|v vs IH]; [constructor|]. cbn [filter].
  destruct (hv_scale (snd v)); cbn [negb app].
  - constructor. exact IH.
  - eapply Permutation_trans; [apply Permutation_sym, Permutation_middle|]. constructor. exact IH.
Qed.

Lemma assoc_Forall2 {V W} (R : bytes * V -> bytes * W -> Prop) l m :
  (forall x y, R x y -> fst y = fst x) -> Forall2 R l m -> NoDup (map fst l) ->
  forall x, In x l -> exists a, assoc (fst x) m = Some a /\ R x (fst x, a) /\ In (fst x, a) m.
Proof.
  intros HR. induction 1 as [|x [n a] l m Hx _ IH]; intros Hd y [].
  - subst y. specialize (HR _ _ Hx). cbn [fst] in HR. subst n. exists a. cbn [assoc]. rewrite beqb_refl.
    split; [reflexivity|]. split; [exact Hx|left; reflexivity].
  - cbn [map] in Hd. inversion Hd as [|? ? H1 H2]; subst x0 l0. destruct (IH H2 y H) as (b & B1 & B2 & B3).
    exists b. pose proof (HR _ _ Hx) as E. cbn [fst] in E. subst n. cbn [assoc].
    destruct (beqb (fst y) (fst x)) eqn:Eb; [|split; [exact B1|split; [exact B2|right; exact B3]]].
    apply beqb_eq in Eb. exfalso. apply H1. rewrite <- Eb. apply in_map. exact H.
Qed.

Lemma snd_inj {V W} (m : list (V * W)) x y a : NoDup (map snd m) -> In (x, a) m -> In (y, a) m -> x = y.
Proof.
  induction m as [|[z b] m IH]; intros Hd Hx Hy; [contradiction|]. cbn [map snd] in Hd.
  inversion Hd as [|? ? H1 H2]; subst x0 l.
  destruct Hx as [Hx|Hx], Hy as [Hy|Hy].
  - congruence.
  - assert (b = a) by congruence. subst b. exfalso. apply H1. apply (in_map snd) in Hy. exact Hy.
  - assert (b = a) by congruence. subst b. exfalso. apply H1. apply (in_map snd) in Hx. exact Hx.
  - apply IH; assumption.
Qed.

Lemma var_at_name f c p x y : var_at f c p x y -> fst y = fst x.
Proof. intros (A & _). exact A. Qed.

Lemma place_root f c n0 n1 n2 a vs gs b1 dimAddrs b3 va ga :
  0 < n0 -> n0 + zlen b1 <= n1 -> n1 + zlen b3 = n2 ->
  NoDup (map fst vs) -> noscales gs = true -> distincts gs ->
  writeVars false c0 [] (scales vs) n0 = Ok (b1, dimAddrs) -> has_at f n0 b1 ->
  groupContents false c [] (WNode a vs gs) n1 = Ok (b3, va, ga) -> has_at f n1 b3 ->
  exists L, contents_at f c [] (WNode a vs gs) (addrs_in vs (dimAddrs ++ va)) ga L /\ spread n0 n2 L /\
    map fst dimAddrs = map fst (scales vs) /\
    (forall x, In x vs -> exists ad, assoc (fst x) (dimAddrs ++ va) = Some ad /\ var_at f c [] x (fst x, ad)) /\
    (forall x, In x (scales vs) -> exists ad, assoc (fst x) dimAddrs = Some ad /\ assoc (fst x) (dimAddrs ++ va) = Some ad).
Proof.
  intros Hn H1 H2 Hd Hs Hds E1 Hat1 E3 Hat3. rewrite groupContents_eq in E3.
  destruct (writeVars false c [] (others vs) n1) as [[b3a va1]| |] eqn:E4; try discriminate. cbn [rbind] in E3.
  destruct (groupsGo false c [] gs (n1 + zlen b3a)) as [[b3b ga1]| |] eqn:E5; try discriminate. cbn [rbind] in E3.
  assert (b3 = b3a ++ b3b) by congruence. assert (va1 = va) by congruence. assert (ga1 = ga) by congruence. subst b3 va1 ga1. clear E3.
  pose proof (zlen_nonneg b1) as Z1. pose proof (zlen_nonneg b3a) as Z2. pose proof (zlen_nonneg b3b) as Z3.
  rewrite zlen_app in H2.
  destruct (place_vars f c [] true (scales vs)) with (n := n0) (b := b1) (vas := dimAddrs) as (V1 & V2 & V3); try assumption.
  { apply Forall_forall. intros x Hx. apply filter_In in Hx. exact (proj2 Hx). }
  destruct (place_vars f c [] false (others vs)) with (n := n1) (b := b3a) (vas := va) as (W1 & W2 & W3); try assumption.
  { apply Forall_forall. intros x Hx. apply filter_In in Hx. destruct Hx as [_ Hx]. destruct (hv_scale (snd x)); [discriminate|reflexivity]. }
  { lia. }
  { apply has_at_app_l in Hat3. exact Hat3. }
  destruct (place_groups f c gs [] (n1 + zlen b3a) b3b ga ltac:(lia) Hs Hds E5 (has_at_app_r _ _ _ _ Hat3)) as (Ls & X1 & X2 & X3).
  set (m := dimAddrs ++ va).
  assert (F : Forall2 (var_at f c []) (scales vs ++ others vs) m) by (apply Forall2_app; assumption).
  assert (P : Permutation (map fst (scales vs ++ others vs)) (map fst vs)) by (apply Permutation_map, parts_perm).
  assert (N : NoDup (map fst (scales vs ++ others vs))) by (eapply Permutation_NoDup; [apply Permutation_sym; exact P|exact Hd]).
  assert (S : spread n0 (n1 + zlen b3a) (map snd m)).
  { unfold m. rewrite map_app. apply (spread_app n0 n1); [|exact W2|lia]. eapply spread_weaken; [exact V2|lia|lia]. }
  pose proof (assoc_Forall2 (var_at f c []) _ _ (var_at_name f c []) F N) as Q.
  assert (Q' : forall x, In x vs -> exists ad, assoc (fst x) m = Some ad /\ var_at f c [] x (fst x, ad) /\ In (fst x, ad) m).
  { intros x Hx. apply Q. eapply Permutation_in; [apply Permutation_sym, parts_perm|exact Hx]. }
  exists (map snd (addrs_in vs m) ++ List.concat Ls). split; [|split; [|split; [exact V3|split]]].
  - apply contents_at_eq. split.
    + clear - Q'. unfold addrs_in. induction vs as [|x vs IH]; [constructor|]. cbn [map].
      destruct (Q' x (or_introl eq_refl)) as (ad & A1 & A2 & _). constructor.
      * rewrite A1. exact A2.
      * apply IH. intros y Hy. apply Q'. right. exact Hy.
    + exists Ls. split; [reflexivity|exact X1].
  - assert (SR : spread n0 (n1 + zlen b3a) (map snd (addrs_in vs m))).
    { destruct S as [S1 S2]. split.
      - clear - Q' S1 Hd. unfold addrs_in. rewrite map_map. cbn [snd].
        induction vs as [|x vs IH]; [constructor|]. cbn [map] in *. inversion Hd as [|? ? D1 D2]; subst x0 l.
        constructor.
        + intros Hi. apply in_map_iff in Hi. destruct Hi as (y & Ey & Hy).
          destruct (Q' x (or_introl eq_refl)) as (ad & A1 & _ & A3).
          destruct (Q' y (or_intror Hy)) as (ad' & B1 & _ & B3).
          rewrite A1, B1 in Ey. subst ad'. apply D1. rewrite (snd_inj m _ _ _ S1 A3 B3). apply in_map. exact Hy.
        + apply IH; [exact D2|]. intros y Hy. apply Q'. right. exact Hy.
      - apply Forall_forall. intros x Hx. unfold addrs_in in Hx. rewrite map_map in Hx. cbn [snd] in Hx.
        apply in_map_iff in Hx. destruct Hx as (y & Ey & Hy). destruct (Q' y Hy) as (ad & A1 & _ & A3).
        rewrite A1 in Ey. subst ad. rewrite Forall_forall in S2. apply S2. apply (in_map snd) in A3. exact A3. }
    apply (spread_app n0 (n1 + zlen b3a)); [exact SR| |lia]. eapply spread_weaken; [exact X2|lia|lia].
  - intros x Hx. destruct (Q' x Hx) as (ad & A1 & A2 & _). exists ad. split; assumption.
  - intros x Hx. assert (N1 : NoDup (map fst (scales vs))).
    { rewrite map_app in N. apply (NoDup_part [] _ _) in N. exact (proj1 N). }
    destruct (assoc_Forall2 (var_at f c []) _ _ (var_at_name f c []) V1 N1 x Hx) as (ad & A1 & _ & _).
    exists ad. split; [exact A1|]. unfold m. rewrite assoc_app, A1. reflexivity.
Qed.
