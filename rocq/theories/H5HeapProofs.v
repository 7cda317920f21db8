(** The global heap of a file: what strings and references to dimensions are in it. *)
From Verif Require Import Prelude GoVal H5Base H5MetaWrite H5MetaRead H5Value H5TypeRead H5FileWrite
  MetaSpec TypeSpec FileSpec BaseLemmas H5TypeProofs H5DataProofs H5StoreProofs H5VarProofs.
From Verif Require OrderedMapProofs.
From Coq Require Import Lia ZifyBool ZifyNat.

(** ** The strings in a value *)
Definition strings_fields := fix go (fs : list (bytes * hval)) : list bytes :=
  match fs with [] => [] | (_, x) :: r => strings_of x ++ go r end.
Definition strings_list := fix go (l : list hval) : list bytes :=
  match l with [] => [] | x :: r => strings_of x ++ go r end.

Section Ext.
Variables (big : bool) (e e' : henv).
Hypothesis Ha : he_addr e = he_addr e'.
Definition same_on (l : list bytes) : Prop := forall s, In s l -> he_idx e s = he_idx e' s.
Lemma same_app l m : same_on (l ++ m) -> same_on l /\ same_on m.
Proof. intros H. split; intros s Hs; apply H, in_or_app; [left|right]; exact Hs. Qed.
Lemma desc_ext n s : he_idx e s = he_idx e' s -> descriptor e n (he_idx e s) = descriptor e' n (he_idx e' s).
Proof. intros H. unfold descriptor. rewrite Ha, H. reflexivity. Qed.
Lemma wvlen_ext n ix : wvlen e n ix = wvlen e' n ix.
Proof. unfold wvlen, descriptor. rewrite Ha. reflexivity. Qed.
Lemma wseq_ext (a a' b b' : W) ix : (forall ix, a ix = a' ix) -> (forall ix, b ix = b' ix) -> wseq a b ix = wseq a' b' ix.
Proof.
  intros A B. unfold wseq. rewrite A. destruct (a' ix) as [[x r]| |]; try reflexivity. cbn [rbind]. rewrite B. reflexivity.
Qed.
Lemma writeField_ext v : same_on (strings_of v) -> forall ix, writeField big e v ix = writeField big e' v ix.
Proof.
  induction v as [k z|s|fs IH|b|w ns vs IH|t l IH|] using hval_ind'; intros H ix; try reflexivity.
  - cbn [writeField]. rewrite (desc_ext (zlen s) s) by (apply H; left; reflexivity). reflexivity.
  - change (writeFields big e fs ix = writeFields big e' fs ix). change (same_on (strings_fields fs)) in H.
    revert H ix. induction IH as [|[nm x] r Hx _ IHr]; intros H ix; [reflexivity|].
    cbn [strings_fields] in H. apply same_app in H. destruct H as [H1 H2].
    change (wseq (writeField big e x) (writeFields big e r) ix = wseq (writeField big e' x) (writeFields big e' r) ix).
    apply wseq_ext; [apply Hx; exact H1|apply IHr; exact H2].
  - apply wvlen_ext.
Qed.
Lemma writeFields_ext fs : same_on (strings_fields fs) -> forall ix, writeFields big e fs ix = writeFields big e' fs ix.
Proof.
  induction fs as [|[nm x] r IH]; intros H ix; [reflexivity|]. cbn [strings_fields] in H. apply same_app in H.
  destruct H as [H1 H2].
  change (wseq (writeField big e x) (writeFields big e r) ix = wseq (writeField big e' x) (writeFields big e' r) ix).
  apply wseq_ext; [apply writeField_ext; exact H1|apply IH; exact H2].
Qed.
Lemma writeData_ext v : same_on (strings_of v) -> forall fl n ix, writeData big e fl n v ix = writeData big e' fl n v ix.
Proof.
  induction v as [k z|s|fs IH|b|w ns vs IH|t l IH|] using hval_ind'; intros H fl n ix; try reflexivity.
  - cbn [writeData]. rewrite (desc_ext (zlen s) s) by (apply H; left; reflexivity). reflexivity.
  - cbn [writeData]. apply writeFields_ext. exact H.
  - cbn [writeData]. apply IH. exact H.
  - destruct n as [|n]; [apply wvlen_ext|]. change (same_on (strings_list l)) in H.
    change (writeList big e fl n l ix = writeList big e' fl n l ix).
    revert H ix. induction IH as [|x r Hx _ IHr]; intros H ix; [reflexivity|].
    cbn [strings_list] in H. apply same_app in H. destruct H as [H1 H2].
    change (wseq (writeData big e fl n x) (writeList big e fl n r) ix = wseq (writeData big e' fl n x) (writeList big e' fl n r) ix).
    apply wseq_ext; [intros; apply Hx; exact H1|apply IHr; exact H2].
Qed.
End Ext.

(** What is written before there is a heap is what would be written with one *)
Definition writeFieldsNil (big : bool) := fix go (fs : list (bytes * hval)) : res bytes :=
  match fs with
  | [] => Ok []
  | (_, x) :: r => let* a := writeFieldNil big x in let* b := go r in Ok (a ++ b)
  end.
Definition writeListNil (big : bool) (fl : Z) (m : nat) := fix go (l : list hval) : res bytes :=
  match l with
  | [] => Ok []
  | x :: r => let* a := writeDataNil big fl m x in let* b := go r in Ok (a ++ b)
  end.
Lemma wseq_ok (a b : W) x y ix : (forall ix, a ix = Ok (x, ix)) -> (forall ix, b ix = Ok (y, ix)) -> wseq a b ix = Ok (x ++ y, ix).
Proof. intros A B. unfold wseq. rewrite A. cbn [rbind]. rewrite B. reflexivity. Qed.
Lemma writeFieldNil_ok big e v : forall b, writeFieldNil big v = Ok b -> forall ix, writeField big e v ix = Ok (b, ix).
Proof.
  induction v as [k z|s|fs IH|o|w ns vs IH|t l IH|] using hval_ind'; intros b E ix; try discriminate.
  - cbn in E. cbn [writeField]. unfold wput. congruence.
  - change (writeFieldsNil big fs = Ok b) in E. change (writeFields big e fs ix = Ok (b, ix)).
    revert b E ix. induction IH as [|[nm x] r Hx _ IHr]; intros b E ix.
    + cbn in E. cbn. unfold wput. congruence.
    + cbn [writeFieldsNil] in E. cbn [snd] in Hx. destruct (writeFieldNil big x) as [x1| |] eqn:E1; try discriminate. cbn [rbind] in E.
      destruct (writeFieldsNil big r) as [r1| |] eqn:E2; try discriminate. cbn [rbind] in E.
      assert (b = x1 ++ r1) by congruence. subst b.
      change (wseq (writeField big e x) (writeFields big e r) ix = Ok (x1 ++ r1, ix)).
      apply wseq_ok; [apply Hx; reflexivity|apply IHr; reflexivity].
  - cbn in E. cbn [writeField]. unfold wput. congruence.
  - cbn [writeFieldNil] in E. cbn [writeField]. unfold wres. rewrite E. reflexivity.
Qed.
Lemma writeDataNil_ok big e fl v : forall n b, writeDataNil big fl n v = Ok b -> forall ix, writeData big e fl n v ix = Ok (b, ix).
Proof.
  induction v as [k z|s|fs IH|o|w ns vs IH|t l IH|] using hval_ind'; intros n b E ix; try discriminate.
  - cbn in E. cbn [writeData]. unfold wput. congruence.
  - cbn [writeDataNil] in E. cbn [writeData]. destruct (0 <? fl); [|discriminate]. unfold wput. congruence.
  - cbn [writeDataNil] in E. cbn [writeData].
    exact (writeFieldNil_ok big e (HComp fs) b E ix).
  - cbn in E. cbn [writeData]. unfold wput. congruence.
  - cbn [writeDataNil] in E. cbn [writeData]. apply IH. exact E.
  - destruct n as [|n]; [discriminate|]. change (writeListNil big fl n l = Ok b) in E.
    change (writeList big e fl n l ix = Ok (b, ix)).
    revert b E ix. induction IH as [|x r Hx _ IHr]; intros b E ix.
    + cbn in E. cbn. unfold wput. congruence.
    + cbn [writeListNil] in E. destruct (writeDataNil big fl n x) as [x1| |] eqn:E1; try discriminate. cbn [rbind] in E.
      destruct (writeListNil big fl n r) as [r1| |] eqn:E2; try discriminate. cbn [rbind] in E.
      assert (b = x1 ++ r1) by congruence. subst b.
      change (wseq (writeData big e fl n x) (writeList big e fl n r) ix = Ok (x1 ++ r1, ix)).
      apply wseq_ok; [intros; apply Hx; exact E1|apply IHr; reflexivity].
Qed.

(** ** The strings that are collected *)
Definition known (h : heapst) (s : bytes) : Prop := bassoc s (hs_map h) <> None.
Lemma ash_known h t s : known (addStringToHeap h t) s -> known h s \/ s = t.
Proof.
  unfold addStringToHeap, known. destruct (bassoc t (hs_map h)); [auto|]. cbn [hs_map bassoc].
  destruct (beqb s t) eqn:E; [|auto]. intros _. right. apply beqb_eq. exact E.
Qed.
Lemma csa_known v : forall h s, known (collectStringsActual h v) s -> known h s \/ In s (strings_of v).
Proof.
  induction v as [k z|t|fs IH|o|w ns vs IH|t l IH|] using hval_ind'; intros h s H; try (left; exact H).
  - destruct (ash_known h t s H) as [A|A]; [left; exact A|right; left; congruence].
  - rewrite csa_slice in H. change (In s (strings_of (HSlice t l))) with (In s (strings_list l)).
    revert h H. induction IH as [|x r Hx _ IHr]; intros h H; [left; exact H|].
    change (known (csaList (collectStringsActual h x) r) s) in H. cbn [strings_list]. rewrite in_app_iff.
    destruct (IHr _ H) as [A|A]; [|auto]. destruct (Hx _ _ A); auto.
Qed.
Lemma cs_known v : forall h s, known (collectStrings h v) s -> known h s \/ In s (strings_of v).
Proof.
  induction v as [k z|t|fs IH|o|w ns vs IH|t l IH|] using hval_ind'; intros h s H; try (left; exact H).
  - rewrite cs_comp in H. change (In s (strings_of (HComp fs))) with (In s (strings_fields fs)).
    revert h H. induction IH as [|[nm x] r Hx _ IHr]; intros h H; [left; exact H|].
    change (known (csFields (match x with HStr s => addStringToHeap h s | _ => collectStrings h x end) r) s) in H.
    cbn [strings_fields snd] in *. rewrite in_app_iff. destruct (IHr _ H) as [A|A]; [|auto].
    destruct x; try (destruct (Hx _ _ A); auto; fail).
    destruct (ash_known _ _ _ A) as [B|B]; [auto|]. right. left. left. congruence.
  - apply IH. exact H.
  - change (In s (strings_of (HSlice t l))) with (In s (strings_list l)). rewrite cs_slice in H.
    destruct (shouldUseVLen (HSlice t l)).
    + exact (csa_known (HSlice t l) h s H).
    + revert h H. induction IH as [|x r Hx _ IHr]; intros h H; [left; exact H|].
      change (known (csList (collectStrings h x) r) s) in H. cbn [strings_list]. rewrite in_app_iff.
      destruct (IHr _ H) as [A|A]; [|auto]. destruct (Hx _ _ A); auto.
Qed.

Lemma strings_all vs : forall h, hinv h ->
  good h (fold_left collectStrings vs h) /\
  Forall (collected (fold_left collectStrings vs h)) vs /\
  forall s, known (fold_left collectStrings vs h) s -> known h s \/ exists v, In v vs /\ In s (strings_of v).
Proof.
  induction vs as [|v vs IH]; intros h Hi.
  - split; [split; [exact Hi|apply grow_refl]|]. split; [constructor|]. cbn [fold_left]. auto.
  - cbn [fold_left]. destruct (cs_good v h Hi) as [A B]. destruct (IH _ A) as (C & D & E). destruct C as [C1 C2].
    split; [split; [exact C1|eapply grow_trans; eassumption]|]. split.
    + constructor; [|exact D]. exists h. split; [exact Hi|exact C2].
    + intros s Hs. destruct (E s Hs) as [F|(w & F1 & F2)].
      * destruct (cs_known v h s F) as [G|G]; [left; exact G|]. right. exists v. split; [left; reflexivity|exact G].
      * right. exists w. split; [right; exact F1|exact F2].
Qed.

(** ** Sequences *)
(** The sequences of an attribute can be put into the heap, and their number *)
Definition aseq_ok (v : hval) : Prop := forall h, hinv h -> collected h v ->
  exists h2 ix, collectVlenFromValue false h v = Ok (h2, ix) /\ hinv h2 /\ grow h h2 /\ hs_map h2 = hs_map h /\
    zlen (hs_objs h2) <= zlen (hs_objs h) + attr_sequences v.
Definition aseq_total (vs : list (akey * hval)) : Z := fold_right (fun kv n => attr_sequences (snd kv) + n) 0 vs.
Definition aseq_kept (hf : heapst) (v : hval) (ix : list Z) : Prop :=
  exists h1 h2, hinv h1 /\ collected h1 v /\ collectVlenFromValue false h1 v = Ok (h2, ix) /\ grow h2 hf.
Lemma aseq_kept_grow h h' v ix : grow h h' -> aseq_kept h v ix -> aseq_kept h' v ix.
Proof.
  intros G (h1 & h2 & A & B & C & D). exists h1, h2. split; [exact A|]. split; [exact B|]. split; [exact C|].
  eapply grow_trans; eassumption.
Qed.
Lemma opt_eqb_eq a b : opt_eqb a b = true <-> a = b.
Proof.
  destruct a as [a|], b as [b|]; cbn [opt_eqb].
  - rewrite beqb_eq. split; congruence.
  - split; discriminate.
  - split; discriminate.
  - split; reflexivity.
Qed.
Lemma akey_eqb_eq a b : akey_eqb a b = true <-> a = b.
Proof.
  destruct a as [[p o] n], b as [[q o'] m]. unfold akey_eqb. rewrite !andb_true_iff, OrderedMapProofs.keys_eqb_eq, opt_eqb_eq, beqb_eq. split.
  - intros [[-> ->] ->]. reflexivity.
  - intros H. split; [split|]; congruence.
Qed.
Lemma collectAttrVlenData_ok vs : Forall (fun kv => aseq_ok (snd kv)) vs -> forall h, hinv h ->
  Forall (fun kv => collected h (snd kv)) vs ->
  exists h2 ix, collectAttrVlenData false vs h = Ok (h2, ix) /\ hinv h2 /\ grow h h2 /\ hs_map h2 = hs_map h /\
    zlen (hs_objs h2) <= zlen (hs_objs h) + aseq_total vs /\
    (NoDup (map fst vs) -> forall k v, In (k, v) vs -> aseq_kept h2 v (lookup akey_eqb [] k ix)).
Proof.
  induction 1 as [|[k v] vs Hv _ IH]; intros h Hi Hc.
  - exists h, []. split; [reflexivity|]. split; [exact Hi|]. split; [apply grow_refl|]. split; [reflexivity|].
    cbn [aseq_total fold_right]. split; [lia|]. intros _ k v [].
  - inversion Hc as [|x r C1 C2]; subst x r. cbn [snd] in *.
    destruct (Hv h Hi C1) as (h2 & ix & A1 & A2 & A3 & A4 & A5).
    destruct (IH h2 A2) as (h3 & ixs & B1 & B2 & B3 & B4 & B5 & B6).
    { eapply Forall_impl; [|exact C2]. intros kv. apply collected_grow. exact A3. }
    exists h3, ((k, ix) :: ixs). cbn [collectAttrVlenData]. rewrite A1. cbn [rbind]. rewrite B1. cbn [rbind].
    split; [reflexivity|]. split; [exact B2|]. split; [eapply grow_trans; eassumption|]. split; [congruence|].
    split; [cbn [aseq_total fold_right snd] in *; fold (aseq_total vs) in *; lia|].
    intros N k' v' [E|Hin]; cbn [map fst] in N; inversion N as [|x r N1 N2]; subst x r; cbn [lookup].
    + assert (k' = k) by congruence. assert (v' = v) by congruence. subst k' v'.
      rewrite (proj2 (akey_eqb_eq k k) eq_refl). exists h, h2. split; [exact Hi|]. split; [exact C1|]. split; [exact A1|exact B3].
    + destruct (akey_eqb k' k) eqn:Ek; [|apply B6; assumption]. apply akey_eqb_eq in Ek. subst k'. exfalso. apply N1.
      apply in_map_iff. exists (k, v'). split; [reflexivity|exact Hin].
Qed.
(** The sequences of a variable can be put into the heap, and their number *)
Definition seq_ok (v : hvar) : Prop := forall h, hinv h -> collected h (hv_val v) ->
  exists h2 ix, collectVlenVar false h (hv_val v) (List.length (hv_dims v)) = Ok (h2, ix) /\
    hinv h2 /\ grow h h2 /\ hs_map h2 = hs_map h /\
    zlen (hs_objs h2) <= zlen (hs_objs h) + sequences (List.length (hv_dims v)) (hv_val v).
Definition seq_total (vs : list (vkey * hvar)) : Z :=
  fold_right (fun kv n => sequences (List.length (hv_dims (snd kv))) (hv_val (snd kv)) + n) 0 vs.
(** The indices of the variable [k] come from some state of the heap before [hf]. *)
Definition seq_kept (hf : heapst) (v : hvar) (ix : list Z) : Prop :=
  exists h1 h2, hinv h1 /\ collected h1 (hv_val v) /\
    collectVlenVar false h1 (hv_val v) (List.length (hv_dims v)) = Ok (h2, ix) /\ grow h2 hf.
Lemma seq_kept_grow h h' v ix : grow h h' -> seq_kept h v ix -> seq_kept h' v ix.
Proof.
  intros G (h1 & h2 & A & B & C & D). exists h1, h2. split; [exact A|]. split; [exact B|]. split; [exact C|].
  eapply grow_trans; eassumption.
Qed.
Lemma vkey_eqb_eq a b : vkey_eqb a b = true <-> a = b.
Proof.
  destruct a as [p n], b as [q m]. unfold vkey_eqb. rewrite andb_true_iff, OrderedMapProofs.keys_eqb_eq, beqb_eq. split.
  - intros [-> ->]. reflexivity.
  - intros H. split; congruence.
Qed.

Lemma collectVlenData_ok vs : Forall (fun kv => seq_ok (snd kv)) vs -> forall h, hinv h ->
  Forall (fun kv => collected h (hv_val (snd kv))) vs ->
  exists h2 ix, collectVlenData false vs h = Ok (h2, ix) /\ hinv h2 /\ grow h h2 /\ hs_map h2 = hs_map h /\
    zlen (hs_objs h2) <= zlen (hs_objs h) + seq_total vs /\
    (NoDup (map fst vs) -> forall k v, In (k, v) vs -> seq_kept h2 v (lookup vkey_eqb [] k ix)).
Proof.
  induction 1 as [|[k v] vs Hv _ IH]; intros h Hi Hc.
  - exists h, []. split; [reflexivity|]. split; [exact Hi|]. split; [apply grow_refl|]. split; [reflexivity|].
    cbn [seq_total fold_right]. split; [lia|]. intros _ k v [].
  - inversion Hc as [|x r C1 C2]; subst x r. cbn [snd] in *.
    destruct (Hv h Hi C1) as (h2 & ix & A1 & A2 & A3 & A4 & A5).
    destruct (IH h2 A2) as (h3 & ixs & B1 & B2 & B3 & B4 & B5 & B6).
    { eapply Forall_impl; [|exact C2]. intros kv. apply collected_grow. exact A3. }
    exists h3, ((k, ix) :: ixs). cbn [collectVlenData]. rewrite A1. cbn [rbind]. rewrite B1. cbn [rbind].
    split; [reflexivity|]. split; [exact B2|]. split; [eapply grow_trans; eassumption|]. split; [congruence|].
    split; [cbn [seq_total fold_right snd] in *; fold (seq_total vs) in *; lia|].
    intros N k' v' [E|Hin]; cbn [map fst] in N; inversion N as [|x r N1 N2]; subst x r; cbn [lookup].
    + assert (k' = k) by congruence. assert (v' = v) by congruence. subst k' v'.
      rewrite (proj2 (vkey_eqb_eq k k) eq_refl). exists h, h2. split; [exact Hi|]. split; [exact C1|]. split; [exact A1|exact B3].
    + destruct (vkey_eqb k' k) eqn:Ek; [|apply B6; assumption]. apply vkey_eqb_eq in Ek. subst k'. exfalso. apply N1.
      apply in_map_iff. exists (k, v'). split; [reflexivity|exact Hin].
Qed.
(** ** References to dimensions *)
Lemma dimref_inj a b : dimref a = dimref b -> a = b.
Proof. unfold dimref. apply app_inv_head. Qed.

Section DimRefs.
Variable addrs : list (bytes * Z).
Variable h3 : heapst.
Hypothesis Hno : forall d, ~ known h3 (dimref d).

Definition dinv (h : heapst) : Prop :=
  (exists tl, hs_objs h = hs_objs h3 ++ tl) /\
  (forall k, (forall d, k <> dimref d) -> bassoc k (hs_map h) = bassoc k (hs_map h3)) /\
  (forall d i, bassoc (dimref d) (hs_map h) = Some i -> exists a, assoc d addrs = Some a /\
     1 <= i <= zlen (hs_objs h) /\ nth_error (hs_objs h) (Z.to_nat (i - 1)) = Some (le 8 a)).

Lemma dinv_start : dinv h3.
Proof.
  split; [exists []; rewrite app_nil_r; reflexivity|]. split; [reflexivity|]. intros d i E. exfalso. apply (Hno d).
  unfold known. rewrite E. discriminate.
Qed.
Lemma dinv_step h d : dinv h -> dinv (addDimRef addrs h d) /\
  (forall s, known h s -> known (addDimRef addrs h d) s) /\
  (d <> [] -> assoc d addrs <> None -> known (addDimRef addrs h d) (dimref d)).
Proof.
  intros (D1 & D2 & D3). unfold addDimRef. destruct (beqb d []) eqn:Ed.
  { apply beqb_eq in Ed. split; [split; [exact D1|split; assumption]|]. split; [auto|]. intros A. contradiction. }
  destruct (bassoc (dimref d) (hs_map h)) as [i|] eqn:Eb.
  { split; [split; [exact D1|split; assumption]|]. split; [auto|]. intros _ _. unfold known. rewrite Eb. discriminate. }
  destruct (assoc d addrs) as [a|] eqn:Ea.
  2:{ split; [split; [exact D1|split; assumption]|]. split; [auto|]. intros _ A. contradiction. }
  pose proof (zlen_nonneg (hs_objs h)) as Z0.
  split; [|split].
  - split; [|split].
    + destruct D1 as (tl & D1). exists (tl ++ [le 8 a]). cbn [hs_objs]. rewrite D1. symmetry. apply app_assoc.
    + intros k Hk. cbn [hs_map bassoc]. destruct (beqb k (dimref d)) eqn:Ek.
      * apply beqb_eq in Ek. exfalso. exact (Hk d Ek).
      * apply D2. exact Hk.
    + intros d' i E. cbn [hs_map hs_objs bassoc] in *. rewrite zlen_app. change (zlen [le 8 a]) with 1.
      destruct (beqb (dimref d') (dimref d)) eqn:Ek.
      * apply beqb_eq, dimref_inj in Ek. subst d'. assert (i = zlen (hs_objs h) + 1) by congruence. subst i.
        exists a. split; [exact Ea|]. split; [lia|].
        replace (Z.to_nat (zlen (hs_objs h) + 1 - 1)) with (List.length (hs_objs h)) by (unfold zlen; lia).
        apply nth_error_last.
      * destruct (D3 d' i E) as (a' & A1 & A2 & A3). exists a'. split; [exact A1|]. split; [lia|].
        rewrite nth_error_app1; [exact A3|]. apply nth_error_Some. congruence.
  - intros s Hs. unfold known. cbn [hs_map bassoc]. destruct (beqb s (dimref d)); [discriminate|exact Hs].
  - intros _ _. unfold known. cbn [hs_map bassoc]. rewrite beqb_refl. discriminate.
Qed.
Lemma dinv_dims ds : forall h, dinv h -> dinv (fold_left (addDimRef addrs) ds h) /\
  (forall s, known h s -> known (fold_left (addDimRef addrs) ds h) s) /\
  (forall d, In d ds -> d <> [] -> assoc d addrs <> None -> known (fold_left (addDimRef addrs) ds h) (dimref d)).
Proof.
  induction ds as [|d ds IH]; intros h Hd; cbn [fold_left].
  - split; [exact Hd|]. split; [auto|]. intros d [].
  - destruct (dinv_step h d Hd) as (A & B & C). destruct (IH _ A) as (D & E & F).
    split; [exact D|]. split; [auto|]. intros d' [<-|Hd'] H1 H2; [apply E, C; assumption|apply F; assumption].
Qed.
Lemma dinv_all vs : forall h, dinv h -> dinv (collectDimReferences addrs vs h) /\
  (forall s, known h s -> known (collectDimReferences addrs vs h) s) /\
  (forall kv d, In kv vs -> hv_scale (snd kv) = false -> In d (hv_dims (snd kv)) -> d <> [] -> assoc d addrs <> None ->
     known (collectDimReferences addrs vs h) (dimref d)).
Proof.
  unfold collectDimReferences. induction vs as [|kv vs IH]; intros h Hd; cbn [fold_left].
  - split; [exact Hd|]. split; [auto|]. intros kv d [].
  - assert (S : dinv (if hv_scale (snd kv) then h else fold_left (addDimRef addrs) (hv_dims (snd kv)) h) /\
      (forall s, known h s -> known (if hv_scale (snd kv) then h else fold_left (addDimRef addrs) (hv_dims (snd kv)) h) s) /\
      (forall d, hv_scale (snd kv) = false -> In d (hv_dims (snd kv)) -> d <> [] -> assoc d addrs <> None ->
         known (if hv_scale (snd kv) then h else fold_left (addDimRef addrs) (hv_dims (snd kv)) h) (dimref d))).
    { destruct (hv_scale (snd kv)); [split; [exact Hd|split; [auto|discriminate]]|].
      destruct (dinv_dims (hv_dims (snd kv)) h Hd) as (A & B & C). split; [exact A|]. split; [exact B|]. intros d _. apply C. }
    destruct S as (A & B & C). destruct (IH _ A) as (D & E & F).
    split; [exact D|]. split; [auto|]. intros kv' d [<-|Hk] H1 H2 H3 H4; [apply E, C; assumption|eapply F; eassumption].
Qed.
End DimRefs.

(** ** The heap *)
Record heap_facts (o : orders) (addrs : list (bytes * Z)) (n : Z) (b : bytes) (c : wctx) (e : henv) (hf : heapst) : Prop := {
  hf_inv : hinv hf;
  hf_collected : forall v, In v (o_strings o) -> collected hf v;
  hf_dims : c_dims c = addrs;
  hf_vix : forall k v, In (k, v) (o_vlen o) -> seq_kept hf v (lookup vkey_eqb [] k (c_vix c));
  hf_aix : forall k v, In (k, v) (o_attrs o) -> aseq_kept hf v (lookup akey_eqb [] k (c_aix c));
  hf_heap : c_heap c = Some e;
  hf_stored : (hs_objs hf = [] /\ he_addr e = 0) \/ globalHeap n (hs_objs hf) = (he_addr e, b);
  hf_idx : forall s, no_dimref s -> he_idx e s = map_idx (hs_map hf) s;
  hf_refs : forall kv d a, In kv (o_dims o) -> hv_scale (snd kv) = false -> In d (hv_dims (snd kv)) -> d <> [] ->
    assoc d addrs = Some a -> 1 <= he_idx e (dimref d) <= zlen (hs_objs hf) /\
      nth_error (hs_objs hf) (Z.to_nat (he_idx e (dimref d) - 1)) = Some (le 8 a);
  hf_objs : exists h3, hs_map h3 = hs_map (fold_left collectStrings (o_strings o) emptyHeap) /\
    zlen (hs_objs h3) <= zlen (hs_objs (fold_left collectStrings (o_strings o) emptyHeap)) + (seq_total (o_vlen o) + aseq_total (o_attrs o)) /\
    hs_objs hf = hs_objs (collectDimReferences addrs (o_dims o) h3) }.

Lemma build_heap o addrs n b c : buildHeap false o addrs n = Ok (b, c) ->
  Forall (fun kv => seq_ok (snd kv)) (o_vlen o) -> Forall (fun kv => In (hv_val (snd kv)) (o_strings o)) (o_vlen o) ->
  NoDup (map fst (o_vlen o)) ->
  Forall (fun kv => aseq_ok (snd kv)) (o_attrs o) -> Forall (fun kv => In (snd kv) (o_strings o)) (o_attrs o) ->
  NoDup (map fst (o_attrs o)) ->
  (forall v s, In v (o_strings o) -> In s (strings_of v) -> no_dimref s) ->
  exists e hf, heap_facts o addrs n b c e hf.
Proof.
  intros E Hv Hvi Hvn Ha Hai Han Hs. unfold buildHeap in E. cbv zeta in E.
  destruct (strings_all (o_strings o) emptyHeap hinv_empty) as ([G1 G2] & G3 & G4).
  set (h0 := fold_left collectStrings (o_strings o) emptyHeap) in *.
  destruct (collectVlenData_ok (o_vlen o) Hv h0 G1) as (h01 & vix & V1 & W2 & W3 & W4 & W5 & W6).
  { rewrite Forall_forall in *. intros kv Hk. apply G3. apply Hvi. exact Hk. }
  rewrite V1 in E. cbn [rbind] in E.
  destruct (collectAttrVlenData_ok (o_attrs o) Ha h01 W2) as (h1 & aix & K1 & V2 & K3 & K4 & K5 & K6).
  { rewrite Forall_forall in *. intros kv Hk. eapply collected_grow; [exact W3|]. apply G3. apply Hai. exact Hk. }
  rewrite K1 in E. cbn [rbind] in E.
  assert (V3 : grow h0 h1) by (eapply grow_trans; eassumption). assert (V4 : hs_map h1 = hs_map h0) by congruence.
  assert (V5 : zlen (hs_objs h1) <= zlen (hs_objs h0) + (seq_total (o_vlen o) + aseq_total (o_attrs o))) by lia.
  assert (Hno : forall d, ~ known h1 (dimref d)).
  { intros d Hd. unfold known in Hd. rewrite V4 in Hd. destruct (G4 _ Hd) as [A|(v & A & B)]; [apply A; reflexivity|]. exact (Hs v _ A B d eq_refl). }
  destruct (dinv_all addrs h1 Hno (o_dims o) h1 (dinv_start addrs h1 Hno)) as ((D1 & D2 & D3) & _ & D5).
  set (h4 := collectDimReferences addrs (o_dims o) h1) in *. destruct D1 as (tl & D1).
  set (hf := {| hs_objs := hs_objs h4; hs_map := hs_map h1 |}).
  assert (Gf : grow h1 hf) by (split; [exists tl; exact D1|auto]).
  destruct (match hs_objs h4 with [] => (0, []) | _ :: _ => globalHeap n (hs_objs h4) end) as [addr b'] eqn:Eh.
  assert (b' = b) by congruence.
  exists {| he_addr := addr; he_idx := map_idx (hs_map h4) |}, hf.
  assert (Ec : c = mkCtx (Some {| he_addr := addr; he_idx := map_idx (hs_map h4) |}) addrs vix aix) by congruence.
  subst b' c. clear E. constructor; cbn [c_dims c_vix c_aix c_heap].
  - intros s i Hi. cbn [hf hs_objs hs_map] in *. destruct (V2 s i Hi) as [A B]. rewrite D1, zlen_app.
    pose proof (zlen_nonneg tl). split; [lia|]. rewrite nth_error_app1; [exact B|]. apply nth_error_Some. congruence.
  - intros v Hin. rewrite Forall_forall in G3. eapply collected_grow; [eapply grow_trans; [exact V3|exact Gf]|]. apply G3. exact Hin.
  - reflexivity.
  - intros k v Hin. eapply seq_kept_grow; [eapply grow_trans; [exact K3|exact Gf]|]. apply W6; assumption.
  - intros k v Hin. eapply aseq_kept_grow; [exact Gf|]. apply K6; assumption.
  - reflexivity.
  - cbn [hf hs_objs he_addr]. destruct (hs_objs h4) as [|x r].
    + left. split; [reflexivity|]. congruence.
    + right. exact Eh.
  - intros s Hns. cbn [he_idx hf hs_map]. unfold map_idx. rewrite (D2 s Hns). reflexivity.
  - intros kv d a H1 H2 H3 H4 H5. assert (K : known h4 (dimref d)) by (apply (D5 kv d); try assumption; rewrite H5; discriminate).
    cbn [he_idx hf hs_objs]. unfold map_idx. unfold known in K.
    destruct (bassoc (dimref d) (hs_map h4)) as [i|] eqn:Ei; [|congruence].
    destruct (D3 d i Ei) as (a' & A1 & A2 & A3). assert (a' = a) by congruence. subst a'. split; [exact A2|exact A3].
  - exists h1. split; [exact V4|]. split; [exact V5|reflexivity].
Qed.
