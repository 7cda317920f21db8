(** Variables: datatype, heap and data together. *)
From Verif Require Import Prelude GoVal H5Base H5MetaWrite H5MetaRead H5Value H5TypeRead
  TypeSpec BaseLemmas H5ChecksumProofs H5MetaProofs H5TypeProofs H5DataProofs H5StoreProofs.
From Coq Require Import ZifyBool ZifyNat.

Lemma vlen_field_conf s nm x : novlen s = true -> conf s x -> vlen_field (nm, x) = false.
Proof.
  intros Hn H. unfold vlen_field. cbn [snd]. destruct s as [k| |n|k ns vs|fs|s]; try discriminate;
    destruct H as (z & -> & _); reflexivity.
Qed.

Lemma elem_no_vlen s v : novlen s = true -> conf s v -> hasVlenData 0 v = false.
Proof.
  intros Hn H. destruct s as [k| |n|k ns vs|fs|s]; try discriminate.
  - destruct H as (z & -> & _). reflexivity.
  - destruct H as (z & -> & _). reflexivity.
  - destruct H as (z & -> & _). reflexivity.
  - destruct H as (z & -> & _). reflexivity.
  - apply (proj1 (conf_comp _ _)) in H. destruct H as (l & -> & H). cbn [hasVlenData].
    rewrite novlen_comp in Hn. revert l H Hn.
    induction fs as [|[nm s] fs IH]; intros [|[nm' x] l] H Hn; cbn [conf_fields] in H;
      try contradiction; [reflexivity|].
    destruct H as (-> & Hx & H). cbn [novlen_fields] in Hn. apply andb_true_iff in Hn.
    destruct Hn as [N1 N2]. cbn [existsb]. rewrite (vlen_field_conf s nm x N1 Hx). apply IH; assumption.
Qed.

Lemma array_no_vlen s dims : novlen s = true -> (forall n, In n dims -> 0 < n) -> forall v,
  array_of s dims v -> hasVlenData (List.length dims) v = false.
Proof.
  intros Hn. induction dims as [|n ds IH]; intros Hp v H; cbn [array_of] in H.
  - apply (elem_no_vlen s); assumption.
  - destruct H as (l & -> & Hl & H). destruct l as [|x r].
    { specialize (Hp n (or_introl eq_refl)). change (zlen (@nil hval)) with 0 in Hl. lia. }
    cbn [List.length hasVlenData]. inversion H as [|x' r' Hx Hr]; subst x' r'.
    apply IH; [|exact Hx]. intros m Hm. apply Hp. right. exact Hm.
Qed.

Lemma empty_collect s dims : (exists n, In n dims /\ n <= 0) -> forall v h,
  array_of s dims v -> collectVlenElements false h (List.length dims) v = Ok (h, []).
Proof.
  induction dims as [|n ds IH]; intros (m & Hm & Hm0) v h H; [contradiction|].
  cbn [array_of] in H. destruct H as (l & -> & Hl & H). cbn [List.length].
  change (collectVlenElements false h (S (List.length ds)) (HSlice (nested (List.length ds) (go_type s)) l))
    with (cveList (List.length ds) h l).
  destruct Hm as [<-|Hm].
  - assert (l = []) as -> by (apply zlen_zero; pose proof (zlen_nonneg l); lia). reflexivity.
  - clear Hl. induction H as [|x r Hx _ IHr]; [reflexivity|].
    change (cveList (List.length ds) h (x :: r))
      with (let* (h, is) := collectVlenElements false h (List.length ds) x in
            let* (h, js) := cveList (List.length ds) h r in Ok (h, is ++ js)).
    rewrite (IH (ex_intro _ m (conj Hm Hm0)) x h Hx). cbn [rbind]. rewrite IHr. reflexivity.
Qed.

Lemma pos_dec dims : (forall n, In n dims -> 0 < n) \/ (exists n, In n dims /\ n <= 0).
Proof.
  induction dims as [|n ds IH]; [left; intros n []|].
  destruct (Z_lt_le_dec 0 n) as [Hn|Hn].
  - destruct IH as [IH|(m & Hm & Hm0)].
    + left. intros m [<-|Hm]; auto.
    + right. exists m. split; [right; exact Hm|exact Hm0].
  - right. exists n. split; [left; reflexivity|exact Hn].
Qed.

Lemma novlen_collect s dims v h : novlen s = true -> array_of s dims v ->
  collectVlenVar false h v (List.length dims) = Ok (h, []).
Proof.
  intros Hn H. unfold collectVlenVar. destruct (pos_dec dims) as [Hp|Hp].
  - rewrite (array_no_vlen s dims Hn Hp v H). reflexivity.
  - rewrite (empty_collect s dims Hp v h H). destruct (hasVlenData _ _); reflexivity.
Qed.

Lemma rows_have_vlen s dims : (forall n, In n dims -> 0 < n) -> forall v,
  array_of (SVlen s) dims v -> hasVlenData (List.length dims) v = true.
Proof.
  induction dims as [|n ds IH]; intros Hp v H; cbn [array_of] in H.
  - apply (proj1 (conf_vlen _ _)) in H. destruct H as (l & -> & _). reflexivity.
  - destruct H as (l & -> & Hl & H). destruct l as [|x r].
    { specialize (Hp n (or_introl eq_refl)). change (zlen (@nil hval)) with 0 in Hl. lia. }
    cbn [List.length hasVlenData]. inversion H as [|x' r' Hx Hr]; subst x' r'.
    apply IH; [|exact Hx]. intros m Hm. apply Hp. right. exact Hm.
Qed.

Lemma every_all (Q : hval -> Prop) n : (forall v, Q v) -> forall v, every Q n v.
Proof.
  intros H. induction n as [|n IH]; intros v; cbn [every]; [apply H|].
  destruct v; try exact I. apply Forall_forall. intros x _. apply IH.
Qed.

Lemma alloc_dims heap s dims : novlen s = true -> (forall k ns vs, s <> SEnum k ns vs) ->
  alloc heap (describe s) dims = allocDims (go_type s) (alloc heap (describe s) []) dims.
Proof.
  intros Hn He. destruct s as [k| |n|k ns vs|fs|s]; try reflexivity; try discriminate.
  - destruct k; reflexivity.
  - exfalso. eapply He. reflexivity.
Qed.

Lemma fixedLen_str dims v : dims <> [] -> array_of SStr dims v -> fixedLenOf v = 0.
Proof.
  intros Hd H. destruct dims as [|n ds]; [congruence|]. cbn [array_of] in H.
  destruct H as (l & -> & _). unfold fixedLenOf. rewrite (proj1 (uses_vlen SStr _ [] l eq_refl)). reflexivity.
Qed.

(** What a finished file must provide: [heap] gives the objects of the heap [hf] stored at
    [addr] *)
Definition heap_gives (heap : Z -> Z -> res (option bytes)) (addr : Z) (hf : heapst) : Prop :=
  0 <= addr < 2 ^ 64 /\ zlen (hs_objs hf) < 2 ^ 32 /\
  forall i b, nth_error (hs_objs hf) i = Some b -> b <> [] -> heap addr (Z.of_nat i + 1) = Ok (Some b).

Definition env_of (addr : Z) (hf : heapst) : henv :=
  {| he_addr := addr; he_idx := map_idx (hs_map hf) |}.

Definition readable (heap : Z -> Z -> res (option bytes)) (e : henv) (s : sty) (dims : list Z) (v : hval)
  (ix : list Z) : Prop :=
  exists data, writeDataVar false e v (List.length dims) ix = Ok (data, []) /\
    zlen data = fold_left Z.mul dims (size_of s) /\
    forall r, alloc heap (describe s) dims (data ++ r) = Ok (v, r).

Lemma array_var s dims v h0 h1 : writable s -> novlen s = true -> (s = SStr -> dims <> []) ->
  array_of s dims v -> hinv h0 -> grow (collectStrings h0 v) h1 -> forall hf heap addr,
  grow h1 hf -> hinv hf -> heap_gives heap addr hf ->
  exists data, writeData false (env_of addr hf) (fixedLenOf v) (List.length dims) v [] = Ok (data, []) /\
    zlen data = fold_left Z.mul dims (size_of s) /\
    forall r, allocDims (go_type s) (alloc heap (describe s) []) dims (data ++ r) = Ok (v, r).
Proof.
  intros Hw Hn Hs H H0 G1 hf heap addr G2 Hf (Ha & Hc & Hh).
  assert (Hst : every (strs hf s) (List.length dims) v).
  { eapply every_grow; [eapply grow_trans; [exact G1|exact G2]|].
    apply cs_array; try assumption. destruct s; first [left; discriminate | right; apply Hs; reflexivity]. }
  pose proof (strs_stored_arr heap addr hf Hf Hc Hh s dims Hn v [] H Hst) as Hst'.
  destruct (array_write heap (env_of addr hf) s (fixedLenOf v)) with
    (R := fun v b => forall r, alloc heap (describe s) [] (b ++ r) = Ok (v, r)) (Q := fun _ : hval => True)
    (dims := dims) (v := v) (ix := @nil Z) (ix' := @nil Z) as (b & A & B & C); try assumption.
  - intros ->. eapply fixedLen_str; [|exact H]. apply Hs. reflexivity.
  - intros x ix ix' Hx _ Hsx.
    destruct (elem_codec heap (env_of addr hf) Ha s Hw x ix ix' Hx (novlen_seqs s Hn x) Hsx) as (b & A & B & C).
    exists b. auto.
  - apply every_all. intros; exact I.
  - exists b. split; [exact A|]. split; [exact B|]. apply allocDims_read. exact C.
Qed.

Lemma variable_codec s dims v : var_type s -> value_of s dims v -> shape_ok s dims v ->
  buildDatatypeMessage false v (List.length dims) = Ok (sdt s) /\
  forall h0 h1, hinv h0 -> hinv h1 -> grow (collectStrings h0 v) h1 ->
  exists h2 ix, collectVlenVar false h1 v (List.length dims) = Ok (h2, ix) /\
    hinv h2 /\ grow h1 h2 /\ hs_map h2 = hs_map h1 /\
    forall hf heap addr, grow h2 hf -> hinv hf -> heap_gives heap addr hf ->
      readable heap (env_of addr hf) s dims v ix.
Proof.
  intros [Hw Hv] Hval Hsh. destruct s as [k| |n|k ns vs|fs|s'].
  1,2,3,5: cbn [value_of] in Hval; assert (Hn : novlen _ = true)
    by (destruct Hv as [Hv|(s' & Hv)]; [exact Hv|discriminate]); split;
    [ (apply buildDt_plain; [first [left; eexists; reflexivity|right; split; [reflexivity|exact Hsh]]|assumption])
      || (destruct Hsh as [Hp Hf]; apply buildDt_first; try assumption; discriminate)
    | intros h0 h1 H0 H1 G; exists h1, []; split; [eapply novlen_collect; eassumption|];
      split; [exact H1|]; split; [apply grow_refl|]; split; [reflexivity|];
      intros hf heap addr G2 Hf Hh; unfold readable, writeDataVar;
      rewrite alloc_dims by (try exact Hn; intros; discriminate);
      apply (array_var _ dims v h0 h1); try assumption; try discriminate; intros _; exact Hsh ].
  - cbn [value_of] in Hval. destruct Hval as (w & -> & Hwv). split.
    + eapply buildDt_enum; eassumption.
    + intros h0 h1 H0 H1 G. exists h1, []. split.
      { change (collectVlenVar false h1 (HEnum w ns (map (HNum k) vs)) (List.length dims))
          with (collectVlenVar false h1 w (List.length dims)).
        apply (novlen_collect (SNum k)); [reflexivity|exact Hwv]. }
      split; [exact H1|]. split; [apply grow_refl|]. split; [reflexivity|].
      intros hf heap addr G2 Hf Hh. unfold readable, writeDataVar.
      destruct (array_var (SNum k) dims w h0 h1) with (hf := hf) (heap := heap) (addr := addr)
        as (data & A & B & C); try assumption; try exact I; try reflexivity; try discriminate.
      exists data. split; [|split; [exact B|]].
      * change (fixedLenOf (HEnum w ns (map (HNum k) vs))) with 0. cbn [writeData].
        assert (E : forall fl, writeData false (env_of addr hf) fl (List.length dims) w =
                               writeData false (env_of addr hf) 0 (List.length dims) w); [|rewrite (E (fixedLenOf w)) in A; exact A].
        clear - Hwv. intros fl. revert w Hwv. induction dims as [|n ds IH]; intros w H; cbn [array_of] in H.
        { destruct H as (z & -> & _). reflexivity. }
        destruct H as (l & -> & _ & H). cbn [List.length]. rewrite !writeData_slice.
        induction H as [|x r Hx _ IHr]; [reflexivity|].
        change (writeList false (env_of addr hf) fl (List.length ds) (x :: r))
          with (wseq (writeData false (env_of addr hf) fl (List.length ds) x)
                     (writeList false (env_of addr hf) fl (List.length ds) r)).
        rewrite (IH x Hx), IHr. reflexivity.
      * intros r. specialize (C r). destruct Hw as (Hk & _). cbn [describe alloc].
        rewrite int_kind_of by exact Hk.
        rewrite (pbind_ok _ _ _ w r); [reflexivity|]. cbn [go_type] in C.
        assert (E : alloc heap (describe (SNum k)) [] = readNum k false) by (destruct k; reflexivity).
        rewrite E in C. exact C.
  - cbn [value_of] in Hval. destruct Hw as [Hw Hc]. destruct Hsh as [Hp Hf1]. split.
    + apply buildDt_first; try assumption; [split; assumption|discriminate].
    + intros h0 h1 H0 H1 G. unfold collectVlenVar.
      rewrite (rows_have_vlen s' dims Hp v Hval).
      destruct (seqs_stored (fun _ _ => Err EInternal) 0 {| hs_objs := []; hs_map := [] |})
        with (s := s') (dims := dims) (v := v) (h := h1)
        as (h2 & ix & A1 & A2 & A3 & A4 & _); try assumption.
      { reflexivity. }
      { intros i b Hi. destruct i; discriminate. }
      exists h2, ix. split; [exact A1|]. split; [exact A2|]. split; [exact A3|]. split; [exact A4|].
      intros hf heap addr G2 Hf (Ha & Hcount & Hh).
      destruct (seqs_stored heap addr hf Hcount Hh s' dims Hw Hc v h1 H1 Hval)
        as (h2' & ix' & B1 & _ & _ & _ & B5).
      assert (h2' = h2 /\ ix' = ix) as [-> ->] by (split; congruence).
      specialize (B5 G2 []). rewrite app_nil_r in B5.
      set (one := readVlenSeq heap (dlen (describe s')) (alloc heap (describe s') [])).
      destruct (array_write heap (env_of addr hf) (SVlen s') (fixedLenOf v)) with
        (R := fun v b => htype v = go_type (SVlen s') /\ forall r, one (b ++ r) = Ok (v, r))
        (Q := fun _ : hval => True) (dims := dims) (v := v) (ix := ix) (ix' := @nil Z)
        as (data & C1 & C2 & C3); try assumption; try discriminate.
      * intros x jx jx' Hx _ Hsx. apply (proj1 (conf_vlen _ _)) in Hx. destruct Hx as (l & -> & Hl & Hx).
        cbn [stored] in Hsx. destruct Hsx as (i & -> & Hi & Hhi).
        exists (descriptor (env_of addr hf) (zlen l) i). split; [reflexivity|].
        split; [apply zlen_descriptor|]. split; [reflexivity|]. unfold one. intros r.
        apply row_read; assumption.
      * apply every_all. intros; exact I.
      * exists data. split; [exact C1|]. split; [exact C2|]. intros r. cbn [describe alloc].
        rewrite (pbind_ok _ _ _ v r).
        { unfold pret. rewrite undo_same; [reflexivity|eapply rows_welltyped; eassumption|].
          eapply undo_type; eassumption. }
        apply (allocVariable_read (go_type (SVlen s'))); assumption.
Qed.

(** scalar strings are stored in the dataset with a terminating zero *)
Lemma scalar_string t : text t -> zlen t + 1 < 2 ^ 32 ->
  buildDatatypeMessage false (HStr t) 0 = Ok (stringDt (zlen t + 1)) /\
  parseDatatype (stringDt (zlen t + 1)) = Ok (DString (zlen t + 1), []) /\
  forall heap e ix r, exists data, writeDataVar false e (HStr t) 0 ix = Ok (data, ix) /\
    alloc heap (DString (zlen t + 1)) [] (data ++ r) = Ok (HStr t, r).
Proof.
  intros Ht Hl. pose proof (zlen_nonneg t) as H0. split; [reflexivity|]. split.
  - unfold parseDatatype. rewrite <- (app_nil_r (stringDt (zlen t + 1))) at 2. apply parse_string. lia.
  - intros heap e ix r. unfold writeDataVar, fixedLenOf, shouldUseVLen, leaf_is_string.
    cbn [htype leaf_ty is_hslice andb findMaxLen writeData].
    replace (0 <? zlen t + 1) with true by lia. exists (t ++ [0]). split.
    + unfold wput. replace (zlen t + 1 - zlen t) with 1 by lia. reflexivity.
    + cbn [alloc allocRegularStrings]. unfold readFixedString.
      rewrite (pbind_ok _ _ _ (t ++ [0]) r).
      * unfold pret. do 3 f_equal. clear - Ht. induction Ht as [|b l Hb _ IH]; [reflexivity|].
        cbn [app getString]. replace (b =? 0) with false by lia. rewrite IH. reflexivity.
      * apply rd_app. rewrite zlen_app. reflexivity.
Qed.

(** ** Dimensions *)
Lemma dims_limited s dims : (forall n, In n dims -> 0 < n) -> forall v, array_of s dims v ->
  getDimsLimited (List.length dims) v = dims.
Proof.
  induction dims as [|n ds IH]; intros Hp v H; cbn [array_of] in H.
  - destruct s as [k| |n|k ns vs|fs|s]; destruct H as (z & -> & H); try reflexivity.
  - destruct H as (l & -> & Hl & H). destruct l as [|x r].
    { specialize (Hp n (or_introl eq_refl)). change (zlen (@nil hval)) with 0 in Hl. lia. }
    cbn [List.length getDimsLimited]. inversion H as [|x' r' Hx Hr]; subst x' r'.
    rewrite (IH (fun m Hm => Hp m (or_intror Hm)) x Hx). congruence.
Qed.

(** ** Several variables *)
Lemma strings_good vs : forall h, hinv h ->
  good h (fold_left (fun h (v : hval * nat) => collectStrings h (fst v)) vs h).
Proof.
  induction vs as [|v vs IH]; intros h Hi; [split; [exact Hi|apply grow_refl]|].
  cbn [fold_left]. eapply good_trans; [apply cs_good, Hi|]. apply IH. apply cs_good, Hi.
Qed.

Definition var_ok (x : sty * list Z * hval) : Prop :=
  match x with (s, dims, v) => var_type s /\ value_of s dims v /\ shape_ok s dims v end.
Definition var_in (x : sty * list Z * hval) : hval * nat :=
  match x with (s, dims, v) => (v, List.length dims) end.
(** the strings of [v] have been collected before [h1] *)
Definition collected (h1 : heapst) (v : hval) : Prop :=
  exists h0, hinv h0 /\ grow (collectStrings h0 v) h1.

Lemma collected_all vs : forall h h1, hinv h ->
  grow (fold_left (fun h (v : hval * nat) => collectStrings h (fst v)) vs h) h1 ->
  Forall (fun v => collected h1 (fst v)) vs.
Proof.
  induction vs as [|v vs IH]; intros h h1 Hi G; [constructor|]. cbn [fold_left] in G.
  destruct (cs_good (fst v) h Hi) as [A B]. constructor.
  - exists h. split; [exact Hi|]. eapply grow_trans; [|exact G]. apply strings_good. exact A.
  - eapply IH; [exact A|exact G].
Qed.

Lemma collected_grow h1 h2 v : grow h1 h2 -> collected h1 v -> collected h2 v.
Proof. intros G (h0 & A & B). exists h0. split; [exact A|]. eapply grow_trans; eassumption. Qed.

Lemma vlen_vars vars : Forall var_ok vars -> forall h,
  hinv h -> Forall (fun x => collected h (snd x)) vars ->
  exists hf ixs, collectVlenVars false h (map var_in vars) = Ok (hf, ixs) /\ hinv hf /\ grow h hf /\
    forall hf' heap addr, grow hf hf' -> hinv hf' -> heap_gives heap addr hf' ->
    Forall2 (fun x ix => readable heap (env_of addr hf') (fst (fst x)) (snd (fst x)) (snd x) ix) vars ixs.
Proof.
  induction 1 as [|[[s dims] v] vars (Ht & Hv & Hs) _ IH]; intros h Hi Hc.
  - exists h, []. split; [reflexivity|]. split; [exact Hi|]. split; [apply grow_refl|].
    intros. constructor.
  - inversion Hc as [|x' r' C1 C2]; subst x' r'. cbn [snd] in C1. destruct C1 as (h0 & D1 & D2).
    destruct (variable_codec s dims v Ht Hv Hs) as [_ E].
    destruct (E h0 h D1 Hi D2) as (h2 & ix & F1 & F2 & F3 & F4 & F5).
    destruct (IH h2 F2) as (hf & ixs & G1 & G2 & G3 & G4).
    { eapply Forall_impl; [|exact C2]. intros x. apply collected_grow. exact F3. }
    exists hf, (ix :: ixs). cbn [map var_in collectVlenVars]. rewrite F1. cbn [rbind]. rewrite G1.
    split; [reflexivity|]. split; [exact G2|]. split; [eapply grow_trans; eassumption|].
    intros hf' heap addr A1 A2 A3. constructor; [|apply G4; assumption].
    cbn [fst snd]. apply F5; try assumption. eapply grow_trans; eassumption.
Qed.
