(** Proofs about the data codec (H5Value, H5TypeRead) against TypeSpec. *)
From Verif Require Import Prelude GoVal H5Base H5MetaWrite H5MetaRead H5Value H5TypeRead
  TypeSpec BaseLemmas H5ChecksumProofs H5MetaProofs H5TypeProofs.
From Coq Require Import ZifyBool ZifyNat.
Ltac Zify.zify_post_hook ::= Z.div_mod_to_equations.

(** ** Nesting and size of the message *)
Lemma le_len n z : List.length (le n z) = n.
Proof. apply le_length. Qed.

Lemma depth_le s : (depth s <= List.length (sdt s))%nat.
Proof.
  induction s as [k| |n|k ns vs|fs IH|s IH] using sty_ind'.
  - destruct k; vm_compute; lia.
  - vm_compute. lia.
  - cbn [sdt]. unfold opaqueDt. rewrite app_length, le_len. cbn [List.length depth]. lia.
  - cbn [sdt depth]. rewrite !app_length. unfold fixedPointDt, count3. rewrite !app_length, !le_len.
    cbn [List.length]. lia.
  - rewrite depth_comp, sdt_comp. rewrite !app_length. unfold count3. rewrite !le_len.
    cbn [List.length].
    enough (E : forall total off, (depth_fields fs <= List.length (smembers total off fs))%nat)
      by (specialize (E (size_fields fs) 0); lia).
    intros total. induction IH as [|[nm s] fs Hs _ IHf]; intros off; [cbn; lia|].
    change (smembers total off ((nm, s) :: fs))
      with (nm ++ [0] ++ writeEnc off total ++ sdt s ++ smembers total (off + size_of s) fs).
    cbn [depth_fields]. rewrite !app_length. cbn [snd] in Hs. specialize (IHf (off + size_of s)). lia.
  - cbn [sdt depth]. unfold vlenHead. rewrite !app_length, le_len. cbn [List.length]. lia.
Qed.

Lemma parse_message s : writable s -> parseDatatype (sdt s) = Ok (describe s, []).
Proof.
  intros H. unfold parseDatatype. rewrite <- (app_nil_r (sdt s)) at 2. apply parse_sdt.
  - exact H.
  - pose proof (depth_le s). lia.
  - reflexivity.
Qed.

(** ** Bytes of closed values *)
Fixpoint cbytes (v : hval) : bytes :=
  match v with
  | HNum k z => enc_le k z
  | HOpaque b => b
  | HEnum w _ _ => cbytes w
  | HComp fs => (fix go (fs : list (bytes * hval)) : bytes :=
                   match fs with [] => [] | (_, x) :: r => cbytes x ++ go r end) fs
  | _ => []
  end.
Fixpoint cfields (fs : list (bytes * hval)) : bytes :=
  match fs with [] => [] | (_, x) :: r => cbytes x ++ cfields r end.
Lemma cbytes_comp fs : cbytes (HComp fs) = cfields fs.
Proof. reflexivity. Qed.

Lemma closed_write s : closed s = true -> forall e v ix, conf s v ->
  writeField false e v ix = Ok (cbytes v, ix).
Proof.
  induction s as [k| |n|k ns vs|fs IH|s IH] using sty_ind'; intros Hc e v ix H; try discriminate.
  - destruct H as (z & -> & _). reflexivity.
  - destruct H as (b & -> & _). reflexivity.
  - destruct H as (z & -> & _). reflexivity.
  - apply (proj1 (conf_comp _ _)) in H. destruct H as (l & -> & H).
    rewrite writeField_comp, cbytes_comp. rewrite closed_comp in Hc.
    revert l H Hc ix. induction IH as [|[nm s] fs Hs _ IHf]; intros [|[nm' x] l] H Hc ix;
      cbn [conf_fields] in H; try contradiction.
    + reflexivity.
    + destruct H as (-> & Hx & H). cbn [closed_fields] in Hc. apply andb_true_iff in Hc.
      destruct Hc as [Hc1 Hc2]. cbn [snd] in Hs.
      change (writeFields false e ((nm, x) :: l)) with (wseq (writeField false e x) (writeFields false e l)).
      unfold wseq. rewrite (Hs Hc1 _ _ _ Hx). cbn [rbind]. rewrite (IHf _ H Hc2). reflexivity.
Qed.

Lemma closed_ser s h v : closed s = true -> conf s v ->
  serializeElem false h v = Ok (cbytes v).
Proof.
  intros Hc H. destruct s as [k| |n|k ns vs|fs|s]; try discriminate.
  - destruct H as (z & -> & _). reflexivity.
  - destruct H as (b & -> & _). reflexivity.
  - destruct H as (z & -> & _). reflexivity.
  - pose proof (closed_write _ Hc (collect_env h) v [] H) as E.
    apply (proj1 (conf_comp _ _)) in H. destruct H as (l & -> & H).
    rewrite writeField_comp in E. unfold serializeElem. rewrite E. reflexivity.
Qed.

Lemma closed_sers s h l : closed s = true -> Forall (conf s) l ->
  rconcat (map (serializeElem false h) l) = Ok (flat_map cbytes l).
Proof.
  intros Hc. induction 1 as [|x r Hx _ IH]; [reflexivity|]. cbn [map rconcat flat_map].
  rewrite (closed_ser _ _ _ Hc Hx), IH. reflexivity.
Qed.

(** ** One element *)
(** What the heap must hold for a value: its strings, and its sequences in order *)
Section Stored.
  Variable heap : Z -> Z -> res (option bytes).
  Variable e : henv.
  Fixpoint stored (s : sty) (v : hval) (ix ix' : list Z) {struct s} : Prop :=
    match s, v with
    | SStr, HStr t => ix' = ix /\ (t = [] \/ heap (he_addr e) (he_idx e t) = Ok (Some t))
                      /\ 0 <= he_idx e t < 2 ^ 32
    | SVlen _, HSlice _ l =>
        exists i, ix = i :: ix' /\ 0 <= i < 2 ^ 32 /\
                  (l = [] \/ heap (he_addr e) i = Ok (Some (flat_map cbytes l)))
    | SComp fs, HComp l =>
        (fix go (fs : list (bytes * sty)) (l : list (bytes * hval)) (ix : list Z) : Prop :=
           match fs, l with
           | (_, s) :: fs', (_, x) :: l' => exists jx, stored s x ix jx /\ go fs' l' jx
           | _, _ => ix' = ix
           end) fs l ix
    | _, _ => ix' = ix
    end.
  Fixpoint stored_fields (ix' : list Z) (fs : list (bytes * sty)) (l : list (bytes * hval)) (ix : list Z)
    : Prop :=
    match fs, l with
    | (_, s) :: fs', (_, x) :: l' => exists jx, stored s x ix jx /\ stored_fields ix' fs' l' jx
    | _, _ => ix' = ix
    end.
  Lemma stored_comp fs l ix ix' :
    stored (SComp fs) (HComp l) ix ix' <-> stored_fields ix' fs l ix.
  Proof.
    cbn [stored]. revert l ix. induction fs as [|[nm s] fs IH]; intros [|[nm' x] l] ix; try reflexivity.
    cbn [stored_fields]. split; intros (jx & H1 & H2); exists jx; (split; [exact H1|]);
      apply IH; exact H2.
  Qed.
End Stored.

Lemma dlen_describe s : dlen (describe s) = size_of s.
Proof. destruct s as [k| |n|k ns vs|fs|s]; try reflexivity. destruct k; reflexivity. Qed.

Lemma desc_read e len i r : 0 <= len < 2 ^ 32 -> 0 <= he_addr e < 2 ^ 64 -> 0 <= i < 2 ^ 32 ->
  readDescriptor (descriptor e len i ++ r) = Ok ((len, he_addr e, i), r).
Proof.
  intros H1 H2 H3. unfold readDescriptor, descriptor. rewrite <- !app_assoc.
  rewrite (pbind_ok _ _ _ _ _ (read32_le' _ _ H1)).
  rewrite (pbind_ok _ _ _ _ _ (read64_le _ _ H2)).
  rewrite (pbind_ok _ _ _ _ _ (read32_le' _ _ H3)). reflexivity.
Qed.

Lemma zlen_descriptor e len i : zlen (descriptor e len i) = 16.
Proof. unfold descriptor. rewrite !zlen_app, !zlen_le. reflexivity. Qed.

Lemma getString_text t : text t -> getString t = t.
Proof.
  induction 1 as [|b l Hb _ IH]; [reflexivity|]. cbn [getString].
  replace (b =? 0) with false by lia. rewrite IH. reflexivity.
Qed.

Lemma readNum_raw k s : ksize k <= zlen s -> exists z, readNum k false s = Ok (HNum k z, zdrop (ksize k) s).
Proof.
  intros H. unfold readNum, pbind, rd. replace (ksize k <=? zlen s) with true by lia.
  cbn [rbind]. eexists. reflexivity.
Qed.

Lemma alloc_num heap k s : alloc heap (describe (SNum k)) [] s = readNum k false s.
Proof. destruct k; reflexivity. Qed.

Lemma nk_eqb_refl k : nk_eqb k k = true.
Proof. destruct k; reflexivity. Qed.
Lemma hty_eqb_refl t : hty_eqb t t = true.
Proof. induction t as [k| | | | |t IH|]; cbn [hty_eqb]; try reflexivity; [apply nk_eqb_refl|exact IH]. Qed.
Lemma hty_eqb_eq a b : hty_eqb a b = true -> a = b.
Proof.
  revert b. induction a as [k| | | | |t IH|]; intros [k'| | | | |t'|] H; cbn [hty_eqb] in H;
    try discriminate; try reflexivity.
  - f_equal. destruct k, k'; try discriminate; reflexivity.
  - f_equal. apply IH. exact H.
Qed.

Lemma conf_type s : forall v, conf s v -> htype v = go_type s.
Proof.
  destruct s as [k| |n|k ns vs|fs|s]; intros v H; cbn [go_type].
  - destruct H as (z & -> & _). reflexivity.
  - destruct H as (z & -> & _). reflexivity.
  - destruct H as (z & -> & _). reflexivity.
  - destruct H as (z & -> & _). reflexivity.
  - destruct H as (z & -> & _). reflexivity.
  - destruct H as (z & -> & _). reflexivity.
Qed.

Lemma same_types t l : Forall (fun v => htype v = t) l ->
  forallb (fun y => hty_eqb (htype y) t) l = true.
Proof.
  induction 1 as [|x r Hx _ IH]; [reflexivity|]. cbn [forallb]. rewrite Hx, hty_eqb_refl. exact IH.
Qed.

Lemma make_slice_ok t l : l <> [] -> Forall (fun v => htype v = t) l ->
  make_slice l = Ok (HSlice t l).
Proof.
  intros Hn H. destruct l as [|x r]; [congruence|]. unfold make_slice.
  inversion H as [|x' r' Hx Hr]; subst x' r'. rewrite Hx. rewrite (same_types t (x :: r) H). reflexivity.
Qed.

Lemma repeat_read {A} (p : P A) (enc : A -> bytes) l r :
  Forall (fun x => forall r, p (enc x ++ r) = Ok (x, r)) l ->
  repeatP p (List.length l) (flat_map enc l ++ r) = Ok (l, r).
Proof.
  induction 1 as [|x l Hx _ IH]; [reflexivity|]. cbn [List.length repeatP flat_map].
  rewrite <- app_assoc. rewrite (pbind_ok _ _ _ _ _ (Hx _)). rewrite (pbind_ok _ _ _ _ _ IH). reflexivity.
Qed.

(** Members of a compound, given how each is read *)
Lemma calcAttrSize_one n : 0 <= n < 2 ^ 64 -> calcAttrSize [] n = n.
Proof. intros H. unfold calcAttrSize. cbn [fold_left]. rewrite Z.mul_1_l. apply u64_small. exact H. Qed.

Lemma limited_exact {A} n (p : P A) b r v : n = zlen b -> p b = Ok (v, []) ->
  limited n p (b ++ r) = Ok (v, r).
Proof.
  intros -> H. unfold limited. rewrite ztake_app_exact, zdrop_app_exact by reflexivity.
  rewrite H. reflexivity.
Qed.

Definition getters (heap : Z -> Z -> res (option bytes)) (ms : list (bytes * Z * list Z * dty)) :=
  map (fun m => match m with
                | (name, off, mdims, md) =>
                    (name, off, calcAttrSize mdims (dlen md), alloc heap md mdims)
                end) ms.

Lemma alloc_comp heap len ms dims :
  alloc heap (DComp len ms) dims = allocDims TComp (readCompound len (getters heap ms)) dims.
Proof. reflexivity. Qed.

Lemma readCompound_exact len ms fs b r :
  zlen b = len -> readMembers len ms b = Ok (fs, []) ->
  readCompound len ms (b ++ r) = Ok (HComp fs, r).
Proof.
  intros Hl H. unfold readCompound.
  rewrite ztake_app_exact, zdrop_app_exact by (symmetry; exact Hl). rewrite Hl, H. cbn [rbind].
  change (zlen (@nil Z)) with 0. rewrite Z.sub_0_r, Z.ltb_irrefl. reflexivity.
Qed.

Lemma undo_flat s v : closed s = true -> conf s v -> undoInterfaces v = v.
Proof.
  intros Hc H. destruct s as [k| |n|k ns vs|fs|s]; try discriminate.
  - destruct H as (z & -> & _). reflexivity.
  - destruct H as (z & -> & _). reflexivity.
  - destruct H as (z & -> & _). reflexivity.
  - apply (proj1 (conf_comp _ _)) in H. destruct H as (l & -> & _). reflexivity.
Qed.

Lemma undo_row s l : closed s = true -> Forall (conf s) l -> (l = [] -> plain s = true) ->
  undoInterfaces (HSlice (go_type s) l) = HSlice (go_type s) l.
Proof.
  intros Hc H Hn. destruct l as [|x r].
  - specialize (Hn eq_refl). destruct s; try discriminate. reflexivity.
  - cbn [undoInterfaces]. inversion H as [|x' r' Hx Hr]; subst.
    rewrite (undo_flat _ _ Hc Hx). rewrite (conf_type _ _ Hx).
    assert (E : map undoInterfaces r = r).
    { clear - Hr Hc. induction Hr as [|y r Hy _ IH]; [reflexivity|]. cbn [map].
      rewrite (undo_flat _ _ Hc Hy), IH. reflexivity. }
    rewrite E. rewrite same_types; [reflexivity|].
    eapply Forall_impl; [|exact Hr]. intros y Hy. apply conf_type. exact Hy.
Qed.

Section Elem.
  Variable heap : Z -> Z -> res (option bytes).
  Variable e : henv.
  Hypothesis Haddr : 0 <= he_addr e < 2 ^ 64.

  Definition reads (s : sty) (v : hval) (b : bytes) : Prop :=
    zlen b = size_of s /\ forall r, alloc heap (describe s) [] (b ++ r) = Ok (v, r).

  Lemma members_read total fs l bs off :
    Forall2 (fun p b => reads (snd (fst p)) (snd (snd p)) b) (combine fs l) bs ->
    conf_fields fs l -> writable_fields fs ->
    zlen (List.concat bs) + off = total -> 0 <= off -> size_fields fs < 2 ^ 32 ->
    readMembers total (getters heap (describe_fields off fs)) (List.concat bs) = Ok (l, []).
  Proof.
    revert l bs off. induction fs as [|[nm s] fs IH]; intros [|[nm' x] l] bs off HF Hc Hw Ht Ho Hs;
      cbn [conf_fields] in Hc; try contradiction.
    - cbn [combine] in HF. inversion HF; subst. reflexivity.
    - cbn [combine] in HF. inversion HF as [|p b ps bs' Hb HF' E1 E2]; subst p bs ps.
      cbn [fst snd] in Hb. destruct Hb as [Hb1 Hb2]. destruct Hc as (-> & Hx & Hc).
      cbn [writable_fields] in Hw. destruct Hw as (_ & Hws & _ & Hw).
      pose proof (size_pos _ Hws) as Hsz. cbn [size_fields] in Hs.
      pose proof (size_fields_nonneg _ Hw) as Hsf.
      cbn [List.concat] in *. rewrite zlen_app in Ht.
      cbn [describe_fields getters map readMembers].
      rewrite (pbind_ok _ _ _ tt (b ++ List.concat bs')).
      2:{ rewrite zlen_app. replace (total - (zlen b + zlen (List.concat bs')) <? off) with false by lia.
          reflexivity. }
      rewrite (pbind_ok _ _ _ x (List.concat bs')).
      2:{ apply limited_exact.
          - rewrite dlen_describe, calcAttrSize_one by lia. lia.
          - rewrite <- (app_nil_r b). apply Hb2. }
      rewrite (pbind_ok _ _ _ l []).
      2:{ apply IH; try assumption; try lia. }
      reflexivity.
  Qed.

  Lemma closed_reads s : writable s -> closed s = true -> forall v, conf s v -> reads s v (cbytes v).
  Proof.
    induction s as [k| |n|k ns vs|fs IH|s IH] using sty_ind'; intros Hw Hc v H; try discriminate.
    - destruct H as (z & -> & Hz). split; [apply zlen_enc_le|].
      intros r. rewrite alloc_num. apply readNum_enc. exact Hz.
    - destruct H as (b & -> & Hb). split; [exact Hb|].
      intros r. cbn [describe alloc allocDims cbytes].
      rewrite (pbind_ok _ _ _ b r) by (apply rd_app; symmetry; exact Hb). reflexivity.
    - destruct H as (z & -> & Hz). split; [apply zlen_enc_le|].
      intros r. cbn [describe alloc allocDims cbytes]. destruct Hw as (Hk & _).
      rewrite int_kind_of by exact Hk.
      rewrite (pbind_ok _ _ _ _ _ (readNum_enc _ _ _ Hz)). reflexivity.
    - apply (proj1 (conf_comp _ _)) in H. destruct H as (l & -> & H).
      rewrite closed_comp in Hc. apply (proj1 (writable_comp _)) in Hw.
      destruct Hw as (_ & Hsz & Hw).
      assert (HF : Forall2 (fun p b => reads (snd (fst p)) (snd (snd p)) b) (combine fs l)
                           (map (fun f => cbytes (snd f)) l)
                   /\ cfields l = List.concat (map (fun f => cbytes (snd f)) l)
                   /\ zlen (cfields l) = size_fields fs).
      { clear Hsz. revert l H Hc Hw.
        induction IH as [|[nm s] fs Hs _ IHf]; intros [|[nm' x] l] H Hc Hw;
          cbn [conf_fields] in H; try contradiction.
        - split; [constructor|split; reflexivity].
        - destruct H as (-> & Hx & H). cbn [closed_fields] in Hc. apply andb_true_iff in Hc.
          destruct Hc as [Hc1 Hc2]. cbn [writable_fields] in Hw. destruct Hw as (_ & Hws & _ & Hw).
          destruct (IHf _ H Hc2 Hw) as (A1 & A2 & A3). cbn [snd] in Hs.
          specialize (Hs Hws Hc1 _ Hx). split; [|split].
          + cbn [combine map]. constructor; [exact Hs|exact A1].
          + cbn [cfields map List.concat snd]. rewrite A2. reflexivity.
          + cbn [cfields size_fields]. rewrite zlen_app, A3. destruct Hs as [-> _]. reflexivity. }
      destruct HF as (A1 & A2 & A3). split.
      + rewrite cbytes_comp, size_of_comp. exact A3.
      + intros r. rewrite cbytes_comp, describe_comp, alloc_comp. cbn [allocDims].
        apply readCompound_exact; [exact A3|]. rewrite A2.
        apply members_read; try assumption; try lia.
        * rewrite <- A2, A3. lia.
        * unfold size_ok in Hsz. lia.
  Qed.

  (** the zero value of a closed type *)
  Fixpoint zval (s : sty) : hval :=
    match s with
    | SNum k => HNum k 0
    | SOpaque n => HOpaque (zrep n 0)
    | SEnum k ns vs => HEnum (HNum k 0) ns (map (HNum k) vs)
    | SComp fs => HComp ((fix go (fs : list (bytes * sty)) : list (bytes * hval) :=
                            match fs with [] => [] | (nm, s) :: r => (nm, zval s) :: go r end) fs)
    | _ => HOther
    end.
  Fixpoint zfields (fs : list (bytes * sty)) : list (bytes * hval) :=
    match fs with [] => [] | (nm, s) :: r => (nm, zval s) :: zfields r end.

  Lemma zval_ok s : writable s -> closed s = true ->
    conf s (zval s) /\ cbytes (zval s) = zrep (size_of s) 0.
  Proof.
    induction s as [k| |n|k ns vs|fs IH|s IH] using sty_ind'; intros Hw Hc; try discriminate.
    - split; [exists 0; split; [reflexivity|destruct k; reflexivity]|destruct k; reflexivity].
    - split; [|reflexivity]. exists (zrep n 0). split; [reflexivity|]. cbn [writable] in Hw.
      rewrite zlen_zrep. lia.
    - split; [exists 0; split; [reflexivity|destruct k; reflexivity]|destruct k; reflexivity].
    - rewrite closed_comp in Hc. apply (proj1 (writable_comp _)) in Hw. destruct Hw as (_ & _ & Hw).
      change (zval (SComp fs)) with (HComp (zfields fs)).
      enough (E : conf_fields fs (zfields fs) /\ cfields (zfields fs) = zrep (size_fields fs) 0).
      { destruct E as [E1 E2]. split; [|rewrite cbytes_comp, size_of_comp; exact E2].
        apply conf_comp. exists (zfields fs). split; [reflexivity|exact E1]. }
      revert Hc Hw. induction IH as [|[nm s] fs Hs _ IHf]; intros Hc Hw; [split; [exact I|reflexivity]|].
      cbn [closed_fields] in Hc. apply andb_true_iff in Hc. destruct Hc as [Hc1 Hc2].
      cbn [writable_fields] in Hw. destruct Hw as (_ & Hws & _ & Hw).
      destruct (IHf Hc2 Hw) as [E1 E2]. cbn [snd] in Hs. destruct (Hs Hws Hc1) as [F1 F2].
      split; [cbn [zfields conf_fields]; auto|]. cbn [zfields cfields size_fields].
      rewrite E2, F2. pose proof (size_pos _ Hws). pose proof (size_fields_nonneg _ Hw).
      unfold zrep. rewrite <- repeat_app. f_equal. lia.
  Qed.

  Lemma row_read s' l i : writable s' -> closed s' = true ->
    Forall (conf s') l -> zlen l < 2 ^ 32 -> 0 <= i < 2 ^ 32 ->
    (l = [] \/ heap (he_addr e) i = Ok (Some (flat_map cbytes l))) ->
    forall r, readVlenSeq heap (dlen (describe s')) (alloc heap (describe s') [])
                (descriptor e (zlen l) i ++ r) = Ok (HSlice (go_type s') l, r).
  Proof.
    intros Hw Hcl Hc Hl Hi Hh r. unfold readVlenSeq. pose proof (zlen_nonneg l) as Hl0.
    rewrite (pbind_ok _ _ _ _ _ (desc_read e (zlen l) i r (conj Hl0 Hl) Haddr Hi)).
    destruct l as [|x l'].
    - change (zlen (@nil hval) =? 0) with true. cbv iota.
      destruct (zval_ok s' Hw Hcl) as [Z1 Z2].
      destruct (closed_reads s' Hw Hcl _ Z1) as [_ R]. specialize (R []).
      rewrite app_nil_r, Z2 in R. rewrite dlen_describe, R. cbn [rbind].
      rewrite (conf_type _ _ Z1). reflexivity.
    - destruct Hh as [Hh|Hh]; [discriminate|].
      assert (En : zlen (x :: l') =? 0 = false).
      { rewrite zlen_cons. pose proof (zlen_nonneg l'). lia. }
      rewrite En, Hh. cbn [rbind].
      replace (Z.to_nat (zlen (x :: l'))) with (List.length (x :: l')) by (unfold zlen; lia).
      rewrite <- (app_nil_r (flat_map cbytes (x :: l'))).
      rewrite repeat_read.
      + cbn [rbind]. rewrite (make_slice_ok (go_type s')); [reflexivity|discriminate|].
        eapply Forall_impl; [|exact Hc]. intros y Hy. apply conf_type. exact Hy.
      + eapply Forall_impl; [|exact Hc]. intros y Hy. apply closed_reads; assumption.
  Qed.

  Lemma elem_codec s : writable s -> forall v ix ix',
    conf s v -> seqs_ok s v = true -> stored heap e s v ix ix' ->
    exists b, writeField false e v ix = Ok (b, ix') /\ reads s v b.
  Proof.
    induction s as [k| |n|k ns vs|fs IH|s IH] using sty_ind'; intros Hw v ix ix' H Hq Hst.
    - exists (cbytes v). split; [|apply closed_reads; auto].
      assert (ix' = ix) as -> by (destruct H as (z & -> & _); exact Hst).
      apply (closed_write (SNum k)); auto.
    - destruct H as (t & -> & Ht & Hl). destruct Hst as (-> & Hh & Hi).
      exists (descriptor e (zlen t) (he_idx e t)). split; [reflexivity|]. split; [apply zlen_descriptor|].
      intros r. cbn [describe alloc allocDims]. unfold readVlenString.
      pose proof (zlen_nonneg t) as Hl0.
      rewrite (pbind_ok _ _ _ _ _ (desc_read e (zlen t) _ r (conj Hl0 Hl) Haddr Hi)).
      destruct (zlen t =? 0) eqn:E.
      + apply Z.eqb_eq in E. apply zlen_zero in E. subst t. reflexivity.
      + destruct Hh as [->|Hh]; [discriminate|]. rewrite Hh. cbn [rbind].
        rewrite getString_text by exact Ht. reflexivity.
    - exists (cbytes v). split; [|apply closed_reads; auto].
      assert (ix' = ix) as -> by (destruct H as (z & -> & _); exact Hst).
      apply (closed_write (SOpaque n)); auto.
    - exists (cbytes v). split; [|apply closed_reads; auto].
      assert (ix' = ix) as -> by (destruct H as (z & -> & _); exact Hst).
      apply (closed_write (SEnum k ns vs)); auto.
    - apply (proj1 (conf_comp _ _)) in H. destruct H as (l & -> & H).
      apply (proj1 (stored_comp _ _ _ _ _ _)) in Hst. rewrite seqs_ok_comp in Hq.
      apply (proj1 (writable_comp _)) in Hw. destruct Hw as (_ & Hsz & Hw).
      assert (HF : exists bs,
        Forall2 (fun p b => reads (snd (fst p)) (snd (snd p)) b) (combine fs l) bs
        /\ writeFields false e l ix = Ok (List.concat bs, ix')
        /\ zlen (List.concat bs) = size_fields fs).
      { clear Hsz. revert l ix H Hst Hw Hq.
        induction IH as [|[nm s] fs Hs _ IHf]; intros [|[nm' x] l] ix H Hst Hw Hq;
          cbn [conf_fields] in H; try contradiction.
        - exists []. cbn [stored_fields] in Hst. subst ix'. split; [constructor|split; reflexivity].
        - destruct H as (-> & Hx & H). cbn [stored_fields] in Hst. destruct Hst as (jx & Hst1 & Hst2).
          cbn [writable_fields] in Hw. destruct Hw as (_ & Hws & _ & Hw).
          cbn [seqs_fields] in Hq. apply andb_true_iff in Hq. destruct Hq as [Hq1 Hq2].
          cbn [snd] in Hs. destruct (Hs Hws _ _ _ Hx Hq1 Hst1) as (b & Eb & Rb).
          destruct (IHf _ _ H Hst2 Hw Hq2) as (bs & A1 & A2 & A3).
          exists (b :: bs). split; [|split].
          + cbn [combine]. constructor; assumption.
          + change (writeFields false e ((nm, x) :: l))
              with (wseq (writeField false e x) (writeFields false e l)).
            unfold wseq. rewrite Eb. cbn [rbind]. rewrite A2. reflexivity.
          + cbn [List.concat size_fields]. rewrite zlen_app, A3. destruct Rb as [-> _]. reflexivity. }
      destruct HF as (bs & A1 & A2 & A3). exists (List.concat bs). rewrite writeField_comp.
      split; [exact A2|]. split; [rewrite size_of_comp; exact A3|].
      intros r. rewrite describe_comp, alloc_comp. cbn [allocDims].
      apply readCompound_exact; [exact A3|].
      apply members_read; try assumption; try lia. unfold size_ok in Hsz. lia.
    - apply (proj1 (conf_vlen _ _)) in H. destruct H as (l & -> & Hl & H).
      cbn [stored] in Hst. destruct Hst as (i & -> & Hi & Hh). destruct Hw as [Hw Hc].
      exists (descriptor e (zlen l) i). split; [reflexivity|]. split; [apply zlen_descriptor|].
      intros r. cbn [describe alloc allocVariable].
      assert (Hp : l = [] -> plain s = true) by (intros ->; exact Hq).
      rewrite (pbind_ok _ _ _ (HSlice (go_type s) l) r).
      + unfold pret. rewrite undo_row by assumption. reflexivity.
      + apply row_read; assumption.
  Qed.
End Elem.
