(** Whole values as the writer stores them hold what they are to hold: H5Value against FormatSpec. *)
From Verif Require Import Prelude GoVal OrderedMapModel ArraySpec H5Base H5MetaWrite H5MetaRead H5Value H5TypeRead
  H5FileWrite H5PathModel H5LayoutModel H5RecordModel H5FileRead MetaSpec TypeSpec FileSpec BaseLemmas
  H5MetaProofs H5TypeProofs H5DataProofs H5StoreProofs H5VarProofs H5AttrProofs H5ObjectProofs
  H5TreeProofs H5HeapProofs H5GoodProofs.
From Verif Require Import DenseSpec ForeignSpec ForeignTypeSpec ForeignMsgSpec ForeignValueSpec FormatSpec H5ConfProofs.
From Coq Require Import Lia ZifyBool ZifyNat.

Definition no_enum (s : sty) : Prop := match s with SEnum _ _ _ => False | _ => True end.
Lemma no_enum_rows s : no_enum s -> in_rows (fty_of s) = true.
Proof. destruct s as [k| |n|k ns vs|fs|s]; intros H; try reflexivity; [destruct k; reflexivity|contradiction]. Qed.
Lemma slices_nested n t : slices n t = nested n t.
Proof. induction n as [|n IH]; [reflexivity|]. cbn [slices nested]. rewrite IH. reflexivity. Qed.
Lemma go_type_arr s ds : no_enum s -> go_type_of (fty_of s) ds = nested (List.length ds) (go_type s).
Proof.
  intros H. rewrite <- slices_nested. destruct s as [k| |n|k ns vs|fs|s]; try reflexivity; [destruct k; reflexivity|contradiction|].
  cbn [fty_of go_type_of go_type]. rewrite go_type_fty. reflexivity.
Qed.

Section Arrays.
Context (in_heap : Z -> Z -> bytes -> Prop).

Lemma arr_holds s dims : no_enum s -> forall v b,
  rdarr (go_type s) (fun v b => has_value in_heap (fty_of s) [] b v) dims v b -> has_value in_heap (fty_of s) dims b v.
Proof.
  intros Hs. induction dims as [|n ds IH]; intros v b H; [exact H|]. cbn [rdarr] in H.
  destruct H as (l & bs & -> & <- & -> & HF). rewrite <- go_type_arr by exact Hs.
  apply has_array; [apply no_enum_rows; exact Hs|].
  induction HF as [|x b l bs Hx _ IHl]; [constructor|]. cbn [List.concat]. constructor; [apply IH; exact Hx|exact IHl].
Qed.

(** the heap of the reader's proofs tells what is in the heap *)
Definition tells (heap : Z -> Z -> res (option bytes)) : Prop :=
  forall a i b, heap a i = Ok (Some b) -> b <> [] -> in_heap a i b.

Lemma array_conf s dims v e fl heap ix : writable s -> no_enum s -> (s = SStr -> fl = 0) -> 0 <= he_addr e < 2 ^ 64 ->
  tells heap -> array_of s dims v -> stored_arr heap e s dims v ix [] ->
  exists data, writeData false e fl (List.length dims) v ix = Ok (data, []) /\ has_value in_heap (fty_of s) dims data v.
Proof.
  intros Hw Hn Hf Ha Ht H Hst.
  destruct (array_write heap e s fl) with
    (R := fun v b => has_value in_heap (fty_of s) [] b v) (Q := fun _ : hval => True)
    (dims := dims) (v := v) (ix := ix) (ix' := @nil Z) as (b & A & B & C); try assumption.
  - intros x jx jx' Hx _ Hsx. destruct (elem_holds heap in_heap e Ht Ha s Hw x jx jx' Hx Hsx) as (b & A & B & C). exists b. auto.
  - apply every_all. intros; exact I.
  - exists b. split; [exact A|]. apply arr_holds; assumption.
Qed.

Lemma array_var_conf s dims v h0 h1 : writable s -> novlen s = true -> no_enum s -> (s = SStr -> dims <> []) ->
  array_of s dims v -> hinv h0 -> grow (collectStrings h0 v) h1 -> forall hf heap addr,
  grow h1 hf -> hinv hf -> heap_gives heap addr hf -> tells heap ->
  exists data, writeData false (env_of addr hf) (fixedLenOf v) (List.length dims) v [] = Ok (data, []) /\
    has_value in_heap (fty_of s) dims data v.
Proof.
  intros Hw Hn He Hs H H0 G1 hf heap addr G2 Hf (Ha & Hc & Hh) Ht.
  assert (Hst : every (strs hf s) (List.length dims) v).
  { eapply every_grow; [eapply grow_trans; [exact G1|exact G2]|].
    apply cs_array; try assumption. destruct s; first [left; discriminate | right; apply Hs; reflexivity]. }
  pose proof (strs_stored_arr heap addr hf Hf Hc Hh s dims Hn v [] H Hst) as Hst'.
  apply (array_conf s dims v (env_of addr hf) (fixedLenOf v) heap []); try assumption.
  intros ->. eapply fixedLen_str; [|exact H]. apply Hs. reflexivity.
Qed.

Lemma variable_conf s dims v : var_type s -> value_of s dims v -> shape_ok s dims v ->
  forall h0 h1 h2 ix, hinv h0 -> hinv h1 -> grow (collectStrings h0 v) h1 ->
  collectVlenVar false h1 v (List.length dims) = Ok (h2, ix) ->
  forall hf heap addr, grow h2 hf -> hinv hf -> heap_gives heap addr hf -> tells heap ->
  exists data, writeDataVar false (env_of addr hf) v (List.length dims) ix = Ok (data, []) /\
    has_value in_heap (fty_of s) dims data v.
Proof.
  intros [Hw Hv] Hval Hsh h0 h1 h2 ix H0 H1 G Ec hf heap addr G2 Hf Hh Ht. unfold writeDataVar.
  destruct s as [k| |n|k ns vs|fs|s'].
  1,2,3,5: cbn [value_of] in Hval; assert (Hn : novlen _ = true)
    by (destruct Hv as [Hv|(s' & Hv)]; [exact Hv|discriminate]);
    rewrite (novlen_collect _ _ _ _ Hn Hval) in Ec; assert (h2 = h1) by congruence; assert (ix = []) by congruence; subst h2 ix;
    apply (array_var_conf _ dims v h0 h1) with (heap := heap); try assumption; try exact I; try discriminate; intros _; exact Hsh.
  - cbn [value_of] in Hval. destruct Hval as (w & -> & Hwv).
    change (collectVlenVar false h1 (HEnum w ns (map (HNum k) vs)) (List.length dims))
      with (collectVlenVar false h1 w (List.length dims)) in Ec.
    rewrite (novlen_collect (SNum k) dims w h1 eq_refl Hwv) in Ec. assert (h2 = h1) by congruence. assert (ix = []) by congruence. subst h2 ix.
    destruct (array_var_conf (SNum k) dims w h0 h1) with (hf := hf) (heap := heap) (addr := addr)
      as (data & A & C); try assumption; try exact I; try reflexivity; try discriminate.
    exists data. split.
    + change (fixedLenOf (HEnum w ns (map (HNum k) vs))) with 0. cbn [writeData].
      assert (E : forall fl, writeData false (env_of addr hf) fl (List.length dims) w =
                             writeData false (env_of addr hf) 0 (List.length dims) w); [|rewrite (E (fixedLenOf w)) in A; exact A].
      clear - Hwv. intros fl. revert w Hwv. induction dims as [|n ds IH]; intros w H; cbn [array_of] in H.
      { destruct H as (z & -> & _). reflexivity. }
      destruct H as (l & -> & _ & H). cbn [List.length]. rewrite !writeData_slice.
      induction H as [|x r Hx _ IHr]; [reflexivity|].
      change (writeList false (env_of addr hf) fl (List.length ds) (x :: r))
        with (wseq (writeData false (env_of addr hf) fl (List.length ds) x)
                   (writeList false (env_of addr hf) fl (List.length ds) r)).
      rewrite (IH x Hx), IHr. reflexivity.
    + cbn [writable] in Hw. destruct Hw as (Hk & _). destruct (int_kind k Hk) as [E _].
      assert (Ef : fty_of (SNum k) = FInt (ksize k) (ksigned k) false) by (destruct Hk; destruct k; try congruence; reflexivity).
      rewrite Ef in C. apply (has_enum in_heap _ _ _ ns vs) in C. rewrite E in C. exact C.
  - cbn [value_of] in Hval. pose proof Hw as [Hw' Hc]. destruct Hsh as [Hp Hf1]. destruct Hh as (Ha & Hcount & Hh).
    unfold collectVlenVar in Ec. rewrite (rows_have_vlen s' dims Hp v Hval) in Ec.
    destruct (seqs_stored heap addr hf Hcount Hh s' dims Hw' Hc v h1 H1 Hval) as (h2' & ix' & B1 & _ & _ & _ & B5).
    rewrite Ec in B1. assert (h2' = h2 /\ ix' = ix) as [-> ->] by (split; congruence).
    specialize (B5 G2 []). rewrite app_nil_r in B5.
    apply (array_conf (SVlen s') dims v (env_of addr hf) (fixedLenOf v) heap ix); try assumption; [exact I|discriminate].
Qed.

Lemma scalar_holds t : text t -> has_value in_heap (FText (zlen t + 1)) [] (t ++ [0]) (HStr t).
Proof. intros H. apply (has_text in_heap (zlen t + 1) t 1); [exact H|lia|reflexivity]. Qed.
End Arrays.
