(** The symbols of a stored symbol table are read in their order. *)
From Verif Require Import Prelude GoVal BaseLemmas H5Base H5ChecksumModel Lookup3Spec H5ChecksumProofs H5MetaWrite
  H5MetaRead MetaSpec H5MetaProofs H5DenseRead DenseSpec H5DenseProofs H5BTreeProofs.
From Coq Require Import Lia ZifyBool ZifyNat.
Ltac Zify.zify_post_hook ::= Z.div_mod_to_equations.

Lemma newSeek_over f a b n : has_at f a b -> zlen b <= n -> 0 < n -> a + n <= zlen f -> zlen f < 2 ^ 63 ->
  exists tl, newSeek f a n = Ok (b ++ tl).
Proof.
  intros H Hn H0 Hb Hf. pose proof (has_at_bound _ _ _ H) as [Ha _].
  rewrite newSeek_in by lia. destruct H as (pre & post & -> & E).
  rewrite zdrop_app_exact by lia. exists (ztake (n - zlen b) post). f_equal.
  apply ztake_app_r. lia.
Qed.

Lemma name_scan nm r : Forall (fun c => c <> 0) nm -> name_until_nul (nm ++ 0 :: r) = Ok (nm, r).
Proof.
  induction 1 as [|c nm Hc _ IH]; [reflexivity|]. cbn [app name_until_nul].
  replace (c =? 0) with false by lia. rewrite IH. reflexivity.
Qed.

Lemma local_name f a off nm : name_at f a off nm -> zlen f < 2 ^ 63 -> readLocalHeap f a off = Ok nm.
Proof.
  intros (size & free & data & Hs & Hfr & Hd & Ho & Hat & Hin & Hlen & Hne & Hnm & Hn) Hf. unfold word in *.
  unfold readLocalHeap. rewrite (newSeek_at f a _ 32 Hat);
    [|rewrite !zlen_app, !zlen_le; reflexivity|lia|exact Hf].
  cbn [rbind]. rewrite checkMagic_app. cbn [rbind app]. rewrite read8_cons. cbn [rbind]. rewrite checkVal_same. cbn [rbind].
  change (0 :: 0 :: 0 :: le 8 size ++ le 8 free ++ le 8 data) with (zrep 3 0 ++ (le 8 size ++ le 8 free ++ le 8 data)).
  rewrite checkZeroes_zrep by reflexivity. cbn [rbind].
  rewrite read64_le by lia. cbn [rbind]. rewrite read64_le by lia. cbn [rbind].
  rewrite <- (app_nil_r (le 8 data)), read64_le by lia. cbn [rbind].
  pose proof (has_at_bound _ _ _ Hn) as [B1 B2]. pose proof (zlen_nonneg nm) as Hnm0.
  rewrite u64_small by lia. rewrite i64_small by lia.
  destruct (newSeek_over f (data + off) (nm ++ [0]) (size - off) Hn) as [tl E];
    [rewrite zlen_app; change (zlen [0]) with 1; lia|lia|lia|exact Hf|].
  rewrite E. cbn [rbind]. unfold readNullTerminatedName, pbind. rewrite <- app_assoc. cbn [app].
  rewrite name_scan by exact Hnm. reflexivity.
Qed.

Section Symbols.
  Context {S : Type} (f : bytes) (onSymbol : bytes -> Z -> S -> res (S * bool)) (on : bytes -> Z -> S -> res S).
  Context (heap : Z) (nm : symbol -> bytes).
  Hypothesis Hf : zlen f < 2 ^ 63.
  Hypothesis Hon : forall name addr st, onSymbol name addr st = let* st := on name addr st in Ok (st, true).
  Let step (s : symbol) (st : S) : res S := on (nm s) (sy_addr s) st.

  Lemma symbol_len s : zlen (symbol_bytes s) = 40.
  Proof.
    unfold symbol_bytes. destruct (sy_cache s) as [[b h]|]; rewrite !zlen_app, !zlen_le; reflexivity.
  Qed.

  Lemma symbols_read l : Forall symbol_ok l -> Forall (fun s => name_at f heap (sy_name s) (nm s)) l ->
    forall tl st, readSymbols f onSymbol (List.length l) heap (flat_map symbol_bytes l ++ tl) st = rfold step l st.
  Proof.
    induction 1 as [|s l (H1 & H2 & H3) _ IH]; intros Hn tl st; [reflexivity|].
    inversion Hn as [|s' l' N1 N2]; subst s' l'. cbn [List.length readSymbols flat_map rfold].
    set (rest := flat_map symbol_bytes l ++ tl) in *. rewrite <- app_assoc. fold rest.
    pose proof (zlen_nonneg rest) as Hr.
    replace (24 <=? zlen (symbol_bytes s ++ rest)) with true by (rewrite zlen_app, symbol_len; lia).
    rewrite passert_true. cbn [rbind]. unfold symbol_bytes. rewrite <- !app_assoc.
    rewrite read64_le by exact H1. cbn [rbind]. rewrite (local_name _ _ _ _ N1 Hf). cbn [rbind].
    assert (Hne : (0 <? zlen (nm s)) = true).
    { destruct N1 as (? & ? & ? & _ & _ & _ & _ & _ & _ & _ & Hne & _). destruct (nm s) as [|c w]; [congruence|].
      rewrite zlen_cons. pose proof (zlen_nonneg w). lia. }
    rewrite Hne, passert_true. cbn [rbind]. rewrite read64_le by exact H2. cbn [rbind]. unfold step at 1.
    destruct (sy_cache s) as [[b h]|]; rewrite <- !app_assoc.
    - rewrite read32_le' by lia. cbn [rbind]. rewrite read32_le' by lia. cbn [rbind]. rewrite checkVal_same. cbn [rbind].
      change (1 <=? 2) with true. rewrite passert_true. cbn [rbind]. change (1 =? 0) with false. change (1 =? 1) with true.
      cbv iota. rewrite (app_assoc (le 8 b)).
      rewrite rd_app by (rewrite zlen_app, !zlen_le; reflexivity). cbn [rmap rbind snd].
      rewrite Hon. destruct (on (nm s) (sy_addr s) st); cbn [rbind]; [apply IH; exact N2|reflexivity|reflexivity].
    - rewrite read32_le' by lia. cbn [rbind]. rewrite read32_le' by lia. cbn [rbind]. rewrite checkVal_same. cbn [rbind].
      change (0 <=? 2) with true. rewrite passert_true. cbn [rbind]. change (0 =? 0) with true. cbv iota.
      replace (16 <=? zlen (zrep 16 0 ++ rest)) with true by (rewrite zlen_app, zlen_zrep; lia).
      rewrite passert_true. cbn [rbind]. rewrite checkZeroes_zrep by reflexivity. cbn [rbind].
      rewrite Hon. destruct (on (nm s) (sy_addr s) st); cbn [rbind]; [apply IH; exact N2|reflexivity|reflexivity].
  Qed.

  Lemma zlen_symbols l : zlen (flat_map symbol_bytes l) = zlen l * 40.
  Proof.
    induction l as [|s l IH]; [reflexivity|]. cbn [flat_map]. rewrite zlen_app, zlen_cons, IH, symbol_len. lia.
  Qed.

  Lemma symbol_leaf_read a l st : symbols_at f a l -> Forall (fun s => name_at f heap (sy_name s) (nm s)) l ->
    readSymbolTableLeaf f onSymbol heap a st = rfold step l st.
  Proof.
    intros (Hok & Hl & Hat) Hn. unfold readSymbolTableLeaf.
    set (hd := bs "SNOD" ++ [1; 0] ++ le 2 (zlen l)).
    assert (Hhd : zlen hd = 8) by reflexivity.
    replace (bs "SNOD" ++ [1; 0] ++ le 2 (zlen l) ++ flat_map symbol_bytes l)
      with (hd ++ flat_map symbol_bytes l) in Hat by (unfold hd; rewrite <- !app_assoc; reflexivity).
    pose proof (has_at_bound _ _ _ Hat) as [B1 B2]. rewrite zlen_app, Hhd in B2.
    pose proof (zlen_nonneg l) as Hl0. pose proof (zlen_symbols l) as Hz.
    rewrite (newSeek_at f a hd 8); [|exact (has_at_app_l _ _ _ _ Hat)|reflexivity|lia|exact Hf].
    cbn [rbind]. unfold hd. rewrite checkMagic_app. cbn [rbind app]. rewrite read8_cons. cbn [rbind].
    rewrite checkVal_same. cbn [rbind]. rewrite read8_cons. cbn [rbind]. rewrite checkVal_same. cbn [rbind].
    rewrite <- (app_nil_r (le 2 (zlen l))), read16_le by lia. cbn [rbind].
    rewrite u64_small by lia. rewrite <- Hz.
    destruct (newSeek_any f (a + 8) (flat_map symbol_bytes l) (zlen (flat_map symbol_bytes l))) as [tl E];
      [rewrite <- Hhd; exact (has_at_app_r _ _ _ _ Hat)|reflexivity|exact Hf|].
    rewrite E. cbn [rbind]. replace (Z.to_nat (zlen l)) with (List.length l) by (unfold zlen; lia).
    apply symbols_read; assumption.
  Qed.

  Lemma leaves_read cs ls : Forall2 (symbols_at f) cs ls ->
    Forall (fun s => name_at f heap (sy_name s) (nm s)) (List.concat ls) -> forall st,
    readLeaves f onSymbol heap cs st = rfold step (List.concat ls) st.
  Proof.
    induction 1 as [|c l cs ls Hc _ IH]; intros Hn st; [reflexivity|]. cbn [List.concat readLeaves] in *.
    apply Forall_app in Hn. destruct Hn as [N1 N2]. rewrite (symbol_leaf_read c l) by assumption.
    rewrite rfold_app. destruct (rfold step l st); cbn [rbind]; [apply IH; exact N2|reflexivity|reflexivity].
  Qed.

  Lemma entries_read cs r : forall ks, zlen cs <= zlen ks -> Forall (word 64) ks -> Forall (word 64) cs ->
    read_n (List.length cs) (do* _ := read64 in read64)
        (flat_map (fun p => le 8 (fst p) ++ le 8 (snd p)) (combine ks cs) ++ r) = Ok (cs, r).
  Proof.
    induction cs as [|c cs IH]; intros ks Hl Hk Hc; [destruct ks; reflexivity|].
    destruct ks as [|k ks]; [rewrite zlen_cons in Hl; change (zlen (@nil Z)) with 0 in Hl; pose proof (zlen_nonneg cs); lia|].
    rewrite !zlen_cons in Hl. inversion Hk as [|k' ks' K1 K2]; inversion Hc as [|c' cs' C1 C2]; subst.
    cbn [combine flat_map List.length read_n fst snd]. rewrite <- !app_assoc. unfold pbind at 1 2.
    rewrite read64_le by exact K1. cbn [rbind]. rewrite read64_le by exact C1. cbn [rbind].
    unfold pbind. rewrite IH; [reflexivity|lia|exact K2|exact C2].
  Qed.
  Lemma zlen_entries (ks cs : list Z) : zlen ks = zlen cs + 1 ->
    zlen (flat_map (fun p => le 8 (fst p) ++ le 8 (snd p)) (combine ks cs)) = 16 * zlen cs.
  Proof.
    intros H. assert (H' : zlen cs <= zlen ks) by lia. clear H. revert ks H'.
    induction cs as [|c cs IH]; intros ks H; [destruct ks; reflexivity|].
    destruct ks as [|k ks]; [rewrite zlen_cons in H; change (zlen (@nil Z)) with 0 in H; pose proof (zlen_nonneg cs); lia|].
    rewrite !zlen_cons in *. cbn [combine flat_map fst snd]. rewrite !zlen_app, !zlen_le, IH by lia. lia.
  Qed.
  Lemma last_word ks : ks <> [] -> Forall (word 64) ks -> word 64 (last ks 0).
  Proof.
    intros H F. rewrite (app_removelast_last 0 H) in F. apply Forall_app in F. destruct F as [_ F].
    inversion F; assumption.
  Qed.

  Theorem table_read a l st : symbol_table_at f 0 a l -> Forall (fun s => name_at f heap (sy_name s) (nm s)) l ->
    readSymbolTable f onSymbol a heap st = rfold step l st.
  Proof.
    intros H Hn. unfold symbol_table_at in H.
    inversion H as [a' sl sr ks cs ls (Hk & Hks & Hcs & Hcl & _ & Hsl & Hsr & Hfit & Hat) Hls E1 E2 E3 E4|].
    subst. clear H. unfold readSymbolTable. set (es := flat_map _ (combine ks cs)) in *.
    set (hd := bs "TREE" ++ [0; 0] ++ le 2 (zlen cs) ++ le 8 undefined ++ le 8 undefined).
    assert (Hhd : zlen hd = 24) by reflexivity.
    assert (Hat' : has_at f a (hd ++ (es ++ le 8 (last ks 0)))).
    { unfold hd. rewrite <- !app_assoc. exact Hat. }
    clear Hat. pose proof (has_at_bound _ _ _ Hat') as [B1 B2]. rewrite !zlen_app, Hhd, zlen_le in B2.
    pose proof (zlen_nonneg cs) as Hc0. pose proof (zlen_nonneg es) as He0.
    destruct (newSeek_over f a hd 52 (has_at_app_l _ _ _ _ Hat')) as [tl E]; [lia|lia|exact Hfit|exact Hf|].
    rewrite E. cbn [rbind]. unfold hd at 1. rewrite <- !app_assoc. rewrite checkMagic_app. cbn [rbind app].
    rewrite read8_cons. cbn [rbind]. rewrite read8_cons. cbn [rbind]. rewrite read16_le by lia. cbn [rbind].
    rewrite read64_le by (unfold undefined; lia). cbn [rbind]. rewrite read64_le by (unfold undefined; lia). cbn [rbind].
    change ((undefined =? invalidAddress) && (undefined =? invalidAddress)) with true.
    rewrite passert_true. cbn [rbind]. change (0 =? 0) with true. rewrite passert_true. cbn [rbind].
    rewrite u64_small by lia. apply has_at_app_r in Hat'. rewrite Hhd in Hat'.
    rewrite (newSeek_at f (a + 24) _ (16 * zlen cs + 8) Hat');
      [|rewrite zlen_app, zlen_le; unfold es; rewrite zlen_entries by exact Hk; lia|lia|exact Hf].
    cbn [rbind]. replace (Z.to_nat (zlen cs)) with (List.length cs) by (unfold zlen; lia). unfold es.
    rewrite entries_read; [|lia|exact Hks|exact Hcs]. cbn [rbind].
    assert (Hlast : word 64 (last ks 0)).
    { apply last_word; [|exact Hks]. intros ->. change (zlen (@nil Z)) with 0 in Hk. lia. }
    rewrite <- (app_nil_r (le 8 (last ks 0))), read64_le by exact Hlast. cbn [rbind].
    apply leaves_read; assumption.
  Qed.
End Symbols.
