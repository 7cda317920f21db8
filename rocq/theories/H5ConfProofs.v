(** The datatypes and elements that the writer makes are those of the format: H5Value against
    ForeignTypeSpec and FormatSpec. *)
From Verif Require Import Prelude GoVal H5Base H5MetaWrite H5MetaRead H5Value H5TypeRead ArraySpec MetaSpec
  TypeSpec BaseLemmas H5ChecksumProofs H5MetaProofs H5TypeProofs H5DataProofs DenseSpec.
From Verif Require Import ForeignSpec ForeignTypeSpec ForeignMsgSpec ForeignValueSpec FormatSpec.
From Coq Require Import Lia ZifyBool ZifyNat.

(** ** Types *)
Definition fnum (k : nk) : fty :=
  match k with F32 => FReal 4 false | F64 => FReal 8 false | _ => FInt (ksize k) (ksigned k) false end.
Fixpoint fty_of (s : sty) : fty :=
  match s with
  | SNum k => fnum k
  | SStr => FString (FText 1)
  | SOpaque n => FOpaque n
  | SEnum k names vals => FEnum (ksize k) (ksigned k) false names vals
  | SComp fs =>
      FComp (size_of s)
            ((fix go (off : Z) (fs : list (bytes * sty)) : list (bytes * Z * list Z * fty) :=
                match fs with [] => [] | (nm, s') :: r => (nm, off, [], fty_of s') :: go (off + size_of s') r end) 0 fs)
  | SVlen s => FSeq (fty_of s)
  end.
Definition fmembers : Z -> list (bytes * sty) -> list (bytes * Z * list Z * fty) :=
  fix go (off : Z) (fs : list (bytes * sty)) : list (bytes * Z * list Z * fty) :=
    match fs with [] => [] | (nm, s') :: r => (nm, off, [], fty_of s') :: go (off + size_of s') r end.
Lemma fty_of_comp fs : fty_of (SComp fs) = FComp (size_fields fs) (fmembers 0 fs).
Proof. reflexivity. Qed.
Lemma fmembers_cons off nm s fs : fmembers off ((nm, s) :: fs) = (nm, off, [], fty_of s) :: fmembers (off + size_of s) fs.
Proof. reflexivity. Qed.

Lemma zlen_fmembers fs : forall off, zlen (fmembers off fs) = zlen fs.
Proof.
  induction fs as [|[nm s] fs IH]; intros off; [reflexivity|]. rewrite fmembers_cons, !zlen_cons, IH. reflexivity.
Qed.

Lemma fsize_of s : fsize (fty_of s) = size_of s.
Proof. destruct s as [k| |n|k ns vs|fs|s]; try reflexivity. destruct k; reflexivity. Qed.

Lemma known_1 class n : class <> 6 -> known_version class 1 n.
Proof. intros H. unfold known_version. repeat split; lia. Qed.

Lemma int_kind k : TypeSpec.is_int k -> int_kind_of (ksize k) (ksigned k) = k /\ int_size (ksize k).
Proof. intros [H1 H2]. destruct k; try congruence; split; try reflexivity; unfold int_size; cbn; lia. Qed.
Lemma in_range_int k z : TypeSpec.is_int k -> in_range k z = true -> int_in (ksize k) (ksigned k) z.
Proof.
  intros [H1 H2] H. unfold in_range in H. destruct k; try congruence; cbn in H; unfold int_in; cbn; lia.
Qed.

Lemma fixed_type k : TypeSpec.is_int k ->
  type_is known_version (FInt (ksize k) (ksigned k) false) (fixedPointDt (ksize k) (ksigned k)).
Proof.
  intros H. unfold fixedPointDt.
  replace ([16; if ksigned k then 8 else 0; 0; 0] ++ le 4 (ksize k) ++ le 2 0 ++ le 2 (ksize k * 8))
    with (dt_head 0 1 (bit false + 8 * bit (ksigned k)) (ksize k) ++ le 2 0 ++ le 2 (8 * ksize k)).
  - apply ForeignTypeSpec.is_int; [apply known_1; lia|apply (int_kind k H)].
  - destruct k; reflexivity.
Qed.
Lemma num_type k : type_is known_version (fnum k) (numDt k).
Proof.
  assert (Hn : TypeSpec.is_int k -> type_is known_version (FInt (ksize k) (ksigned k) false) (fixedPointDt (ksize k) (ksigned k)))
    by apply fixed_type.
  destruct k; try (apply Hn; split; discriminate).
  - apply (is_real4 known_version 1 false). apply known_1. lia.
  - apply (is_real8 known_version 1 false). apply known_1. lia.
Qed.

Lemma cstrings_names names : cstrings names = flat_map (name_bytes 3) names.
Proof.
  unfold cstrings, name_bytes. cbn [Z.ltb]. apply flat_map_ext. intros a. rewrite app_nil_r. reflexivity.
Qed.

Lemma type_of_sty s : writable s -> type_is known_version (fty_of s) (sdt s).
Proof.
  induction s as [k| |n|k ns vs|fs IH|s IH] using sty_ind'; intros H.
  - apply num_type.
  - apply (is_string known_version 1 (FText 1) (stringDt 1) 0 0); [apply known_1; lia| |lia|lia].
    apply (is_text known_version 1 1 0 0); [apply known_1; lia|lia|lia|lia].
  - cbn [writable] in H. cbn [fty_of sdt].
    replace (opaqueDt n) with (dt_head 5 1 (zlen (@nil Z) + 0) n ++ [] ++ zrep 0 0)
      by (unfold opaqueDt, dt_head; rewrite app_nil_r; reflexivity).
    apply ForeignTypeSpec.is_opaque; [apply known_1; lia|lia|constructor|reflexivity|lia|reflexivity].
  - cbn [writable] in H. destruct H as (Hk & Hl & Hn & Ht & Hv). cbn [fty_of sdt].
    assert (Hz : zlen ns = zlen vs) by (unfold zlen; rewrite Hl; reflexivity).
    rewrite cstrings_names.
    apply (is_enum known_version 3 (ksize k) (ksigned k) false ns vs (fixedPointDt (ksize k) (ksigned k))).
    + unfold known_version. repeat split; lia.
    + apply fixed_type. exact Hk.
    + exact Hz.
    + lia.
    + exact Ht.
    + eapply Forall_impl; [|exact Hv]. cbv beta. intros z. apply in_range_int. exact Hk.
  - apply (proj1 (writable_comp _)) in H. destruct H as (Hn & Hs & Hf). rewrite fty_of_comp, sdt_comp.
    set (total := size_fields fs) in *.
    assert (Hm : forall off fs', Forall (fun x => writable (snd x) -> type_is known_version (fty_of (snd x)) (sdt (snd x))) fs' ->
              writable_fields fs' -> 0 <= off -> off + size_fields fs' = total ->
              members_are known_version 3 total (fmembers off fs') (smembers total off fs')).
    { intros off fs' H. revert off. clear IH Hf Hn. induction H as [|[nm s] fs' Hx _ IHf]; intros off Hw Ho Ht.
      - constructor.
      - cbn [writable_fields] in Hw. destruct Hw as (Hnm & Hw & _ & Hr). cbn [snd] in Hx.
        pose proof (size_pos s Hw) as Hp. cbn [size_fields] in Ht.
        assert (Hge : 0 <= size_fields fs').
        { clear -Hr. induction fs' as [|[n s] r IH]; cbn [size_fields]; [lia|]. cbn [writable_fields] in Hr.
          destruct Hr as (_ & H & _ & Hr). pose proof (size_pos s H). specialize (IH Hr). lia. }
        rewrite fmembers_cons.
        change (smembers total off ((nm, s) :: fs'))
          with (nm ++ [0] ++ writeEnc off total ++ sdt s ++ smembers total (off + size_of s) fs').
        replace (nm ++ [0] ++ writeEnc off total ++ sdt s ++ smembers total (off + size_of s) fs')
          with (name_bytes 3 nm ++ le (offset_width 3 total) off ++ [] ++ sdt s ++ smembers total (off + size_of s) fs').
        + apply members_cons; [exact Hnm|lia|split; reflexivity|apply Hx; exact Hw|apply IHf; [exact Hr|lia|lia]].
        + unfold name_bytes. cbn [Z.ltb]. rewrite <- !app_assoc. change (3 <? 3) with false. cbv iota. cbn [app]. f_equal. f_equal. f_equal.
          unfold offset_width, writeEnc, size_ok in *. change (3 <? 3) with false. cbv iota.
          change (2 ^ 8) with 256. change (2 ^ 16) with 65536. change (2 ^ 24) with 16777216.
          destruct (total <? 256) eqn:E1; [reflexivity|]. destruct (total <? 65536) eqn:E2; [reflexivity|].
          destruct (total <? 16777216) eqn:E3; [lia|reflexivity]. }
    specialize (Hm 0 fs IH Hf (Z.le_refl 0) eq_refl).
    unfold size_ok in Hs.
    rewrite <- (zlen_fmembers fs 0) at 1.
    apply (is_comp known_version 3 total (fmembers 0 fs) (smembers total 0 fs)).
    + unfold known_version. repeat split; lia.
    + lia.
    + rewrite zlen_fmembers. lia.
    + exact Hm.
  - cbn [writable] in H. destruct H as [Hw _]. cbn [fty_of sdt].
    apply (ForeignTypeSpec.is_seq known_version 1 (fty_of s) (sdt s)); [apply known_1; lia|apply IH; exact Hw].
Qed.

Lemma few_of_sty s : writable s -> few_members (fty_of s).
Proof.
  induction s as [k| |n|k ns vs|fs IH|s IH] using sty_ind'; intros H; try exact I.
  - destruct k; exact I.
  - cbn [writable] in H. cbn [fty_of few_members]. apply H.
  - apply (proj1 (writable_comp _)) in H. destruct H as (Hn & _ & Hf). rewrite fty_of_comp. cbn [few_members].
    rewrite zlen_fmembers. split; [exact Hn|]. generalize 0. clear Hn.
    induction IH as [|[nm s] fs Hx _ IHf]; intros off; [exact I|]. rewrite fmembers_cons.
    cbn [writable_fields] in Hf. destruct Hf as (_ & Hw & _ & Hr). cbn [snd] in *. split; [apply Hx; exact Hw|].
    apply IHf. exact Hr.
  - cbn [writable] in H. cbn [fty_of few_members]. apply IH. apply H.
Qed.

Lemma has_opaque_of s : ForeignTypeSpec.has_opaque (fty_of s) = TypeSpec.has_opaque s.
Proof.
  induction s as [k| |n|k ns vs|fs IH|s IH] using sty_ind'; try reflexivity.
  - destruct k; reflexivity.
  - rewrite fty_of_comp. cbn [ForeignTypeSpec.has_opaque TypeSpec.has_opaque]. generalize 0.
    induction IH as [|[nm s] fs Hx _ IHf]; intros off; [reflexivity|]. rewrite fmembers_cons. cbn [snd] in *.
    rewrite Hx. f_equal. apply IHf.
  - cbn [fty_of ForeignTypeSpec.has_opaque TypeSpec.has_opaque]. exact IH.
Qed.
Lemma opaque_last_of s : writable s -> opaque_last (fty_of s).
Proof.
  induction s as [k| |n|k ns vs|fs IH|s IH] using sty_ind'; intros H; try exact I.
  - destruct k; exact I.
  - apply (proj1 (writable_comp _)) in H. destruct H as (_ & _ & Hf). rewrite fty_of_comp. cbn [opaque_last].
    generalize 0. induction IH as [|[nm s] fs Hx _ IHf]; intros off; [exact I|]. rewrite fmembers_cons.
    cbn [writable_fields] in Hf. destruct Hf as (_ & Hw & Ho & Hr). cbn [snd] in *. split; [apply Hx; exact Hw|].
    split; [|apply IHf; exact Hr]. intros Hne. rewrite has_opaque_of. apply Ho. intros ->. apply Hne. reflexivity.
  - cbn [writable] in H. cbn [fty_of opaque_last]. apply IH. apply H.
Qed.

(** ** Elements *)
Section Elements.
Context (heap : Z -> Z -> res (option bytes)) (in_heap : Z -> Z -> bytes -> Prop) (e : henv).
Hypothesis Hheap : forall a i b, heap a i = Ok (Some b) -> b <> [] -> in_heap a i b.
Hypothesis Haddr : 0 <= he_addr e < 2 ^ 64.

Lemma int_le k z : int_bytes (ksize k) false z = enc_le k z.
Proof. reflexivity. Qed.

Lemma num_value k z : in_range k z = true -> has_value in_heap (fnum k) [] (enc_le k z) (HNum k z).
Proof.
  intros H. assert (Hk : TypeSpec.is_int k -> has_value in_heap (FInt (ksize k) (ksigned k) false) [] (enc_le k z) (HNum k z)).
  { intros Hi. destruct (int_kind k Hi) as [E Hs]. rewrite <- E at 4. rewrite <- int_le. apply has_int; [exact Hs|].
    apply in_range_int; assumption. }
  unfold in_range in H. destruct k; try (apply Hk; split; discriminate).
  - apply (has_real in_heap 4 false z); [auto|]. cbn in H. unfold word. lia.
  - apply (has_real in_heap 8 false z); [auto|]. cbn in H. unfold word. lia.
Qed.

Lemma descriptor_eq n i : descriptor e n i = descriptor_of n (he_addr e) i.
Proof. reflexivity. Qed.

Lemma fields_hold fs l : Forall (fun x => forall v, conf (snd x) v -> has_value in_heap (fty_of (snd x)) [] (cbytes v) v /\
    zlen (cbytes v) = size_of (snd x)) fs -> conf_fields fs l -> forall pos,
  has_fields in_heap pos (pos + size_fields fs) (fmembers pos fs) (cfields l) l /\ zlen (cfields l) = size_fields fs.
Proof.
  intros H. revert l. induction H as [|[nm s] fs Hx _ IH]; intros [|[nm' x] l] Hc pos; cbn [conf_fields] in Hc; try contradiction.
  - split; [|reflexivity]. apply field_nil. cbn [cfields size_fields]. rewrite zlen_nil. lia.
  - destruct Hc as (-> & Hv & Hc). cbn [snd] in Hx. destruct (Hx _ Hv) as [Hh Hz].
    destruct (IH _ Hc (pos + size_of s)) as [Hf Hl]. rewrite fmembers_cons. cbn [cfields size_fields]. split.
    + apply (field_cons in_heap pos (pos + (size_of s + size_fields fs)) nm pos [] (fty_of s) _ [] (cbytes x)).
      * rewrite zlen_nil. lia.
      * rewrite fsize_of, Hz. unfold volume. cbn [fold_right]. lia.
      * exact Hh.
      * rewrite Hz. rewrite Z.add_assoc. exact Hf.
    + rewrite zlen_app. lia.
Qed.

Lemma closed_holds s : writable s -> closed s = true -> forall v, conf s v ->
  has_value in_heap (fty_of s) [] (cbytes v) v /\ zlen (cbytes v) = size_of s.
Proof.
  induction s as [k| |n|k ns vs|fs IH|s IH] using sty_ind'; intros Hw Hc v H; try discriminate.
  - destruct H as (z & -> & Hz). split; [apply num_value; exact Hz|]. cbn [cbytes size_of]. unfold enc_le.
    rewrite zlen_le. destruct k; reflexivity.
  - destruct H as (b & -> & Hb). cbn [writable] in Hw. split; [|exact Hb]. apply has_opaque_data; [lia|exact Hb].
  - destruct H as (z & -> & Hz). cbn [writable] in Hw. destruct Hw as (Hk & _). cbn [cbytes fty_of size_of]. split.
    + destruct (int_kind k Hk) as [E Hs]. pose proof (has_int in_heap (ksize k) (ksigned k) false z Hs (in_range_int k z Hk Hz)) as Hv.
      apply (has_enum in_heap _ _ _ ns vs) in Hv. rewrite E in Hv. exact Hv.
    + unfold enc_le. rewrite zlen_le. destruct k; reflexivity.
  - apply (proj1 (conf_comp _ _)) in H. destruct H as (l & -> & H).
    apply (proj1 (writable_comp _)) in Hw. destruct Hw as (_ & Hsz & Hw). rewrite closed_comp in Hc.
    rewrite fty_of_comp, cbytes_comp, size_of_comp.
    assert (HF : Forall (fun x => forall v, conf (snd x) v -> has_value in_heap (fty_of (snd x)) [] (cbytes v) v /\
                  zlen (cbytes v) = size_of (snd x)) fs).
    { clear H Hsz. induction IH as [|[nm s] fs Hs _ IHf]; [constructor|]. cbn [closed_fields] in Hc.
      apply andb_true_iff in Hc. cbn [writable_fields] in Hw. destruct Hw as (_ & Hw & _ & Hr).
      constructor; [cbn [snd] in *; apply Hs; [exact Hw|apply Hc]|]. apply IHf; [exact Hr|apply Hc]. }
    destruct (fields_hold fs l HF H 0) as [A B]. split; [|exact B]. apply has_comp; [unfold size_ok in Hsz; lia|exact A].
Qed.

Lemma closed_rows s l : writable s -> closed s = true -> Forall (conf s) l ->
  has_rows in_heap (fty_of s) [] (flat_map cbytes l) l.
Proof.
  intros Hw Hc. induction 1 as [|x r Hx _ IH]; [constructor|]. cbn [flat_map]. constructor; [|exact IH].
  apply closed_holds; assumption.
Qed.
Lemma closed_row_ne s l : writable s -> closed s = true -> Forall (conf s) l -> l <> [] -> flat_map cbytes l <> [].
Proof.
  intros Hw Hc H Hl. destruct H as [|x r Hx _]; [congruence|]. cbn [flat_map]. intros E. apply app_eq_nil in E.
  destruct (closed_holds s Hw Hc x Hx) as [_ Hz]. destruct E as [E _]. rewrite E in Hz. pose proof (size_pos s Hw).
  rewrite zlen_nil in Hz. lia.
Qed.

Lemma go_type_fty s : go_type_of (fty_of s) [] = go_type s.
Proof.
  induction s as [k| |n|k ns vs|fs IH|s IH] using sty_ind'; try reflexivity.
  - destruct k; reflexivity.
  - cbn [fty_of go_type_of go_type List.length slices]. rewrite IH. reflexivity.
Qed.

(** What is written for a value holds it *)
Lemma elem_holds s : writable s -> forall v ix ix', conf s v -> stored heap e s v ix ix' ->
  exists b, writeField false e v ix = Ok (b, ix') /\ has_value in_heap (fty_of s) [] b v /\ zlen b = size_of s.
Proof.
  induction s as [k| |n|k ns vs|fs IH|s IH] using sty_ind'; intros Hw v ix ix' H Hst.
  - exists (cbytes v). split; [|apply closed_holds; auto].
    assert (ix' = ix) as -> by (destruct H as (z & -> & _); exact Hst).
    apply (closed_write (SNum k)); auto.
  - destruct H as (t & -> & Ht & Hl). destruct Hst as (-> & Hh & Hi). pose proof (zlen_nonneg t) as H0.
    exists (descriptor e (zlen t) (he_idx e t)). split; [reflexivity|]. split; [|apply zlen_descriptor].
    rewrite descriptor_eq. cbn [fty_of]. apply has_string; try assumption.
    destruct t as [|x t]; [left; reflexivity|]. right. destruct Hh as [Hh|Hh]; [discriminate|]. apply Hheap; [exact Hh|discriminate].
  - exists (cbytes v). split; [|apply closed_holds; auto].
    assert (ix' = ix) as -> by (destruct H as (z & -> & _); exact Hst).
    apply (closed_write (SOpaque n)); auto.
  - exists (cbytes v). split; [|apply closed_holds; auto].
    assert (ix' = ix) as -> by (destruct H as (z & -> & _); exact Hst).
    apply (closed_write (SEnum k ns vs)); auto.
  - apply (proj1 (conf_comp _ _)) in H. destruct H as (l & -> & H).
    apply (proj1 (stored_comp _ _ _ _ _ _)) in Hst.
    apply (proj1 (writable_comp _)) in Hw. destruct Hw as (_ & Hsz & Hw). rewrite writeField_comp.
    rewrite fty_of_comp, size_of_comp.
    assert (HF : forall pos, exists b, writeFields false e l ix = Ok (b, ix') /\
               has_fields in_heap pos (pos + size_fields fs) (fmembers pos fs) b l /\ zlen b = size_fields fs).
    { clear Hsz. revert l ix H Hst Hw.
      induction IH as [|[nm s] fs Hs _ IHf]; intros [|[nm' x] l] ix H Hst Hw pos; cbn [conf_fields] in H; try contradiction.
      - exists []. cbn [stored_fields] in Hst. subst ix'. split; [reflexivity|]. split; [|reflexivity].
        apply field_nil. cbn [size_fields]. rewrite zlen_nil. lia.
      - destruct H as (-> & Hx & H). cbn [stored_fields] in Hst. destruct Hst as (jx & Hst1 & Hst2).
        cbn [writable_fields] in Hw. destruct Hw as (_ & Hws & _ & Hw). cbn [snd] in Hs.
        destruct (Hs Hws x ix jx Hx Hst1) as (b1 & E1 & A1 & A2).
        destruct (IHf l jx H Hst2 Hw (pos + size_of s)) as (b2 & E2 & B1 & B2).
        exists (b1 ++ b2). split.
        + change (writeFields false e ((nm, x) :: l)) with (wseq (writeField false e x) (writeFields false e l)).
          unfold wseq. rewrite E1. cbn [rbind]. rewrite E2. reflexivity.
        + rewrite fmembers_cons. cbn [size_fields]. split.
          * apply (field_cons in_heap pos (pos + (size_of s + size_fields fs)) nm pos [] (fty_of s) _ [] b1).
            { rewrite zlen_nil. lia. }
            { rewrite fsize_of, A2. unfold volume. cbn [fold_right]. lia. }
            { exact A1. }
            { rewrite A2. rewrite Z.add_assoc. exact B1. }
          * rewrite zlen_app. lia. }
    destruct (HF 0) as (b & E & A & B). exists b. split; [exact E|]. split; [|exact B].
    apply has_comp; [unfold size_ok in Hsz; lia|exact A].
  - apply (proj1 (conf_vlen _ _)) in H. destruct H as (l & -> & Hl & H).
    cbn [stored] in Hst. destruct Hst as (i & -> & Hi & Hh). destruct Hw as [Hw Hc]. pose proof (zlen_nonneg l) as H0.
    exists (descriptor e (zlen l) i). split; [reflexivity|]. split; [|apply zlen_descriptor].
    rewrite descriptor_eq. cbn [fty_of]. rewrite <- go_type_fty.
    apply (has_seq in_heap (fty_of s) (he_addr e) i (flat_map cbytes l)); try assumption.
    + apply closed_rows; assumption.
    + destruct l as [|x l]; [left; reflexivity|]. right. destruct Hh as [Hh|Hh]; [discriminate|].
      apply Hheap; [exact Hh|]. apply (closed_row_ne s); try assumption. discriminate.
Qed.
End Elements.
