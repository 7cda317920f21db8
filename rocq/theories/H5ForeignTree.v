(** Lemmas: the reader finds the tree of objects of a file of any writer. *)
From Verif Require Import Prelude GoVal BaseLemmas H5Base H5ChecksumModel Lookup3Spec H5ChecksumProofs H5MetaWrite
  H5MetaRead MetaSpec H5MetaProofs H5DenseRead DenseSpec H5DenseProofs H5BTreeProofs H5SymbolProofs
  ForeignSpec H5Value H5TypeRead H5PathModel H5RecordModel H5FileRead H5ForeignProofs.
From Coq Require Import Lia ZifyBool ZifyNat Permutation.

(** The reader has no complaint about such a message, taken by itself *)
Definition alone (t : Z) (b : bytes) : Prop :=
  match handle (mkEnv [] (fun _ _ => Err EInternal) (fun _ _ _ => Err EInternal)) t b (mkRst (newObject [] 0) [] []) with
  | Ok (_, rest) => forallb (Z.eqb 0) rest = true
  | _ => False
  end.

Definition got {A} (p : P A) (b : bytes) : option A := match p b with Ok (v, _) => Some v | _ => None end.
Definition accepted {A} (p : P A) (b : bytes) : Prop := exists v rest, p b = Ok (v, rest) /\ forallb (Z.eqb 0) rest = true.

Lemma with_same st : with_info st (rs_info st) = st.
Proof. destruct st; reflexivity. Qed.

(** What there is to the data of an object, and what a message says of it *)
Definition stuff (i : rinfo) :=
  (ri_ty i, ri_layout i, ri_blocks i, (ri_btree i, ri_elem i, ri_number i, ri_rank i), (ri_fill i, ri_fillOld i, ri_filters i)).
Definition stuff_attrs (i : rinfo) := (stuff i, (ri_attrs i, (ri_name i, ri_addr i))).
Definition own (t : Z) (b : bytes) (i : rinfo) : rinfo :=
  if t =? 3 then match got parseDatatype b with Some d => set_type d i | None => i end
  else if t =? 4 then match got (do* sz := read32 in rd sz) b with Some v => set_fillOld v i | None => i end
  else if t =? 5 then match got readFillValue b with Some (Some v) => set_fill v i | _ => i end
  else if t =? 8 then match got readDataLayout b with Some l => set_layout l i | None => i end
  else if t =? 11 then match got readFilterPipeline b with Some l => add_filters l i | None => i end
  else if t =? 12 then match readAttribute 0 b with Ok a => add_attr a i | _ => i end
  else i.
Definition own_all (l : list fmsg) (i : rinfo) : rinfo := fold_left (fun i m => own (fm_type m) (fm_data m) i) l i.

Lemma own_stuff t b i j : stuff_attrs i = stuff_attrs j -> stuff_attrs (own t b i) = stuff_attrs (own t b j).
Proof.
  intros H. unfold own. do 5 (match goal with |- context [if ?c then _ else _] => destruct c end; [
    match goal with |- context [match ?c with Some _ => _ | None => _ end] => destruct c as [v|] end; [|exact H];
    try (match type of v with option _ => destruct v as [v|]; [|exact H] | layout => destruct v as [bd|ad sz| |[bt|] shp el] end);
    unfold stuff_attrs, stuff in *; destruct i, j; cbn in *; congruence|]).
  destruct (t =? 12); [|exact H]. destruct (readAttribute 0 b); try exact H.
  unfold stuff_attrs, stuff in *; destruct i, j; cbn in *; congruence.
Qed.
Lemma own_all_stuff l : forall i j, stuff_attrs i = stuff_attrs j -> stuff_attrs (own_all l i) = stuff_attrs (own_all l j).
Proof. induction l as [|m l IH]; intros i j H; [exact H|]. cbn [own_all fold_left]. apply IH, own_stuff, H. Qed.

(** What a message that has only to do with the object itself leaves behind *)
Definition effect (t : Z) (b : bytes) (i0 i : rinfo) : Prop :=
  ri_link i = (if t =? 2 then got readLinkInfo b else ri_link i0) /\
  ri_ainfo i = (if t =? 21 then got readAttributeInfo b else ri_ainfo i0) /\
  ri_dims i = (if t =? 1 then got readDataspace b else ri_dims i0) /\
  ri_group i = (if existsb (Z.eqb t) [1; 3; 4; 5; 8] then false
                else if existsb (Z.eqb t) [2; 10] then true else ri_group i0) /\
  (if t =? 3 then ri_ty i <> None else ri_ty i = ri_ty i0) /\
  stuff_attrs i = stuff_attrs (own t b i0).

Definition own_types : list Z := [0; 3; 4; 5; 8; 10; 11; 12; 13; 14; 18; 22].

Lemma own_message t b st : In t own_types -> t = 0 \/ alone t b ->
  exists i rest, (forall x, handle x t b st = Ok (with_info st i, rest)) /\ forallb (Z.eqb 0) rest = true /\
                 effect t b (rs_info st) i.
Proof.
  intros Ht Ha. unfold own_types in Ht. cbn [In] in Ht.
  assert (D : t = 0 \/ t <> 0) by lia. destruct D as [->|D].
  { exists (rs_info st), []. split; [intros x; rewrite with_same; reflexivity|]. split; [reflexivity|].
    unfold effect, own. cbn [Z.eqb Pos.eqb existsb orb]. tauto. }
  destruct Ha as [Ha|Ha]; [contradiction|]. unfold alone in Ha.
  decompose [or] Ht; clear Ht; try (exfalso; lia); try contradiction; subst t; clear D; unfold handle in Ha; cbn [Z.eqb Pos.eqb] in Ha;
    unfold onMessage in Ha; unfold handle; cbn [Z.eqb Pos.eqb]; unfold onMessage.
  1: destruct (parseDatatype b) as [[v rest]| |] eqn:Ep; cbn [rbind] in *; try contradiction.
  2: destruct ((do* sz := read32 in rd sz) b) as [[v rest]| |] eqn:Ep; cbn [rbind] in *; try contradiction.
  3: destruct (readFillValue b) as [[v rest]| |] eqn:Ep; cbn [rbind] in *; try contradiction.
  4: destruct (readDataLayout b) as [[v rest]| |] eqn:Ep; cbn [rbind] in *; try contradiction.
  5: destruct (readGroupInfo b) as [[v rest]| |]; cbn [rbind] in *; try contradiction.
  6: destruct (readFilterPipeline b) as [[v rest]| |] eqn:Ep; cbn [rbind] in *; try contradiction.
  7: destruct (readAttribute 0 b) as [v| |] eqn:Ep; cbn [rbind] in *; try contradiction.
  8: destruct (readNullTerminatedName 0 b) as [[v rest]| |]; cbn [rbind] in *; try contradiction.
  9: destruct ((do* _ := rd 14 in checkZeroes 2) b) as [[v rest]| |]; cbn [rbind] in *; try contradiction.
  10: destruct ((do* _ := read8 in do* z := rd 3 in do* _ := passert (forallb (fun c => c =? 0) z) EInternal in read32) b)
        as [[v rest]| |]; cbn [rbind] in *; try contradiction.
  11: destruct ((do* v := read8 in do* _ := checkVal 0 v in read32) b) as [[v rest]| |]; cbn [rbind] in *; try contradiction.
  all: try (match goal with |- context [Ok (?s, ?r)] => is_var s; exists (rs_info s), r end;
            split; [intros x; rewrite with_same; reflexivity|]; split; [exact Ha|];
            unfold effect, own; cbn [Z.eqb Pos.eqb existsb orb]; tauto).
  all: match goal with |- context [Ok (with_info _ ?j, ?r)] => exists j, r end; split; [intros x; reflexivity|].
  all: split; [exact Ha|].
  all: unfold effect, own, got, stuff_attrs, stuff; cbn [Z.eqb Pos.eqb existsb orb].
  all: try rewrite Ep.
  all: try (match type of v with option _ => destruct v | layout => destruct v as [bd|ad sz| |[bt|] shp el] end).
  all: cbn [set_group set_type set_fill set_fillOld set_layout add_filters add_attr add_block set_chunks ri_link ri_ainfo ri_dims ri_group ri_ty
            ri_layout ri_blocks ri_btree ri_elem ri_number ri_rank ri_fill ri_fillOld ri_filters ri_attrs ri_name ri_addr].
  all: repeat split; try reflexivity; try discriminate.
Qed.

(** ** The messages with a say on the structure *)
Lemma flag_bit flags n : hasFlag8 flags n = Z.testbit flags n.
Proof. unfold hasFlag8. symmetry. apply Z.testbit_odd. Qed.

Lemma opt_pass {A} (b : bool) (p : P A) (d : A) (x r : bytes) v :
  p (x ++ r) = Ok (v, r) -> exists w, (if b then p else pret d) ((if b then x else []) ++ r) = Ok (w, r).
Proof. intros H. destruct b; [exists v; exact H|exists d; reflexivity]. Qed.
Lemma opt8 (b : bool) x r : exists w, (if b then read8 else pret 0) ((if b then [x] else []) ++ r) = Ok (w, r).
Proof. apply (opt_pass b read8 0 [x] r x). apply read8_cons. Qed.
Lemma opt16 (b : bool) x r : word 16 x ->
  exists w, (if b then read16 else pret 0) ((if b then le 2 x else []) ++ r) = Ok (w, r).
Proof. intros H. apply (opt_pass b read16 0 (le 2 x) r x). apply read16_le. exact H. Qed.
Lemma opt64 (b : bool) x r : word 64 x ->
  exists w, (if b then read64 else pret 0) ((if b then le 8 x else []) ++ r) = Ok (w, r).
Proof. intros H. apply (opt_pass b read64 0 (le 8 x) r x). apply read64_le. exact H. Qed.
Lemma pbind_step {A B} (p : P A) (k : A -> P B) s v r : p s = Ok (v, r) -> pbind p k s = k v r.
Proof. intros H. unfold pbind. rewrite H. reflexivity. Qed.

Ltac opt_read H := match goal with |- context [pbind (if _ then _ else _) _ (_ ++ ?r)] =>
  let w := fresh "w" in let E := fresh in destruct (H r) as [w E]; rewrite (pbind_step _ _ _ _ _ E); clear E end.

Lemma hard_link_read b name addr : hard_link b name addr -> zlen b < 2 ^ 16 ->
  exists co, readLink b = Ok ((name, addr, co), []).
Proof.
  intros (flags & order & cset & pad & Hfl & Ho & Hc & Ha & Hn & ->) Hb.
  assert (Lb : zlen name < 2 ^ 16).
  { unfold link_bytes in Hb. rewrite !zlen_app in Hb. 
    repeat match goal with H : context [zlen ?x] |- _ => lazymatch x with name => fail | _ =>
      let z := fresh in let e := fresh in pose proof (zlen_nonneg x) as e; set (z := zlen x) in *; clearbody z end end.
    pose proof (zlen_nonneg name). lia. }
  pose proof (zlen_nonneg name) as Hn0.
  unfold link_bytes. rewrite <- !app_assoc. cbn [app]. unfold readLink.
  rewrite (pbind_step _ _ _ _ _ (read8_cons _ _)). rewrite (pbind_step _ _ _ _ _ (checkVal_same _ _)).
  rewrite (pbind_step _ _ _ _ _ (read8_cons _ _)). rewrite !flag_bit.
  opt_read (opt8 (Z.testbit flags 3) 0).
  match goal with |- context [pbind (if _ then _ else _) _ (_ ++ ?r)] =>
    destruct (opt64 (Z.testbit flags 2) order r Ho) as [co E2]; rewrite (pbind_step _ _ _ _ _ E2); clear E2 end.
  match goal with |- exists co, pbind ?p _ (?x ++ ?r) = _ =>
    assert (E3 : p (x ++ r) = Ok (if Z.testbit flags 4 then cset else 0, r)) by
      (destruct (Z.testbit flags 4); [apply read8_cons|reflexivity]) end.
  rewrite (pbind_step _ _ _ _ _ E3). clear E3.
  replace (((if Z.testbit flags 4 then cset else 0) =? 0) || ((if Z.testbit flags 4 then cset else 0) =? 1)) with true
    by (destruct (Z.testbit flags 4); lia).
  rewrite (pbind_step _ _ _ _ _ (passert_true _ _)). rewrite shift3.
  rewrite (pbind_step _ _ _ _ _ (readEnc_le flags (zlen name) _ (conj Hn0 Hn))).
  replace (2 ^ 48 <? zlen name) with false by lia.
  exists co.
  rewrite (pbind_step _ _ _ name (le 8 addr ++ zrep pad 0)) by (apply rd_app; reflexivity).
  rewrite (pbind_step _ _ _ _ _ (read64_le _ _ Ha)).
  unfold prem. unfold pbind at 1. cbn [rbind].
  rewrite (pbind_step _ _ (zrep pad 0) tt []); [reflexivity|].
  rewrite <- (app_nil_r (zrep pad 0)) at 2. apply checkZeroes_zrep. rewrite zlen_zrep. lia.
Qed.

Lemma link_info_read b heap index : link_info b heap index -> exists pad, readLinkInfo b = Ok ((heap, index), zrep pad 0).
Proof.
  intros (flags & most & byOrder & pad & Hfl & Hm & Hh & Hi & Ho & ->). exists pad.
  cbn [app]. unfold readLinkInfo.
  rewrite (pbind_step _ _ _ _ _ (read8_cons _ _)). rewrite (pbind_step _ _ _ _ _ (read8_cons _ _)). rewrite !flag_bit.
  opt_read (fun r => opt64 (Z.testbit flags 0) most r Hm).
  rewrite (pbind_step _ _ _ _ _ (read64_le _ _ Hh)). rewrite (pbind_step _ _ _ _ _ (read64_le _ _ Hi)).
  opt_read (fun r => opt64 (Z.testbit flags 1) byOrder r Ho). reflexivity.
Qed.
Lemma attr_info_read b heap index : attr_info b heap index ->
  exists pad, readAttributeInfo b = Ok ((heap, index), zrep pad 0).
Proof.
  intros (flags & most & byOrder & pad & Hfl & Hm & Hh & Hi & Ho & ->). exists pad.
  cbn [app]. unfold readAttributeInfo.
  rewrite (pbind_step _ _ _ _ _ (read8_cons _ _)). rewrite (pbind_step _ _ _ _ _ (checkVal_same _ _)).
  rewrite (pbind_step _ _ _ _ _ (read8_cons _ _)). rewrite !flag_bit.
  opt_read (fun r => opt16 (Z.testbit flags 0) most r Hm).
  rewrite (pbind_step _ _ _ _ _ (read64_le _ _ Hh)). rewrite (pbind_step _ _ _ _ _ (read64_le _ _ Hi)).
  opt_read (fun r => opt64 (Z.testbit flags 1) byOrder r Ho). reflexivity.
Qed.

Lemma maxes_read flags (dims most : list Z) r : Forall (word 64) most ->
  (if Z.testbit flags 0 then zlen most = zlen dims else most = []) ->
  exists w, (if hasFlag8 flags 0 then read_n (Z.to_nat (zlen dims)) read64 else pret []) (flat_map (le 8) most ++ r)
            = Ok (w, r).
Proof.
  intros Hm H. rewrite flag_bit. destruct (Z.testbit flags 0).
  - exists most. rewrite <- H. unfold zlen. rewrite Nat2Z.id. apply read_n_le8. exact Hm.
  - subst most. exists []. reflexivity.
Qed.
Lemma bit1 flags : word 1 flags -> hasFlag8 flags 1 = false.
Proof. intros H. unfold word in H. assert (D : flags = 0 \/ flags = 1) by lia. destruct D as [->| ->]; reflexivity. Qed.

Lemma foreign_dataspace b dims : dataspace b dims -> exists pad, readDataspace b = Ok (dims, zrep pad 0).
Proof.
  intros (flags & most & pad & Hfl & Hd & Hm & Hmx & Hl & H). exists pad. pose proof (zlen_nonneg dims).
  assert (ED : forall r, read_n (Z.to_nat (zlen dims)) read64 (flat_map (le 8) dims ++ r) = Ok (dims, r)).
  { intros r. unfold zlen. rewrite Nat2Z.id. apply read_n_le8. exact Hd. }
  destruct (maxes_read flags dims most (zrep pad 0) Hm Hmx) as [w EM].
  destruct H as [->|(kind & Hk & ->)]; cbn [app]; unfold readDataspace.
  - rewrite (pbind_step _ _ _ _ _ (read8_cons _ _)). change ((1 =? 1) || (1 =? 2)) with true.
    rewrite (pbind_step _ _ _ _ _ (passert_true _ _)).
    rewrite (pbind_step _ _ _ _ _ (read8_cons _ _)). rewrite (pbind_step _ _ _ _ _ (read8_cons _ _)).
    change (zrep 5 0) with (0 :: le 4 0). cbn [app]. rewrite (pbind_step _ _ _ _ _ (read8_cons _ _)).
    change (1 =? 1) with true. cbv iota.
    assert (E1 : (do* _ := checkVal 0 0 in do* reserved := read32 in do* _ := checkVal 0 reserved in pret 1)
                   (le 4 0 ++ flat_map (le 8) dims ++ flat_map (le 8) most ++ zrep pad 0) =
                 Ok (1, flat_map (le 8) dims ++ flat_map (le 8) most ++ zrep pad 0)).
    { rewrite (pbind_step _ _ _ _ _ (checkVal_same _ _)). rewrite (pbind_step _ _ _ 0 _ (read32_le' 0 _ ltac:(lia))).
      rewrite (pbind_step _ _ _ _ _ (checkVal_same _ _)). reflexivity. }
    rewrite (pbind_step _ _ _ _ _ E1). change (1 <=? 2) with true.
    rewrite (pbind_step _ _ _ _ _ (passert_true _ _)). rewrite (pbind_step _ _ _ _ _ (ED _)).
    rewrite (pbind_step _ _ _ _ _ EM). rewrite bit1 by exact Hfl. reflexivity.
  - rewrite (pbind_step _ _ _ _ _ (read8_cons _ _)). change ((2 =? 1) || (2 =? 2)) with true.
    rewrite (pbind_step _ _ _ _ _ (passert_true _ _)).
    rewrite (pbind_step _ _ _ _ _ (read8_cons _ _)). rewrite (pbind_step _ _ _ _ _ (read8_cons _ _)).
    rewrite (pbind_step _ _ _ _ _ (read8_cons _ _)). change (2 =? 1) with false. cbv iota.
    rewrite (pbind_step _ _ _ kind _ (eq_refl (Ok (kind, _)))).
    replace (kind <=? 2) with true by lia.
    rewrite (pbind_step _ _ _ _ _ (passert_true _ _)). rewrite (pbind_step _ _ _ _ _ (ED _)).
    rewrite (pbind_step _ _ _ _ _ EM). reflexivity.
Qed.

(** ** What the reader shows *)

(** The object was read from this address: it was new, and the depth was enough *)
Definition blank (name : bytes) (a : Z) (i : rinfo) : Prop := exists g, i = set_group g (newObject name a).
Definition apart (l ad : list Z) : Prop := forall x, In x l -> ~ In x ad.
Definition came (f : bytes) (name : bytes) (a : Z) (t : ftree) (o : robj) : Prop :=
  exists i ad n st, blank name a i /\ apart (below t) ad /\ NoDup (below t) /\ (forall fu, (n <= fu)%nat -> readAny fu f (JObject a) (mkRst i [] ad) = Ok st) /\
    o = RObj (rs_info st) (rs_children st).

(** The tree of objects got from the file is that one: in a group the links in any order *)
Inductive shows (f : bytes) : ftree -> robj -> Prop :=
| shows_group kids i cs os :
    ri_group i = true -> ri_dims i = None -> Permutation cs os ->
    Forall2 (fun k o => fst (fst k) = fst o /\ shows f (snd k) (snd o) /\ came f (fst (fst k)) (snd (fst k)) (snd k) (snd o)) kids os ->
    shows f (FGroup kids) (RObj i cs)
| shows_data dims i : ri_group i = false -> ri_dims i = Some dims -> shows f (FData dims) (RObj i [])
| shows_type i : ri_group i = false -> ri_dims i = None -> ri_ty i <> None -> shows f FType (RObj i []).

Definition kid : Type := (bytes * Z * ftree)%type.
Definition k_name (k : kid) : bytes := fst (fst k).
Definition k_addr (k : kid) : Z := snd (fst k).
Definition k_tree (k : kid) : ftree := snd k.
Definition k_all (k : kid) : list Z := k_addr k :: below (k_tree k).
Definition kid_shown (f : bytes) (k : kid) (o : bytes * robj) : Prop :=
  fst (fst k) = fst o /\ shows f (snd k) (snd o) /\ came f (fst (fst k)) (snd (fst k)) (snd k) (snd o).

Definition fresh (i : rinfo) : Prop := ri_link i = None /\ ri_ainfo i = None /\ ri_dims i = None.
Definition adds (l ad ad' : list Z) : Prop := forall x, In x ad' <-> In x ad \/ In x l.

Lemma NoDup_split {A} (l1 l2 : list A) : NoDup (l1 ++ l2) ->
  NoDup l1 /\ NoDup l2 /\ (forall x, In x l1 -> ~ In x l2).
Proof.
  induction l1 as [|x l1 IH]; intros H.
  - split; [apply NoDup_nil|]. split; [exact H|]. intros x [].
  - inversion H as [|y l Hn Hd]; subst. destruct (IH Hd) as (H1 & H2 & H3).
    split; [apply NoDup_cons; [intros Hi; apply Hn, in_or_app; left; exact Hi|exact H1]|].
    split; [exact H2|]. intros y [->|Hy]; [intros Hi; apply Hn, in_or_app; right; exact Hi|apply H3; exact Hy].
Qed.

Lemma zeros_zrep n : forallb (Z.eqb 0) (zrep n 0) = true.
Proof. unfold zrep. induction (Z.to_nat n) as [|m IH]; [reflexivity|]. cbn [repeat forallb]. rewrite IH. reflexivity. Qed.

Section Trees.
  Variable f : bytes.
  Hypothesis Hf : zlen f < 2 ^ 63.

  (** An object is read from any depth on *)
  Definition reads (n : nat) (a : Z) (t : ftree) : Prop :=
    forall i ad, fresh i -> apart (below t) ad -> NoDup (below t) ->
    exists st', (forall fu, (n <= fu)%nat -> readAny fu f (JObject a) (mkRst i [] ad) = Ok st') /\
                shows f t (RObj (rs_info st') (rs_children st')) /\ adds (below t) ad (rs_addrs st').

  Definition ready (k : kid) (st : rstate) : Prop :=
    ~ In (k_name k) (map fst (rs_children st)) /\ apart (k_all k) (rs_addrs st) /\ NoDup (k_all k).
  Definition grown (st : rstate) (os : list (bytes * robj)) (ad : list Z) : rstate :=
    mkRst (rs_info st) (rs_children st ++ os) ad.

  Lemma follow_one n k st : reads n (k_addr k) (k_tree k) -> ready k st ->
    exists o ad', kid_shown f k (k_name k, o) /\ adds (k_all k) (rs_addrs st) ad' /\
    forall fu kk, (n <= fu)%nat ->
      followLink (envAt fu f kk) (k_name k) (k_addr k) st = Ok (grown st [(k_name k, o)] ad').
  Proof.
    intros Hr (Hn & Hap & Hd). inversion Hd as [|x l Hx Hd']; subst.
    assert (Ha : ~ In (k_addr k) (rs_addrs st)) by (apply Hap; left; reflexivity).
    assert (Hap' : apart (below (k_tree k)) (rs_addrs st ++ [k_addr k])).
    { intros x Hxb Hxi. apply in_app_or in Hxi. destruct Hxi as [Hxi|[<-|[]]]; [|apply Hx; exact Hxb].
      exact (Hap x (or_intror Hxb) Hxi). }
    destruct (Hr (newObject (k_name k) (k_addr k)) (rs_addrs st ++ [k_addr k])) as (st' & Hst & Hsh & Had).
    - repeat split.
    - exact Hap'.
    - exact Hd'.
    - exists (RObj (rs_info st') (rs_children st')), (rs_addrs st').
      split; [split; [reflexivity|split; [exact Hsh|]]|].
      { eexists _, _, n, st'. split; [exists false; reflexivity|]. split; [exact Hap'|]. split; [exact Hd'|]. split; [exact Hst|reflexivity]. }
      split.
      { intros x. rewrite (Had x), in_app_iff. unfold k_all. cbn [In]. tauto. }
      intros fu kk Hfu. unfold followLink. rewrite (proj2 (mem_nIn _ _) Hn).
      assert (Ex : existsb (Z.eqb (k_addr k)) (rs_addrs st) = false).
      { destruct (existsb (Z.eqb (k_addr k)) (rs_addrs st)) eqn:E; [|reflexivity]. exfalso. apply Ha.
        apply existsb_exists in E. destruct E as (y & Hy & Ey). apply Z.eqb_eq in Ey. rewrite <- Ey in Hy. exact Hy. }
      rewrite Ex. cbn [envAt e_object]. rewrite (Hst fu Hfu). reflexivity.
  Qed.

  (** as a symbol, but an error if the object was met before *)
  Definition newSymbol (x : env) (name : bytes) (addr : Z) (st : rstate) : res rstate :=
    let* (st, go) := followSymbol x name addr st in if go : bool then Ok st else Err EInternal.
  Lemma symbol_one n k st : reads n (k_addr k) (k_tree k) -> ready k st ->
    exists o ad', kid_shown f k (k_name k, o) /\ adds (k_all k) (rs_addrs st) ad' /\
    forall fu kk, (n <= fu)%nat ->
      newSymbol (envAt fu f kk) (k_name k) (k_addr k) st = Ok (grown st [(k_name k, o)] ad').
  Proof.
    intros Hr (Hn & Hap & Hd). inversion Hd as [|x l Hx Hd']; subst.
    assert (Ha : ~ In (k_addr k) (rs_addrs st)) by (apply Hap; left; reflexivity).
    assert (Hap' : apart (below (k_tree k)) (rs_addrs st ++ [k_addr k])).
    { intros x Hxb Hxi. apply in_app_or in Hxi. destruct Hxi as [Hxi|[<-|[]]]; [|apply Hx; exact Hxb].
      exact (Hap x (or_intror Hxb) Hxi). }
    destruct (Hr (set_group true (newObject (k_name k) (k_addr k))) (rs_addrs st ++ [k_addr k]))
      as (st' & Hst & Hsh & Had).
    - repeat split.
    - exact Hap'.
    - exact Hd'.
    - exists (RObj (rs_info st') (rs_children st')), (rs_addrs st').
      split; [split; [reflexivity|split; [exact Hsh|]]|].
      { eexists _, _, n, st'. split; [exists true; reflexivity|]. split; [exact Hap'|]. split; [exact Hd'|]. split; [exact Hst|reflexivity]. }
      split.
      { intros x. rewrite (Had x), in_app_iff. unfold k_all. cbn [In]. tauto. }
      intros fu kk Hfu. unfold newSymbol, followSymbol. rewrite (proj2 (mem_nIn _ _) Hn).
      assert (Ex : existsb (Z.eqb (k_addr k)) (rs_addrs st) = false).
      { destruct (existsb (Z.eqb (k_addr k)) (rs_addrs st)) eqn:E; [|reflexivity]. exfalso. apply Ha.
        apply existsb_exists in E. destruct E as (y & Hy & Ey). apply Z.eqb_eq in Ey. rewrite <- Ey in Hy. exact Hy. }
      rewrite Ex. cbn [envAt e_object]. rewrite (Hst fu Hfu). reflexivity.
  Qed.

  (** Many links, followed one after the other *)
  Definition all_ready (K : list kid) (st : rstate) : Prop :=
    NoDup (map fst (rs_children st) ++ map k_name K) /\ apart (flat_map k_all K) (rs_addrs st) /\
    NoDup (flat_map k_all K).

  Lemma all_ready_cons k K st : all_ready (k :: K) st ->
    ready k st /\ forall o ad', kid_shown f k (k_name k, o) -> adds (k_all k) (rs_addrs st) ad' ->
                  all_ready K (grown st [(k_name k, o)] ad').
  Proof.
    intros (H1 & H2 & H3). cbn [map flat_map] in *.
    destruct (NoDup_split _ _ H3) as (D1 & D2 & D3).
    split.
    - split; [|split; [intros x Hx; apply H2, in_or_app; left; exact Hx|exact D1]].
      apply NoDup_remove_2 in H1. intros Hi. apply H1, in_or_app. left. exact Hi.
    - intros o ad' Ho Hadd. split; [|split; [|exact D2]].
      + cbn [grown rs_children]. rewrite map_app. cbn [map fst]. rewrite <- app_assoc. exact H1.
      + intros x Hx Hi. apply Hadd in Hi. destruct Hi as [Hi|Hi].
        * exact (H2 x (in_or_app _ _ _ (or_intror Hx)) Hi).
        * exact (D3 x Hi Hx).
  Qed.

  Section Many.
    Context {A : Type} (act : nat -> A -> rstate -> res rstate) (R : A -> kid -> Prop) (n : nat).
    Hypothesis one : forall x k st, R x k -> reads n (k_addr k) (k_tree k) -> ready k st ->
      exists o ad', kid_shown f k (k_name k, o) /\ adds (k_all k) (rs_addrs st) ad' /\
      forall fu, (n <= fu)%nat -> act fu x st = Ok (grown st [(k_name k, o)] ad').

    Lemma follow_many xs K : Forall2 R xs K -> Forall (fun k => reads n (k_addr k) (k_tree k)) K ->
      forall st, all_ready K st ->
      exists os ad', Forall2 (kid_shown f) K os /\ adds (flat_map k_all K) (rs_addrs st) ad' /\
      forall fu, (n <= fu)%nat -> rfold (act fu) xs st = Ok (grown st os ad').
    Proof.
      induction 1 as [|x k xs K HR _ IH]; intros Hrd st Har.
      - exists [], (rs_addrs st). split; [apply Forall2_nil|]. split; [intros x; cbn; tauto|].
        intros fu _. cbn [rfold]. unfold grown. rewrite app_nil_r. destruct st; reflexivity.
      - inversion Hrd as [|k' K' Hk HK]; subst. destruct (all_ready_cons _ _ _ Har) as [Hr1 Hr2].
        destruct (one x k st HR Hk Hr1) as (o & ad1 & Ho & Ha1 & E1).
        destruct (IH HK _ (Hr2 o ad1 Ho Ha1)) as (os & ad2 & Hos & Ha2 & E2).
        exists ((k_name k, o) :: os), ad2. split; [apply Forall2_cons; assumption|]. split.
        { intros y. rewrite (Ha2 y). cbn [grown rs_addrs]. rewrite (Ha1 y). cbn [flat_map]. rewrite in_app_iff. tauto. }
        intros fu Hfu. cbn [rfold]. rewrite (E1 fu Hfu), (E2 fu Hfu). unfold grown. cbn [rs_info rs_children].
        rewrite <- app_assoc. reflexivity.
    Qed.
  End Many.

  (** ** Symbol tables *)
  Section Sim.
    Context {T : Type} (on1 on2 : bytes -> Z -> T -> res (T * bool)).
    Hypothesis sim : forall name addr st st' go, on2 name addr st = Ok (st', go) -> on1 name addr st = Ok (st', go).

    Lemma symbols_sim n : forall heap b st st',
      readSymbols f on2 n heap b st = Ok st' -> readSymbols f on1 n heap b st = Ok st'.
    Proof.
      induction n as [|n IH]; intros heap b st st' H; [exact H|]. cbn [readSymbols] in *.
      repeat match type of H with rbind ?X _ = _ =>
        lazymatch X with
        | on2 _ _ _ => destruct X as [[s g]| |] eqn:E; cbn [rbind] in H; [|discriminate H|discriminate H];
            rewrite (sim _ _ _ _ _ E); cbn [rbind]; destruct g; [apply IH; exact H|exact H]
        | _ => let r := fresh "r" in destruct X as [r| |]; cbn [rbind] in *; [|discriminate H|discriminate H]; try (destruct r as [? ?]) end end.
    Qed.
    Lemma table_sim a heap st st' : readSymbolTable f on2 a heap st = Ok st' -> readSymbolTable f on1 a heap st = Ok st'.
    Proof.
      assert (HL : forall l st st', readLeaves f on2 heap l st = Ok st' -> readLeaves f on1 heap l st = Ok st').
      { induction l as [|c l IH]; intros s s' H; [exact H|]. cbn [readLeaves] in *.
        destruct (readSymbolTableLeaf f on2 heap c s) as [s1| |] eqn:E; cbn [rbind] in H; [|discriminate H|discriminate H].
        assert (E1 : readSymbolTableLeaf f on1 heap c s = Ok s1).
        { unfold readSymbolTableLeaf in *.
          repeat match type of E with rbind ?X _ = _ =>
            let r := fresh "r" in destruct X as [r| |]; cbn [rbind] in *; [|discriminate E|discriminate E]; try (destruct r as [? ?]) end.
          apply symbols_sim. exact E. }
        rewrite E1. cbn [rbind]. apply IH. exact H. }
      unfold readSymbolTable. intros H.
      repeat match type of H with rbind ?X _ = _ =>
        let r := fresh "r" in destruct X as [r| |]; cbn [rbind] in *; [|discriminate H|discriminate H]; try (destruct r as [? ?]) end.
      apply HL. exact H.
    Qed.
  End Sim.

  Lemma symbols_followed n index heap links K st : table_has f index heap links -> map fst K = links ->
    Forall (fun k => reads n (k_addr k) (k_tree k)) K -> all_ready K st ->
    exists os ad', Forall2 (kid_shown f) K os /\ adds (flat_map k_all K) (rs_addrs st) ad' /\
    forall fu kk, (n <= fu)%nat -> readSymbolTable f (followSymbol (envAt fu f kk)) index heap st = Ok (grown st os ad').
  Proof.
    intros (syms & Ht & Hh & H2) EK Hrd Har.
    set (nm := fun s : symbol => match readLocalHeap f heap (sy_name s) with Ok x => x | _ => [] end).
    assert (F2 : Forall2 (fun s k => name_at f heap (sy_name s) (k_name k) /\ sy_addr s = k_addr k /\ nm s = k_name k)
                   syms K).
    { subst links. clear Har Hrd Ht. revert K H2. induction syms as [|s syms IH]; intros [|k K] H2; inversion H2; subst.
      - apply Forall2_nil.
      - apply Forall2_cons; [|apply IH; assumption]. destruct H3 as [N1 N2].
        split; [exact N1|]. split; [exact N2|]. unfold nm. rewrite (local_name _ _ _ _ N1 Hf). reflexivity. }
    assert (NM : Forall (fun s => name_at f heap (sy_name s) (nm s)) syms).
    { clear H2 Ht Hrd Har EK. induction F2 as [|s k syms' K' (N1 & N2 & N3) _ IH]; [apply Forall_nil|].
      apply Forall_cons; [rewrite N3; exact N1|exact IH]. }
    destruct (follow_many (fun fu s st => newSymbol (envAt fu f (0, 0)) (nm s) (sy_addr s) st)
      (fun s k => name_at f heap (sy_name s) (k_name k) /\ sy_addr s = k_addr k /\ nm s = k_name k) n)
      with (xs := syms) (K := K) (st := st) as (os & ad' & Hos & Had & Er).
    { intros s k st0 (N1 & N2 & N3) Hr Hrdy. rewrite N2, N3.
      destruct (symbol_one n k st0 Hr Hrdy) as (o & ad1 & A1 & A2 & A3). exists o, ad1.
      split; [exact A1|]. split; [exact A2|]. intros fu Hfu. apply A3. exact Hfu. }
    { exact F2. }
    { exact Hrd. }
    { exact Har. }
    exists os, ad'. split; [exact Hos|]. split; [exact Had|]. intros fu kk Hfu.
    apply (table_sim (followSymbol (envAt fu f kk))
             (fun name addr st => let* st := newSymbol (envAt fu f (0, 0)) name addr st in Ok (st, true))).
    { intros name addr s s' go E. unfold newSymbol in E.
      change (followSymbol (envAt fu f (0, 0)) name addr s) with (followSymbol (envAt fu f kk) name addr s) in E.
      destruct (followSymbol (envAt fu f kk) name addr s) as [[s1 g]| |]; cbn [rbind] in E; [|discriminate E|discriminate E].
      destruct g; cbn [rbind] in E; [|discriminate E]. exact E. }
    rewrite (table_read f _ (newSymbol (envAt fu f (0, 0))) heap nm Hf (fun _ _ _ => eq_refl) index syms st Ht NM).
    apply Er. exact Hfu.
  Qed.
  (** ** The messages of an object *)
  Definition after {A} (t : Z) (p : P A) (l : list fmsg) (x : option A) : option A :=
    match of_type t l with [] => x | b :: _ => got p b end.
  (** At most one message of that type, and none if there was one already *)
  Definition single {A} (t : Z) (l : list fmsg) (x : option A) : Prop :=
    of_type t l = [] \/ (x = None /\ exists b, of_type t l = [b]).

  Lemma of_type_cons t m l : of_type t (m :: l) = if fm_type m =? t then fm_data m :: of_type t l else of_type t l.
  Proof. unfold of_type. cbn [filter]. destruct (fm_type m =? t); reflexivity. Qed.
  Lemma after_cons {A} t (p : P A) m l x y : single t (m :: l) x ->
    y = (if fm_type m =? t then got p (fm_data m) else x) ->
    after t p (m :: l) x = after t p l y /\ single t l y.
  Proof.
    intros Hs Hy. unfold after, single in *. rewrite of_type_cons in *. destruct (fm_type m =? t).
    - destruct Hs as [Hs|(Hx & b & Hs)]; [discriminate Hs|]. injection Hs as E1 E2. rewrite E2. subst y.
      split; [reflexivity|left; reflexivity].
    - subst y. split; [reflexivity|exact Hs].
  Qed.

  Lemma accepted_ne {A} (p : P A) b : (forall e, p [] <> Ok e) -> accepted p b -> b <> [].
  Proof. intros H (v & rest & E & _) ->. exact (H _ E). Qed.

  (** A message that has only to do with the object itself *)
  Lemma info_step n kk m st :
    (plain alone own_types m) \/
    (fm_type m = 1 /\ accepted readDataspace (fm_data m)) \/
    (fm_type m = 2 /\ accepted readLinkInfo (fm_data m) /\ ri_link (rs_info st) = None) \/
    (fm_type m = 21 /\ accepted readAttributeInfo (fm_data m) /\ ri_ainfo (rs_info st) = None) ->
    exists i, taken f n kk (data_of m) st (with_info st i) /\ effect (fm_type m) (fm_data m) (rs_info st) i.
  Proof.
    assert (TK : forall i rest, (forall x, handle x (fm_type m) (fm_data m) st = Ok (with_info st i, rest)) ->
              forallb (Z.eqb 0) rest = true -> fm_data m <> [] -> taken f n kk (data_of m) st (with_info st i)).
    { intros i rest E1 E2 Hne. unfold data_of. destruct (fm_data m) as [|c d] eqn:Ed; [congruence|].
      eapply taken_cons; [|exact E2|apply taken_nil]. intros fu _. apply E1. }
    intros [(Ht & Ha)|[(Ht & Ha)|[(Ht & Ha & Hl)|(Ht & Ha & Hl)]]].
    - destruct (Z.eq_dec (fm_type m) 0) as [E0|E0].
      + exists (rs_info st). rewrite with_same. rewrite E0. split.
        * unfold data_of. rewrite E0. destruct (fm_data m); [apply taken_nil|].
          eapply taken_cons with (rest := []); [intros fu _; reflexivity|reflexivity|apply taken_nil].
        * unfold effect, own. cbn [Z.eqb Pos.eqb existsb orb]. tauto.
      + destruct Ha as [Ha|[Hne Ha]]; [contradiction|].
        destruct (own_message (fm_type m) (fm_data m) st Ht (or_intror Ha)) as (i & rest & E1 & E2 & E3).
        exists i. split; [apply (TK i rest); assumption|exact E3].
    - assert (Hne : fm_data m <> []) by (eapply accepted_ne; [|exact Ha]; intros e E; discriminate E).
      destruct Ha as (v & rest & E1 & E2). exists (set_dims v (set_group false (rs_info st))). split.
      + apply (TK _ rest); [|exact E2|exact Hne]. intros x. rewrite Ht. unfold handle. cbn [Z.eqb Pos.eqb].
        unfold onMessage. rewrite E1. reflexivity.
      + rewrite Ht. unfold effect, got, own. rewrite E1. cbn [Z.eqb Pos.eqb existsb orb]. repeat split.
    - assert (Hne : fm_data m <> []) by (eapply accepted_ne; [|exact Ha]; intros e E; discriminate E).
      destruct Ha as (v & rest & E1 & E2). exists (set_group true (set_link v (rs_info st))). split.
      + apply (TK _ rest); [|exact E2|exact Hne]. intros x. rewrite Ht. unfold handle. cbn [Z.eqb Pos.eqb].
        rewrite Hl. unfold onMessage. rewrite E1. reflexivity.
      + rewrite Ht. unfold effect, got, own. rewrite E1. cbn [Z.eqb Pos.eqb existsb orb]. repeat split.
    - assert (Hne : fm_data m <> []) by (eapply accepted_ne; [|exact Ha]; intros e E; discriminate E).
      destruct Ha as (v & rest & E1 & E2). exists (set_ainfo v (rs_info st)). split.
      + apply (TK _ rest); [|exact E2|exact Hne]. intros x. rewrite Ht. unfold handle. cbn [Z.eqb Pos.eqb].
        rewrite Hl. unfold onMessage. rewrite E1. reflexivity.
      + rewrite Ht. unfold effect, got, own. rewrite E1. cbn [Z.eqb Pos.eqb existsb orb]. repeat split.
  Qed.

  (** A dataset or a named datatype *)
  Lemma info_run n kk l : forall st,
    Forall (fun m => (fm_type m = 1 /\ accepted readDataspace (fm_data m)) \/
                     (fm_type m = 21 /\ accepted readAttributeInfo (fm_data m)) \/
                     plain alone [0; 3; 4; 5; 8; 11; 12; 13; 14; 18; 22] m) l ->
    single 21 l (ri_ainfo (rs_info st)) -> single 1 l (ri_dims (rs_info st)) ->
    exists i, taken f n kk (all_data l) st (with_info st i) /\
      ri_link i = ri_link (rs_info st) /\
      ri_ainfo i = after 21 readAttributeInfo l (ri_ainfo (rs_info st)) /\
      ri_dims i = after 1 readDataspace l (ri_dims (rs_info st)) /\
      (ri_group (rs_info st) = false \/ of_type 1 l ++ of_type 3 l <> [] -> ri_group i = false) /\
      (ri_ty (rs_info st) <> None \/ of_type 3 l <> [] -> ri_ty i <> None) /\
      stuff_attrs i = stuff_attrs (own_all l (rs_info st)).
  Proof.
    induction l as [|m l IH]; intros st Hl H21 H1.
    - exists (rs_info st). rewrite with_same. split; [apply taken_nil|].
      unfold after, of_type. cbn [filter map app]. repeat split; try (intros [H|H]; (exact H || congruence)).
    - inversion Hl as [|m' l' Hm Hl']; subst m' l'.
      assert (Hs : exists i, taken f n kk (data_of m) st (with_info st i) /\
                             effect (fm_type m) (fm_data m) (rs_info st) i).
      { apply info_step. destruct Hm as [Hm|[[Ht Hm]|[Hi Hm]]].
        - right. left. exact Hm.
        - right. right. right. split; [exact Ht|]. split; [exact Hm|].
          unfold single in H21. rewrite of_type_cons, Ht in H21. destruct H21 as [H21|[H21 _]]; [discriminate H21|exact H21].
        - left. split; [|exact Hm]. unfold own_types. cbn [In] in *. tauto. }
      destruct Hs as (i1 & T1 & E1 & E2 & E3 & E4 & E5 & E6).
      assert (Hty : fm_type m <> 2 /\ fm_type m <> 10).
      { destruct Hm as [[Ht _]|[[Ht _]|[Hi _]]]; [lia|lia|]. cbn [In] in Hi. lia. }
      destruct (after_cons 21 readAttributeInfo m l _ _ H21 E2) as [A21 S21].
      destruct (after_cons 1 readDataspace m l _ _ H1 E3) as [A1 S1].
      destruct (IH (with_info st i1) Hl' S21 S1) as (i & T2 & F1 & F2 & F3 & F4 & F5 & F6).
      exists i. split; [|cbn [rs_info with_info] in *; repeat split].
      + rewrite all_data_cons. eapply taken_join; [exact T1|exact T2].
      + rewrite F1, E1. replace (fm_type m =? 2) with false by lia. reflexivity.
      + rewrite F2, A21. reflexivity.
      + rewrite F3, A1. reflexivity.
      + rewrite !of_type_cons. intros H. apply F4. rewrite E4. cbn [existsb].
        destruct (fm_type m =? 1) eqn:D1; [left; reflexivity|].
        destruct (fm_type m =? 3) eqn:D3; [left; rewrite orb_false_l; reflexivity|].
        rewrite !orb_false_l.
        destruct ((fm_type m =? 4) || ((fm_type m =? 5) || ((fm_type m =? 8) || false))) eqn:D; [left; reflexivity|].
        replace ((fm_type m =? 2) || ((fm_type m =? 10) || false)) with false by lia. exact H.
      + rewrite !of_type_cons. intros H. apply F5. destruct (fm_type m =? 3); [left; exact E5|rewrite E5; exact H].
      + rewrite F6. cbn [own_all fold_left]. apply own_all_stuff. exact E6.
  Qed.

  Lemma shown_names K os : Forall2 (kid_shown f) K os -> map fst os = map k_name K.
  Proof. induction 1 as [|k o K os [H _] _ IH]; [reflexivity|]. cbn [map]. rewrite IH, <- H. reflexivity. Qed.
  Lemma all_ready_app K1 K2 st : all_ready (K1 ++ K2) st ->
    all_ready K1 st /\ forall j os ad', Forall2 (kid_shown f) K1 os -> adds (flat_map k_all K1) (rs_addrs st) ad' ->
                       all_ready K2 (mkRst j (rs_children st ++ os) ad').
  Proof.
    intros (H1 & H2 & H3). rewrite map_app in H1. rewrite flat_map_app in H2, H3.
    destruct (NoDup_split _ _ H3) as (D1 & D2 & D3). split.
    - split; [|split; [intros x Hx; apply H2, in_or_app; left; exact Hx|exact D1]].
      rewrite app_assoc in H1. apply NoDup_split in H1. apply H1.
    - intros j os ad' Ho Hadd. split; [|split; [|exact D2]].
      + cbn [rs_children]. rewrite map_app, (shown_names _ _ Ho), <- app_assoc. exact H1.
      + intros x Hx Hi. apply Hadd in Hi. destruct Hi as [Hi|Hi].
        * exact (H2 x (in_or_app _ _ _ (or_intror Hx)) Hi).
        * exact (D3 x Hi Hx).
  Qed.
  Lemma adds_app l1 l2 ad ad1 ad2 : adds l1 ad ad1 -> adds l2 ad1 ad2 -> adds (l1 ++ l2) ad ad2.
  Proof. intros H1 H2 x. rewrite (H2 x), (H1 x), in_app_iff. tauto. Qed.
  Lemma adds_nil ad : adds [] ad ad.
  Proof. intros x. cbn [In]. tauto. Qed.

  (** One message of a group *)
  Lemma group_step n kk m links K st : group_msg f alone m links -> map fst K = links ->
    Forall (fun k => reads n (k_addr k) (k_tree k)) K -> all_ready K st -> zlen (fm_data m) < 2 ^ 16 ->
    (fm_type m = 2 -> accepted readLinkInfo (fm_data m) /\ ri_link (rs_info st) = None) ->
    (fm_type m = 21 -> accepted readAttributeInfo (fm_data m) /\ ri_ainfo (rs_info st) = None) ->
    exists i os ad', taken f n kk (data_of m) st (mkRst i (rs_children st ++ os) ad') /\
      Forall2 (kid_shown f) K os /\ adds (flat_map k_all K) (rs_addrs st) ad' /\
      ri_link i = (if fm_type m =? 2 then got readLinkInfo (fm_data m) else ri_link (rs_info st)) /\
      ri_ainfo i = (if fm_type m =? 21 then got readAttributeInfo (fm_data m) else ri_ainfo (rs_info st)) /\
      ri_group i = (if existsb (Z.eqb (fm_type m)) [2; 10; 17] then true else ri_group (rs_info st)) /\
      ri_dims i = ri_dims (rs_info st) /\ stuff_attrs i = stuff_attrs (own (fm_type m) (fm_data m) (rs_info st)).
  Proof.
    intros Hm EK Hrd Har Hz C2 C21.
    assert (OWN : forall i, taken f n kk (data_of m) st (with_info st i) ->
              effect (fm_type m) (fm_data m) (rs_info st) i -> ~ In (fm_type m) [1; 3; 4; 5; 8; 17] -> K = [] ->
              exists i os ad', taken f n kk (data_of m) st (mkRst i (rs_children st ++ os) ad') /\
      Forall2 (kid_shown f) K os /\ adds (flat_map k_all K) (rs_addrs st) ad' /\
      ri_link i = (if fm_type m =? 2 then got readLinkInfo (fm_data m) else ri_link (rs_info st)) /\
      ri_ainfo i = (if fm_type m =? 21 then got readAttributeInfo (fm_data m) else ri_ainfo (rs_info st)) /\
      ri_group i = (if existsb (Z.eqb (fm_type m)) [2; 10; 17] then true else ri_group (rs_info st)) /\
      ri_dims i = ri_dims (rs_info st) /\ stuff_attrs i = stuff_attrs (own (fm_type m) (fm_data m) (rs_info st))).
    { intros i T (E1 & E2 & E3 & E4 & _ & E6) Hn ->. exists i, [], (rs_addrs st). rewrite app_nil_r.
      split; [exact T|]. split; [apply Forall2_nil|]. split; [apply adds_nil|]. split; [exact E1|]. split; [exact E2|].
      split; [|split; [rewrite E3; cbn [In] in Hn; replace (fm_type m =? 1) with false by lia; reflexivity|exact E6]].
      rewrite E4. cbn [existsb] in *. cbn [In] in Hn.
      replace (_ || _) with false by lia.
      replace ((fm_type m =? 2) || ((fm_type m =? 10) || ((fm_type m =? 17) || false)))
        with ((fm_type m =? 2) || ((fm_type m =? 10) || false)) by lia. reflexivity. }
    destruct Hm as [(Ht & name & addr & Hl & EL)|[(Ht & index & heap & pad & Ed & Hi & Htab)|(Hm & EL)]].
    - rewrite Ht. rewrite EL in EK. destruct K as [|k [|k2 K]]; try discriminate EK.
      cbn [map] in EK. injection EK as Ek. destruct k as [[kn ka] kt]. cbn [fst] in Ek. injection Ek as -> ->.
      inversion Hrd as [|k' K' Hk _]; subst.
      destruct (all_ready_cons _ _ _ Har) as [Hr _].
      destruct (follow_one n _ st Hk Hr) as (o & ad' & Ho & Had & E).
      exists (rs_info st), [(name, o)], ad'. cbn [flat_map]. rewrite app_nil_r.
      split; [|split; [apply Forall2_cons; [exact Ho|apply Forall2_nil]|split; [exact Had|]]].
      2: { cbn [Z.eqb Pos.eqb existsb orb]. repeat split. }
      destruct (hard_link_read _ _ _ Hl Hz) as [co El].
      unfold data_of. destruct (fm_data m) as [|c d] eqn:Ed; [discriminate El|].
      eapply taken_cons with (rest := []); [|reflexivity|apply taken_nil].
      intros fu Hfu. rewrite Ht. unfold handle. cbn [Z.eqb Pos.eqb]. rewrite El. cbn [rbind].
      specialize (E fu kk Hfu). unfold k_name, k_addr in E. cbn [fst snd] in E. rewrite E. reflexivity.
    - rewrite Ht.
      destruct (symbols_followed n index heap links K (with_info st (set_group true (rs_info st))) Htab EK Hrd Har)
        as (os & ad' & Hos & Had & E).
      exists (set_group true (rs_info st)), os, ad'.
      split; [|split; [exact Hos|split; [exact Had|]]].
      2: { cbn [Z.eqb Pos.eqb existsb orb]. repeat split. }
      destruct Htab as (syms & _ & Hh & _).
      unfold data_of. rewrite Ed.
      assert (EM : forall y : list (Z * bytes), match le 8 index ++ le 8 heap ++ zrep pad 0 with [] => [] | _ :: _ => y end = y)
        by (intros y; reflexivity).
      rewrite EM. eapply taken_cons with (rest := zrep pad 0); [| |apply taken_nil].
      + intros fu Hfu. rewrite Ht. unfold handle. cbn [Z.eqb Pos.eqb]. rewrite read64_le by exact Hi. cbn [rbind].
        rewrite read64_le by exact Hh. cbn [rbind]. cbn [envAt e_file]. rewrite (E fu kk Hfu). reflexivity.
      + apply zeros_zrep.
    - assert (EK0 : K = []) by (destruct K; [reflexivity|]; rewrite EL in EK; discriminate EK).
      destruct Hm as [Ht|[Ht|[Hi Ha]]].
      + destruct (C2 Ht) as [Ca Cl].
        destruct (info_step n kk m st) as (i & T & E).
        { right. right. left. split; [exact Ht|]. split; [exact Ca|exact Cl]. }
        apply (OWN i T E); [cbn [In]; lia|exact EK0].
      + destruct (C21 Ht) as [Ca Cl].
        destruct (info_step n kk m st) as (i & T & E).
        { right. right. right. split; [exact Ht|]. split; [exact Ca|exact Cl]. }
        apply (OWN i T E); [cbn [In]; lia|exact EK0].
      + destruct (info_step n kk m st) as (i & T & E).
        { left. split; [|exact Ha]. unfold own_types. cbn [In] in *. tauto. }
        apply (OWN i T E); [cbn [In] in *; lia|exact EK0].
  Qed.

  Lemma group_run n kk l ls : Forall2 (group_msg f alone) l ls -> forall K st, map fst K = List.concat ls ->
    Forall (fun k => reads n (k_addr k) (k_tree k)) K -> all_ready K st ->
    Forall (fun m => zlen (fm_data m) < 2 ^ 16) l ->
    (forall b, In b (of_type 2 l) -> accepted readLinkInfo b) ->
    (forall b, In b (of_type 21 l) -> accepted readAttributeInfo b) ->
    single 2 l (ri_link (rs_info st)) -> single 21 l (ri_ainfo (rs_info st)) ->
    exists i os ad', taken f n kk (all_data l) st (mkRst i (rs_children st ++ os) ad') /\
      Forall2 (kid_shown f) K os /\ adds (flat_map k_all K) (rs_addrs st) ad' /\
      ri_link i = after 2 readLinkInfo l (ri_link (rs_info st)) /\
      ri_ainfo i = after 21 readAttributeInfo l (ri_ainfo (rs_info st)) /\
      (ri_group (rs_info st) = true \/ of_type 2 l ++ of_type 17 l <> [] -> ri_group i = true) /\
      ri_dims i = ri_dims (rs_info st) /\ stuff_attrs i = stuff_attrs (own_all l (rs_info st)).
  Proof.
    induction 1 as [|m links l ls Hm Hl IH]; intros K st EK Hrd Har Hz A2 A21 S2 S21.
    - cbn [List.concat] in EK. apply map_eq_nil in EK. subst K.
      exists (rs_info st), [], (rs_addrs st). rewrite app_nil_r.
      split; [destruct st; apply taken_nil|]. split; [apply Forall2_nil|]. split; [apply adds_nil|].
      unfold after, of_type. cbn [filter map app]. repeat split. intros [H|H]; [exact H|congruence].
    - cbn [List.concat] in EK. apply map_eq_app in EK. destruct EK as (K1 & K2 & -> & EK1 & EK2).
      apply Forall_app in Hrd. destruct Hrd as [R1 R2]. destruct (all_ready_app _ _ _ Har) as [Ar1 Ar2].
      inversion Hz as [|m' l' Hz1 Hz2]; subst m' l'.
      destruct (group_step n kk m links K1 st Hm EK1 R1 Ar1 Hz1) as (i1 & os1 & ad1 & T1 & O1 & D1 & E1 & E2 & E3 & E4 & E6).
      { intros Ht. split; [apply A2; rewrite of_type_cons, Ht; left; reflexivity|].
        unfold single in S2. rewrite of_type_cons, Ht in S2. destruct S2 as [S2|[S2 _]]; [discriminate S2|exact S2]. }
      { intros Ht. split; [apply A21; rewrite of_type_cons, Ht; left; reflexivity|].
        unfold single in S21. rewrite of_type_cons, Ht in S21. destruct S21 as [S21|[S21 _]]; [discriminate S21|exact S21]. }
      destruct (after_cons 2 readLinkInfo m l _ _ S2 E1) as [F2 G2].
      destruct (after_cons 21 readAttributeInfo m l _ _ S21 E2) as [F21 G21].
      destruct (IH K2 (mkRst i1 (rs_children st ++ os1) ad1) EK2 R2 (Ar2 i1 os1 ad1 O1 D1) Hz2)
        as (i & os2 & ad2 & T2 & O2 & D2 & P1 & P2 & P3 & P4 & P6).
      { intros b Hb. apply A2. rewrite of_type_cons. destruct (fm_type m =? 2); [right|]; exact Hb. }
      { intros b Hb. apply A21. rewrite of_type_cons. destruct (fm_type m =? 21); [right|]; exact Hb. }
      { exact G2. }
      { exact G21. }
      exists i, (os1 ++ os2), ad2. cbn [rs_info rs_children rs_addrs] in *. rewrite app_assoc.
      split; [rewrite all_data_cons; eapply taken_join; [exact T1|exact T2]|].
      split; [apply Forall2_app; assumption|].
      split; [rewrite flat_map_app; eapply adds_app; [exact D1|exact D2]|].
      split; [rewrite P1, F2; reflexivity|]. split; [rewrite P2, F21; reflexivity|].
      split; [|split; [rewrite P4; exact E4|rewrite P6; cbn [own_all fold_left rs_info]; apply own_all_stuff; exact E6]]. intros H. apply P3. rewrite E3. rewrite !of_type_cons in H. cbn [existsb].
      destruct (fm_type m =? 2) eqn:Q2; [left; reflexivity|]. destruct (fm_type m =? 17) eqn:Q17.
      { left. rewrite orb_false_l. destruct (fm_type m =? 10); reflexivity. }
      rewrite orb_false_l. destruct ((fm_type m =? 10) || (false || false)); [left; reflexivity|exact H].
  Qed.

  (** ** What is kept outside the header *)
  Lemma attribute_co co b a : readAttribute 0 b = Ok a -> exists a', readAttribute co b = Ok a'.
  Proof.
    unfold readAttribute. intros H.
    match type of H with rbind ?X _ = _ => destruct X as [[h df]| |]; cbn [rbind] in *; [|discriminate H|discriminate H] end.
    destruct h as [[name dtb] dims].
    destruct (parseDatatype dtb) as [[d r]| |]; cbn [rbind] in *; [|discriminate H|discriminate H].
    destruct (saveDf d (8 <? zlen dtb) df) as [[sdf v]| |]; cbn [rbind] in *; [|discriminate H|discriminate H].
    eexists. reflexivity.
  Qed.

  Definition same_shape (i0 i : rinfo) : Prop :=
    ri_link i = ri_link i0 /\ ri_dims i = ri_dims i0 /\ ri_group i = ri_group i0 /\ ri_ty i = ri_ty i0 /\ stuff i = stuff i0 /\
    (ri_name i, ri_addr i) = (ri_name i0, ri_addr i0).

  Lemma tree_nonempty ty rec bits N R a d t : btree_at f ty rec bits N R a d t -> all t <> [].
  Proof.
    intros (_ & _ & sp & mg & root & _ & _ & _ & Ht & _) E.
    assert (V : visit t = []) by (apply Permutation_nil; rewrite <- E; apply Permutation_sym, visit_all).
    inversion Ht; subst; cbn [visit] in V; [congruence|]. destruct rs; [congruence|discriminate V].
  Qed.

  Lemma tree_records ty rec bits N R d : forall a t, tree_at f ty rec bits N R d a t -> Forall (brec_ok bits) (visit t).
  Proof.
    induction d as [|d IH]; intros a t H; inversion H as [a' rs H1 H2 H3 H4|d' a' rs ps H1 H2 H3 H4 H5 H6]; subst; cbn [visit].
    - exact H1.
    - apply Forall_app. split; [exact H1|]. clear H H3 H4 H5.
      induction H6 as [|p ps [_ Hp] _ IHp]; [apply Forall_nil|]. cbn [map flat_map].
      apply Forall_app. split; [eapply IH; exact Hp|exact IHp].
  Qed.

  (** Attributes read in some order *)
  Definition attrs_read (xs : list (Z * bytes)) (vs : list rattr) : Prop :=
    exists xs', Permutation xs xs' /\ Forall2 (fun x v => readAttribute (fst x) (snd x) = Ok v) xs' vs.

  Lemma attrs_dumped heap index xs st :
    (exists N d t, btree_at f 8 attr_rec 40 N 17 index d t /\ usual_widths N 17 d /\
         Forall2 (fun r x => fst x = br_order r /\ exists a, in_heap f heap (br_off r) a /\ zlen (snd x) = br_len r /\
                             0 < zlen (snd x) /\ has_at f a (snd x) /\ alone 12 (snd x)) (all t) xs) ->
    exists h i, readHeap f heap = Ok h /\ same_shape (rs_info st) i /\
      (exists vs, ri_attrs i = ri_attrs (rs_info st) ++ vs /\ attrs_read xs vs) /\
      forall x lh, e_file x = f -> readBTree f (denseLink x) (denseAttr x) lh (Some h) index st = Ok (with_info st i).
  Proof.
    intros (N & d & t & Hb & Hw & Hall).
    pose proof (tree_nonempty _ _ _ _ _ _ _ _ Hb) as Hne. pose proof Hb as (HN & _).
    destruct (Permutation_Forall2 (Permutation_sym (visit_all t)) Hall) as (xs' & Hxs & Hv).
    assert (Eh : exists h, readHeap f heap = Ok h).
    { destruct (all t) as [|r rs]; [congruence|]. inversion Hall as [|r' x' rs' xr (_ & a & Hi & _) _]; subst.
      destruct (heap_found _ _ _ _ Hi Hf) as (h & _ & _ & E & _). exists h. exact E. }
    destruct Eh as [h Eh].
    assert (Hrun : forall st, exists i, same_shape (rs_info st) i /\
      (exists vs, ri_attrs i = ri_attrs (rs_info st) ++ vs /\ Forall2 (fun x v => readAttribute (fst x) (snd x) = Ok v) xs' vs) /\
      forall x, e_file x = f ->
      rfold (fun r st => readLinkData f (Some h) (denseAttr x) (br_off r) (br_len r) (br_order r) st) (visit t) st =
      Ok (with_info st i)).
    { clear Hall Hxs. induction Hv as [|r [co b] rs xr (Hco & a & Hi & Hl & H0 & Hat & Hal) Hv' IH]; intros s.
      - exists (rs_info s). split; [repeat split|]. split; [exists []; split; [symmetry; apply app_nil_r|apply Forall2_nil]|].
        intros x _. rewrite with_same. reflexivity.
      - cbn [fst snd] in *. subst co.
        unfold alone in Hal. unfold handle in Hal. cbn [Z.eqb Pos.eqb] in Hal.
        destruct (readAttribute 0 b) as [v| |] eqn:Ev; cbn [rbind] in Hal; try contradiction.
        destruct (attribute_co (br_order r) b v Ev) as [v' Ev'].
        destruct (IH (with_info s (add_attr v' (rs_info s)))) as (i & (S1 & S2 & S3 & S4 & S5 & S6) & (vs & A1 & A2) & E).
        exists i. split; [repeat split; assumption|]. split.
        { exists (v' :: vs). split; [rewrite A1; cbn [with_info rs_info add_attr ri_attrs]; rewrite <- app_assoc; reflexivity|].
          apply Forall2_cons; [exact Ev'|exact A2]. }
        intros x Hx. cbn [rfold].
        assert (ED : denseAttr x (u64 a) (br_len r) (br_order r) s = Ok (with_info s (add_attr v' (rs_info s)))).
        { unfold denseAttr. rewrite Hx.
          pose proof (has_at_bound _ _ _ Hat) as [B0 B1]. rewrite u64_small by lia. rewrite <- Hl.
          rewrite (newSeek_at f a b (zlen b) Hat eq_refl H0 Hf). cbn [rbind]. rewrite Ev'. reflexivity. }
        rewrite (in_heap_data _ _ _ _ _ _ _ _ _ Hi Hf Eh). rewrite ED.
        exact (E x Hx). }
    destruct (Hrun st) as (i & Hs & (vs & A1 & A2) & E). exists h, i. split; [exact Eh|]. split; [exact Hs|].
    split; [exists vs; split; [exact A1|exists xs'; split; assumption]|]. intros x lh Hx.
    rewrite (tree_read f (denseLink x) (denseAttr x) lh (Some h) 8 attr_rec 40 N 17
             (fun r st => readLinkData f (Some h) (denseAttr x) (br_off r) (br_len r) (br_order r) st) Hf HN ltac:(lia)
             attr_rec_len (fun r tl st => attr_record_read f (denseLink x) (denseAttr x) lh (Some h) r tl st) index d t st Hb Hw).
    apply E. exact Hx.
  Qed.

  (** What is stored is some list of attributes *)
  Lemma attrs_listed (other : Z -> bytes -> Prop) l : stored_attrs f other l -> exists xs, attrs_stored f other l xs.
  Proof.
    intros [H|(b & heap & index & H1 & Hi & [Hh|(Hh & N & d & t & Hb & Hw & Hall)])].
    - exists []. left. split; [exact H|reflexivity].
    - exists []. right. exists b, heap, index. split; [exact H1|]. split; [exact Hi|]. left. split; [exact Hh|reflexivity].
    - assert (G : exists xs, Forall2 (fun r x => fst x = br_order r /\ exists a, in_heap f heap (br_off r) a /\ zlen (snd x) = br_len r /\
                             0 < zlen (snd x) /\ has_at f a (snd x) /\ other 12 (snd x)) (all t) xs).
      { clear Hb. induction Hall as [|r rs (a & b' & A1 & A2 & A3 & A4 & A5) _ (xs & IH)]; [exists []; apply Forall2_nil|].
        exists ((br_order r, b') :: xs). apply Forall2_cons; [|exact IH]. cbn [fst snd]. split; [reflexivity|].
        exists a. repeat (split; [assumption|]). assumption. }
      destruct G as [xs G]. exists xs. right. exists b, heap, index. split; [exact H1|]. split; [exact Hi|]. right. split; [exact Hh|].
      exists N, d, t. split; [exact Hb|]. split; [exact Hw|exact G].
  Qed.
  Lemma listed_attrs (other : Z -> bytes -> Prop) l xs : attrs_stored f other l xs -> stored_attrs f other l.
  Proof.
    intros [[H _]|(b & heap & index & H1 & Hi & [[Hh _]|(Hh & N & d & t & Hb & Hw & Hall)])].
    - left. exact H.
    - right. exists b, heap, index. split; [exact H1|]. split; [exact Hi|]. left. exact Hh.
    - right. exists b, heap, index. split; [exact H1|]. split; [exact Hi|]. right. split; [exact Hh|].
      exists N, d, t. split; [exact Hb|]. split; [exact Hw|].
      clear Hb. induction Hall as [|r [co b'] rs xs (_ & a & A1 & A2 & A3 & A4 & A5) _ IH]; [apply Forall_nil|].
      apply Forall_cons; [|exact IH]. exists a, b'. repeat (split; [assumption|]). assumption.
  Qed.

  Lemma links_dumped n heap index stored K st : dense_are f heap index stored -> map fst K = stored ->
    Forall (fun k => reads n (k_addr k) (k_tree k)) K -> all_ready K st ->
    exists h K' os ad', readHeap f heap = Ok h /\ Permutation K K' /\ Forall2 (kid_shown f) K' os /\
      adds (flat_map k_all K) (rs_addrs st) ad' /\
      forall fu kk ah, (n <= fu)%nat ->
        readBTree f (denseLink (envAt fu f kk)) (denseAttr (envAt fu f kk)) (Some h) ah index st = Ok (grown st os ad').
  Proof.
    intros (N & d & t & Hb & Hw & H2) EK Hrd Har.
    pose proof (tree_nonempty _ _ _ _ _ _ _ _ Hb) as Hne. pose proof Hb as (HN & _).
    set (R := fun (r : brec) (k : kid) => exists a b, in_heap f heap (br_off r) a /\ zlen b = br_len r /\
                 has_at f a b /\ hard_link b (k_name k) (k_addr k)).
    assert (F0 : Forall2 R (all t) K).
    { subst stored. clear Hne Hb Hw Hrd Har. revert K H2. generalize (all t).
      induction l as [|r l IH]; intros [|k K] H2; inversion H2; subst; [apply Forall2_nil|].
      apply Forall2_cons; [assumption|]. apply IH. assumption. }
    destruct (Permutation_Forall2 (Permutation_sym (visit_all t)) F0) as (K' & HP & F1).
    assert (Eh : exists h, readHeap f heap = Ok h).
    { destruct (all t) as [|r rs]; [congruence|]. inversion F0 as [|r' k' rs' ks' (a & b & Hi & _) _]; subst.
      destruct (heap_found _ _ _ _ Hi Hf) as (h & _ & _ & E & _). exists h. exact E. }
    destruct Eh as [h Eh].
    assert (Hok : Forall (brec_ok 32) (visit t)).
    { destruct Hb as (_ & _ & sp & mg & root & _ & _ & _ & Ht & _). eapply tree_records. exact Ht. }
    assert (F2 : Forall2 (fun r k => brec_ok 32 r /\ R r k) (visit t) K').
    { clear - F1 Hok. revert Hok. induction F1 as [|r k l K' H _ IH]; intros Hok; [apply Forall2_nil|].
      inversion Hok; subst. apply Forall2_cons; [split; assumption|apply IH; assumption]. }
    destruct (follow_many (fun fu r st => readLinkData f (Some h) (denseLink (envAt fu f (0, 0))) (br_off r) (br_len r) 0 st)
      (fun r k => brec_ok 32 r /\ R r k) n) with (xs := visit t) (K := K') (st := st) as (os & ad' & Hos & Had & Er).
    { intros r k s ((_ & Hlen & _) & a & b & Hi & Hl & Hat & Hlk) Hr Hrdy.
      destruct (follow_one n k s Hr Hrdy) as (o & ad1 & A1 & A2 & A3). exists o, ad1.
      split; [exact A1|]. split; [exact A2|]. intros fu Hfu.
      rewrite (in_heap_data _ _ _ _ _ _ _ _ _ Hi Hf Eh). unfold denseLink. cbn [envAt e_file].
      pose proof (has_at_bound _ _ _ Hat) as [B0 B1]. pose proof (zlen_nonneg b) as Hb0. rewrite u64_small by lia.
      destruct (hard_link_read _ _ _ Hlk) as [co El]; [rewrite Hl; exact (proj2 Hlen)|].
      assert (H0 : 0 < zlen b).
      { destruct b as [|c b']; [discriminate El|]. rewrite zlen_cons. pose proof (zlen_nonneg b'). lia. }
      rewrite <- Hl. rewrite (newSeek_at f a b (zlen b) Hat eq_refl H0 Hf). cbn [rbind].
      rewrite <- (app_nil_r b) at 2. rewrite ztake_app_exact by reflexivity. rewrite El. cbn [rbind].
      change (mkEnv f (fun a0 : Z => readAny fu f (JObject a0))
               (fun o n : Z => readAny fu f (JMore (fst (0, 0)) (snd (0, 0)) o n))) with (envAt fu f (0, 0)).
      apply A3. exact Hfu. }
    { exact F2. }
    { eapply Permutation_Forall; [exact HP|exact Hrd]. }
    { destruct Har as (N1 & N2 & N3). split; [|split].
      - eapply Permutation_NoDup; [|exact N1]. apply Permutation_app_head, Permutation_map. exact HP.
      - intros x Hx. apply N2. eapply Permutation_in; [|exact Hx]. apply Permutation_sym, Permutation_flat_map. exact HP.
      - eapply Permutation_NoDup; [|exact N3]. apply Permutation_flat_map. exact HP. }
    exists h, K', os, ad'. split; [exact Eh|]. split; [exact HP|]. split; [exact Hos|]. split.
    { intros x. rewrite (Had x). assert (HI : In x (flat_map k_all K) <-> In x (flat_map k_all K')).
      { split; apply Permutation_in; [|apply Permutation_sym]; apply Permutation_flat_map; exact HP. }
      tauto. }
    intros fu kk ah Hfu.
    rewrite (tree_read f (denseLink (envAt fu f kk)) (denseAttr (envAt fu f kk)) (Some h) ah 5 link_rec 32 N 11
             (fun r st => readLinkData f (Some h) (denseLink (envAt fu f kk)) (br_off r) (br_len r) 0 st) Hf HN ltac:(lia)
             link_rec_len (fun r tl st => link_record_read f (denseLink (envAt fu f kk)) (denseAttr (envAt fu f kk)) (Some h) ah r tl st)
             index d t st Hb Hw).
    exact (Er fu Hfu).
  Qed.

  (** ** Objects *)
  Lemma chunk_small v ms gap : chunk_ok v ms gap -> Forall (fun m => zlen (fm_data m) < 2 ^ 16) ms.
  Proof. intros [H _]. eapply Forall_impl; [|exact H]. cbv beta. intros m (_ & _ & Hz & _). exact Hz. Qed.
  Lemma held_small v n ms l : held f v n ms l -> Forall (fun m => zlen (fm_data m) < 2 ^ 16) ms ->
    Forall (fun m => zlen (fm_data m) < 2 ^ 16) l.
  Proof.
    induction 1 as [n|n m ms l Ht H IH|n m ms off size inner li l Ht Ho Hs Hd Hb Hi IHi H IH]; intros Hms.
    - apply Forall_nil.
    - inversion Hms; subst. apply Forall_cons; [assumption|apply IH; assumption].
    - inversion Hms; subst. apply Forall_app. split; [|apply IH; assumption].
      apply IHi. destruct Hb as (gap & Hok & _). eapply chunk_small. exact Hok.
  Qed.
  Lemma messages_small n a l : messages_are f n a l -> Forall (fun m => zlen (fm_data m) < 2 ^ 16) l.
  Proof.
    intros (_ & v & ms & (gap & Hok & _) & Hh). eapply held_small; [exact Hh|]. eapply chunk_small. exact Hok.
  Qed.

  Lemma link_info_ok b heap index : link_info b heap index -> accepted readLinkInfo b /\ got readLinkInfo b = Some (heap, index).
  Proof.
    intros H. destruct (link_info_read _ _ _ H) as [pad E]. split.
    - exists (heap, index), (zrep pad 0). split; [exact E|apply zeros_zrep].
    - unfold got. rewrite E. reflexivity.
  Qed.
  Lemma attr_info_ok b heap index : attr_info b heap index ->
    accepted readAttributeInfo b /\ got readAttributeInfo b = Some (heap, index).
  Proof.
    intros H. destruct (attr_info_read _ _ _ H) as [pad E]. split.
    - exists (heap, index), (zrep pad 0). split; [exact E|apply zeros_zrep].
    - unfold got. rewrite E. reflexivity.
  Qed.
  Lemma dataspace_ok b dims : dataspace b dims -> accepted readDataspace b /\ got readDataspace b = Some dims.
  Proof.
    intros H. destruct (foreign_dataspace _ _ H) as [pad E]. split.
    - exists dims, (zrep pad 0). split; [exact E|apply zeros_zrep].
    - unfold got. rewrite E. reflexivity.
  Qed.

  (** What is outside the header, from the info the header leaves *)
  Lemma dump_attrs l xs st : attrs_stored f alone l xs ->
    ri_ainfo (rs_info st) = after 21 readAttributeInfo l None ->
    exists i, same_shape (rs_info st) i /\ (exists vs, ri_attrs i = ri_attrs (rs_info st) ++ vs /\ attrs_read xs vs) /\
      forall x, e_file x = f -> exists ah,
      dumpObject x st =
      match ri_link i with
      | Some (heap, bt) =>
          if heap =? invalidAddress then Ok (with_info st i)
          else let* h := readHeap f heap in
               readBTree f (denseLink x) (denseAttr x) (Some h) ah bt (with_info st i)
      | None => Ok (with_info st i)
      end.
  Proof.
    assert (NIL : exists vs, ri_attrs (rs_info st) = ri_attrs (rs_info st) ++ vs /\ attrs_read [] vs).
    { exists []. split; [symmetry; apply app_nil_r|]. exists []. split; [apply Permutation_refl|apply Forall2_nil]. }
    intros [[H0 ->]|(b & heap & index & H1 & Hi & Hs)] E; unfold after in E.
    - rewrite H0 in E. exists (rs_info st). split; [repeat split|]. split; [exact NIL|]. intros x Hx. exists None.
      unfold dumpObject. rewrite E, Hx. cbn [rbind]. rewrite with_same. reflexivity.
    - rewrite H1, (proj2 (attr_info_ok _ _ _ Hi)) in E. destruct Hs as [[-> ->]|[Hne Hd]].
      + exists (rs_info st). split; [repeat split|]. split; [exact NIL|]. intros x Hx. exists (Some no_fheap).
        unfold dumpObject. rewrite E, Hx. change (undefined =? invalidAddress) with true. cbv iota. cbn [rbind].
        rewrite with_same. reflexivity.
      + destruct (attrs_dumped heap index xs st Hd) as (h & i & Eh & Hsh & Hat & Er).
        exists i. split; [exact Hsh|]. split; [exact Hat|]. intros x Hx. exists (Some h).
        unfold dumpObject. rewrite E, Hx.
        replace (heap =? invalidAddress) with false
          by (symmetry; apply Z.eqb_neq; exact Hne).
        rewrite Eh. cbn [rbind]. rewrite (Er x _ Hx). cbn [rbind]. reflexivity.
  Qed.

  Lemma stored_attrs_single {A} l : stored_attrs f alone l -> single 21 l (@None A) /\
    (forall b, In b (of_type 21 l) -> accepted readAttributeInfo b).
  Proof.
    intros [H|(b & heap & index & H & Hi & _)].
    - split; [left; exact H|]. rewrite H. intros b [].
    - split; [right; split; [reflexivity|exists b; exact H]|]. rewrite H. intros b' [<-|[]].
      apply (proj1 (attr_info_ok _ _ _ Hi)).
  Qed.

  (** The attributes that are left, after those there were before; name and address are the same *)
  Definition attributed (l : list fmsg) (xs : list (Z * bytes)) (i0 i : rinfo) : Prop :=
    (exists vs, ri_attrs i = ri_attrs (own_all l i0) ++ vs /\ attrs_read xs vs) /\
    (ri_name i, ri_addr i) = (ri_name (own_all l i0), ri_addr (own_all l i0)).

  Lemma group_parts c k a l ls stored xs kids :
    messages_are f c a l -> Forall2 (group_msg f alone) l ls -> stored_links f l stored -> attrs_stored f alone l xs ->
    of_type 2 l ++ of_type 17 l <> [] ->
    Permutation (List.concat ls ++ stored) (map fst kids) -> NoDup (map fst (map fst kids)) ->
    Forall (fun k' => reads k (k_addr k') (k_tree k')) kids ->
    forall i ad, fresh i -> apart (below (FGroup kids)) ad -> NoDup (below (FGroup kids)) ->
    exists st1 st',
      (forall fu, (k + c < fu)%nat -> readAny fu f (JHeader a) (mkRst i [] ad) = Ok st1) /\
      ri_group (rs_info st1) = true /\
      (forall fu kk, (k <= fu)%nat -> dumpObject (envAt fu f kk) st1 = Ok st') /\
      shows f (FGroup kids) (RObj (rs_info st') (rs_children st')) /\
      adds (below (FGroup kids)) ad (rs_addrs st') /\ attributed l xs i (rs_info st').
  Proof.
    intros Hm Hg Hl Hax Hk HP Hnd Hrd i ad (Fl & Fa & Fd) Hap Hbd. pose proof (listed_attrs _ _ _ Hax) as Ha.
    change (below (FGroup kids)) with (flat_map k_all kids) in *.
    destruct (Permutation_map_inv _ _ HP) as (K & EK & HPK).
    symmetry in EK. apply map_eq_app in EK. destruct EK as (K1 & K2 & -> & EK1 & EK2).
    assert (Hrd2 : Forall (fun k' => reads k (k_addr k') (k_tree k')) (K1 ++ K2))
      by (eapply Permutation_Forall; [exact HPK|exact Hrd]).
    apply Forall_app in Hrd2. destruct Hrd2 as [R1 R2].
    assert (Har : all_ready (K1 ++ K2) (mkRst i [] ad)).
    { split; [|split]; cbn [rs_children rs_addrs map app].
      - eapply Permutation_NoDup; [apply (Permutation_map k_name); exact HPK|].
        rewrite map_map in Hnd. exact Hnd.
      - intros x Hx. apply Hap. eapply Permutation_in; [|exact Hx]. apply Permutation_sym, Permutation_flat_map. exact HPK.
      - eapply Permutation_NoDup; [|exact Hbd]. apply Permutation_flat_map. exact HPK. }
    destruct (all_ready_app _ _ _ Har) as [Ar1 Ar2].
    assert (SL : single 2 l (@None (Z * Z)) /\ (forall b, In b (of_type 2 l) -> accepted readLinkInfo b)).
    { destruct Hl as [[H _]|(b & heap & index & H & Hi & _)].
      - split; [left; exact H|]. rewrite H. intros b [].
      - split; [right; split; [reflexivity|exists b; exact H]|]. rewrite H. intros b' [<-|[]].
        apply (proj1 (link_info_ok _ _ _ Hi)). }
    destruct SL as [SL1 SL2]. destruct (@stored_attrs_single (Z * Z) l Ha) as [SA1 SA2].
    destruct (group_run k (headerKind f a) l ls Hg K1 (mkRst i [] ad) EK1 R1 Ar1 (messages_small _ _ _ Hm) SL2 SA2)
      as (i1 & os1 & ad1 & T & O1 & D1 & E1 & E2 & E3 & E4 & E6).
    { cbn [rs_info]. rewrite Fl. exact SL1. }
    { cbn [rs_info]. rewrite Fa. exact SA1. }
    cbn [rs_info rs_children rs_addrs app] in *. rewrite Fl in E1. rewrite Fa in E2.
    destruct (dump_attrs l xs (mkRst i1 os1 ad1) Hax E2) as (i2 & (S1 & S2 & S3 & S4 & _ & S6) & (vs & S7 & S8) & ED).
    cbn [rs_info] in *.
    assert (AT : attributed l xs i i2).
    { unfold stuff_attrs in E6. injection E6 as _ _ _ _ _ _ _ _ _ _ E7 E8 E9. split; [|congruence].
      exists vs. split; [rewrite S7, E7; reflexivity|exact S8]. }
    rewrite E1 in S1. specialize (E3 (or_intror Hk)). rewrite E3 in S3. rewrite E4, Fd in S2.
    assert (FIN : forall K2' os2 ad2, Permutation K2 K2' -> Forall2 (kid_shown f) K2' os2 -> adds (flat_map k_all K2) ad1 ad2 ->
              shows f (FGroup kids) (RObj i2 (os1 ++ os2)) /\ adds (flat_map k_all kids) ad ad2).
    { intros K2' os2 ad2 HP2 O2 D2. split.
      - assert (F : Forall2 (kid_shown f) (K1 ++ K2') (os1 ++ os2)) by (apply Forall2_app; assumption).
        assert (HPk : Permutation (K1 ++ K2') kids).
        { eapply Permutation_trans; [apply Permutation_app_head, Permutation_sym, HP2|apply Permutation_sym, HPK]. }
        destruct (Permutation_Forall2 HPk F) as (os & HPo & Fo).
        eapply shows_group; [exact S3|exact S2|exact HPo|exact Fo].
      - intros x. rewrite (adds_app _ _ _ _ _ D1 D2 x). rewrite <- flat_map_app.
        assert (HI : In x (flat_map k_all kids) <-> In x (flat_map k_all (K1 ++ K2))).
        { split; apply Permutation_in; [|apply Permutation_sym]; apply Permutation_flat_map; exact HPK. }
        tauto. }
    assert (HD : forall fu, (k + c < fu)%nat -> readAny fu f (JHeader a) (mkRst i [] ad) = Ok (mkRst i1 os1 ad1)).
    { intros fu Hfu. eapply object_messages; [exact Hm|exact Hf|exact T|exact Hfu]. }
    assert (NOLINK : stored = [] -> (forall fu kk, dumpObject (envAt fu f kk) (mkRst i1 os1 ad1) = Ok (mkRst i2 os1 ad1)) ->
      exists st1 st',
      (forall fu, (k + c < fu)%nat -> readAny fu f (JHeader a) (mkRst i [] ad) = Ok st1) /\
      ri_group (rs_info st1) = true /\
      (forall fu kk, (k <= fu)%nat -> dumpObject (envAt fu f kk) st1 = Ok st') /\
      shows f (FGroup kids) (RObj (rs_info st') (rs_children st')) /\
      adds (flat_map k_all kids) ad (rs_addrs st') /\ attributed l xs i (rs_info st')).
    { intros -> Edump. apply map_eq_nil in EK2. subst K2.
      destruct (FIN [] [] ad1 (Permutation_refl _) (Forall2_nil _) (adds_nil _)) as [Q1 Q2]. rewrite app_nil_r in Q1.
      exists (mkRst i1 os1 ad1), (mkRst i2 os1 ad1). split; [exact HD|]. split; [exact E3|].
      split; [intros fu kk _; apply Edump|]. split; [exact Q1|]. split; [exact Q2|exact AT]. }
    unfold after in S1.
    destruct Hl as [[H0 Hst]|(b & heap & index & H1 & Hi & Hst)].
    - apply NOLINK; [exact Hst|]. intros fu kk. destruct (ED (envAt fu f kk) eq_refl) as [ah ->].
      rewrite S1, H0. reflexivity.
    - rewrite H1, (proj2 (link_info_ok _ _ _ Hi)) in S1. destruct Hst as [[-> Hst]|[Hne Hst]].
      + apply NOLINK; [exact Hst|]. intros fu kk. destruct (ED (envAt fu f kk) eq_refl) as [ah ->].
        rewrite S1. change (undefined =? invalidAddress) with true. reflexivity.
      + destruct (links_dumped k heap index stored K2 (mkRst i2 os1 ad1) Hst EK2 R2 (Ar2 i2 os1 ad1 O1 D1))
          as (h & K2' & os2 & ad2 & Eh & HP2 & O2 & D2 & Er).
        cbn [rs_addrs] in D2. destruct (FIN K2' os2 ad2 HP2 O2 D2) as [Q1 Q2].
        exists (mkRst i1 os1 ad1), (mkRst i2 (os1 ++ os2) ad2). split; [exact HD|]. split; [exact E3|].
        split; [|split; [exact Q1|split; [exact Q2|exact AT]]].
        intros fu kk Hfu. destruct (ED (envAt fu f kk) eq_refl) as [ah ->].
        rewrite S1. replace (heap =? invalidAddress) with false by (symmetry; apply Z.eqb_neq; exact Hne).
        rewrite Eh. cbn [rbind]. exact (Er fu kk ah Hfu).
  Qed.

  Lemma read_object fu a st :
    readAny (S fu) f (JObject a) st =
    (let* st := readAny (S fu) f (JHeader a) st in dumpObject (envAt fu f (headerKind f a)) st).
  Proof. reflexivity. Qed.

  Lemma leaf_parts c a l xs (i : rinfo) ad : messages_are f c a l -> fresh i -> attrs_stored f alone l xs ->
    Forall (fun m => (fm_type m = 1 /\ accepted readDataspace (fm_data m)) \/
                     (fm_type m = 21 /\ accepted readAttributeInfo (fm_data m)) \/
                     plain alone [0; 3; 4; 5; 8; 11; 12; 13; 14; 18; 22] m) l ->
    single 1 l (@None (list Z)) -> of_type 1 l ++ of_type 3 l <> [] ->
    exists i', ri_dims i' = after 1 readDataspace l None /\ ri_group i' = false /\
      (of_type 3 l <> [] -> ri_ty i' <> None) /\
      stuff i' = stuff (own_all l i) /\ attributed l xs i i' /\
      forall fu, (c < fu)%nat -> readAny fu f (JObject a) (mkRst i [] ad) = Ok (mkRst i' [] ad).
  Proof.
    intros Hm (Fl & Fa & Fd) Hax Hl S1 Hne. pose proof (listed_attrs _ _ _ Hax) as Ha. destruct (@stored_attrs_single (Z * Z) l Ha) as [SA1 SA2].
    destruct (info_run 0 (headerKind f a) l (mkRst i [] ad) Hl) as (i1 & T & E1 & E2 & E3 & E4 & E5 & E6).
    { cbn [rs_info]. rewrite Fa. exact SA1. }
    { cbn [rs_info]. rewrite Fd. exact S1. }
    cbn [rs_info with_info] in *. rewrite Fl in E1. rewrite Fa in E2. rewrite Fd in E3.
    specialize (E4 (or_intror Hne)).
    destruct (dump_attrs l xs (mkRst i1 [] ad) Hax E2) as (i2 & (S2 & S3 & S4 & S5 & S6 & S8) & (vs & S7 & S9) & ED). cbn [rs_info] in *.
    unfold stuff_attrs in E6. apply pair_equal_spec in E6. destruct E6 as [E6 E7]. injection E7 as E7 E8 E9.
    exists i2. split; [congruence|]. split; [congruence|]. split; [intros H; rewrite S5; apply E5; right; exact H|].
    split; [congruence|]. split; [split; [exists vs; split; [rewrite S7, E7; reflexivity|exact S9]|congruence]|].
    intros fu Hfu. destruct fu as [|fu]; [lia|]. rewrite read_object.
    rewrite (object_messages f c 0 a l (mkRst i [] ad) (mkRst i1 [] ad) Hm Hf T) by lia. cbn [rbind].
    destruct (ED (envAt fu f (headerKind f a)) eq_refl) as [ah ->]. rewrite S2, E1. reflexivity.
  Qed.

  Scheme object_is_mut := Induction for object_is Sort Prop
  with kids_are_mut := Induction for kids_are Sort Prop.

  Theorem objects_read n a t : object_is f alone n a t -> reads n a t.
  Proof.
    intros H0. induction H0 as [n c k a l ls stored kids Hm Hlt Hg Hl Ha Hk HP Hnd Hkids IH|n c a l b dims Hm Hlt Hl H1 Hd Ha|n c a l Hm Hlt Hl H3 Ha| |n name a t kids Ho IHo Hks IHk]
      using object_is_mut with (P0 := fun n kids _ => Forall (fun k' => reads n (k_addr k') (k_tree k')) kids).
    - intros i ad Hfr Hap Hbd.
      destruct (attrs_listed _ _ Ha) as [xs Hx].
      destruct (group_parts c k a l ls stored xs kids Hm Hg Hl Hx Hk HP Hnd IH i ad Hfr Hap Hbd)
        as (st1 & st' & A1 & A2 & A3 & A4 & A5 & _).
      exists st'. split; [|split; [exact A4|exact A5]]. intros fu Hfu. destruct fu as [|fu]; [lia|].
      rewrite read_object. rewrite A1 by lia. cbn [rbind]. apply A3. lia.
    - intros i ad Hfr Hap Hbd. destruct (dataspace_ok _ _ Hd) as [D1 D2].
      assert (HA : forall b', In b' (of_type 21 l) -> accepted readAttributeInfo b')
        by (apply (@stored_attrs_single (Z * Z) l Ha)).
      assert (Hb : forall b', In b' (of_type 1 l) -> accepted readDataspace b') by (rewrite H1; intros b' [<-|[]]; exact D1).
      destruct (attrs_listed _ _ Ha) as [xs Hx].
      destruct (leaf_parts c a l xs i ad Hm Hfr Hx) as (i' & E1 & E2 & _ & _ & _ & E4).
      { rewrite Forall_forall in *. intros m Hi. destruct (Hl m Hi) as [Ht|[Ht|Ht]].
        - left. split; [exact Ht|]. apply Hb. apply in_map, filter_In. split; [exact Hi|lia].
        - right. left. split; [exact Ht|]. apply HA. apply in_map, filter_In. split; [exact Hi|lia].
        - right. right. exact Ht. }
      { right. split; [reflexivity|exists b; exact H1]. }
      { rewrite H1. discriminate. }
      exists (mkRst i' [] ad). split; [intros fu Hfu; apply E4; lia|]. cbn [rs_info rs_children rs_addrs]. split.
      + apply shows_data; [exact E2|]. rewrite E1. unfold after. rewrite H1. exact D2.
      + apply adds_nil.
    - intros i ad Hfr Hap Hbd.
      assert (HA : forall b', In b' (of_type 21 l) -> accepted readAttributeInfo b')
        by (apply (@stored_attrs_single (Z * Z) l Ha)).
      assert (H1 : of_type 1 l = []).
      { unfold of_type. rewrite Forall_forall in Hl.
        assert (Hl' : forall m, In m l -> fm_type m <> 1).
        { intros m Hi. destruct (Hl m Hi) as [Ht|[Ht _]]; [lia|]. cbn [In] in Ht. lia. }
        clear Hl Hm H3 Ha HA. induction l as [|m l IH]; [reflexivity|]. cbn [filter].
        replace (fm_type m =? 1) with false by (symmetry; apply Z.eqb_neq, Hl'; left; reflexivity).
        apply IH. intros m' Hi. apply Hl'. right. exact Hi. }
      destruct (attrs_listed _ _ Ha) as [xs Hx].
      destruct (leaf_parts c a l xs i ad Hm Hfr Hx) as (i' & E1 & E2 & E3 & _ & _ & E4).
      { rewrite Forall_forall in *. intros m Hi. destruct (Hl m Hi) as [Ht|[Ht Ho]].
        - right. left. split; [exact Ht|]. apply HA. apply in_map, filter_In. split; [exact Hi|lia].
        - right. right. split; [|exact Ho]. cbn [In] in *. tauto. }
      { left. exact H1. }
      { rewrite H1. exact H3. }
      exists (mkRst i' [] ad). split; [intros fu Hfu; apply E4; lia|]. cbn [rs_info rs_children rs_addrs]. split.
      + apply shows_type; [exact E2| |exact (E3 H3)]. rewrite E1. unfold after. rewrite H1. reflexivity.
      + apply adds_nil.
    - apply Forall_nil.
    - apply Forall_cons; [exact IHo|exact IHk].
  Qed.
End Trees.
