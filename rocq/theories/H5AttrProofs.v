(** Attributes in object headers: what the reader gets from the messages of the writer. *)
From Verif Require Import Prelude GoVal OrderedMapModel H5Base H5MetaWrite H5MetaRead H5Value H5TypeRead
  H5FileWrite H5PathModel H5RecordModel H5FileRead MetaSpec TypeSpec BaseLemmas H5ChecksumProofs H5MetaProofs
  H5TypeProofs H5DataProofs H5StoreProofs H5VarProofs.
From Coq Require Import Lia ZifyBool ZifyNat.
Ltac Zify.zify_post_hook ::= Z.div_mod_to_equations.

Lemma padBytes7_read total n r : total - zlen (pad8 n ++ r) = 8 + n -> padBytes7 total (pad8 n ++ r) = Ok (tt, r).
Proof.
  intros H. unfold padBytes7. cbv zeta. rewrite H.
  replace ((8 + n) mod 8) with (n mod 8) by lia. unfold pad8. apply checkZeroes_zrep. lia.
Qed.

Lemma padBytes7_aligned total n r : n mod 8 = 0 -> total - zlen r = n -> padBytes7 total r = Ok (tt, r).
Proof.
  intros H E. unfold padBytes7. cbv zeta. rewrite E, H. apply checkZeroes_le0. reflexivity.
Qed.

Lemma zlen_dataspace dims : zlen (buildDataspaceMessage dims) = 8 + 8 * zlen dims.
Proof.
  unfold buildDataspaceMessage. rewrite !zlen_app.
  change (zlen [1; u8 (zlen dims); 0]) with 3. change (zlen [0]) with 1. rewrite zlen_zrep.
  assert (E : zlen (flat_map (le 8) dims) = 8 * zlen dims); [|lia].
  induction dims as [|d r IH]; [reflexivity|]. cbn [flat_map]. rewrite zlen_app, zlen_le, IH, zlen_cons. lia.
Qed.

Lemma getString_nul t r : text t -> getString (t ++ 0 :: r) = t.
Proof.
  induction 1 as [|b l Hb _ IH]; [reflexivity|]. cbn [app getString].
  replace (b =? 0) with false by lia. rewrite IH. reflexivity.
Qed.

Lemma zlen_padded b : zlen (padded b) = zlen b + (8 - zlen b mod 8) mod 8.
Proof. unfold padded. rewrite zlen_app, zlen_pad8. reflexivity. Qed.

Definition dims_fit (dims : list Z) : Prop := Forall (fun d => 0 <= d < 2 ^ 64) dims /\ zlen dims <= 255.

Lemma attr_read name dt dims data d : text name -> zlen name + 1 < 65536 ->
  parseDatatype dt = Ok (d, []) -> zlen dt < 65536 -> dims_fit dims ->
  readAttribute 0 (attrHead name dt (buildDataspaceMessage dims) ++ data) =
  (let* (sdf, v) := saveDf d (8 <? zlen dt) data in Ok (mkRattr name dims d sdf v 0)).
Proof.
  intros Hn Hl Hp Hdt [Hd Hr]. pose proof (zlen_nonneg name) as N0. pose proof (zlen_nonneg dt) as D0.
  pose proof (zlen_nonneg dims) as R0. pose proof (zlen_nonneg data) as T0.
  set (ds := buildDataspaceMessage dims). pose proof (zlen_dataspace dims) as Hds. fold ds in Hds.
  assert (E : exists total, total = zlen (attrHead name dt ds ++ data) /\
     attrHead name dt ds ++ data =
     1 :: 0 :: le 2 (zlen name + 1) ++ le 2 (zlen dt) ++ le 2 (zlen ds) ++
     (name ++ [0]) ++ pad8 (zlen (name ++ [0])) ++ dt ++ pad8 (zlen dt) ++ ds ++ pad8 (zlen ds) ++ data).
  { eexists. split; [reflexivity|]. unfold attrHead, padded, u16.
    rewrite !Z.mod_small by lia. cbn [app]. rewrite <- !app_assoc. reflexivity. }
  assert (W1 : 0 <= zlen name + 1 < 2 ^ 16) by lia. assert (W2 : 0 <= zlen dt < 2 ^ 16) by lia.
  assert (W3 : 0 <= zlen ds < 2 ^ 16) by lia.
  destruct E as (total & Et & E). unfold readAttribute. rewrite <- Et, E. rewrite E in Et. clear E.
  cbv zeta.
  match goal with |- rbind (?p ?s) ?k = _ =>
    assert (E : p s = Ok ((name, dt, dims), data)) end.
  { rewrite (pbind_ok _ _ _ 1 _ (read8_cons _ _)). rewrite (pbind_ok _ _ _ tt _ (passert_eq _ _ _ eq_refl)).
    rewrite (pbind_ok _ _ _ 0 _ (read8_cons _ _)). cbn [Z.eqb Pos.eqb].
    rewrite (pbind_ok _ _ _ tt _ (checkVal_same _ _)).
    rewrite (pbind_ok _ _ _ (zlen name + 1) _ (read16_le _ _ W1)).
    rewrite (pbind_ok _ _ _ (zlen dt) _ (read16_le _ _ W2)).
    rewrite (pbind_ok _ _ _ (zlen ds) _ (read16_le _ _ W3)).
    rewrite (pbind_ok _ _ _ 0 _ eq_refl).
    rewrite (pbind_ok _ _ _ tt _ (passert_eq (0 <? zlen name + 1) _ _ ltac:(lia))).
    rewrite (pbind_ok _ _ _ (name ++ [0]) _ (rd_app _ _ _ ltac:(rewrite zlen_app; reflexivity))).
    rewrite !zlen_cons, !zlen_app, !zlen_le, !zlen_pad8 in Et. change (zlen [0]) with 1 in Et.
    rewrite (pbind_ok _ _ _ tt (dt ++ pad8 (zlen dt) ++ ds ++ pad8 (zlen ds) ++ data)).
    2:{ apply padBytes7_read. rewrite !zlen_app, !zlen_pad8. change (zlen [0]) with 1. lia. }
    rewrite (pbind_ok _ _ _ dt _ (rd_app _ _ _ eq_refl)).
    rewrite (pbind_ok _ _ _ tt (ds ++ pad8 (zlen ds) ++ data)).
    2:{ rewrite (pbind_ok _ _ _ (pad8 (zlen dt)) (ds ++ pad8 (zlen ds) ++ data)).
        - apply passert_eq. unfold pad8. apply zrep_forallb.
        - apply rd_app. rewrite zlen_pad8. reflexivity. }
    rewrite (pbind_ok _ _ _ dims (pad8 (zlen ds) ++ data)).
    2:{ apply limited_exact; [reflexivity|]. rewrite <- (app_nil_r ds). apply dataspace_read; [exact Hd|lia]. }
    assert (P0 : pad8 (zlen ds) = []).
    { unfold pad8. replace ((8 - zlen ds mod 8) mod 8) with 0 by lia. reflexivity. }
    rewrite P0. cbn [app].
    rewrite (pbind_ok _ _ _ tt data).
    2:{ apply (padBytes7_aligned _ (8 + (zlen name + 1 + (8 - (zlen name + 1) mod 8) mod 8) +
                                   (zlen dt + (8 - zlen dt mod 8) mod 8) + zlen ds)); lia. }
    unfold pret. rewrite getString_nul by exact Hn. reflexivity. }
  rewrite E. cbn [rbind]. rewrite Hp. cbn [rbind]. reflexivity.
Qed.

(** ** A value as it is stored *)

(** The datatype message, the type it is read as, the bytes of the value and what they are
    read as; [n] of the dimensions are dimensions of the dataset *)
Definition codec (heap : Z -> Z -> res (option bytes)) (e : henv) (v : hval) (ix : list Z)
  (dims : list Z) (d : dty) (dt data : bytes) : Prop :=
  buildDatatypeMessage false v (List.length dims) = Ok dt /\ parseDatatype dt = Ok (d, []) /\ dt <> [] /\
  (exists rest, writeDataVar false e v (List.length dims) ix = Ok (data, rest)) /\
  zlen data = fold_left Z.mul dims (dlen d) /\
  forall r, alloc heap d dims (data ++ r) = Ok (v, r).

Lemma fold_mul dims : forall k, fold_left Z.mul dims k = k * fold_left Z.mul dims 1.
Proof.
  induction dims as [|d r IH]; intros k; cbn [fold_left]; [lia|]. rewrite (IH (k * d)), (IH (1 * d)). lia.
Qed.
Lemma fold_mul_pos dims : (forall n, In n dims -> 0 < n) -> 1 <= fold_left Z.mul dims 1.
Proof.
  induction dims as [|d r IH]; intros H; cbn [fold_left]; [lia|]. rewrite fold_mul.
  pose proof (H d (or_introl eq_refl)) as H1. pose proof (IH (fun n Hn => H n (or_intror Hn))) as H2. nia.
Qed.

(** Types of which the reader keeps the data of an attribute *)
Definition kept (d : dty) : bool :=
  match d with DFixed _ _ _ | DFloat _ _ | DVlen _ _ _ | DComp _ _ | DEnum _ _ _ _ _ _ => true | _ => false end.

Lemma attr_kept f d dims data v name : kept d = true -> (forall n, In n dims -> 0 < n) -> 0 < dlen d ->
  zlen data = fold_left Z.mul dims (dlen d) -> zlen data < 2 ^ 63 ->
  (forall r, alloc (readGlobalHeap f) d dims (data ++ r) = Ok (v, r)) ->
  saveDf d (8 <? 0) data = saveDf d true data /\
  saveDf d true data = Ok (Some data, None) /\
  attrValue f (mkRattr name dims d (Some data) None 0) = Ok v.
Proof.
  intros Hk Hp H0 Hl Hb Ha. assert (Hle : dlen d <= zlen data).
  { rewrite Hl, fold_mul. pose proof (fold_mul_pos dims Hp). nia. }
  split; [destruct d; try discriminate; reflexivity|]. split.
  - destruct d; try discriminate; unfold saveDf; cbn [dlen] in *;
      match goal with |- context [if ?c then _ else _] => replace c with true by lia end; reflexivity.
  - unfold attrValue. cbn [ra_val ra_df ra_dims ra_ty].
    assert (E : i64 (calcAttrSize dims (dlen d)) = zlen data).
    { unfold calcAttrSize. rewrite Z.mul_comm, <- fold_mul, <- Hl. pose proof (zlen_nonneg data).
      rewrite u64_small by lia. apply i64_small. lia. }
    rewrite E. replace (zlen data - zlen data) with 0 by lia. change (zrep 0 0) with (@nil Z).
    rewrite ztake_app_exact by reflexivity. rewrite <- (app_nil_r data), (Ha []). reflexivity.
Qed.

(** An attribute that has been read and yields the value [v] *)
Definition attr_typed (v : hval) (a : rattr) : Prop :=
  ra_dims a = attrDims v /\
  exists dt, buildDatatypeMessage false v (List.length (attrDims v)) = Ok dt /\ parseDatatype dt = Ok (ra_ty a, []).
Definition attr_gives (f : bytes) (kv : bytes * hval) (a : rattr) : Prop :=
  ra_name a = fst kv /\ attrValue f a = Ok (snd kv) /\ parseAttr f a = Ok (Some (snd kv)) /\ ra_co a = 0 /\
  (forall t, snd kv = HStr t -> ra_val a = Some (HStr t)) /\
  (fst kv <> bs "DIMENSION_LIST" -> attr_typed (snd kv) a).

Definition not_string (v : hval) : Prop := match v with HStr _ => False | _ => True end.

Lemma attr_message f e name v ix dims d dt data : text name -> zlen name + 1 < 65536 ->
  codec (readGlobalHeap f) e v ix dims d dt data -> zlen dt < 65536 -> dims_fit dims -> zlen data < 2 ^ 63 ->
  kept d = true -> (forall n, In n dims -> 0 < n) -> 0 < dlen d -> not_string v -> attrDims v = dims ->
  exists a, readAttribute 0 (attrHead name dt (buildDataspaceMessage dims) ++ data) = Ok a /\
    attr_gives f (name, v) a.
Proof.
  intros Hn Hl (Ht & Hp & _ & _ & Hz & Ha) Hdt Hd Hb Hk Hpos H0 Hs Hat.
  rewrite (attr_read name dt dims data d) by assumption.
  destruct (attr_kept f d dims data v name Hk Hpos H0 Hz Hb Ha) as (_ & E2 & E3).
  assert (E1 : forall t, saveDf d t data = saveDf d true data) by (intros t; destruct d; try discriminate; reflexivity).
  rewrite E1, E2. cbn [rbind]. eexists. split; [reflexivity|].
  split; [reflexivity|]. split; [exact E3|]. split.
  - unfold parseAttr. cbn [ra_df]. rewrite E3. reflexivity.
  - split; [reflexivity|]. cbn [fst snd]. split; [intros t ->; contradiction|]. intros _. split; [symmetry; exact Hat|].
    exists dt. rewrite Hat. split; [exact Ht|exact Hp].
Qed.

Lemma attr_string_message f name t : text name -> zlen name + 1 < 65536 -> text t -> zlen t + 1 < 2 ^ 32 ->
  exists a, readAttribute 0 (attrHead name (stringDt (zlen t + 1)) (buildDataspaceMessage []) ++ t ++ [0]) = Ok a /\
    attr_gives f (name, HStr t) a.
Proof.
  intros Hn Hl Ht Hlt. destruct (scalar_string t Ht Hlt) as (_ & Hp & _).
  rewrite (attr_read name (stringDt (zlen t + 1)) [] (t ++ [0]) (DString (zlen t + 1))); try assumption.
  - unfold saveDf. cbn [rbind]. rewrite getString_nul by exact Ht. eexists. split; [reflexivity|].
    split; [reflexivity|]. split; [reflexivity|]. split; [reflexivity|]. split; [reflexivity|]. cbn [fst snd ra_val].
    split; [intros t' E; congruence|]. intros _. split; [reflexivity|]. exists (stringDt (zlen t + 1)). split; [reflexivity|exact Hp].
  - unfold stringDt. rewrite zlen_app, zlen_le. change (zlen [19; 0; 0; 0]) with 4. lia.
  - split; [constructor|]. change (zlen (@nil Z)) with 0. lia.
Qed.

(** The list of dimensions of a variable *)
Lemma dimlist_alloc heap e refs : 0 <= he_addr e < 2 ^ 64 -> refs <> [] ->
  Forall (fun x => 1 <= fst x < 2 ^ 32 /\ 0 <= snd x < 2 ^ 64 /\ heap (he_addr e) (fst x) = Ok (Some (le 8 (snd x)))) refs ->
  forall r, alloc heap (DVlen 16 false (DRef 8)) [zlen refs]
    (flat_map (fun x => descriptor e 1 (fst x)) refs ++ r) =
  Ok (HSlice (TSlice (TNum U64)) (map (fun x => HSlice (TNum U64) [HNum U64 (snd x)]) refs), r).
Proof.
  intros He Hne H r. cbn [alloc dlen].
  set (one := readVlenSeq heap 8 (allocDims (TNum U64) (do* a := read64 in pret (HNum U64 a)) [])).
  set (val := fun x : Z * Z => HSlice (TNum U64) [HNum U64 (snd x)]).
  assert (Hone : forall x s, In x refs -> one (descriptor e 1 (fst x) ++ s) = Ok (val x, s)).
  { intros x s Hx. rewrite Forall_forall in H. destruct (H x Hx) as (H1 & H2 & H3). unfold one, readVlenSeq.
    rewrite (pbind_ok _ _ _ (1, he_addr e, fst x) s (desc_read e 1 (fst x) s ltac:(lia) He ltac:(lia))).
    cbn [Z.eqb]. rewrite H3. cbn [rbind]. change (Z.to_nat 1) with 1%nat. unfold repeatP, allocDims.
    assert (E : (do* a := read64 in pret (HNum U64 a)) (le 8 (snd x)) = Ok (HNum U64 (snd x), [])).
    { rewrite <- (app_nil_r (le 8 (snd x))). rewrite (pbind_ok _ _ _ (snd x) [] (read64_le _ _ H2)). reflexivity. }
    rewrite (pbind_ok _ _ _ _ [] E). reflexivity. }
  assert (E : repeatP one (Z.to_nat (zlen refs)) (flat_map (fun x => descriptor e 1 (fst x)) refs ++ r) =
              Ok (map val refs, r)).
  { unfold zlen. rewrite Nat2Z.id. clear Hne H. revert Hone. induction refs as [|x xs IH]; intros Hone; [reflexivity|].
    cbn [flat_map List.length map]. rewrite <- app_assoc.
    change (repeatP one (S (List.length xs))) with
      (do* a := one in do* l := repeatP one (List.length xs) in pret (a :: l)).
    rewrite (pbind_ok _ _ _ (val x) _ (Hone x _ (or_introl eq_refl))).
    rewrite (pbind_ok _ _ _ (map val xs) r (IH (fun y s Hy => Hone y s (or_intror Hy)))). reflexivity. }
  assert (M : make_slice (map val refs) = Ok (HSlice (TSlice (TNum U64)) (map val refs))).
  { apply make_slice_ok.
    - destruct refs; [congruence|discriminate].
    - apply Forall_forall. intros v Hv. apply in_map_iff in Hv. destruct Hv as (x & <- & _). reflexivity. }
  rewrite (pbind_ok _ _ _ (HSlice (TSlice (TNum U64)) (map val refs)) r).
  - unfold pret. do 2 f_equal. destruct refs as [|x xs]; [congruence|]. cbn [map undoInterfaces].
    unfold val at 1 3 4. cbn [undoInterfaces htype map forallb].
    assert (Em : map undoInterfaces (map val xs) = map val xs).
    { rewrite map_map. apply map_ext. intros y. reflexivity. }
    rewrite Em. assert (Ef : forallb (fun y => hty_eqb (htype y) (TSlice (TNum U64))) (map val xs) = true).
    { apply forallb_forall. intros v Hv. apply in_map_iff in Hv. destruct Hv as (y & <- & _). reflexivity. }
    rewrite Ef. reflexivity.
  - cbn [allocVariable]. rewrite (pbind_ok _ _ _ (map val refs) r E). rewrite M. reflexivity.
Qed.
