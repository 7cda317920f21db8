(** Proofs about the datatype codec (H5Value, H5TypeRead) against TypeSpec. *)
From Verif Require Import Prelude GoVal H5Base H5MetaWrite H5MetaRead H5Value H5TypeRead
  TypeSpec BaseLemmas H5ChecksumProofs H5MetaProofs.
From Coq Require Import ZifyBool ZifyNat.
Ltac Zify.zify_post_hook ::= Z.div_mod_to_equations.

(** ** Unfolded forms of the nested recursions *)
Fixpoint size_fields (fs : list (bytes * sty)) : Z :=
  match fs with [] => 0 | (_, s) :: r => size_of s + size_fields r end.
Lemma size_of_comp fs : size_of (SComp fs) = size_fields fs.
Proof. reflexivity. Qed.

Fixpoint conf_fields (fs : list (bytes * sty)) (l : list (bytes * hval)) : Prop :=
  match fs, l with
  | [], [] => True
  | (nm, s) :: fs', (nm', x) :: l' => nm' = nm /\ conf s x /\ conf_fields fs' l'
  | _, _ => False
  end.
Lemma conf_comp fs v : conf (SComp fs) v <-> exists l, v = HComp l /\ conf_fields fs l.
Proof. reflexivity. Qed.

Lemma conf_vlen s v :
  conf (SVlen s) v <->
  exists l, v = HSlice (go_type s) l /\ zlen l < 2 ^ 32 /\ Forall (conf s) l.
Proof.
  cbn [conf]. split; intros (l & -> & H1 & H2); exists l; repeat split; try assumption.
  - revert H2. clear. induction l as [|x r IH]; [constructor|]. intros [H1 H2]. constructor; auto.
  - revert H2. clear. induction 1; [exact I|]. split; auto.
Qed.

Fixpoint writable_fields (fs : list (bytes * sty)) : Prop :=
  match fs with
  | [] => True
  | (nm, s) :: r => text nm /\ writable s /\ (r <> [] -> has_opaque s = false) /\ writable_fields r
  end.
Lemma writable_comp fs :
  writable (SComp fs) <-> (zlen fs < 256 /\ size_ok (size_fields fs) /\ writable_fields fs).
Proof. reflexivity. Qed.

Fixpoint opaque_fields (fs : list (bytes * sty)) : bool :=
  match fs with [] => false | (_, s) :: r => has_opaque s || opaque_fields r end.
Lemma has_opaque_comp fs : has_opaque (SComp fs) = opaque_fields fs.
Proof. reflexivity. Qed.

Fixpoint closed_fields (fs : list (bytes * sty)) : bool :=
  match fs with [] => true | (_, s) :: r => closed s && closed_fields r end.
Lemma closed_comp fs : closed (SComp fs) = closed_fields fs.
Proof. reflexivity. Qed.

Fixpoint describe_fields (off : Z) (fs : list (bytes * sty)) : list (bytes * Z * list Z * dty) :=
  match fs with
  | [] => []
  | (nm, s) :: r => (nm, off, [], describe s) :: describe_fields (off + size_of s) r
  end.
Lemma describe_comp fs : describe (SComp fs) = DComp (size_fields fs) (describe_fields 0 fs).
Proof. reflexivity. Qed.

Fixpoint fsizes (fs : list (bytes * hval)) : res Z :=
  match fs with
  | [] => Ok 0
  | (_, x) :: r => let* a := calcFieldSize x in let* b := fsizes r in Ok (a + b)
  end.
Lemma calcFieldSize_comp fs : calcFieldSize (HComp fs) = fsizes fs.
Proof. reflexivity. Qed.
Lemma buildDt_comp big orig n fs :
  buildDt big orig n (HComp fs) =
  let* total := fsizes fs in
  let* ms := membersDt big total 0 fs in
  Ok ([54] ++ count3 (zlen fs) ++ le 4 total ++ ms).
Proof. reflexivity. Qed.
Lemma writeField_comp big e fs : writeField big e (HComp fs) = writeFields big e fs.
Proof. reflexivity. Qed.

(** ** Sizes *)
Lemma size_pos s : writable s -> 0 < size_of s.
Proof.
  destruct s as [k| |n|k ns vs|fs|s]; intros H.
  - pose proof (ksize_pos k); cbn [size_of]; lia.
  - reflexivity.
  - cbn [writable] in H. cbn [size_of]; lia.
  - pose proof (ksize_pos k); cbn [size_of]; lia.
  - apply (proj1 (writable_comp _)) in H. rewrite size_of_comp. destruct H as (_ & H & _). unfold size_ok in H. lia.
  - reflexivity.
Qed.

Lemma calc_size s : forall v, conf s v -> calcFieldSize v = Ok (size_of s).
Proof.
  induction s as [k| |n|k ns vs|fs IH|s IH] using sty_ind'; intros v H.
  - destruct H as (z & -> & _). reflexivity.
  - destruct H as (t & -> & _). reflexivity.
  - destruct H as (b & -> & <-). reflexivity.
  - destruct H as (z & -> & _). reflexivity.
  - apply (proj1 (conf_comp _ _)) in H. destruct H as (l & -> & H). rewrite calcFieldSize_comp, size_of_comp.
    revert l H. induction IH as [|[nm s] fs Hs _ IHf]; intros [|[nm' x] l] H; cbn [conf_fields] in H; try contradiction.
    + reflexivity.
    + destruct H as (-> & Hx & H). cbn [fsizes size_fields]. cbn [snd] in Hs.
      rewrite (Hs _ Hx), (IHf _ H). reflexivity.
  - apply (proj1 (conf_vlen _ _)) in H. destruct H as (l & -> & _). reflexivity.
Qed.

Lemma fsizes_ok fs l : conf_fields fs l -> fsizes l = Ok (size_fields fs).
Proof.
  intros H. rewrite <- calcFieldSize_comp, <- size_of_comp. apply calc_size. apply (proj2 (conf_comp _ _)).
  exists l. split; [reflexivity|exact H].
Qed.

(** ** The datatype the writer builds, by type *)
Fixpoint sdt (s : sty) : bytes :=
  match s with
  | SNum k => numDt k
  | SStr => vlenStringDt
  | SOpaque n => opaqueDt n
  | SEnum k names vals =>
      [56] ++ count3 (zlen names) ++ le 4 (ksize k) ++ fixedPointDt (ksize k) (ksigned k)
      ++ cstrings names ++ flat_map (enc_le k) vals
  | SComp fs =>
      [54] ++ count3 (zlen fs) ++ le 4 (size_of s)
      ++ (fix go (off : Z) (fs : list (bytes * sty)) : bytes :=
            match fs with
            | [] => []
            | (nm, s') :: r =>
                nm ++ [0] ++ writeEnc off (size_of s) ++ sdt s' ++ go (off + size_of s') r
            end) 0 fs
  | SVlen s => vlenHead ++ sdt s
  end.
Definition smembers (total : Z) : Z -> list (bytes * sty) -> bytes :=
  fix go (off : Z) (fs : list (bytes * sty)) : bytes :=
    match fs with
    | [] => []
    | (nm, s') :: r => nm ++ [0] ++ writeEnc off total ++ sdt s' ++ go (off + size_of s') r
    end.
Lemma sdt_comp fs :
  sdt (SComp fs) =
  [54] ++ count3 (zlen fs) ++ le 4 (size_fields fs) ++ smembers (size_fields fs) 0 fs.
Proof. reflexivity. Qed.

Lemma rconcat_vals k vals :
  rconcat (map (binary_write false) (map (HNum k) vals)) = Ok (flat_map (enc_le k) vals).
Proof.
  induction vals as [|z r IH]; [reflexivity|]. cbn [map rconcat binary_write]. rewrite IH. reflexivity.
Qed.

Lemma int_size_sg k : is_int k ->
  match TNum k with TNum F32 | TNum F64 => (0, false) | TNum k => (ksize k, ksigned k) | _ => (0, false) end
  = (ksize k, ksigned k).
Proof. intros [H1 H2]. destruct k; try reflexivity; congruence. Qed.

Lemma conf_fields_len fs l : conf_fields fs l -> zlen l = zlen fs.
Proof.
  revert l. induction fs as [|[nm s] fs IH]; intros [|[nm' x] l] H; cbn [conf_fields] in H; try tauto.
  rewrite !zlen_cons. destruct H as (_ & _ & H). rewrite (IH _ H). reflexivity.
Qed.

Lemma is_hslice_closed s v : closed s = true -> conf s v -> is_hslice v = false /\ getDims v = [].
Proof.
  destruct s as [k| |n|k ns vs|fs|s]; intros Hc H; try discriminate.
  - destruct H as (z & -> & _). split; reflexivity.
  - destruct H as (z & -> & _). split; reflexivity.
  - destruct H as (z & -> & _). split; reflexivity.
  - apply (proj1 (conf_comp _ _)) in H. destruct H as (z & -> & _). split; reflexivity.
Qed.

Fixpoint seqs_fields (fs : list (bytes * sty)) (l : list (bytes * hval)) : bool :=
  match fs, l with
  | (_, s) :: fs', (_, x) :: l' => seqs_ok s x && seqs_fields fs' l'
  | _, _ => true
  end.
Lemma seqs_ok_comp fs l : seqs_ok (SComp fs) (HComp l) = seqs_fields fs l.
Proof. reflexivity. Qed.

Lemma seqs_ok_closed s : closed s = true -> forall v, conf s v -> seqs_ok s v = true.
Proof.
  induction s as [k| |n|k ns vs|fs IH|s IH] using sty_ind'; intros Hc v H; try discriminate.
  - destruct H as (z & -> & _). reflexivity.
  - destruct H as (z & -> & _). reflexivity.
  - destruct H as (z & -> & _). reflexivity.
  - apply (proj1 (conf_comp _ _)) in H. destruct H as (l & -> & H). rewrite seqs_ok_comp.
    rewrite closed_comp in Hc.
    revert l H Hc. induction IH as [|[nm s] fs Hs _ IHf]; intros [|[nm' x] l] H Hc;
      cbn [conf_fields] in H; try tauto.
    destruct H as (-> & Hx & H). cbn [closed_fields] in Hc. apply andb_true_iff in Hc. destruct Hc as [Hc1 Hc2].
    cbn [seqs_fields]. cbn [snd] in Hs. rewrite (Hs Hc1 _ Hx), (IHf _ H Hc2). reflexivity.
Qed.

Lemma build_sdt s : writable s -> forall orig v, conf s v -> seqs_ok s v = true ->
  (s = SStr -> orig = true) -> buildDt false orig 0 v = Ok (sdt s).
Proof.
  induction s as [k| |n|k ns vs|fs IH|s IH] using sty_ind'; intros Hw orig v H Hq Ho.
  - destruct H as (z & -> & _). reflexivity.
  - destruct H as (t & -> & _). cbn [buildDt]. rewrite (Ho eq_refl). reflexivity.
  - destruct H as (b & -> & <-). reflexivity.
  - destruct H as (z & -> & _). cbn [buildDt]. unfold enumDt. cbn [enum_leaf htype].
    cbn [writable] in Hw. destruct Hw as (Hk & _).
    rewrite (int_size_sg k Hk). rewrite rconcat_vals. reflexivity.
  - apply (proj1 (conf_comp _ _)) in H. destruct H as (l & -> & H). rewrite buildDt_comp, sdt_comp.
    rewrite (fsizes_ok _ _ H). cbn [rbind]. rewrite (conf_fields_len _ _ H).
    apply (proj1 (writable_comp _)) in Hw. destruct Hw as (_ & _ & Hw). rewrite seqs_ok_comp in Hq.
    enough (E : forall total off, membersDt false total off l = Ok (smembers total off fs))
      by (rewrite E; reflexivity).
    intros total. clear Ho.
    revert l H Hw Hq. induction IH as [|[nm s] fs Hs _ IHf]; intros [|[nm' x] l] H Hw Hq off;
      cbn [conf_fields] in H; try contradiction.
    + reflexivity.
    + destruct H as (-> & Hx & H). cbn [writable_fields] in Hw. destruct Hw as (Hn & Hws & _ & Hwr).
      cbn [seqs_fields] in Hq. apply andb_true_iff in Hq. destruct Hq as [Hq1 Hq2].
      cbn [snd] in Hs.
      change (smembers total off ((nm, s) :: fs))
        with (nm ++ [0] ++ writeEnc off total ++ sdt s ++ smembers total (off + size_of s) fs).
      change (membersDt false total off ((nm, x) :: l)) with
        (let* dt := match x with HStr _ => Ok vlenStringDt | _ => buildDt false (is_hslice x) 0 x end in
         let* sz := calcFieldSize x in
         let* rest := membersDt false total (off + sz) l in
         Ok (nm ++ [0] ++ writeEnc off total ++ dt ++ rest)).
      assert (E : (match x with HStr _ => Ok vlenStringDt | _ => buildDt false (is_hslice x) 0 x end)
                  = Ok (sdt s)).
      { destruct x as [k z|t|l'|b|w ns ms|t l'|].
        all: try (apply Hs; [exact Hws|exact Hx|exact Hq1|intros ->; destruct Hx as (t' & Hx & _); discriminate]).
        destruct s; cbn [conf] in Hx; try (destruct Hx as (? & Hx & _); discriminate).
        reflexivity. }
      rewrite E. cbn [rbind]. rewrite (calc_size _ _ Hx). cbn [rbind].
      rewrite (IHf _ H Hwr Hq2). reflexivity.
  - apply (proj1 (conf_vlen _ _)) in H. destruct H as (l & -> & _ & H). cbn [buildDt].
    destruct Hw as [Hw Hc].
    destruct l as [|x r].
    + cbn [seqs_ok] in Hq. destruct s; try discriminate. reflexivity.
    + inversion H as [|x' r' Hx Hr]; subst. destruct (is_hslice_closed _ _ Hc Hx) as [-> ->].
      cbn [List.length]. rewrite (IH Hw false x Hx); [reflexivity| |intros ->; discriminate].
      apply seqs_ok_closed; assumption.
Qed.

(** ** Parsing *)
Lemma pbind_ok {A B} (p : P A) (f : A -> P B) s a s' :
  p s = Ok (a, s') -> pbind p f s = f a s'.
Proof. intros H. unfold pbind. rewrite H. reflexivity. Qed.
Lemma passert_eq b e s : b = true -> passert b e s = Ok (tt, s).
Proof. intros ->. reflexivity. Qed.
Lemma prem_eq s : prem s = Ok (zlen s, s).
Proof. reflexivity. Qed.

(** the rest of printDatatype after its 8-byte head *)
Definition pbody (fu : nat) (version class bits len : Z) : P dty :=
  if class =? 0 then
    do* (sg, big) := parseFixed len bits in pret (DFixed len sg big)
  else if class =? 1 then
    do* big := parseFloat version len bits in pret (DFloat len big)
  else if class =? 3 then
    do* _ := checkVal 1 version in pret (DString len)
  else if class =? 4 then pfail EBitfield
  else if class =? 5 then
    do* _ := parseOpaque in pret (DOpaque len)
  else if class =? 6 then
    do* ms :=
      repeatP (do* name := readNullTerminatedName (namePadding version) in
               do* off := readEnc (offsetWidth version len) in
               do* dims := memberDims version in
               do* d := printDatatype fu in
               pret (name, u32 off, dims, d)) (Z.to_nat (Z.land bits 255)) in
    pret (DComp len ms)
  else if class =? 7 then
    do* _ := passert (version =? 1) EUnsupportedReferenceVersion in
    do* _ := passert (Z.land bits 15 <? 2) EInternal in
    pret (DRef len)
  else if class =? 8 then
    do* base := printDatatype fu in
    let n := Z.to_nat (Z.land bits 255) in
    do* names := repeatP (readNullTerminatedName (namePadding version)) n in
    match base with
    | DFixed blen sg big =>
        do* _ := passert ((len =? 1) || (len =? 2) || (len =? 4) || (len =? 8))
                         EFixedPoint in
        match int_kind blen sg with
        | Some k => do* vals := repeatP (readNum k big) n in
                    pret (DEnum len blen sg big names vals)
        | None => pfail EFixedPoint
        end
    | _ => pfail EInternal
    end
  else if class =? 9 then
    let vtype := Z.land bits 15 in
    do* _ := passert (Z.land (Z.shiftr bits 4) 15 <? 2) EInternal in
    do* _ := (if vtype =? 0
              then checkVal 0 (Z.land (Z.shiftr bits 8) 15)
              else passert (vtype =? 1) EInternal) in
    do* d := printDatatype fu in
    pret (DVlen len (vtype =? 1) d)
  else if class =? 10 then
    do* dimensionality := read8 in
    do* _ := (if version <? 3 then checkZeroes 3 else pret tt) in
    do* dims := repeatP read32 (Z.to_nat dimensionality) in
    do* _ := (if version <? 3
              then do* _ := repeatP read32 (Z.to_nat dimensionality) in pret tt
              else pret tt) in
    do* d := printDatatype fu in
    pret (DArray len dims d)
  else pfail ENotModelled.

Lemma print_head fu b0 b1 b2 b3 len r :
  0 < len < 2 ^ 32 ->
  Z.land b0 15 <= 10 -> 1 <= Z.land (Z.shiftr b0 4) 15 <= 4 ->
  printDatatype (S fu) ([b0; b1; b2; b3] ++ le 4 len ++ r) =
  pbody fu (Z.land (Z.shiftr b0 4) 15) (Z.land b0 15) (b1 + 256 * b2 + 65536 * b3) len r.
Proof.
  intros Hl Hc Hv. cbn [printDatatype].
  rewrite (pbind_ok _ _ _ _ _ (prem_eq _)).
  rewrite (pbind_ok _ _ _ tt ([b0; b1; b2; b3] ++ le 4 len ++ r)).
  2:{ apply passert_eq. rewrite !zlen_app, zlen_le. change (zlen [b0; b1; b2; b3]) with 4.
      pose proof (zlen_nonneg r). lia. }
  cbn [app].
  rewrite (pbind_ok _ _ _ _ _ (read8_cons _ _)).
  rewrite (pbind_ok _ _ _ _ _ (read8_cons _ _)).
  rewrite (pbind_ok _ _ _ _ _ (read8_cons _ _)).
  rewrite (pbind_ok _ _ _ _ _ (read8_cons _ _)).
  rewrite (pbind_ok _ _ _ len r).
  2:{ apply read32_le'. lia. }
  cbv zeta. replace (10 <? Z.land b0 15) with false by lia.
  rewrite (pbind_ok _ _ _ tt r) by (apply passert_eq; lia).
  rewrite (pbind_ok _ _ _ tt r) by (apply passert_eq; lia).
  reflexivity.
Qed.

Lemma parse_fixed fu size sg r : size = 1 \/ size = 2 \/ size = 4 \/ size = 8 ->
  printDatatype (S fu) (fixedPointDt size sg ++ r) = Ok (DFixed size sg false, r).
Proof.
  intros Hs. unfold fixedPointDt. rewrite <- !app_assoc.
  rewrite print_head; [|lia|discriminate|split; discriminate].
  assert (Hp : exists p, size = p /\ 0 <= p * 8 < 2 ^ 16) by (exists size; lia).
  assert (Hb : (size =? 1) || (size =? 2) || (size =? 4) || (size =? 8) = true) by lia.
  assert (E : forall bits, (bits = 8 \/ bits = 0) ->
    parseFixed size bits (le 2 0 ++ le 2 (size * 8) ++ r) = Ok ((bits =? 8, false), r)).
  { intros bits Hbits. unfold parseFixed.
    rewrite (pbind_ok _ _ _ tt (le 2 0 ++ le 2 (size * 8) ++ r))
      by (apply passert_eq; destruct Hbits as [-> | ->]; reflexivity).
    rewrite (pbind_ok _ _ _ _ _ (prem_eq _)).
    rewrite (pbind_ok _ _ _ tt (le 2 0 ++ le 2 (size * 8) ++ r))
      by (apply passert_eq; rewrite !zlen_app, !zlen_le; pose proof (zlen_nonneg r); lia).
    rewrite (pbind_ok _ _ _ 0 (le 2 (size * 8) ++ r)) by (apply read16_le; lia).
    rewrite (pbind_ok _ _ _ (size * 8) r) by (apply read16_le; lia).
    rewrite (pbind_ok _ _ _ tt r) by reflexivity.
    rewrite (pbind_ok _ _ _ tt r) by (apply passert_eq; exact Hb).
    destruct Hbits as [-> | ->]; reflexivity. }
  change (Z.land 16 15) with 0. unfold pbody. change (0 =? 0) with true. cbv iota.
  rewrite (pbind_ok _ _ _ (sg, false) r); [reflexivity|].
  destruct sg; (rewrite E; [reflexivity|lia]).
Qed.

Lemma parse_float fu size r : size = 4 \/ size = 8 ->
  printDatatype (S fu) (floatingPointDt size ++ r) = Ok (DFloat size false, r).
Proof.
  intros [-> | ->]; unfold floatingPointDt.
  - change (4 =? 4) with true. cbv iota. rewrite <- !app_assoc.
    rewrite print_head; [|lia|discriminate|split; discriminate].
    change (Z.land 17 15) with 1. change (Z.land (Z.shiftr 17 4) 15) with 1.
    change (32 + 256 * 31 + 65536 * 0) with 7968.
    unfold pbody. change (1 =? 0) with false. change (1 =? 1) with true. cbv iota.
    rewrite (pbind_ok _ _ _ false r); [reflexivity|]. unfold parseFloat.
    do 5 (rewrite (pbind_ok _ _ _ tt _) by reflexivity).
    rewrite (pbind_ok _ _ _ _ _ (prem_eq _)).
    rewrite (pbind_ok _ _ _ tt (le 2 0 ++ le 2 32 ++ [23; 8; 0; 23] ++ le 4 127 ++ r))
      by (apply passert_eq; rewrite !zlen_app, !zlen_le; change (zlen [23; 8; 0; 23]) with 4;
          pose proof (zlen_nonneg r); lia).
    rewrite (pbind_ok _ _ _ 0 (le 2 32 ++ [23; 8; 0; 23] ++ le 4 127 ++ r)) by (apply read16_le; lia).
    rewrite (pbind_ok _ _ _ 32 ([23; 8; 0; 23] ++ le 4 127 ++ r)) by (apply read16_le; lia).
    cbn [app].
    do 4 (rewrite (pbind_ok _ _ _ _ _ (read8_cons _ _))).
    rewrite (pbind_ok _ _ _ 127 r) by (apply read32_le'; lia).
    do 3 (rewrite (pbind_ok _ _ _ tt r) by reflexivity). reflexivity.
  - change (8 =? 4) with false. cbv iota. rewrite <- !app_assoc.
    rewrite print_head; [|lia|discriminate|split; discriminate].
    change (Z.land 17 15) with 1. change (Z.land (Z.shiftr 17 4) 15) with 1.
    change (32 + 256 * 63 + 65536 * 0) with 16160.
    unfold pbody. change (1 =? 0) with false. change (1 =? 1) with true. cbv iota.
    rewrite (pbind_ok _ _ _ false r); [reflexivity|]. unfold parseFloat.
    do 5 (rewrite (pbind_ok _ _ _ tt _) by reflexivity).
    rewrite (pbind_ok _ _ _ _ _ (prem_eq _)).
    rewrite (pbind_ok _ _ _ tt (le 2 0 ++ le 2 64 ++ [52; 11; 0; 52] ++ le 4 1023 ++ r))
      by (apply passert_eq; rewrite !zlen_app, !zlen_le; change (zlen [52; 11; 0; 52]) with 4;
          pose proof (zlen_nonneg r); lia).
    rewrite (pbind_ok _ _ _ 0 (le 2 64 ++ [52; 11; 0; 52] ++ le 4 1023 ++ r)) by (apply read16_le; lia).
    rewrite (pbind_ok _ _ _ 64 ([52; 11; 0; 52] ++ le 4 1023 ++ r)) by (apply read16_le; lia).
    cbn [app].
    do 4 (rewrite (pbind_ok _ _ _ _ _ (read8_cons _ _))).
    rewrite (pbind_ok _ _ _ 1023 r) by (apply read32_le'; lia).
    do 3 (rewrite (pbind_ok _ _ _ tt r) by reflexivity). reflexivity.
Qed.

Lemma parse_num fu k r : printDatatype (S fu) (numDt k ++ r) = Ok (describe (SNum k), r).
Proof.
  destruct k; cbn [numDt describe]; try (apply parse_fixed; cbn [ksize]; lia);
    apply parse_float; lia.
Qed.

Lemma parse_string fu n r : 0 < n < 2 ^ 32 ->
  printDatatype (S fu) (stringDt n ++ r) = Ok (DString n, r).
Proof.
  intros H. unfold stringDt. rewrite <- !app_assoc.
  rewrite print_head; [reflexivity|exact H|discriminate|split; discriminate].
Qed.

Lemma parse_ref fu r : printDatatype (S fu) (referenceDt ++ r) = Ok (DRef 8, r).
Proof.
  unfold referenceDt. rewrite <- !app_assoc.
  rewrite print_head; [reflexivity|lia|discriminate|split; discriminate].
Qed.

Lemma parse_vlen_head fu b1 r : (b1 = 0 \/ b1 = 1) ->
  printDatatype (S fu) ([25; b1; 0; 0] ++ le 4 16 ++ r) =
  (do* d := printDatatype fu in pret (DVlen 16 (b1 =? 1) d)) r.
Proof.
  intros H. rewrite print_head; [|lia|discriminate|split; discriminate].
  destruct H as [-> | ->]; reflexivity.
Qed.

Lemma parse_vlenString fu r :
  printDatatype (S (S fu)) (vlenStringDt ++ r) = Ok (DVlen 16 true (DString 1), r).
Proof.
  unfold vlenStringDt. rewrite <- !app_assoc. rewrite parse_vlen_head by lia.
  rewrite (pbind_ok _ _ _ (DString 1) r); [reflexivity|]. apply parse_string. lia.
Qed.

Lemma parse_opaque fu n : 0 < n < 2 ^ 32 ->
  printDatatype (S fu) (opaqueDt n) = Ok (DOpaque n, []).
Proof.
  intros H. unfold opaqueDt. rewrite <- (app_nil_r (le 4 n)).
  rewrite print_head; [reflexivity|exact H|discriminate|split; discriminate].
Qed.

Lemma count3_head b0 n r : 0 <= n < 256 ->
  [b0] ++ count3 n ++ r = [b0; n; 0; 0] ++ r.
Proof.
  intros H. unfold count3. cbn [le app].
  rewrite (Z.mod_small n 256), (Z.div_small n 256) by lia.
  rewrite (Z.div_small 0 256), (Z.mod_small 0 256) by lia. reflexivity.
Qed.

Lemma name_read nm r : text nm -> name_until_nul (nm ++ 0 :: r) = Ok (nm, r).
Proof.
  induction 1 as [|b l Hb _ IH]; [reflexivity|]. cbn [app name_until_nul].
  replace (b =? 0) with false by lia. rewrite IH. reflexivity.
Qed.

Lemma ntname_read nm r : text nm -> readNullTerminatedName 0 (nm ++ 0 :: r) = Ok (nm, r).
Proof.
  intros H. unfold readNullTerminatedName. rewrite (pbind_ok _ _ _ _ _ (name_read _ _ H)).
  reflexivity.
Qed.

Lemma names_read names r : Forall text names ->
  repeatP (readNullTerminatedName 0) (List.length names) (cstrings names ++ r) = Ok (names, r).
Proof.
  induction 1 as [|nm l Hn _ IH]; [reflexivity|].
  cbn [List.length repeatP cstrings flat_map]. rewrite <- !app_assoc. cbn [app].
  rewrite (pbind_ok _ _ _ _ _ (ntname_read _ _ Hn)).
  rewrite (pbind_ok _ _ _ _ _ IH). reflexivity.
Qed.

Lemma readNum_enc k z r : in_range k z = true ->
  readNum k false (enc_le k z ++ r) = Ok (HNum k z, r).
Proof.
  intros H. unfold readNum. rewrite (pbind_ok _ _ _ (enc_le k z) r).
  - rewrite dec_enc_le by exact H. reflexivity.
  - apply rd_app. symmetry. apply zlen_enc_le.
Qed.

Lemma readNums_enc k vals r : Forall (fun z => in_range k z = true) vals ->
  repeatP (readNum k false) (List.length vals) (flat_map (enc_le k) vals ++ r)
  = Ok (map (HNum k) vals, r).
Proof.
  induction 1 as [|z l Hz _ IH]; [reflexivity|].
  cbn [List.length repeatP flat_map map]. rewrite <- !app_assoc.
  rewrite (pbind_ok _ _ _ _ _ (readNum_enc _ _ _ Hz)).
  rewrite (pbind_ok _ _ _ _ _ IH). reflexivity.
Qed.

Lemma int_kind_of k : is_int k -> int_kind (ksize k) (ksigned k) = Some k.
Proof. intros [H1 H2]. destruct k; try reflexivity; congruence. Qed.

Lemma parse_enum fu k names vals r :
  is_int k -> List.length names = List.length vals -> zlen names < 256 ->
  Forall text names -> Forall (fun z => in_range k z = true) vals ->
  printDatatype (S (S fu)) (sdt (SEnum k names vals) ++ r) = Ok (describe (SEnum k names vals), r).
Proof.
  intros Hk Hl Hn Ht Hv. cbn [sdt]. rewrite <- !app_assoc.
  pose proof (zlen_nonneg names). rewrite count3_head by lia.
  pose proof (ksize_pos k).
  rewrite print_head; [|lia|discriminate|split; discriminate].
  change (Z.land 56 15) with 8. change (Z.land (Z.shiftr 56 4) 15) with 3.
  replace (zlen names + 256 * 0 + 65536 * 0) with (zlen names) by lia.
  assert (E255 : Z.land (zlen names) 255 = zlen names).
  { change 255 with (Z.ones 8). rewrite Z.land_ones by lia. apply Z.mod_small. lia. }
  unfold pbody. change (8 =? 0) with false. change (8 =? 1) with false. change (8 =? 3) with false.
  change (8 =? 4) with false. change (8 =? 5) with false. change (8 =? 6) with false.
  change (8 =? 7) with false. change (8 =? 8) with true. cbv iota zeta.
  rewrite (pbind_ok _ _ _ _ _ (parse_fixed fu (ksize k) (ksigned k) _
             ltac:(destruct k; cbn [ksize]; lia))).
  rewrite E255. replace (Z.to_nat (zlen names)) with (List.length names) by (unfold zlen; lia).
  change (namePadding 3) with 0.
  rewrite (pbind_ok _ _ _ _ _ (names_read _ _ Ht)).
  rewrite (pbind_ok _ _ _ tt _) by (apply passert_eq; destruct k; reflexivity).
  rewrite int_kind_of by exact Hk. rewrite Hl.
  rewrite (pbind_ok _ _ _ _ _ (readNums_enc _ _ _ Hv)). reflexivity.
Qed.

(** The width of offsets (C52) *)
Lemma enc_width_ok val total r : 0 <= val < total -> size_ok total ->
  readEnc (offsetWidth 3 total) (writeEnc val total ++ r) = Ok (val, r).
Proof.
  intros Hv Ht. unfold readEnc, offsetWidth, writeEnc.
  change (3 <? 3) with false. cbv iota.
  destruct (total <? 256) eqn:E1.
  - change (1 =? 1) with true. cbv iota. cbn [le app]. rewrite Z.mod_small by lia. apply read8_cons.
  - destruct (total <? 65536) eqn:E2.
    + change (2 =? 1) with false. change (2 =? 2) with true. cbv iota. apply read16_le. lia.
    + destruct Ht as [Ht|Ht]; [lia|].
      replace (total <? 16777216) with false by lia.
      change (4 =? 1) with false. change (4 =? 2) with false. change (4 =? 4) with true. cbv iota.
      apply read32_le'. lia.
Qed.

Fixpoint depth (s : sty) : nat :=
  match s with
  | SNum _ | SOpaque _ => 1
  | SStr | SEnum _ _ _ => 2
  | SComp fs => S ((fix go (fs : list (bytes * sty)) : nat :=
                      match fs with [] => 0 | (_, s) :: r => Nat.max (depth s) (go r) end) fs)
  | SVlen s => S (depth s)
  end%nat.
Fixpoint depth_fields (fs : list (bytes * sty)) : nat :=
  match fs with [] => 0 | (_, s) :: r => Nat.max (depth s) (depth_fields r) end%nat.
Lemma depth_comp fs : depth (SComp fs) = S (depth_fields fs).
Proof. reflexivity. Qed.

Lemma size_fields_nonneg fs : writable_fields fs -> 0 <= size_fields fs.
Proof.
  induction fs as [|[nm s] fs IH]; cbn [size_fields writable_fields]; [lia|].
  intros (_ & Hw & _ & H). pose proof (size_pos _ Hw). specialize (IH H). lia.
Qed.

Lemma parse_sdt s : writable s -> forall fu r, (depth s <= fu)%nat ->
  (has_opaque s = true -> r = []) ->
  printDatatype fu (sdt s ++ r) = Ok (describe s, r).
Proof.
  induction s as [k| |n|k ns vs|fs IH|s IH] using sty_ind'; intros Hw fu r Hf Hr.
  - cbn [depth] in Hf. destruct fu as [|fu]; [lia|]. apply parse_num.
  - cbn [depth] in Hf. destruct fu as [|[|fu]]; [lia|lia|]. apply parse_vlenString.
  - cbn [depth] in Hf. destruct fu as [|fu]; [lia|]. rewrite (Hr eq_refl), app_nil_r.
    apply parse_opaque. exact Hw.
  - cbn [depth] in Hf. destruct fu as [|[|fu]]; [lia|lia|].
    destruct Hw as (H1 & H2 & H3 & H4 & H5). apply parse_enum; assumption.
  - rewrite depth_comp in Hf. destruct fu as [|fu]; [lia|]. apply le_S_n in Hf.
    rewrite sdt_comp, describe_comp. rewrite has_opaque_comp in Hr.
    apply (proj1 (writable_comp _)) in Hw. destruct Hw as (Hn & Hs & Hw).
    rewrite <- !app_assoc. pose proof (zlen_nonneg fs). rewrite count3_head by lia.
    assert (Hs' : 0 < size_fields fs < 2 ^ 32) by (unfold size_ok in Hs; lia).
    rewrite print_head; [|exact Hs'|discriminate|split; discriminate].
    change (Z.land 54 15) with 6. change (Z.land (Z.shiftr 54 4) 15) with 3.
    replace (zlen fs + 256 * 0 + 65536 * 0) with (zlen fs) by lia.
    assert (E255 : Z.land (zlen fs) 255 = zlen fs).
    { change 255 with (Z.ones 8). rewrite Z.land_ones by lia. apply Z.mod_small. lia. }
    unfold pbody. change (6 =? 0) with false. change (6 =? 1) with false. change (6 =? 3) with false.
    change (6 =? 4) with false. change (6 =? 5) with false. change (6 =? 6) with true. cbv iota zeta.
    rewrite E255. replace (Z.to_nat (zlen fs)) with (List.length fs) by (unfold zlen; lia).
    change (namePadding 3) with 0.
    rewrite (pbind_ok _ _ _ (describe_fields 0 fs) r); [reflexivity|].
    enough (E : forall total, size_ok total -> forall off, off + size_fields fs <= total -> 0 <= off ->
      repeatP (do* name := readNullTerminatedName 0 in
               do* off := readEnc (offsetWidth 3 total) in
               do* dims := memberDims 3 in
               do* d := printDatatype fu in
               pret (name, u32 off, dims, d)) (List.length fs) (smembers total off fs ++ r)
      = Ok (describe_fields off fs, r)).
    { apply E; [exact Hs|lia|lia]. }
    clear Hs Hs' E255 Hn H. intros total Hs. revert Hw Hf Hr.
    induction IH as [|[nm s] fs' Hsty _ IHf]; intros Hw Hf Hr off Hoff H0; [reflexivity|].
    cbn [writable_fields] in Hw. destruct Hw as (Hnm & Hws & Hop & Hw).
    cbn [depth_fields] in Hf. cbn [snd] in Hsty. cbn [size_fields] in Hoff.
    pose proof (size_pos _ Hws) as Hsz. pose proof (size_fields_nonneg _ Hw) as Hsf.
    change (smembers total off ((nm, s) :: fs'))
      with (nm ++ [0] ++ writeEnc off total ++ sdt s ++ smembers total (off + size_of s) fs').
    cbn [List.length repeatP describe_fields]. rewrite <- !app_assoc. cbn [app].
    cbn [opaque_fields] in Hr.
    rewrite (pbind_ok _ _ _ (nm, off, [], describe s) (smembers total (off + size_of s) fs' ++ r)).
    + rewrite (pbind_ok _ _ _ (describe_fields (off + size_of s) fs') r); [reflexivity|].
      apply IHf; try assumption; try lia.
      intros Ho. apply Hr. rewrite Ho. apply orb_true_r.
    + rewrite (pbind_ok _ _ _ _ _ (ntname_read _ _ Hnm)).
      rewrite (pbind_ok _ _ _ off (sdt s ++ smembers total (off + size_of s) fs' ++ r))
        by (apply enc_width_ok; [lia|exact Hs]).
      rewrite (pbind_ok _ _ _ [] (sdt s ++ smembers total (off + size_of s) fs' ++ r)) by reflexivity.
      rewrite (pbind_ok _ _ _ (describe s) (smembers total (off + size_of s) fs' ++ r)).
      * unfold pret. unfold u32. rewrite Z.mod_small by (unfold size_ok in Hs; lia). reflexivity.
      * apply Hsty; [exact Hws|lia|].
        intros Ho. destruct fs' as [|f fs'].
        { rewrite Hr; [reflexivity|]. rewrite Ho. reflexivity. }
        { rewrite Hop in Ho by discriminate. discriminate. }
  - cbn [depth] in Hf. destruct fu as [|fu]; [lia|]. cbn [sdt]. unfold vlenHead.
    rewrite <- !app_assoc. rewrite parse_vlen_head by lia. destruct Hw as [Hw Hc].
    rewrite (pbind_ok _ _ _ _ _ (IH Hw fu r ltac:(lia) Hr)). reflexivity.
Qed.
