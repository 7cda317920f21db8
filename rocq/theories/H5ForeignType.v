(** Lemmas: the HDF5 reader parses the datatype messages of other writers. *)
From Verif Require Import Prelude GoVal BaseLemmas H5Base H5MetaWrite H5MetaRead MetaSpec DenseSpec H5MetaProofs H5Value
  TypeSpec H5TypeRead H5TypeProofs H5DenseProofs ForeignTypeSpec.
From Coq Require Import Lia ZifyBool ZifyNat.

(** What the reader holds of a type *)
Definition kind_of (n : Z) (sg : bool) : nk :=
  match int_kind n sg with Some k => k | None => U8 end.
Fixpoint told (t : fty) : dty :=
  match t with
  | FInt n sg big => DFixed n sg big
  | FReal n big => DFloat n big
  | FText n => DString n
  | FOpaque n => DOpaque n
  | FComp n ms => DComp n (map (fun m => match m with (name, off, dims, t) => (name, off, dims, told t) end) ms)
  | FRef => DRef 8
  | FEnum n sg big names vals => DEnum n n sg big names (map (HNum (kind_of n sg)) vals)
  | FSeq t => DVlen 16 false (told t)
  | FString t => DVlen 16 true (told t)
  | FArray dims t => DArray (fsize (FArray dims t)) dims (told t)
  end.

Definition zeros (r : bytes) : Prop := forallb (fun x => x =? 0) r = true.
Lemma zeros_zrep n : zeros (zrep n 0).
Proof. unfold zeros, zrep. induction (Z.to_nat n); [reflexivity|exact IHn0]. Qed.

Lemma head_read fu class v bits size r : 0 <= class <= 10 -> 1 <= v <= 4 -> 0 <= bits < 2 ^ 24 -> 0 < size < 2 ^ 32 ->
  printDatatype (S fu) (dt_head class v bits size ++ r) = pbody fu v class bits size r.
Proof.
  intros Hc Hv Hb Hs. unfold dt_head. rewrite <- !app_assoc.
  change ([16 * v + class] ++ le 3 bits ++ le 4 size ++ r) with
    ([16 * v + class; bits mod 256; bits / 256 mod 256; bits / 256 / 256 mod 256] ++ le 4 size ++ r).
  assert (E1 : Z.land (16 * v + class) 15 = class).
  { change 15 with (Z.ones 4). rewrite Z.land_ones by lia. Z.div_mod_to_equations. lia. }
  assert (E2 : Z.land (Z.shiftr (16 * v + class) 4) 15 = v).
  { change 15 with (Z.ones 4). rewrite Z.land_ones, Z.shiftr_div_pow2 by lia. Z.div_mod_to_equations. lia. }
  pose proof (print_head fu (16 * v + class) (bits mod 256) (bits / 256 mod 256) (bits / 256 / 256 mod 256) size r Hs) as E.
  rewrite E1, E2 in E. rewrite E by lia. f_equal. Z.div_mod_to_equations. lia.
Qed.

Lemma name_bytes_read v nm r : name_ok nm ->
  readNullTerminatedName (namePadding v) (name_bytes v nm ++ r) = Ok (nm, r).
Proof.
  intros H. unfold name_bytes, namePadding. rewrite <- !app_assoc. cbn [app]. destruct (v <? 3).
  - unfold readNullTerminatedName. rewrite (pbind_ok _ _ _ _ _ (name_read _ _ H)).
    change (0 <? 7) with true. cbv iota zeta.
    rewrite (pbind_ok _ _ _ tt r); [reflexivity|]. apply checkZeroes_zrep.
    Z.div_mod_to_equations. lia.
  - apply ntname_read. exact H.
Qed.
Lemma names_bytes_read v names r : Forall name_ok names ->
  repeatP (readNullTerminatedName (namePadding v)) (List.length names) (flat_map (name_bytes v) names ++ r) = Ok (names, r).
Proof.
  induction 1 as [|nm l Hn _ IH]; [reflexivity|].
  cbn [List.length repeatP flat_map]. rewrite <- !app_assoc.
  rewrite (pbind_ok _ _ _ _ _ (name_bytes_read _ _ _ Hn)).
  rewrite (pbind_ok _ _ _ _ _ IH). reflexivity.
Qed.
Lemma dims_read (dims : list Z) r : Forall (word 32) dims ->
  repeatP read32 (List.length dims) (flat_map (le 4) dims ++ r) = Ok (dims, r).
Proof.
  induction 1 as [|d l Hd _ IH]; [reflexivity|].
  cbn [List.length repeatP flat_map]. rewrite <- !app_assoc.
  rewrite (pbind_ok _ _ _ _ _ (read32_le' _ _ Hd)).
  rewrite (pbind_ok _ _ _ _ _ IH). reflexivity.
Qed.

Lemma int_kind_of n sg : int_size n -> int_kind n sg = Some (kind_of n sg) /\ ksize (kind_of n sg) = n.
Proof. intros [->|[->|[->| ->]]]; destruct sg; split; reflexivity. Qed.
Lemma int_in_range n sg z : int_size n -> int_in n sg z -> in_range (kind_of n sg) z = true.
Proof.
  intros [->|[->|[->| ->]]]; destruct sg; unfold int_in, in_range, kind_of, int_kind; cbn [Z.eqb Pos.eqb];
    intros H; cbn in H |- *; lia.
Qed.

Lemma readNum_any n sg big z r : int_size n -> int_in n sg z ->
  readNum (kind_of n sg) big (int_bytes n big z ++ r) = Ok (HNum (kind_of n sg) z, r).
Proof.
  intros Hn Hz. destruct (int_kind_of n sg Hn) as [_ E]. pose proof (int_in_range _ _ _ Hn Hz) as Hr.
  unfold int_bytes. generalize dependent (kind_of n sg). intros k E Hr. subst n. destruct big.
  - change (rev (le (Z.to_nat (ksize k)) z)) with (enc_be k z).
    unfold readNum. rewrite (pbind_ok _ _ _ (enc_be k z) r) by (apply rd_app; symmetry; apply zlen_enc_be).
    rewrite dec_enc_be by exact Hr. reflexivity.
  - change (le (Z.to_nat (ksize k)) z) with (enc_le k z).
    apply readNum_enc. exact Hr.
Qed.
Lemma readNums_any n sg big vals r : int_size n -> Forall (int_in n sg) vals ->
  repeatP (readNum (kind_of n sg) big) (List.length vals) (flat_map (int_bytes n big) vals ++ r) =
  Ok (map (HNum (kind_of n sg)) vals, r).
Proof.
  intros Hn. induction 1 as [|z l Hz _ IH]; [reflexivity|].
  cbn [List.length repeatP flat_map map]. rewrite <- !app_assoc.
  rewrite (pbind_ok _ _ _ _ _ (readNum_any _ _ _ _ _ Hn Hz)).
  rewrite (pbind_ok _ _ _ _ _ IH). reflexivity.
Qed.

Lemma member_dims_read v dims b r : dims_bytes v dims b -> memberDims v (b ++ r) = Ok (dims, r).
Proof.
  unfold dims_bytes, memberDims. destruct (v =? 1).
  - intros (more & Hl & Hd & Hm & ->). rewrite <- !app_assoc. cbn [app].
    rewrite (pbind_ok _ _ _ _ _ (read8_cons _ _)).
    rewrite (pbind_ok _ _ _ tt (le 4 0 ++ le 4 0 ++ flat_map (le 4) dims ++ flat_map (le 4) more ++ r)) by
      (apply (checkZeroes_zrep 3 3); reflexivity).
    rewrite (pbind_ok _ _ _ 0 (le 4 0 ++ flat_map (le 4) dims ++ flat_map (le 4) more ++ r)) by (apply read32_le'; lia).
    rewrite (pbind_ok _ _ _ _ _ (passert_true _ _)).
    rewrite (pbind_ok _ _ _ 0 (flat_map (le 4) dims ++ flat_map (le 4) more ++ r)) by (apply read32_le'; lia).
    rewrite (pbind_ok _ _ _ _ _ (checkVal_same _ _)).
    rewrite (pbind_ok _ _ _ (dims ++ more) r).
    2:{ pose proof (dims_read (dims ++ more) r) as E. rewrite flat_map_app, <- app_assoc in E.
        replace (List.length (dims ++ more)) with 4%nat in E by (rewrite app_length; unfold zlen in Hl; lia).
        apply E. apply Forall_app. split; assumption. }
    replace (4 <? zlen dims) with false by (pose proof (zlen_nonneg more); lia).
    unfold pret. f_equal. f_equal. unfold zlen. rewrite Nat2Z.id, firstn_app, firstn_all, Nat.sub_diag.
    apply app_nil_r.
  - intros (-> & ->). reflexivity.
Qed.
Lemma offset_read v n off r : 1 <= v -> 0 <= off < n -> n < 2 ^ 32 -> v < 3 \/ n < 2 ^ 16 \/ 2 ^ 24 <= n ->
  readEnc (offsetWidth v n) (le (offset_width v n) off ++ r) = Ok (off, r).
Proof.
  intros Hv Ho Hn Hw. unfold offsetWidth, offset_width.
  change (2 ^ 8) with 256. change (2 ^ 16) with 65536 in *. change (2 ^ 24) with 16777216 in *.
  destruct (v <? 3) eqn:E1; [apply read32_le'; lia|].
  destruct (n <? 256) eqn:E2.
  { unfold readEnc. cbn [Z.eqb Pos.eqb]. cbn [le app]. rewrite Z.mod_small by lia. apply read8_cons. }
  destruct (n <? 65536) eqn:E3; [apply read16_le; unfold word; lia|].
  destruct (n <? 16777216) eqn:E4; [lia|]. apply read32_le'; lia.
Qed.

Lemma opaque_read tag r : name_ok tag -> zeros r -> parseOpaque (tag ++ r) = Ok (tt, []).
Proof.
  intros Ht Hr. unfold parseOpaque. rewrite (pbind_ok _ _ _ _ _ (prem_eq _)).
  destruct (zlen (tag ++ r) =? 0) eqn:E.
  - assert (N : tag ++ r = []). { destruct (tag ++ r) as [|x l]; [reflexivity|]. rewrite zlen_cons in E. pose proof (zlen_nonneg l). lia. }
    rewrite N. reflexivity.
  - rewrite (pbind_ok _ _ _ (tag ++ r) []).
    2:{ rewrite <- (app_nil_r (tag ++ r)) at 2. apply rd_app. reflexivity. }
    assert (G : getString (tag ++ r) = tag).
    { clear E. induction Ht as [|b l Hb _ IH].
      - cbn [app]. destruct r as [|x r]; [reflexivity|]. cbn [zeros forallb] in Hr. unfold zeros in Hr. cbn [forallb] in Hr.
        cbn [getString]. replace (x =? 0) with true by lia. reflexivity.
      - cbn [app getString]. replace (b =? 0) with false by lia. rewrite IH. reflexivity. }
    rewrite G. rewrite zdrop_app_exact by reflexivity. rewrite Hr. apply passert_true.
Qed.

(** ** Whole types *)
Definition few_all (ms : list (bytes * Z * list Z * fty)) : Prop := Forall (fun m => few_members (snd m)) ms.
Lemma few_comp n ms : few_members (FComp n ms) -> zlen ms < 256 /\ few_all ms.
Proof.
  cbn [few_members]. intros [H1 H2]. split; [exact H1|]. clear H1. unfold few_all.
  induction ms as [|m r IH]; [constructor|]. destruct H2 as [Ha Hb]. constructor; auto.
Qed.
Fixpoint any_opaque (ms : list (bytes * Z * list Z * fty)) : bool :=
  match ms with [] => false | m :: r => has_opaque (snd m) || any_opaque r end.
Fixpoint all_last (ms : list (bytes * Z * list Z * fty)) : Prop :=
  match ms with
  | [] => True
  | m :: r => opaque_last (snd m) /\ (r <> [] -> has_opaque (snd m) = false) /\ all_last r
  end.
Lemma has_opaque_comp n ms : has_opaque (FComp n ms) = any_opaque ms.
Proof. cbn [has_opaque]. induction ms as [|m r IH]; [reflexivity|]. cbn [any_opaque]. rewrite IH. reflexivity. Qed.
Lemma last_comp n ms : opaque_last (FComp n ms) -> all_last ms.
Proof.
  cbn [opaque_last]. induction ms as [|m r IH]; [intros _; exact I|]. cbn [all_last].
  intros (H1 & H2 & H3). auto.
Qed.

Definition told_member (m : bytes * Z * list Z * fty) : bytes * Z * list Z * dty :=
  match m with (name, off, dims, t) => (name, off, dims, told t) end.

Lemma land255 z : 0 <= z < 256 -> Z.land z 255 = z.
Proof. intros H. change 255 with (Z.ones 8). rewrite Z.land_ones by lia. apply Z.mod_small. lia. Qed.

Lemma zlen_dt_head c v b n : zlen (dt_head c v b n) = 8.
Proof. reflexivity. Qed.
Lemma length_dt_head c v b n : List.length (dt_head c v b n) = 8%nat.
Proof. reflexivity. Qed.

Lemma repeatP_S {A} (p : P A) n s : repeatP p (S n) s = (do* x := p in do* r := repeatP p n in pret (x :: r)) s.
Proof. reflexivity. Qed.

Lemma types_read (uses : Z -> Z -> Z -> Prop) (Hu : forall c v n, uses c v n -> known_version c v n) :
  (forall t b, type_is uses t b -> forall fu r, (List.length b <= fu)%nat -> few_members t -> opaque_last t ->
     (has_opaque t = true -> zeros r) -> printDatatype fu (b ++ r) = Ok (told t, if has_opaque t then [] else r)) /\
  (forall v n ms b, members_are uses v n ms b -> forall fu r, (List.length b <= fu)%nat -> few_all ms -> all_last ms ->
     1 <= v <= 4 -> n < 2 ^ 32 -> v < 3 \/ n < 2 ^ 16 \/ 2 ^ 24 <= n -> (any_opaque ms = true -> zeros r) ->
     repeatP (do* name := readNullTerminatedName (namePadding v) in
              do* off := readEnc (offsetWidth v n) in
              do* dims := memberDims v in
              do* d := printDatatype fu in
              pret (name, u32 off, dims, d)) (List.length ms) (b ++ r)
     = Ok (map told_member ms, if any_opaque ms then [] else r)).
Proof.
  apply (type_members_ind uses
    (fun t b _ => forall fu r, (List.length b <= fu)%nat -> few_members t -> opaque_last t ->
     (has_opaque t = true -> zeros r) -> printDatatype fu (b ++ r) = Ok (told t, if has_opaque t then [] else r))
    (fun v n ms b _ => forall fu r, (List.length b <= fu)%nat -> few_all ms -> all_last ms ->
     1 <= v <= 4 -> n < 2 ^ 32 -> v < 3 \/ n < 2 ^ 16 \/ 2 ^ 24 <= n -> (any_opaque ms = true -> zeros r) ->
     repeatP (do* name := readNullTerminatedName (namePadding v) in
              do* off := readEnc (offsetWidth v n) in
              do* dims := memberDims v in
              do* d := printDatatype fu in
              pret (name, u32 off, dims, d)) (List.length ms) (b ++ r)
     = Ok (map told_member ms, if any_opaque ms then [] else r))).
  - (* integers *)
    intros v n sg big Hv Hn fu r Hl _ _ _. destruct (Hu _ _ _ Hv) as (Hv1 & _ & _).
    destruct fu as [|fu]; [rewrite app_length, length_dt_head in Hl; lia|].
    rewrite <- !app_assoc. rewrite head_read; [|lia|lia|destruct big, sg; cbn [bit]; lia|unfold int_size in Hn; lia].
    unfold pbody. change (0 =? 0) with true. cbv iota.
    rewrite (pbind_ok _ _ _ (sg, big) r); [reflexivity|].
    unfold parseFixed.
    replace (Z.testbit (bit big + 8 * bit sg) 3) with sg by (destruct big, sg; reflexivity).
    replace (Z.testbit (bit big + 8 * bit sg) 0) with big by (destruct big, sg; reflexivity).
    replace (Z.land (Z.shiftr (bit big + 8 * bit sg) 1) 3 =? 0) with true by (destruct big, sg; reflexivity).
    cbv zeta. rewrite (pbind_ok _ _ _ _ _ (passert_true _ _)).
    rewrite (pbind_ok _ _ _ _ _ (prem_eq _)).
    rewrite (pbind_ok _ _ _ tt (le 2 0 ++ le 2 (8 * n) ++ r)).
    2:{ apply passert_eq. rewrite !zlen_app, !zlen_le. pose proof (zlen_nonneg r). lia. }
    rewrite (pbind_ok _ _ _ 0 (le 2 (8 * n) ++ r)) by (apply read16_le; unfold word; lia).
    rewrite (pbind_ok _ _ _ (8 * n) r) by (apply read16_le; unfold word, int_size in *; lia).
    rewrite (pbind_ok _ _ _ _ _ (passert_true _ _)).
    rewrite (pbind_ok _ _ _ tt r) by (apply passert_eq; unfold int_size in Hn; lia). reflexivity.
  - (* numbers of 4 bytes *)
    intros v big Hv fu r Hl _ _ _. destruct (Hu _ _ _ Hv) as (Hv1 & Hv2 & _).
    assert (v = 1) as -> by (apply Hv2; tauto).
    destruct fu as [|fu]; [rewrite app_length, length_dt_head in Hl; lia|].
    rewrite <- !app_assoc. rewrite head_read; [|lia|lia|destruct big; cbn [bit]; lia|lia].
    unfold pbody. cbn [Z.eqb Pos.eqb].
    rewrite (pbind_ok _ _ _ big r); [reflexivity|].
    pose proof (zlen_nonneg r) as Hr0.
    assert (Hr : 12 <=? zlen (le 2 0 ++ le 2 32 ++ [23; 8; 0; 23] ++ le 4 127 ++ r) = true)
      by (rewrite !zlen_app, !zlen_le; change (zlen [23; 8; 0; 23]) with 4; lia).
    remember (le 2 0 ++ le 2 32 ++ [23; 8; 0; 23] ++ le 4 127 ++ r) as s eqn:Es.
    destruct big; unfold parseFloat; cbv zeta; do 5 (rewrite (pbind_ok _ _ s tt s) by reflexivity);
      rewrite (pbind_ok _ _ _ _ _ (prem_eq s)); rewrite Hr; rewrite (pbind_ok _ _ s tt s) by reflexivity;
      rewrite Es; clear;
      rewrite (pbind_ok _ _ _ _ _ (read16_le 0 _ ltac:(lia)));
      rewrite (pbind_ok _ _ _ _ _ (read16_le 32 _ ltac:(lia))); cbn [app];
      do 4 rewrite (pbind_ok _ _ _ _ _ (read8_cons _ _));
      rewrite (pbind_ok _ _ _ _ _ (read32_le' 127 _ ltac:(lia))); reflexivity.
  - (* numbers of 8 bytes *)
    intros v big Hv fu r Hl _ _ _. destruct (Hu _ _ _ Hv) as (Hv1 & Hv2 & _).
    assert (v = 1) as -> by (apply Hv2; tauto).
    destruct fu as [|fu]; [rewrite app_length, length_dt_head in Hl; lia|].
    rewrite <- !app_assoc. rewrite head_read; [|lia|lia|destruct big; cbn [bit]; lia|lia].
    unfold pbody. cbn [Z.eqb Pos.eqb].
    rewrite (pbind_ok _ _ _ big r); [reflexivity|].
    pose proof (zlen_nonneg r) as Hr0.
    assert (Hr : 12 <=? zlen (le 2 0 ++ le 2 64 ++ [52; 11; 0; 52] ++ le 4 1023 ++ r) = true)
      by (rewrite !zlen_app, !zlen_le; change (zlen [52; 11; 0; 52]) with 4; lia).
    remember (le 2 0 ++ le 2 64 ++ [52; 11; 0; 52] ++ le 4 1023 ++ r) as s eqn:Es.
    destruct big; unfold parseFloat; cbv zeta; do 5 (rewrite (pbind_ok _ _ s tt s) by reflexivity);
      rewrite (pbind_ok _ _ _ _ _ (prem_eq s)); rewrite Hr; rewrite (pbind_ok _ _ s tt s) by reflexivity;
      rewrite Es; clear;
      rewrite (pbind_ok _ _ _ _ _ (read16_le 0 _ ltac:(lia)));
      rewrite (pbind_ok _ _ _ _ _ (read16_le 64 _ ltac:(lia))); cbn [app];
      do 4 rewrite (pbind_ok _ _ _ _ _ (read8_cons _ _));
      rewrite (pbind_ok _ _ _ _ _ (read32_le' 1023 _ ltac:(lia))); reflexivity.
  - (* strings *)
    intros v n pad set Hv Hn Hp Hs fu r Hl _ _ _. destruct (Hu _ _ _ Hv) as (Hv1 & Hv2 & _).
    assert (v = 1) as -> by (apply Hv2; tauto).
    destruct fu as [|fu]; [rewrite length_dt_head in Hl; lia|].
    rewrite head_read; [reflexivity|lia|lia|lia|lia].
  - (* opaque *)
    intros v n tag pad Hv Hn Ht Hp Hp0 Hp1 fu r Hl _ _ Hz. destruct (Hu _ _ _ Hv) as (Hv1 & _ & _).
    pose proof (zlen_nonneg tag).
    destruct fu as [|fu]; [rewrite app_length, length_dt_head in Hl; lia|].
    rewrite <- !app_assoc. rewrite head_read; [|lia|lia|lia|lia].
    unfold pbody. cbn [Z.eqb Pos.eqb]. rewrite (pbind_ok _ _ _ tt []); [reflexivity|].
    apply opaque_read; [exact Ht|]. unfold zeros in *. rewrite forallb_app. rewrite (Hz eq_refl).
    rewrite (zeros_zrep pad). reflexivity.
  - (* compounds *)
    intros v n ms b Hv Hn Hms Hm IH fu r Hl Hf Ho Hz. destruct (Hu _ _ _ Hv) as (Hv1 & _ & Hv3).
    destruct (few_comp _ _ Hf) as [Hf1 Hf2]. apply last_comp in Ho. rewrite has_opaque_comp in *.
    pose proof (zlen_nonneg ms).
    destruct fu as [|fu]; [rewrite app_length, length_dt_head in Hl; lia|].
    rewrite <- !app_assoc. rewrite head_read; [|lia|lia|lia|lia].
    unfold pbody. cbn [Z.eqb Pos.eqb]. rewrite land255 by lia. unfold zlen. rewrite Nat2Z.id.
    rewrite (pbind_ok _ _ _ _ _ (IH fu r ltac:(rewrite app_length, length_dt_head in Hl; lia) Hf2 Ho Hv1 (proj2 Hn)
      (Hv3 eq_refl) Hz)).
    reflexivity.
  - (* references *)
    intros v Hv fu r Hl _ _ _. destruct (Hu _ _ _ Hv) as (Hv1 & Hv2 & _).
    assert (v = 1) as -> by (apply Hv2; tauto).
    destruct fu as [|fu]; [rewrite length_dt_head in Hl; lia|].
    rewrite head_read; [reflexivity|lia|lia|lia|lia].
  - (* enumerations *)
    intros v n sg big names vals b Hv Hb IH Hlen Hlt Hnames Hvals fu r Hl Hf _ _.
    destruct (Hu _ _ _ Hv) as (Hv1 & _ & _). cbn [few_members] in Hf. pose proof (zlen_nonneg names).
    assert (Hn : int_size n) by (inversion Hb; assumption).
    destruct fu as [|fu]; [rewrite app_length, length_dt_head in Hl; lia|].
    rewrite <- !app_assoc. rewrite head_read; [|lia|lia|lia|unfold int_size in Hn; lia].
    unfold pbody. cbn [Z.eqb Pos.eqb]. rewrite land255 by lia. unfold zlen. rewrite Nat2Z.id.
    rewrite (pbind_ok _ _ _ _ _ (IH fu _ ltac:(rewrite !app_length, length_dt_head in Hl; lia) I I
      (fun E => False_ind _ (Bool.diff_false_true E)))).
    cbn [has_opaque told]. cbv zeta.
    rewrite (pbind_ok _ _ _ _ _ (names_bytes_read v names _ Hnames)).
    rewrite (pbind_ok _ _ _ tt (flat_map (int_bytes n big) vals ++ r)).
    2:{ apply passert_eq. unfold int_size in Hn. lia. }
    rewrite (proj1 (int_kind_of n sg Hn)).
    replace (List.length names) with (List.length vals) by (unfold zlen in Hlen; lia).
    rewrite (pbind_ok _ _ _ _ _ (readNums_any _ _ _ _ _ Hn Hvals)). reflexivity.
  - (* sequences *)
    intros v t b Hv Hb IH fu r Hl Hf Ho Hz. destruct (Hu _ _ _ Hv) as (Hv1 & _ & _).
    cbn [few_members opaque_last has_opaque] in *.
    destruct fu as [|fu]; [rewrite app_length, length_dt_head in Hl; lia|].
    rewrite <- !app_assoc. rewrite head_read; [|lia|lia|lia|lia].
    unfold pbody. cbn [Z.eqb Pos.eqb]. cbv zeta.
    rewrite (pbind_ok _ _ _ tt (b ++ r)) by reflexivity.
    rewrite (pbind_ok _ _ _ tt (b ++ r)) by reflexivity.
    rewrite (pbind_ok _ _ _ _ _ (IH fu r ltac:(rewrite app_length, length_dt_head in Hl; lia) Hf Ho Hz)).
    reflexivity.
  - (* strings of varying length *)
    intros v t b pad set Hv Hb IH Hp Hs fu r Hl Hf Ho Hz. destruct (Hu _ _ _ Hv) as (Hv1 & _ & _).
    cbn [few_members opaque_last has_opaque] in *.
    destruct fu as [|fu]; [rewrite app_length, length_dt_head in Hl; lia|].
    rewrite <- !app_assoc. rewrite head_read; [|lia|lia|lia|lia].
    unfold pbody. cbn [Z.eqb Pos.eqb]. cbv zeta.
    assert (E1 : Z.land (1 + 16 * pad + 256 * set) 15 = 1).
    { change 15 with (Z.ones 4). rewrite Z.land_ones by lia. Z.div_mod_to_equations. lia. }
    assert (E2 : Z.land (Z.shiftr (1 + 16 * pad + 256 * set) 4) 15 = pad).
    { change 15 with (Z.ones 4). rewrite Z.land_ones, Z.shiftr_div_pow2 by lia. Z.div_mod_to_equations. lia. }
    rewrite E1, E2.
    rewrite (pbind_ok _ _ _ tt (b ++ r)) by (apply passert_eq; lia).
    rewrite (pbind_ok _ _ _ tt (b ++ r)) by reflexivity.
    rewrite (pbind_ok _ _ _ _ _ (IH fu r ltac:(rewrite app_length, length_dt_head in Hl; lia) Hf Ho Hz)).
    reflexivity.
  - (* arrays *)
    intros v dims t b Hv Hv0 Hd Hdl Hsz Hb IH fu r Hl Hf Ho Hz. destruct (Hu _ _ _ Hv) as (Hv1 & _ & _).
    cbn [few_members opaque_last has_opaque] in *.
    destruct fu as [|fu]; [rewrite app_length, length_dt_head in Hl; lia|].
    rewrite <- !app_assoc. rewrite head_read; [|lia|lia|lia|exact Hsz].
    unfold pbody. cbn [Z.eqb Pos.eqb].
    assert (Hb' : (List.length b <= fu)%nat) by (rewrite !app_length, length_dt_head in Hl; lia).
    destruct (v <? 3) eqn:E3.
    + rewrite <- !app_assoc. cbn [app].
      rewrite (pbind_ok _ _ _ _ _ (read8_cons _ _)).
      rewrite (pbind_ok _ _ _ tt (flat_map (le 4) dims ++ zrep (4 * zlen dims) 0 ++ b ++ r)) by
        (apply (checkZeroes_zrep 3 3); reflexivity).
      unfold zlen at 1. rewrite Nat2Z.id. rewrite (pbind_ok _ _ _ _ _ (dims_read dims _ Hd)).
      rewrite (pbind_ok _ _ _ tt (b ++ r)).
      2:{ pose proof (dims_read (repeat 0 (List.length dims)) (b ++ r)) as E. rewrite repeat_length in E.
          unfold zlen. rewrite Nat2Z.id.
          replace (zrep (4 * Z.of_nat (List.length dims)) 0) with (flat_map (le 4) (repeat 0 (List.length dims))).
          - rewrite (pbind_ok _ _ _ _ _ (E ltac:(apply Forall_forall; intros x Hx; apply repeat_spec in Hx; subst; unfold word; lia))).
            reflexivity.
          - clear. unfold zrep. replace (Z.to_nat (4 * Z.of_nat (List.length dims))) with (4 * List.length dims)%nat by lia.
            induction (List.length dims) as [|k IH]; [reflexivity|].
            replace (4 * S k)%nat with (4 + 4 * k)%nat by lia. cbn [repeat flat_map Nat.add]. rewrite IH. reflexivity. }
      rewrite (pbind_ok _ _ _ _ _ (IH fu r Hb' Hf Ho Hz)). reflexivity.
    + rewrite <- !app_assoc. cbn [app].
      rewrite (pbind_ok _ _ _ _ _ (read8_cons _ _)).
      rewrite (pbind_ok _ _ _ tt (flat_map (le 4) dims ++ b ++ r)) by reflexivity.
      unfold zlen at 1. rewrite Nat2Z.id. rewrite (pbind_ok _ _ _ _ _ (dims_read dims _ Hd)).
      rewrite (pbind_ok _ _ _ tt (b ++ r)) by reflexivity.
      rewrite (pbind_ok _ _ _ _ _ (IH fu r Hb' Hf Ho Hz)). reflexivity.
  - (* no members *)
    intros v n fu r _ _ _ _ _ _ _. reflexivity.
  - (* a member *)
    intros v n name off dims t ms db b bs Hname Hoff Hdb Hb IHb Hms IHms fu r Hl Hf Ho Hv Hn Hw Hz.
    cbn [any_opaque all_last snd] in *. destruct Ho as (Ho1 & Ho2 & Ho3). 
    pose proof (Forall_inv Hf) as Hf1. pose proof (Forall_inv_tail Hf) as Hf2. cbn [snd] in Hf1.
    rewrite !app_length in Hl. cbn [List.length map]. rewrite repeatP_S. rewrite <- !app_assoc.
    assert (Hz1 : has_opaque t = true -> zeros (bs ++ r)).
    { intros E. destruct ms as [|m ms].
      - inversion Hms; subst. cbn [app]. apply Hz. rewrite E. reflexivity.
      - exfalso; assert (true = false) by (rewrite <- Ho2 by discriminate; congruence); discriminate. }
    rewrite (pbind_ok _ _ _ (name, off, dims, told t) (if has_opaque t then [] else bs ++ r)).
    2:{ rewrite (pbind_ok _ _ _ _ _ (name_bytes_read v name _ Hname)).
        rewrite (pbind_ok _ _ _ _ _ (offset_read v n off _ ltac:(lia) Hoff Hn Hw)).
        rewrite (pbind_ok _ _ _ _ _ (member_dims_read v dims db _ Hdb)).
        rewrite (pbind_ok _ _ _ _ _ (IHb fu (bs ++ r) ltac:(lia) Hf1 Ho1 Hz1)).
        unfold pret, u32. rewrite Z.mod_small by lia. reflexivity. }
    destruct (has_opaque t) eqn:Et.
    + destruct ms as [|m ms]; [|exfalso; assert (true = false) by (rewrite <- Ho2 by discriminate; congruence); discriminate]. reflexivity.
    + cbn [orb] in *. rewrite (pbind_ok _ _ _ _ _ (IHms fu r ltac:(lia) Hf2 Ho3 Hv Hn Hw Hz)). reflexivity.
Qed.

(** A datatype message, with zeros after it *)
Theorem type_read (uses : Z -> Z -> Z -> Prop) t b pad : (forall c v n, uses c v n -> known_version c v n) -> type_is uses t b ->
  few_members t -> opaque_last t ->
  parseDatatype (b ++ zrep pad 0) = Ok (told t, if has_opaque t then [] else zrep pad 0).
Proof.
  intros Hu Hb Hf Ho. unfold parseDatatype. apply (proj1 (types_read uses Hu) t b Hb); try assumption.
  - rewrite app_length. lia.
  - intros _. apply zeros_zrep.
Qed.
