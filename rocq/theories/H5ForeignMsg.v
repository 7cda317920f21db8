(** Lemmas: the HDF5 reader parses the messages of other writers. *)
From Verif Require Import Prelude GoVal BaseLemmas H5Base H5MetaWrite H5MetaRead MetaSpec DenseSpec H5MetaProofs H5Value
  TypeSpec H5TypeRead H5TypeProofs H5DenseProofs ForeignSpec ForeignTypeSpec ForeignMsgSpec H5ForeignType H5PathModel H5RecordModel
  H5FileRead H5ForeignTree.
From Coq Require Import Lia ZifyBool ZifyNat.

Ltac step8 := rewrite (pbind_step _ _ _ _ _ (read8_cons _ _)).

Lemma read_n_64 l r : Forall (word 64) l -> read_n (List.length l) read64 (flat_map (le 8) l ++ r) = Ok (l, r).
Proof.
  induction 1 as [|d l Hd _ IH]; [reflexivity|]. cbn [List.length read_n flat_map]. rewrite <- !app_assoc.
  rewrite (pbind_step _ _ _ _ _ (read64_le _ _ Hd)). rewrite (pbind_step _ _ _ _ _ IH). reflexivity.
Qed.
Lemma read_n_32 l r : Forall (word 32) l -> read_n (List.length l) read32 (flat_map (le 4) l ++ r) = Ok (l, r).
Proof.
  induction 1 as [|d l Hd _ IH]; [reflexivity|]. cbn [List.length read_n flat_map]. rewrite <- !app_assoc.
  rewrite (pbind_step _ _ _ _ _ (read32_le' _ _ Hd)). rewrite (pbind_step _ _ _ _ _ IH). reflexivity.
Qed.

Lemma word1 flags : word 1 flags -> flags = 0 \/ flags = 1.
Proof. unfold word. lia. Qed.

Lemma space_read b dims r : space_is b dims -> readDataspace (b ++ r) = Ok (dims, r).
Proof.
  intros H. destruct H as [flags dims most Hfl Hd Hm Hl Hf|flags kind dims most Hfl Hd Hm Hl Hf Hk];
    rewrite <- !app_assoc; change (zrep 5 0) with ([0] ++ le 4 0); rewrite <- ?app_assoc; cbn [app]; unfold readDataspace.
  - step8. rewrite (pbind_step _ _ _ _ _ (passert_true _ _)). step8. step8. step8.
    change (1 =? 1) with true. cbv iota.
    rewrite (pbind_step _ _ _ 1 (flat_map (le 8) dims ++ flat_map (le 8) most ++ r)).
    2:{ rewrite (pbind_step _ _ _ _ _ (checkVal_same _ _)).
        rewrite (pbind_step _ _ _ 0 (flat_map (le 8) dims ++ flat_map (le 8) most ++ r)) by (apply read32_le'; lia).
        rewrite (pbind_step _ _ _ _ _ (checkVal_same _ _)). reflexivity. }
    rewrite (pbind_step _ _ _ _ _ (passert_true _ _)). unfold zlen at 1. rewrite Nat2Z.id.
    rewrite (pbind_step _ _ _ _ _ (read_n_64 _ _ Hd)). rewrite !flag_bit.
    destruct (word1 _ Hfl) as [-> | ->]; simpl (Z.testbit _ _) in *; cbn [andb Z.eqb Pos.eqb]; cbv iota in *.
    + subst most. reflexivity.
    + replace (zlen dims) with (zlen most) by lia. unfold zlen. rewrite Nat2Z.id.
      rewrite (pbind_step _ _ _ _ _ (read_n_64 _ _ Hm)). reflexivity.
  - step8. rewrite (pbind_step _ _ _ _ _ (passert_true _ _)). step8. step8. step8.
    change (2 =? 1) with false. cbv iota.
    unfold pret at 1, pbind at 1. cbn [rbind].
    rewrite (pbind_step _ _ _ tt (flat_map (le 8) dims ++ flat_map (le 8) most ++ r)) by (apply passert_eq; lia).
    unfold zlen at 1. rewrite Nat2Z.id.
    rewrite (pbind_step _ _ _ _ _ (read_n_64 _ _ Hd)). rewrite !flag_bit.
    destruct (word1 _ Hfl) as [-> | ->]; simpl (Z.testbit _ _) in *; cbn [andb Z.eqb Pos.eqb]; cbv iota in *.
    + subst most. reflexivity.
    + replace (zlen dims) with (zlen most) by lia. unfold zlen. rewrite Nat2Z.id.
      rewrite (pbind_step _ _ _ _ _ (read_n_64 _ _ Hm)). reflexivity.
Qed.

Lemma old_fill_read b v r : old_fill_is b v -> (do* sz := read32 in rd sz) (b ++ r) = Ok (v, r).
Proof.
  intros [Hv ->]. rewrite <- app_assoc. pose proof (zlen_nonneg v).
  rewrite (pbind_step _ _ _ (zlen v) (v ++ r)) by (apply read32_le'; lia). apply rd_app. reflexivity.
Qed.

(** What the reader makes of a fill value *)
Definition fill_got (x : fill) : option (option bytes) :=
  match x with NoFill => Some None | DefaultFill => None | Fill v => Some (Some v) end.
Lemma fill_value_read v r : zlen v < 2 ^ 32 ->
  (do* len := read32 in if len =? 0 then pret None else do* b := rd len in pret (Some (Some b))) (le 4 (zlen v) ++ v ++ r) =
  Ok (fill_got (match v with [] => DefaultFill | _ => Fill v end), r).
Proof.
  intros Hv. pose proof (zlen_nonneg v).
  rewrite (pbind_step _ _ _ (zlen v) (v ++ r)) by (apply read32_le'; lia). destruct v as [|c v]; [reflexivity|].
  replace (zlen (c :: v) =? 0) with false by (rewrite zlen_cons; pose proof (zlen_nonneg v); lia).
  rewrite (pbind_step _ _ _ (c :: v) r) by (apply rd_app; reflexivity). reflexivity.
Qed.
Lemma three_cases a : 1 <= a <= 3 -> a = 1 \/ a = 2 \/ a = 3.
Proof. lia. Qed.
Lemma two_cases w : 0 <= w <= 2 -> w = 0 \/ w = 1 \/ w = 2.
Proof. lia. Qed.
Lemma fill_read b x r : fill_is b x -> readFillValue (b ++ r) = Ok (fill_got x, r).
Proof.
  intros H. destruct H as [alloc write defined v Ha Hw Hd Hv|alloc write Ha Hw|alloc write v Ha Hw Hv|alloc write Ha Hw|alloc write Ha Hw|alloc write v Ha Hw Hv];
    rewrite <- ?app_assoc; cbn [app]; unfold readFillValue; step8; rewrite (pbind_step _ _ _ _ _ (passert_true _ _));
    cbv zeta; cbn [Z.leb Z.compare Pos.compare Pos.compare_cont Z.ltb andb].
  1-3: step8; step8; step8;
    destruct (three_cases _ Ha) as [->|[->| ->]]; destruct (two_cases _ Hw) as [->|[->| ->]];
    rewrite (pbind_step _ _ _ _ _ (passert_true _ _)); rewrite (pbind_step _ _ _ _ _ (passert_true _ _));
    try reflexivity; apply fill_value_read; exact Hv.
  all: step8; destruct (three_cases _ Ha) as [->|[->| ->]]; destruct (two_cases _ Hw) as [->|[->| ->]];
    try reflexivity.

  all: apply (fill_value_read v r Hv).
Qed.

Definition place_got (p : place) : layout :=
  match p with
  | Compact data => LCompact data
  | Contiguous (Some a) size => LContiguous a size
  | Contiguous None _ => LNone
  | Chunked a shape elem => LChunked a shape elem
  end.
Lemma address_word a : address_ok a -> word 64 (address a).
Proof. unfold word. destruct a as [a|]; cbn [address address_ok]; unfold undefined; lia. Qed.
Lemma address_undefined a : address_ok a -> (address a =? invalidAddress) = match a with None => true | Some _ => false end.
Proof. rewrite <- undefined_invalid. destruct a as [a|]; cbn [address address_ok]; lia. Qed.
Lemma place_read b p r : place_is b p -> readDataLayout (b ++ r) = Ok (place_got p, r).
Proof.
  intros H. destruct H as [v data Hv Hd|v a size Hv Ha Hs|a shape elem Ha Hl Hsh He]; rewrite <- ?app_assoc; cbn [app]; unfold readDataLayout.
  - step8. rewrite (pbind_step _ _ _ tt (0 :: le 2 (zlen data) ++ data ++ r)) by (apply passert_eq; lia). step8.
    change (0 =? 0) with true. cbv iota. pose proof (zlen_nonneg data).
    rewrite (pbind_step _ _ _ (zlen data) (data ++ r)) by (apply read16_le; lia).
    rewrite (pbind_step _ _ _ data r) by (apply rd_app; reflexivity). reflexivity.
  - step8. rewrite (pbind_step _ _ _ tt (1 :: le 8 (address a) ++ le 8 size ++ r)) by (apply passert_eq; lia). step8.
    cbn [Z.eqb Pos.eqb].
    rewrite (pbind_step _ _ _ _ _ (read64_le _ _ (address_word _ Ha))).
    rewrite (pbind_step _ _ _ _ _ (read64_le _ _ Hs)). rewrite (address_undefined _ Ha). destruct a; reflexivity.
  - step8. rewrite (pbind_step _ _ _ _ _ (passert_true _ _)). step8. cbn [Z.eqb Pos.eqb]. step8.
    rewrite (pbind_step _ _ _ _ _ (read64_le _ _ (address_word _ Ha))).
    rewrite (pbind_step _ _ _ tt (flat_map (le 4) shape ++ le 4 elem ++ r)) by (apply passert_eq; lia).
    replace (zlen shape + 1 - 1) with (zlen shape) by lia. unfold zlen at 1. rewrite Nat2Z.id.
    rewrite (pbind_step _ _ _ _ _ (read_n_32 _ _ Hsh)). rewrite (pbind_step _ _ _ _ _ (read32_le' _ _ He)).
    rewrite (address_undefined _ Ha). destruct a; reflexivity.
Qed.

(** ** Filters *)
Lemma params_read l r : Forall (word 32) l ->
  read_n (List.length l) (do* rem := prem in do* _ := passert (4 <=? rem) EInternal in read32) (flat_map (le 4) l ++ r) = Ok (l, r).
Proof.
  induction 1 as [|d l Hd _ IH]; [reflexivity|]. cbn [List.length read_n flat_map]. rewrite <- !app_assoc.
  rewrite (pbind_step _ _ _ d (flat_map (le 4) l ++ r)).
  2:{ rewrite (pbind_step _ _ _ _ _ (prem_eq _)).
      rewrite (pbind_step _ _ _ tt (le 4 d ++ flat_map (le 4) l ++ r)) by
        (apply passert_eq; rewrite zlen_app, zlen_le; pose proof (zlen_nonneg (flat_map (le 4) l ++ r)); lia).
      apply read32_le'. exact Hd. }
  rewrite (pbind_step _ _ _ _ _ IH). reflexivity.
Qed.
Lemma pad_none total s : (total - zlen s) mod 8 = 0 -> padBytes7 total s = Ok (tt, s).
Proof.
  intros H. unfold padBytes7. cbv zeta. rewrite H. change ((8 - 0) mod 8) with 0. apply (checkZeroes_zrep 0 0 s). reflexivity.
Qed.

Lemma filter_v1_read total d r : filter_ok d -> zlen (fd_name d) mod 8 = 0 -> known_filter d ->
  (total - zlen (filter_v1 d ++ r)) mod 8 = 0 -> readFilter total 1 (filter_v1 d ++ r) = Ok ((fd_id d, fd_vals d), r).
Proof.
  destruct d as [id flags name vals]. unfold filter_ok, known_filter, filter_v1. cbn [fd_id fd_flags fd_name fd_vals].
  intros (Hi & Hfl & Hn & Hv & Hvs) Hn8 Hk Ht. pose proof (zlen_nonneg name). pose proof (zlen_nonneg vals).
  rewrite <- !app_assoc in *. unfold readFilter.
  rewrite (pbind_step _ _ _ _ _ (read16_le _ _ Hi)). change (1 =? 1) with true. cbv iota. cbn [orb].
  rewrite (pbind_step _ _ _ _ _ (read16_le (zlen name) _ ltac:(lia))).
  rewrite (pbind_step _ _ _ _ _ (read16_le _ _ Hfl)).
  rewrite (pbind_step _ _ _ _ _ (read16_le (zlen vals) _ ltac:(lia))).
  set (tl := flat_map (le 4) vals ++ (if zlen vals mod 2 =? 1 then zrep 4 0 else []) ++ r) in *.
  assert (E : (if 0 <? zlen name then do* _ := rd (zlen name) in padBytes7 total else pret tt) (name ++ tl) = Ok (tt, tl)).
  { destruct (0 <? zlen name) eqn:E0.
    - rewrite (pbind_step _ _ _ name tl) by (apply rd_app; reflexivity). apply pad_none.
      rewrite !zlen_app, !zlen_le in Ht. Z.div_mod_to_equations. lia.
    - assert (N : name = []). { destruct name as [|x l]; [reflexivity|]. rewrite zlen_cons in E0. pose proof (zlen_nonneg l). lia. }
      subst name. reflexivity. }
  rewrite (pbind_step _ _ _ _ _ E). clear E. subst tl. unfold zlen at 1. rewrite Nat2Z.id.
  rewrite (pbind_step _ _ _ _ _ (params_read _ _ Hvs)).
  assert (E : (if (zlen vals mod 2 =? 1) then do* pad := read32 in checkVal 0 pad else pret tt)
                ((if zlen vals mod 2 =? 1 then zrep 4 0 else []) ++ r) = Ok (tt, r)).
  { destruct (zlen vals mod 2 =? 1); [|reflexivity].
    change (zrep 4 0) with (le 4 0). rewrite (pbind_step _ _ _ 0 r) by (apply read32_le'; lia). apply checkVal_same. }
  cbn [andb]. rewrite (pbind_step _ _ _ _ _ E).
  rewrite (pbind_step _ _ _ tt r) by (apply passert_eq; lia). reflexivity.
Qed.
Lemma filter_v2_read total d r : filter_ok d -> known_filter d ->
  readFilter total 2 (filter_v2 d ++ r) = Ok ((fd_id d, fd_vals d), r).
Proof.
  destruct d as [id flags name vals]. unfold filter_ok, known_filter, filter_v2. cbn [fd_id fd_flags fd_name fd_vals].
  intros (Hi & Hfl & Hn & Hv & Hvs) Hk. pose proof (zlen_nonneg vals).
  replace (id <? 256) with true by lia. rewrite <- !app_assoc. cbn [app]. unfold readFilter.
  rewrite (pbind_step _ _ _ _ _ (read16_le _ _ Hi)). replace ((2 =? 1) || (256 <=? id)) with false by lia.
  unfold pret at 1, pbind at 1. cbn [rbind].
  rewrite (pbind_step _ _ _ _ _ (read16_le _ _ Hfl)).
  rewrite (pbind_step _ _ _ _ _ (read16_le (zlen vals) _ ltac:(lia))).
  change (0 <? 0) with false. cbv iota. unfold pret at 1, pbind at 1. cbn [rbind].
  unfold zlen at 1. rewrite Nat2Z.id.
  rewrite (pbind_step _ _ _ _ _ (params_read _ _ Hvs)). change (2 =? 1) with false. cbn [andb]. cbv iota.
  unfold pret at 1, pbind at 1. cbn [rbind].
  rewrite (pbind_step _ _ _ tt r) by (apply passert_eq; lia). reflexivity.
Qed.

Lemma zlen_filter_v1 d : zlen (fd_name d) mod 8 = 0 -> zlen (filter_v1 d) mod 8 = 0.
Proof.
  intros H. unfold filter_v1. rewrite !zlen_app, !zlen_le.
  assert (E : zlen (flat_map (le 4) (fd_vals d)) = 4 * zlen (fd_vals d)).
  { induction (fd_vals d) as [|x l IH]; [reflexivity|]. cbn [flat_map]. rewrite zlen_app, zlen_le, IH, zlen_cons. lia. }
  rewrite E. pose proof (zlen_nonneg (fd_vals d)). destruct (zlen (fd_vals d) mod 2 =? 1) eqn:E2; rewrite ?zlen_zrep; change (@zlen Z []) with 0;
    Z.div_mod_to_equations; lia.
Qed.
Lemma filters_read b l r : filters_are b l -> Forall known_filter l ->
  readFilterPipeline (b ++ r) = Ok (map (fun d => (fd_id d, fd_vals d)) l, r).
Proof.
  intros H Hk. unfold readFilterPipeline. destruct H as [l Hl Hok|l Hl Hok].
  - remember (zlen (([1; zlen l] ++ zrep 6 0 ++ flat_map filter_v1 l) ++ r)) as total eqn:Et.
    assert (Hr : (total - zlen (flat_map filter_v1 l ++ r)) mod 8 = 0).
    { subst total. rewrite <- !app_assoc. rewrite (zlen_app [1; zlen l]), (zlen_app (zrep 6 0)).
      change (zlen [1; zlen l]) with 2. rewrite zlen_zrep. Z.div_mod_to_equations. lia. }
    rewrite <- !app_assoc. cbn [app]. step8. rewrite (pbind_step _ _ _ _ _ (passert_true _ _)). step8.
    change (1 =? 1) with true. cbv iota.
    rewrite (pbind_step _ _ _ tt (flat_map filter_v1 l ++ r)).
    2:{ change (zrep 6 0) with (le 2 0 ++ le 4 0). rewrite <- !app_assoc.
        rewrite (pbind_step _ _ _ 0 (le 4 0 ++ flat_map filter_v1 l ++ r)) by (apply read16_le; lia).
        rewrite (pbind_step _ _ _ _ _ (checkVal_same _ _)).
        rewrite (pbind_step _ _ _ 0 (flat_map filter_v1 l ++ r)) by (apply read32_le'; lia). apply checkVal_same. }
    unfold zlen at 1. rewrite Nat2Z.id. clear Et Hl.
    induction l as [|d l IH]; [reflexivity|]. cbn [flat_map List.length map] in *. rewrite <- app_assoc in Hr |- *. rewrite repeatP_S.
    pose proof (Forall_inv Hok) as [Ho Hn]. pose proof (Forall_inv Hk) as Hkd.
    rewrite (pbind_step _ _ _ _ _ (filter_v1_read total d _ Ho Hn Hkd Hr)).
    assert (Hr' : (total - zlen (flat_map filter_v1 l ++ r)) mod 8 = 0).
    { rewrite zlen_app in Hr. pose proof (zlen_filter_v1 d Hn). Z.div_mod_to_equations. lia. }
    rewrite (pbind_step _ _ _ _ _ (IH (Forall_inv_tail Hok) (Forall_inv_tail Hk) Hr')). reflexivity.
  - generalize (zlen (([2; zlen l] ++ flat_map filter_v2 l) ++ r)). intros total. rewrite <- !app_assoc. cbn [app].
    step8. rewrite (pbind_step _ _ _ _ _ (passert_true _ _)). step8.
    change (2 =? 1) with false. cbv iota. unfold pret at 1, pbind at 1. cbn [rbind].
    unfold zlen at 1. rewrite Nat2Z.id. clear Hl.
    induction l as [|d l IH]; [reflexivity|]. cbn [flat_map List.length map]. rewrite <- app_assoc. rewrite repeatP_S.
    rewrite (pbind_step _ _ _ _ _ (filter_v2_read total d _ (Forall_inv Hok) (Forall_inv Hk))).
    rewrite (pbind_step _ _ _ _ _ (IH (Forall_inv_tail Hok) (Forall_inv_tail Hk))). reflexivity.
Qed.

Lemma group_info_read b pad : group_info_is b -> readGroupInfo (b ++ zrep pad 0) = Ok (tt, []).
Proof.
  intros (flags & x & y & z & w & Hfl & Hx & Hy & Hz & Hw & ->). rewrite <- !app_assoc. cbn [app]. unfold readGroupInfo.
  step8. rewrite (pbind_step _ _ _ _ _ (checkVal_same _ _)). step8. rewrite !flag_bit.
  assert (E : forall (b : bool) u v r, word 16 u -> word 16 v ->
    (if b then do* rem := prem in do* _ := passert (4 <=? rem) EInternal in do* _ := read16 in do* _ := read16 in pret tt else pret tt)
      ((if b then le 2 u ++ le 2 v else []) ++ r) = Ok (tt, r)).
  { intros c u v r Hu Hv. destruct c; [|reflexivity]. rewrite <- !app_assoc.
    rewrite (pbind_step _ _ _ _ _ (prem_eq _)).
    rewrite (pbind_step _ _ _ tt (le 2 u ++ le 2 v ++ r)) by
      (apply passert_eq; rewrite !zlen_app, !zlen_le; pose proof (zlen_nonneg r); lia).
    rewrite (pbind_step _ _ _ _ _ (read16_le _ _ Hu)). rewrite (pbind_step _ _ _ _ _ (read16_le _ _ Hv)). reflexivity. }
  rewrite (pbind_step _ _ _ _ _ (E _ _ _ _ Hx Hy)). rewrite (pbind_step _ _ _ _ _ (E _ _ _ _ Hz Hw)).
  rewrite (pbind_step _ _ _ _ _ (prem_eq _)). rewrite <- (app_nil_r (zrep pad 0)) at 2. apply checkZeroes_zrep.
  rewrite zlen_zrep. lia.
Qed.

(** ** Attributes *)
Lemma zlen_fill8 b : (zlen (fill8 b)) mod 8 = 0.
Proof. unfold fill8. rewrite zlen_app, zlen_zrep. Z.div_mod_to_equations. lia. Qed.

Lemma getString_name name r : name_ok name -> getString (name ++ 0 :: r) = name.
Proof.
  induction 1 as [|b l Hb _ IH]; [reflexivity|]. cbn [app getString]. replace (b =? 0) with false by lia. rewrite IH. reflexivity.
Qed.

Lemma type_parsed (uses : Z -> Z -> Z -> Prop) t b : (forall c v n, uses c v n -> known_version c v n) -> type_is uses t b ->
  few_members t -> opaque_last t -> parseDatatype b = Ok (told t, []).
Proof.
  intros Hu Hb Hf Ho. pose proof (type_read uses t b 0 Hu Hb Hf Ho) as E. change (zrep 0 0) with (@nil Z) in E.
  rewrite app_nil_r in E. rewrite E. destruct (has_opaque t); reflexivity.
Qed.

Lemma limited_space sb dims r : space_is sb dims -> limited (zlen sb) readDataspace (sb ++ r) = Ok (dims, r).
Proof.
  intros H. unfold limited. rewrite ztake_app_exact by reflexivity. rewrite zdrop_app_exact by reflexivity.
  pose proof (space_read sb dims [] H) as E. rewrite app_nil_r in E. rewrite E. reflexivity.
Qed.

Lemma type_length_of (v x n m : Z) (r : bytes) : 0 <= m < 2 ^ 16 -> 0 <= n < 2 ^ 16 -> has_at ([v; 0] ++ le 2 x ++ le 2 m ++ r) 4 (le 2 n) -> n = m.
Proof.
  intros Hm Hn (pre & post & E & L). apply (f_equal (fun b => of_le (ztake 2 (zdrop 4 b)))) in E.
  rewrite (zdrop_app_exact 4 pre), (ztake_app_exact 2 (le 2 n)) in E by (symmetry; first [exact L|apply zlen_le]).
  rewrite (app_assoc [v; 0]), (zdrop_app_exact 4), (ztake_app_exact 2 (le 2 m)) in E by reflexivity.
  rewrite !of_le_le in E. change (256 ^ Z.of_nat 2) with (2 ^ 16) in E. rewrite !Z.mod_small in E by assumption. symmetry. exact E.
Qed.
Lemma attribute_read (uses : Z -> Z -> Z -> Prop) co b name t dims data r : (forall c v n, uses c v n -> known_version c v n) ->
  attribute_is uses b name t dims data -> few_members t -> opaque_last t ->
  exists tag, (forall n, 8 < n < 2 ^ 16 -> has_at b 4 (le 2 n) -> tag = true) /\ readAttribute co (b ++ r) =
    let* (sdf, v) := saveDf (told t) tag (data ++ r) in Ok (mkRattr name dims (told t) sdf v co).
Proof.
  intros Hu H Hf Ho.
  destruct H as [name t tb dims sb data Hn Ht Hs L1 L2 L3|name t tb dims sb data Hn Ht Hs L1 L2 L3|cset name t tb dims sb data Hc Hn Ht Hs L1 L2 L3];
    exists (8 <? zlen tb); pose proof (type_parsed uses t tb Hu Ht Hf Ho) as ET;
    pose proof (zlen_nonneg name); pose proof (zlen_nonneg tb); pose proof (zlen_nonneg sb);
    (split; [intros n Hl Hh; apply type_length_of in Hh; [lia|lia|lia]|]).
  - unfold readAttribute. cbv zeta.
    remember (zlen (([1; 0] ++ le 2 (zlen name + 1) ++ le 2 (zlen tb) ++ le 2 (zlen sb) ++ fill8 (name ++ [0]) ++ fill8 tb ++ fill8 sb ++ data) ++ r))
      as total eqn:Et.
    rewrite <- !app_assoc. rewrite <- !app_assoc in Et. cbn [app].
    rewrite (zlen_app [1; 0]), (zlen_app (le 2 (zlen name + 1))), (zlen_app (le 2 (zlen tb))), (zlen_app (le 2 (zlen sb))) in Et.
    rewrite !zlen_le in Et. change (zlen [1; 0]) with 2 in Et.
    pose proof (zlen_fill8 (name ++ [0])) as M1. pose proof (zlen_fill8 tb) as M2. pose proof (zlen_fill8 sb) as M3.
    rewrite (zlen_app (fill8 (name ++ [0]))), (zlen_app (fill8 tb)), (zlen_app (fill8 sb)) in Et.
    match goal with |- rbind (?h ?s) _ = _ => assert (E : h s = Ok ((name, tb, dims), data ++ r)) end.
    { step8. rewrite (pbind_step _ _ _ _ _ (passert_true _ _)). step8. change (1 =? 1) with true. cbv iota.
      rewrite (pbind_step _ _ _ _ _ (checkVal_same _ _)).
      rewrite (pbind_step _ _ _ _ _ (read16_le (zlen name + 1) _ ltac:(lia))).
      rewrite (pbind_step _ _ _ _ _ (read16_le (zlen tb) _ ltac:(lia))).
      rewrite (pbind_step _ _ _ _ _ (read16_le (zlen sb) _ ltac:(lia))).
      change (1 =? 3) with false. cbv iota. unfold pret at 1, pbind at 1. cbn [rbind].
      rewrite (pbind_step _ _ _ tt (fill8 (name ++ [0]) ++ fill8 tb ++ fill8 sb ++ data ++ r)) by (apply passert_eq; lia).
      unfold fill8 at 1. rewrite <- (app_assoc (name ++ [0])).
      rewrite (pbind_step _ _ _ (name ++ [0]) (zrep (- zlen (name ++ [0]) mod 8) 0 ++ fill8 tb ++ fill8 sb ++ data ++ r)) by
        (apply rd_app; rewrite zlen_app; reflexivity).
      rewrite (pbind_step _ _ _ tt (fill8 tb ++ fill8 sb ++ data ++ r)).
      2:{ unfold padBytes7. cbv zeta. apply checkZeroes_zrep.
          rewrite (zlen_app (zrep _ 0)), (zlen_app (fill8 tb)), (zlen_app (fill8 sb)), zlen_zrep.
          unfold fill8 in Et at 1. rewrite (zlen_app (name ++ [0])), zlen_zrep in Et. Z.div_mod_to_equations. lia. }
      unfold fill8 at 1. rewrite <- (app_assoc tb).
      rewrite (pbind_step _ _ _ tb (zrep (- zlen tb mod 8) 0 ++ fill8 sb ++ data ++ r)) by (apply rd_app; reflexivity).
      rewrite (pbind_step _ _ _ tt (fill8 sb ++ data ++ r)).
      2:{ rewrite (pbind_step _ _ _ (zrep (- zlen tb mod 8) 0) (fill8 sb ++ data ++ r)).
          - pose proof (H5ForeignType.zeros_zrep (- zlen tb mod 8)) as Ez. unfold zeros in Ez. rewrite Ez. apply passert_true.
          - apply rd_app. rewrite zlen_zrep. Z.div_mod_to_equations. lia. }
      unfold fill8 at 1. rewrite <- (app_assoc sb).
      rewrite (pbind_step _ _ _ _ _ (limited_space sb dims _ Hs)).
      rewrite (pbind_step _ _ _ tt (data ++ r)).
      2:{ unfold padBytes7. cbv zeta. apply checkZeroes_zrep. rewrite (zlen_app (zrep _ 0)), zlen_zrep.
          unfold fill8 in Et at 3. rewrite (zlen_app sb), zlen_zrep in Et. Z.div_mod_to_equations. lia. }
      unfold pret. rewrite getString_name by exact Hn. reflexivity. }
    rewrite E. cbn [rbind]. rewrite ET. cbn [rbind]. reflexivity.
  - unfold readAttribute. cbv zeta. rewrite <- !app_assoc. cbn [app].
    match goal with |- rbind (?h ?s) _ = _ => assert (E : h s = Ok ((name, tb, dims), data ++ r)) end.
    { step8. rewrite (pbind_step _ _ _ _ _ (passert_true _ _)). step8. change (2 =? 1) with false. cbv iota.
      rewrite (pbind_step _ _ _ _ _ (passert_true _ _)).
      rewrite (pbind_step _ _ _ _ _ (read16_le (zlen name + 1) _ ltac:(lia))).
      rewrite (pbind_step _ _ _ _ _ (read16_le (zlen tb) _ ltac:(lia))).
      rewrite (pbind_step _ _ _ _ _ (read16_le (zlen sb) _ ltac:(lia))).
      change (2 =? 3) with false. cbv iota. unfold pret at 1, pbind at 1. cbn [rbind].
      rewrite (pbind_step _ _ _ tt (name ++ 0 :: tb ++ sb ++ data ++ r)) by (apply passert_eq; lia).
      change (name ++ 0 :: tb ++ sb ++ data ++ r) with (name ++ [0] ++ tb ++ sb ++ data ++ r). rewrite (app_assoc name).
      rewrite (pbind_step _ _ _ (name ++ [0]) (tb ++ sb ++ data ++ r)) by (apply rd_app; rewrite zlen_app; reflexivity).
      unfold pret at 1, pbind at 1. cbn [rbind].
      rewrite (pbind_step _ _ _ tb (sb ++ data ++ r)) by (apply rd_app; reflexivity).
      unfold pret at 1, pbind at 1. cbn [rbind].
      rewrite (pbind_step _ _ _ _ _ (limited_space sb dims _ Hs)).
      unfold pret at 1, pbind at 1. cbn [rbind]. unfold pret. rewrite getString_name by exact Hn. reflexivity. }
    rewrite E. cbn [rbind]. rewrite ET. cbn [rbind]. reflexivity.
  - unfold readAttribute. cbv zeta. rewrite <- !app_assoc. cbn [app].
    match goal with |- rbind (?h ?s) _ = _ => assert (E : h s = Ok ((name, tb, dims), data ++ r)) end.
    { step8. rewrite (pbind_step _ _ _ _ _ (passert_true _ _)). step8. change (3 =? 1) with false. cbv iota.
      rewrite (pbind_step _ _ _ _ _ (passert_true _ _)).
      rewrite (pbind_step _ _ _ _ _ (read16_le (zlen name + 1) _ ltac:(lia))).
      rewrite (pbind_step _ _ _ _ _ (read16_le (zlen tb) _ ltac:(lia))).
      rewrite (pbind_step _ _ _ _ _ (read16_le (zlen sb) _ ltac:(lia))).
      change (3 =? 3) with true. cbv iota. step8.
      rewrite (pbind_step _ _ _ tt (name ++ 0 :: tb ++ sb ++ data ++ r)) by (apply passert_eq; lia).
      change (name ++ 0 :: tb ++ sb ++ data ++ r) with (name ++ [0] ++ tb ++ sb ++ data ++ r). rewrite (app_assoc name).
      rewrite (pbind_step _ _ _ (name ++ [0]) (tb ++ sb ++ data ++ r)) by (apply rd_app; rewrite zlen_app; reflexivity).
      unfold pret at 1, pbind at 1. cbn [rbind].
      rewrite (pbind_step _ _ _ tb (sb ++ data ++ r)) by (apply rd_app; reflexivity).
      unfold pret at 1, pbind at 1. cbn [rbind].
      rewrite (pbind_step _ _ _ _ _ (limited_space sb dims _ Hs)).
      unfold pret at 1, pbind at 1. cbn [rbind]. unfold pret. rewrite getString_name by exact Hn. reflexivity. }
    rewrite E. cbn [rbind]. rewrite ET. cbn [rbind]. reflexivity.
Qed.

(** ** All messages that say nothing of links *)
Lemma zeros_alone n : forallb (Z.eqb 0) (zrep n 0) = true.
Proof. unfold zrep. induction (Z.to_nat n); [reflexivity|exact IHn0]. Qed.

Lemma message_alone t b : message_is t b -> alone t b.
Proof.
  intros (b0 & pad & -> & H). unfold alone.
  destruct H as [ty b Ht Hf Ho|b v Hv|b x Hx|b p Hp|b Hg|b l Hl Hk|b name ty dims data Ha Hf Ho He|c Hc|ds Hd|s Hs|n Hn];
    unfold handle; cbn [Z.eqb Pos.eqb]; unfold onMessage.
  - rewrite (type_read known_version ty b pad (fun _ _ _ h => h) Ht Hf Ho). cbn [rbind].
    destruct (has_opaque ty); [reflexivity|apply zeros_alone].
  - rewrite (old_fill_read _ _ _ Hv). apply zeros_alone.
  - rewrite (fill_read _ _ _ Hx). apply zeros_alone.
  - rewrite (place_read _ _ _ Hp). apply zeros_alone.
  - rewrite (group_info_read _ _ Hg). reflexivity.
  - rewrite (filters_read _ _ _ Hl Hk). apply zeros_alone.
  - destruct (attribute_read known_version 0 b name ty dims data (zrep pad 0) (fun _ _ _ h => h) Ha Hf Ho) as [tag [_ E]].
    rewrite E. clear E. pose proof (zlen_nonneg (zrep pad 0)).
    destruct ty; cbn [told saveDf rbind dlen elements_there] in *; try reflexivity.
    + replace (n <=? zlen (data ++ zrep pad 0)) with true by (rewrite zlen_app; lia). reflexivity.
    + replace (8 <=? zlen (data ++ zrep pad 0)) with true by (rewrite zlen_app; lia). reflexivity.
  - rewrite <- app_assoc. cbn [app]. rewrite (ntname_read c _ Hc). apply zeros_alone.
  - rewrite <- app_assoc. rewrite (pbind_step _ _ _ ds ([0; 0] ++ zrep pad 0)) by (apply rd_app; lia).
    change ([0; 0] ++ zrep pad 0) with (zrep 2 0 ++ zrep pad 0). rewrite (checkZeroes_zrep 2 2 (zrep pad 0) eq_refl). apply zeros_alone.
  - cbn [app]. step8. rewrite (pbind_step _ _ _ [0; 0; 0] (le 4 s ++ zrep pad 0)).
    2:{ apply (rd_app [0; 0; 0]). reflexivity. }
    rewrite (pbind_step _ _ _ _ _ (passert_true _ _)). rewrite (read32_le' _ _ Hs). apply zeros_alone.
  - cbn [app]. step8. rewrite (pbind_step _ _ _ _ _ (checkVal_same _ _)). rewrite (read32_le' _ _ Hn). apply zeros_alone.
Qed.

(** What is said of other messages can be weakened. *)
Lemma object_weaken f (P Q : Z -> bytes -> Prop) : (forall t b, P t b -> Q t b) ->
  (forall n a t, object_is f P n a t -> object_is f Q n a t) /\ (forall n ks, kids_are f P n ks -> kids_are f Q n ks).
Proof.
  intros W.
  assert (WP : forall l m, ForeignSpec.plain P l m -> ForeignSpec.plain Q l m).
  { intros l m [H1 [H2|[H2 H3]]]; (split; [exact H1|]); [left; exact H2|right; split; [exact H2|apply W; exact H3]]. }
  assert (WA : forall l, stored_attrs f P l -> stored_attrs f Q l).
  { intros l [H|(b & heap & index & E & H1 & H2)]; [left; exact H|right]. exists b, heap, index. split; [exact E|]. split; [exact H1|].
    destruct H2 as [H2|(H2 & N & d & t & B & U & F)]; [left; exact H2|right]. split; [exact H2|]. exists N, d, t.
    split; [exact B|]. split; [exact U|]. eapply Forall_impl; [|exact F]. intros r (x & y & A1 & A2 & A3 & A4 & A5).
    exists x, y. repeat (split; [assumption|]). apply W. exact A5. }
  apply object_kids_ind.
  - intros n c k a l ls stored kids H1 H2 H3 H4 H5 H6 H7 H8 _ IH. eapply is_group; try eassumption.
    + revert H3. clear -WP. induction 1 as [|m x l ls Hm _ IH]; constructor; [|exact IH].
      destruct Hm as [Hm|[Hm|[Hm E]]]; [left; exact Hm|right; left; exact Hm|right; right]. split; [|exact E].
      destruct Hm as [Hm|[Hm|Hm]]; [left; exact Hm|right; left; exact Hm|right; right; apply WP; exact Hm].
    + apply WA. exact H5.
  - intros n c a l b dims H1 H2 H3 H4 H5 H6. eapply is_data; try eassumption.
    + eapply Forall_impl; [|exact H3]. intros m [Hm|[Hm|Hm]]; [left; exact Hm|right; left; exact Hm|right; right; apply WP; exact Hm].
    + apply WA. exact H6.
  - intros n c a l H1 H2 H3 H4 H5. eapply is_type; try eassumption.
    + eapply Forall_impl; [|exact H3]. intros m [Hm|Hm]; [left; exact Hm|right; apply WP; exact Hm].
    + apply WA. exact H5.
  - intros n. constructor.
  - intros n name a t kids _ IH1 _ IH2. constructor; assumption.
Qed.
