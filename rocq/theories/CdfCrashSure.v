(** Lemmas: files with such a place do not open. *)
From Coq Require Import Lia ZifyBool ZifyNat.
From Verif Require Import Prelude BaseLemmas GoVal OrderedMapModel ArraySpec CdfFormat CrashSpec CdfWriterModel CdfReaderModel CdfCodec CdfCrash.

(** A crash, or one of the refusals that may come before it *)
Definition refusals : list err := [ECorruptedFile; EKeysDontMatch; EUnknownType; EDuplicateVariable; ENoStreaming].
Definition fails {A} (x : res A) : Prop := x = Panic \/ exists e, In e refusals /\ x = Err e.
Lemma fails_panic {A} : fails (@Panic A).
Proof. left. reflexivity. Qed.
Lemma fails_bind {A B} (x : res A) (g : A -> res B) : fails x -> fails (rbind x g).
Proof. intros [->|(e & He & ->)]; [left; reflexivity|right; exists e; split; [exact He|reflexivity]]. Qed.
Lemma fails_err {A} e : In e refusals -> fails (@Err A e).
Proof. intros H. right. exists e. split; [exact H|reflexivity]. Qed.

Lemma uint_read k x r : 0 <= x < 256 ^ Z.of_nat k -> read_uint (Z.of_nat k) (be k x ++ r) = Ok (x, r).
Proof.
  intros H. unfold read_uint. rewrite zlen_app, zlen_be. pose proof (zlen_nonneg r). replace (Z.of_nat k + zlen r <? Z.of_nat k) with false by lia.
  pose proof (zlen_be k x) as Z1. rewrite ztake_app_exact, zdrop_app_exact by (symmetry; exact Z1). rewrite of_be_be, Z.mod_small by exact H. reflexivity.
Qed.
Lemma word_read x r : 0 <= x < 2 ^ 32 -> read32 (be 4 x ++ r) = Ok (x, r).
Proof. exact (uint_read 4 x r). Qed.
Lemma number_read ver n r : known_ver ver -> number ver n -> read_number ver (non_neg ver n ++ r) = Ok (counted ver n, r).
Proof.
  intros Hv Hn. unfold number, numbers in Hn. unfold read_number, counted, non_neg. destruct (Z.eqb_spec ver 5) as [->|N].
  - cbn [Z.ltb Z.compare Pos.compare Pos.compare_cont orb]. exact (uint_read 8 n r Hn).
  - replace (ver <? 5) with true by (destruct Hv as [H|[H|H]]; lia). rewrite word_read by exact Hn. cbn [rbind orb].
    unfold i32, signed, u64. rewrite (Z.mod_small n) by lia. change (2 ^ (32 - 1)) with (2 ^ 31).
    destruct (Z.ltb_spec n (2 ^ 31)) as [A|A]; [rewrite Z.mod_small by lia; reflexivity|].
    replace (n - 2 ^ 32) with (n + (2 ^ 64 - 2 ^ 32) + (-1) * 2 ^ 64) by lia. rewrite Z_mod_plus_full, Z.mod_small by lia. reflexivity.
Qed.
Lemma number_bytes ver n : (0 < List.length (non_neg ver n))%nat.
Proof. unfold non_neg. destruct (ver =? 5); rewrite be_length; lia. Qed.

Lemma bytes_read b r : zlen b <= memory -> read_bytes (zlen b) (b ++ r) = Ok (b, r).
Proof.
  unfold memory. intros H. unfold read_bytes, go_make. pose proof (zlen_nonneg b). pose proof (zlen_nonneg r).
  replace ((zlen b <? 0) || (2 ^ 48 <? zlen b * 1)) with false by lia. cbn [rbind]. rewrite zlen_app. replace (zlen b + zlen r <? zlen b) with false by lia.
  rewrite ztake_app_exact, zdrop_app_exact by reflexivity. reflexivity.
Qed.
Lemma nums_read k n b r : 0 <= n -> zlen b = n * ksize k -> zlen b <= memory -> exists l, read_nums k n (b ++ r) = Ok (l, r).
Proof.
  unfold memory. intros Hn Hb Hm. unfold read_nums, go_make. pose proof (zlen_nonneg r).
  replace ((n <? 0) || (2 ^ 48 <? n * ksize k)) with false by lia. cbn [rbind]. rewrite zlen_app. replace (zlen b + zlen r <? n * ksize k) with false by lia.
  rewrite zdrop_app_exact by (symmetry; exact Hb). eexists. reflexivity.
Qed.
Lemma pad_read n b r : zlen b = pad_size n - n -> read_pad n (b ++ r) = Ok (tt, r).
Proof.
  intros Hb. unfold read_pad. cbv zeta. rewrite <- pad_round. pose proof (zlen_nonneg r). rewrite zlen_app. replace (zlen b + zlen r <? pad_size n - n) with false by lia.
  rewrite zdrop_app_exact by (symmetry; exact Hb). reflexivity.
Qed.

Lemma scan_read b : forall n, n <= zlen b -> exists nm, name_scan b n = Ok nm.
Proof.
  induction b as [|c b IH]; intros n Hn; cbn [name_scan].
  - change (zlen (@nil Z)) with 0 in Hn. replace (n <=? 0) with true by lia. eexists. reflexivity.
  - rewrite zlen_cons in Hn. destruct (n <=? 0); [eexists; reflexivity|]. destruct (c =? 0); [eexists; reflexivity|].
    destruct (IH (n - 1) ltac:(lia)) as [nm E]. rewrite E. eexists. reflexivity.
Qed.
Lemma name_read ver b r : known_ver ver -> any_name ver b -> exists nm, read_name ver (b ++ r) = Ok (nm, r).
Proof.
  intros Hv (n & p & Hn & Zp & Mp & ->). rewrite <- app_assoc. unfold read_name. rewrite number_read by assumption. cbn [rbind].
  pose proof (counted_range ver n Hv Hn) as Cr. pose proof (pad_more (counted ver n)) as PM.
  destruct (round_pad _ Cr) as [[R1 R2]|[R1 R2]]; [|unfold memory in Mp; lia].
  rewrite R1, <- Zp, bytes_read by exact Mp. cbn [rbind]. destruct (scan_read p (counted ver n) ltac:(lia)) as [nm E]. rewrite E. eexists. reflexivity.
Qed.
Lemma name_panics ver s : known_ver ver -> long_name ver s -> read_name ver s = Panic.
Proof.
  intros Hv (n & rest & Hn & L & ->). unfold read_name. rewrite number_read by assumption. cbn [rbind].
  pose proof (counted_range ver n Hv Hn) as Cr. unfold memory in L. destruct (round_pad _ Cr) as [[R1 R2]|[R1 R2]].
  - rewrite R1. unfold read_bytes, go_make. replace ((pad_size (counted ver n) <? 0) || (2 ^ 48 <? pad_size (counted ver n) * 1)) with true by lia. reflexivity.
  - rewrite R1. change 0 with (zlen (@nil Z)). change rest with ([] ++ rest). rewrite bytes_read by (unfold memory; change (zlen (@nil Z)) with 0; lia).
    cbn [rbind name_scan]. replace (counted ver n <=? 0) with false by lia. reflexivity.
Qed.

Lemma code_read e : exists t, ty_of_code (type_code e) = Some t /\ elt_size e = match t with TChar => 1 | TNum k => ksize k end.
Proof. destruct e as [|k]; [|destruct k]; eexists; split; reflexivity. Qed.
Lemma type_word e : 0 <= type_code e < 2 ^ 32.
Proof. destruct e as [|k]; [|destruct k]; cbn; lia. Qed.

Lemma att_read ver b r : known_ver ver -> any_att ver b -> (exists a, get_attr ver (b ++ r) = Ok (a, r)) \/ fails (get_attr ver (b ++ r)).
Proof.
  intros Hv (nm & e & n & p & Hnm & Hn & Zp & Mp & ->). rewrite <- !app_assoc. unfold get_attr. pose proof (counted_range ver n Hv Hn) as Cr.
  destruct (name_read ver nm (be 4 (type_code e) ++ non_neg ver n ++ p ++ r) Hv Hnm) as [x E1]. rewrite E1. cbn [rbind].
  rewrite word_read by apply type_word. cbn [rbind]. rewrite number_read by assumption. cbn [rbind].
  destruct (code_read e) as (t & Et & Es). rewrite Et. pose proof (pad_more (counted ver n * elt_size e)) as PM.
  assert (N0 : 0 <= counted ver n * elt_size e) by (apply Z.mul_nonneg_nonneg; [lia|destruct e as [|k]; [|destruct k]; cbn; lia]).
  rewrite <- (ztake_zdrop (counted ver n * elt_size e) p). rewrite <- app_assoc.
  assert (Z1 : zlen (ztake (counted ver n * elt_size e) p) = counted ver n * elt_size e) by (apply zlen_ztake; lia).
  assert (Z2 : zlen (zdrop (counted ver n * elt_size e) p) = pad_size (counted ver n * elt_size e) - counted ver n * elt_size e) by (rewrite zlen_zdrop; lia).
  set (p1 := ztake (counted ver n * elt_size e) p) in *. set (p2 := zdrop (counted ver n * elt_size e) p) in *. clearbody p1 p2.
  destruct t as [|k].
  - rewrite Es, Z.mul_1_r in Z1, Z2, Mp. left. replace (read_bytes (counted ver n)) with (read_bytes (zlen p1)) by (rewrite Z1; reflexivity). rewrite bytes_read by lia. cbn [rbind]. rewrite pad_read by exact Z2. cbn [rbind]. eexists. reflexivity.
  - rewrite Es in Z1, Z2, Mp. unfold check_version. destruct (v5kind k && (ver <? 5)); cbn [rbind]; [right; apply fails_err; left; reflexivity|].
    left. destruct (nums_read k (counted ver n) p1 (p2 ++ r) ltac:(lia) Z1 ltac:(lia)) as [l E]. rewrite E. cbn [rbind]. rewrite pad_read by exact Z2. cbn [rbind]. eexists. reflexivity.
Qed.
Lemma att_fails ver s : known_ver ver -> long_att ver s -> fails (get_attr ver s).
Proof.
  intros Hv [H|(nm & e & n & rest & Hnm & Hn & L & ->)].
  { unfold get_attr. rewrite (name_panics ver s Hv H). apply fails_panic. }
  unfold get_attr. pose proof (counted_range ver n Hv Hn) as Cr.
  destruct (name_read ver nm (be 4 (type_code e) ++ non_neg ver n ++ rest) Hv Hnm) as [x E1]. rewrite E1. cbn [rbind].
  rewrite word_read by apply type_word. cbn [rbind]. rewrite number_read by assumption. cbn [rbind].
  destruct (code_read e) as (t & Et & Es). rewrite Et. unfold memory in L. destruct t as [|k].
  - rewrite Es in L. unfold read_bytes, go_make. replace ((counted ver n <? 0) || (2 ^ 48 <? counted ver n * 1)) with true by lia. apply fails_panic.
  - rewrite Es in L. unfold check_version. destruct (v5kind k && (ver <? 5)); cbn [rbind]; [apply fails_err; left; reflexivity|].
    unfold read_nums, go_make. replace ((counted ver n <? 0) || (2 ^ 48 <? counted ver n * ksize k)) with true by lia. apply fails_panic.
Qed.

Lemma name_some ver b : any_name ver b -> (0 < List.length b)%nat.
Proof. intros (n & p & _ & _ & _ & ->). rewrite app_length. pose proof (number_bytes ver n). lia. Qed.
Lemma att_some ver b : any_att ver b -> (0 < List.length b)%nat.
Proof. intros (nm & e & n & p & H & _ & _ & _ & ->). rewrite app_length. pose proof (name_some ver nm H). lia. Qed.
Lemma var_some ver b : any_var ver b -> (0 < List.length b)%nat.
Proof. intros (nm & ids & a & t & sz & bg & H & _ & _ & _ & _ & _ & ->). rewrite app_length. pose proof (name_some ver nm H). lia. Qed.
Lemma concat_some (item : bytes -> Prop) bl : (forall b, item b -> (0 < List.length b)%nat) -> Forall item bl -> (List.length bl <= List.length (List.concat bl))%nat.
Proof. intros H. induction 1 as [|b bl Hb _ IH]; cbn [List.concat List.length]; [lia|]. rewrite app_length. specialize (H b Hb). lia. Qed.

Lemma atts_loop_read ver : known_ver ver -> forall bl fuel n r, Forall (any_att ver) bl -> zlen bl = n -> (List.length bl <= fuel)%nat ->
  (exists l, get_attrs_loop ver fuel n (List.concat bl ++ r) = Ok (l, r)) \/ fails (get_attrs_loop ver fuel n (List.concat bl ++ r)).
Proof.
  intros Hv. induction bl as [|b bl IH]; intros fuel n r HF Hn Hfu.
  - change (zlen (@nil bytes)) with 0 in Hn. subst n. left. exists []. destruct fuel; reflexivity.
  - inversion HF as [|? ? Hb Hbl]; subst. pose proof (zlen_nonneg bl). rewrite zlen_cons. cbn [List.length] in Hfu. destruct fuel as [|fu]; [lia|].
    cbn [get_attrs_loop List.concat]. replace (1 + zlen bl <=? 0) with false by lia. rewrite <- app_assoc.
    destruct (att_read ver b (List.concat bl ++ r) Hv Hb) as [[a E]|E]; [|right; apply fails_bind; exact E]. rewrite E. cbn [rbind].
    destruct (IH fu (1 + zlen bl - 1) r Hbl ltac:(lia) ltac:(lia)) as [[l E2]|E2]; [left|right; apply fails_bind; exact E2].
    rewrite E2. eexists. reflexivity.
Qed.
Lemma atts_loop_fails ver : known_ver ver -> forall bl fuel n rest, Forall (any_att ver) bl -> zlen bl < n -> (List.length bl < fuel)%nat -> long_att ver rest ->
  fails (get_attrs_loop ver fuel n (List.concat bl ++ rest)).
Proof.
  intros Hv. induction bl as [|b bl IH]; intros fuel n rest HF Hn Hfu HL; (destruct fuel as [|fu]; [lia|]); cbn [get_attrs_loop List.concat].
  - change (zlen (@nil bytes)) with 0 in Hn. replace (n <=? 0) with false by lia. apply fails_bind. exact (att_fails ver _ Hv HL).
  - inversion HF as [|? ? Hb Hbl]; subst. pose proof (zlen_nonneg bl). rewrite zlen_cons in Hn. cbn [List.length] in Hfu.
    replace (n <=? 0) with false by lia. rewrite <- app_assoc.
    destruct (att_read ver b (List.concat bl ++ rest) Hv Hb) as [[a E]|E]; [|apply fails_bind; exact E]. rewrite E. cbn [rbind].
    apply fails_bind. apply IH; [exact Hbl|lia|lia|exact HL].
Qed.

Lemma nelems_read ver tag t k r : known_ver ver -> 0 < tag < 2 ^ 32 -> t = tag \/ t = 0 /\ k = 0 -> number ver k ->
  get_nelems ver tag (be 4 t ++ non_neg ver k ++ r) = Ok (counted ver k, r).
Proof.
  intros Hv Ht Htk Hk. unfold get_nelems. rewrite word_read by (destruct Htk as [->|[-> _]]; lia). cbn [rbind]. rewrite number_read by assumption. cbn [rbind].
  destruct Htk as [->|[-> ->]].
  - replace (tag =? 0) with false by lia. rewrite Z.eqb_refl. reflexivity.
  - assert (C : counted ver 0 = 0) by (unfold counted; destruct (ver =? 5); reflexivity). rewrite C. reflexivity.
Qed.
Lemma atts_read ver b r : known_ver ver -> any_atts ver b -> (exists m, get_attr_list ver (b ++ r) = Ok (m, r)) \/ fails (get_attr_list ver (b ++ r)).
Proof.
  intros Hv (t & k & bl & Ht & Hk & F & Zb & ->). rewrite <- !app_assoc. unfold get_attr_list, fieldAttribute.
  rewrite (nelems_read ver 12 t k _ Hv ltac:(lia) Ht Hk). cbn [rbind].
  pose proof (concat_some (any_att ver) bl (att_some ver) F) as Ln.
  destruct (atts_loop_read ver Hv bl (S (List.length (List.concat bl ++ r))) (counted ver k) r F Zb ltac:(rewrite app_length; lia)) as [[l E]|E];
    [|right; apply fails_bind; exact E].
  rewrite E. cbn [rbind]. unfold new_ordered_map. destruct (negb (zlen (map fst l) =? zlen (build_map l))); [right; apply fails_err; right; left; reflexivity|].
  destruct (negb (keys_eqb (bsort (map fst (build_map l))) (bsort (map fst l)))); [right; apply fails_err; right; left; reflexivity|].
  left. eexists. reflexivity.
Qed.
Lemma atts_fails ver s : known_ver ver -> bad_atts ver s -> fails (get_attr_list ver s).
Proof.
  intros Hv (k & bl & rest & Hk & F & Zb & HL & ->). unfold get_attr_list, fieldAttribute.
  rewrite (nelems_read ver 12 12 k _ Hv ltac:(lia) (or_introl eq_refl) Hk). cbn [rbind].
  pose proof (concat_some (any_att ver) bl (att_some ver) F) as Ln. apply fails_bind.
  apply atts_loop_fails; [exact Hv|exact F|exact Zb|rewrite app_length; lia|exact HL].
Qed.

Lemma dims_read ver : known_ver ver -> forall lens bl r, Forall2 (any_dim ver) lens bl ->
  exists l, get_dims ver (List.length lens) (List.concat bl ++ r) = Ok (l, r) /\ map d_len l = lens.
Proof.
  intros Hv lens bl r. induction 1 as [|len b lens bl (nm & n & Hnm & Hn & -> & ->) F IH]; cbn [List.length get_dims List.concat].
  - exists []. split; reflexivity.
  - rewrite <- !app_assoc. destruct (name_read ver nm (non_neg ver n ++ List.concat bl ++ r) Hv Hnm) as [x E]. rewrite E. cbn [rbind].
    rewrite number_read by assumption. cbn [rbind]. destruct IH as (l & El & Ml). rewrite El. cbn [rbind]. eexists. split; [reflexivity|].
    cbn [map d_len]. rewrite Ml. reflexivity.
Qed.
Lemma dims_panic ver : known_ver ver -> forall lens bl, Forall2 (any_dim ver) lens bl -> forall n rest, (List.length bl < n)%nat -> long_name ver rest ->
  get_dims ver n (List.concat bl ++ rest) = Panic.
Proof.
  intros Hv lens bl. induction 1 as [|len b lens bl (nm & m & Hnm & Hm & -> & ->) F IH]; intros n rest Hn HL; (destruct n as [|n]; [lia|]); cbn [get_dims List.concat].
  - cbn [List.app]. rewrite (name_panics ver rest Hv HL). reflexivity.
  - rewrite <- !app_assoc. destruct (name_read ver nm (non_neg ver m ++ List.concat bl ++ rest) Hv Hnm) as [x E]. rewrite E. cbn [rbind].
    rewrite number_read by assumption. cbn [rbind]. cbn [List.length] in Hn. rewrite (IH n rest ltac:(lia) HL). reflexivity.
Qed.
Lemma numbers_read ver : known_ver ver -> forall ids r, Forall (number ver) ids ->
  read_numbers ver (List.length ids) (flat_map (non_neg ver) ids ++ r) = Ok (map (counted ver) ids, r).
Proof.
  intros Hv ids r. induction 1 as [|i ids Hi F IH]; cbn [List.length read_numbers flat_map map]; [reflexivity|].
  rewrite <- app_assoc, number_read by assumption. cbn [rbind]. rewrite IH. reflexivity.
Qed.

Lemma dim_at_beyond ver dims i : known_ver ver -> zlen dims <= 1024 -> number ver i -> zlen dims <= i -> dim_at dims (counted ver i) = Panic.
Proof.
  intros Hv Hd Hi H. destruct (counted_small ver i (zlen dims) Hv Hi ltac:(lia)) as [C1 C2]. unfold dim_at.
  replace (counted ver i <? zlen dims) with false by lia. reflexivity.
Qed.
Lemma dim_at_zero ver dims i : known_ver ver -> zlen dims <= 1024 -> number ver i -> nth_error (map d_len dims) (Z.to_nat i) = Some 0 ->
  exists d, dim_at dims (counted ver i) = Ok d /\ d_len d = 0.
Proof.
  intros Hv Hd Hi H. assert (L : (Z.to_nat i < List.length dims)%nat).
  { rewrite <- (map_length d_len). apply nth_error_Some. rewrite H. discriminate. }
  destruct (counted_small ver i (zlen dims) Hv Hi ltac:(lia)) as [C1 C2]. unfold number in Hi. assert (Li : i < zlen dims) by (unfold zlen; lia).
  unfold dim_at. rewrite C2 by exact Li. replace (i <? zlen dims) with true by lia. rewrite nth_error_map in H.
  destruct (nth_error dims (Z.to_nat i)) as [d|]; [|discriminate]. exists d. split; [reflexivity|]. cbn [option_map] in H. congruence.
Qed.
Lemma prod_beyond ver dims ids : known_ver ver -> zlen dims <= 1024 -> Forall (number ver) ids -> Exists (fun j => zlen dims <= j) ids ->
  forall acc, dims_prod dims (map (counted ver) ids) acc = Panic.
Proof.
  intros Hv Hd F HE. induction HE as [i ids H|i ids H IH]; intros acc; inversion F as [|? ? Hi Hids]; subst; cbn [map dims_prod].
  - rewrite (dim_at_beyond ver dims i Hv Hd Hi H). reflexivity.
  - destruct (dim_at dims (counted ver i)) as [d| |] eqn:E; cbn [rbind]; [apply IH; exact Hids| |reflexivity].
    exfalso. unfold dim_at in E. destruct (counted ver i <? zlen dims); [|discriminate]. destruct (nth_error dims (Z.to_nat (counted ver i))); discriminate.
Qed.

Lemma dim_at_err dims i e : dim_at dims i <> Err e.
Proof. unfold dim_at. destruct (i <? zlen dims); [|discriminate]. destruct (nth_error dims (Z.to_nat i)); discriminate. Qed.
Lemma prod_err dims ids e : forall acc, dims_prod dims ids acc <> Err e.
Proof.
  induction ids as [|i ids IH]; intros acc; cbn [dims_prod]; [discriminate|]. pose proof (dim_at_err dims i e) as D.
  destruct (dim_at dims i) as [d| |]; cbn [rbind]; [apply IH|congruence|discriminate].
Qed.
Lemma rank_counted ver (ids : list Z) : known_ver ver -> zlen ids <= 1024 -> number ver (zlen ids) /\ counted ver (zlen ids) = zlen ids.
Proof.
  intros Hv H. pose proof (zlen_nonneg ids). unfold number, numbers, counted. destruct (ver =? 5); cbn [orb]; [split; [lia|reflexivity]|].
  replace (zlen ids <? 2 ^ 31) with true by lia. split; [lia|reflexivity].
Qed.
Lemma offset_read ver begin r : known_ver ver -> exists off, (if ver =? 1 then read32 (offs ver begin ++ r) else read64 (offs ver begin ++ r)) = Ok (off, r).
Proof.
  intros Hv. unfold offs, read32, read64, read_uint. pose proof (zlen_nonneg r). destruct (ver =? 1); rewrite zlen_app, zlen_be.
  - replace (Z.of_nat 4 + zlen r <? 4) with false by lia. rewrite zdrop_app_exact by (symmetry; apply (zlen_be 4)). eexists. reflexivity.
  - replace (Z.of_nat 8 + zlen r <? 8) with false by lia. rewrite zdrop_app_exact by (symmetry; apply (zlen_be 8)). eexists. reflexivity.
Qed.

Lemma var_read ver dims rs b r : known_ver ver -> any_var ver b ->
  (exists v, get_var ver dims rs (b ++ r) = Ok (v, r)) \/ fails (get_var ver dims rs (b ++ r)).
Proof.
  intros Hv (nm & ids & a & t & sz & begin & Hnm & Hr & F & Ha & Ht & Hsz & ->). rewrite <- !app_assoc. unfold get_var.
  match goal with |- context [read_name ver (nm ++ ?x)] => destruct (name_read ver nm x Hv Hnm) as [x1 E1]; rewrite E1 end. cbn [rbind].
  destruct (rank_counted ver ids Hv Hr) as [R1 R2]. rewrite number_read by assumption. cbn [rbind]. rewrite R2.
  unfold maxDimensions. replace (1024 <? zlen ids) with false by lia. unfold zlen. rewrite Nat2Z.id. rewrite numbers_read by assumption. cbn [rbind].
  match goal with |- context [get_attr_list ver (a ++ ?x)] => destruct (atts_read ver a x Hv Ha) as [[m E]|E]; [|right; apply fails_bind; exact E]; rewrite E end. cbn [rbind].
  rewrite word_read by exact Ht. cbn [rbind]. rewrite number_read by assumption. cbn [rbind].
  destruct (has_unlimited dims (map (counted ver) ids)) as [unl|e|] eqn:Eu; cbn [rbind]; [| |right; apply fails_panic].
  2:{ exfalso. destruct ids as [|i ids]; cbn [map has_unlimited] in Eu; [discriminate|]. pose proof (dim_at_err dims (counted ver i) e) as D.
      destruct (dim_at dims (counted ver i)); cbn [rbind] in Eu; congruence. }
  destruct (offset_read ver begin r Hv) as [off Eo]. rewrite Eo. cbn [rbind]. destruct unl.
  - pose proof (prod_err dims (tl (map (counted ver) ids))) as D. destruct (dims_prod dims (tl (map (counted ver) ids)) 1) as [n|e|] eqn:Ep; cbn [rbind];
      [|exfalso; exact (D e 1 Ep)|right; apply fails_panic].
    destruct (ty_of_code t); cbn [rbind]; [left; eexists; reflexivity|right; apply fails_err; right; right; left; reflexivity].
  - cbn [rbind]. left. eexists. reflexivity.
Qed.
Lemma var_fails ver dims rs s : known_ver ver -> zlen dims <= 1024 -> bad_var ver (map d_len dims) s -> fails (get_var ver dims rs s).
Proof.
  intros Hv Hd [H|(nm & ids & rest & Hnm & Hr & F & -> & HB)].
  { unfold get_var. rewrite (name_panics ver s Hv H). apply fails_panic. }
  unfold get_var.
  match goal with |- context [read_name ver (nm ++ ?x)] => destruct (name_read ver nm x Hv Hnm) as [x1 E1]; rewrite E1 end. cbn [rbind].
  destruct (rank_counted ver ids Hv Hr) as [R1 R2]. rewrite number_read by assumption. cbn [rbind]. rewrite R2.
  unfold maxDimensions. replace (1024 <? zlen ids) with false by lia. unfold zlen. rewrite Nat2Z.id. rewrite numbers_read by assumption. cbn [rbind].
  destruct HB as [HB|(a & t & sz & rest' & Ha & Ht & Hsz & HB & ->)]; [apply fails_bind; exact (atts_fails ver _ Hv HB)|].
  match goal with |- context [get_attr_list ver (a ++ ?x)] => destruct (atts_read ver a x Hv Ha) as [[m E]|E]; [|apply fails_bind; exact E]; rewrite E end. cbn [rbind].
  rewrite word_read by exact Ht. cbn [rbind]. rewrite number_read by assumption. cbn [rbind].
  assert (Ez : zlen (map d_len dims) = zlen dims) by (unfold zlen; rewrite map_length; reflexivity).
  destruct HB as (i & r & -> & HB). inversion F as [|? ? Hi Fr]; subst. rewrite Ez in HB. cbn [map has_unlimited tl].
  destruct HB as [HB|[HB1 HB2]].
  - rewrite (dim_at_beyond ver dims i Hv Hd Hi HB). apply fails_panic.
  - destruct (dim_at_zero ver dims i Hv Hd Hi HB1) as (d & Ed & E0). rewrite Ed. cbn [rbind]. rewrite E0. cbn [Z.eqb].
    rewrite (prod_beyond ver dims r Hv Hd Fr HB2). apply fails_panic.
Qed.

Lemma vars_loop_fails ver dims : known_ver ver -> zlen dims <= 1024 -> forall bl fuel n st rest, Forall (any_var ver) bl -> zlen bl < n ->
  (List.length bl < fuel)%nat -> bad_var ver (map d_len dims) rest -> fails (get_vars_loop ver dims fuel n st (List.concat bl ++ rest)).
Proof.
  intros Hv Hd. induction bl as [|b bl IH]; intros fuel n st rest HF Hn Hfu HL; (destruct fuel as [|fu]; [lia|]); cbn [get_vars_loop List.concat].
  - change (zlen (@nil bytes)) with 0 in Hn. replace (n <=? 0) with false by lia. apply fails_bind. exact (var_fails ver dims _ _ Hv Hd HL).
  - inversion HF as [|? ? Hb Hbl]; subst. pose proof (zlen_nonneg bl). rewrite zlen_cons in Hn. cbn [List.length] in Hfu.
    replace (n <=? 0) with false by lia. rewrite <- app_assoc.
    destruct (var_read ver dims (vl_rec st) b (List.concat bl ++ rest) Hv Hb) as [[[v rs] E]|E]; [|apply fails_bind; exact E]. rewrite E. cbn [rbind].
    destruct (om_get (vl_vars st) (v_name v)); [apply fails_err; do 3 right; left; reflexivity|].
    destruct (has_unlimited dims (v_ids v)) as [unl|e|] eqn:Eu; cbn [rbind]; [| |apply fails_panic].
    + cbv zeta. apply IH; [exact Hbl|lia|lia|exact HL].
    + exfalso. destruct (v_ids v) as [|i ids]; cbn [has_unlimited] in Eu; [discriminate|]. pose proof (dim_at_err dims i e) as D.
      destruct (dim_at dims i); cbn [rbind] in Eu; congruence.
Qed.

Theorem header_fails f : bad_header f -> fails (cdf_open f).
Proof.
  intros (ver & nr & s & Hv & Hnr & -> & HB). unfold cdf_open, read_header.
  change (bs "CDF" ++ [ver] ++ non_neg ver nr ++ s) with ((bs "CDF" ++ [ver]) ++ non_neg ver nr ++ s).
  change 4 with (zlen (bs "CDF" ++ [ver])) at 1. rewrite bytes_read by (unfold memory; change (zlen (bs "CDF" ++ [ver])) with 4; lia). cbn [rbind].
  change (ztake 3 (bs "CDF" ++ [ver])) with (bs "CDF"). rewrite beqb_refl. cbn [negb]. change (nth 3 (bs "CDF" ++ [ver]) 0) with ver.
  replace ((ver =? 1) || (ver =? 2) || (ver =? 5)) with true by lia. cbn [negb].
  rewrite number_read by assumption. cbn [rbind]. destruct (counted ver nr =? 2 ^ 64 - 1); [apply fails_err; do 4 right; left; reflexivity|].
  destruct HB as [(nd & lens & bl & rest & L & Hnd & F & Zb & HL & ->)|(t & lens & bl & rest & Ht & Hl & F & -> & HB)].
  - unfold fieldDimension. rewrite (nelems_read ver 10 10 nd _ Hv ltac:(lia) (or_introl eq_refl) Hnd). cbn [rbind].
    destruct (counted_small ver nd 1025 Hv Hnd ltac:(lia)) as [_ C2]. rewrite C2 by lia. unfold maxDimensions. replace (1024 <? nd) with false by lia.
    rewrite (dims_panic ver Hv lens bl F (Z.to_nat nd) rest); [apply fails_panic|unfold zlen in Zb; lia|exact HL].
  - destruct (rank_counted ver lens Hv Hl) as [R1 R2]. unfold fieldDimension.
    rewrite (nelems_read ver 10 t (zlen lens) _ Hv ltac:(lia)); [|destruct Ht as [Ht|[Ht ->]]; [left; exact Ht|right; split; [exact Ht|reflexivity]]|exact R1]. cbn [rbind].
    rewrite R2. unfold maxDimensions. replace (1024 <? zlen lens) with false by lia. unfold zlen at 1. rewrite Nat2Z.id.
    destruct (dims_read ver Hv lens bl rest F) as (dims & Ed & Em). rewrite Ed. cbn [rbind].
    assert (Hd : zlen dims <= 1024) by (rewrite <- Em in Hl; unfold zlen in *; rewrite map_length in Hl; exact Hl).
    destruct HB as [HB|(a & rest' & Ha & (k & bl' & rest2 & Hk & F' & Zb & HV & ->) & ->)]; [apply fails_bind; exact (atts_fails ver _ Hv HB)|].
    match goal with |- context [get_attr_list ver (a ++ ?x)] => destruct (atts_read ver a x Hv Ha) as [[m E]|E]; [|apply fails_bind; exact E]; rewrite E end. cbn [rbind].
    unfold fieldVariable. rewrite (nelems_read ver 11 11 k _ Hv ltac:(lia) (or_introl eq_refl) Hk). cbn [rbind]. apply fails_bind.
    pose proof (concat_some (any_var ver) bl' (var_some ver) F') as Ln.
    apply vars_loop_fails; [exact Hv|exact Hd|exact F'|exact Zb|rewrite app_length; lia|rewrite Em; exact HV].
Qed.

(** ** Where nothing refuses the file before *)
Lemma start_read ver nr s : known_ver ver -> number ver nr -> nr <> numbers ver - 1 ->
  read_header (bs "CDF" ++ [ver] ++ non_neg ver nr ++ s) =
  (let* (nd, s2) := get_nelems ver fieldDimension s in
   if maxDimensions <? nd then Err ETooManyDimensions else
   let* (dims, s3) := get_dims ver (Z.to_nat nd) s2 in
   let* (ga, s4) := get_attr_list ver s3 in
   let* (nv, s5) := get_nelems ver fieldVariable s4 in
   let* (vl, _) := get_vars_loop ver dims (S (List.length s5)) nv (mkVl 0 empty_om 0 None) s5 in
   let '(rs, sp) := finish_rec vl in
   Ok (mkCdf (bs "CDF" ++ [ver] ++ non_neg ver nr ++ s) ver (counted ver nr) rs dims (om_hide ga ncpKey) (vl_vars vl) sp)).
Proof.
  intros Hv Hnr N. unfold read_header.
  change (bs "CDF" ++ [ver] ++ non_neg ver nr ++ s) with ((bs "CDF" ++ [ver]) ++ non_neg ver nr ++ s).
  change 4 with (zlen (bs "CDF" ++ [ver])) at 1. rewrite bytes_read by (unfold memory; change (zlen (bs "CDF" ++ [ver])) with 4; lia). cbn [rbind].
  change (ztake 3 (bs "CDF" ++ [ver])) with (bs "CDF"). rewrite beqb_refl. cbn [negb]. change (nth 3 (bs "CDF" ++ [ver]) 0) with ver.
  replace ((ver =? 1) || (ver =? 2) || (ver =? 5)) with true by (unfold known_ver in Hv; lia). cbn [negb].
  rewrite number_read by assumption. cbn [rbind].
  replace (counted ver nr =? 2 ^ 64 - 1) with false; [reflexivity|].
  unfold number, numbers, counted in *. destruct (Z.eqb_spec ver 5) as [->|N5]; cbn [orb]; [lia|]. destruct (Z.ltb_spec nr (2 ^ 31)); lia.
Qed.
Lemma zero_number ver : number ver 0.
Proof. unfold number, numbers. destruct (ver =? 5); lia. Qed.
Lemma no_atts ver r : known_ver ver -> exists m, get_attr_list ver (be 4 0 ++ non_neg ver 0 ++ r) = Ok (m, r).
Proof.
  intros Hv. unfold get_attr_list, fieldAttribute. rewrite (nelems_read ver 12 0 0 r Hv ltac:(lia) (or_intror (conj eq_refl eq_refl)) (zero_number ver)). cbn [rbind].
  assert (C : counted ver 0 = 0) by (unfold counted; destruct (ver =? 5); reflexivity). rewrite C. cbn [get_attrs_loop]. eexists. reflexivity.
Qed.

Theorem ids_crash ver nr lens bl k nm ids t size rest : known_ver ver -> number ver nr -> nr <> numbers ver - 1 ->
  zlen lens <= 1024 -> Forall2 (any_dim ver) lens bl -> number ver k -> 0 < k -> any_name ver nm -> zlen ids <= 1024 -> Forall (number ver) ids ->
  bad_ids lens ids -> 0 <= t < 2 ^ 32 -> number ver size ->
  cdf_open (bs "CDF" ++ [ver] ++ non_neg ver nr ++ be 4 10 ++ non_neg ver (zlen lens) ++ List.concat bl ++ be 4 0 ++ non_neg ver 0 ++
    be 4 11 ++ non_neg ver k ++ nm ++ non_neg ver (zlen ids) ++ flat_map (non_neg ver) ids ++ be 4 0 ++ non_neg ver 0 ++ be 4 t ++ non_neg ver size ++ rest) = Panic.
Proof.
  intros Hv Hnr N Hl F Hk K0 Hnm Hr Fi HB Ht Hsz. unfold cdf_open. rewrite (start_read ver nr _ Hv Hnr N).
  destruct (rank_counted ver lens Hv Hl) as [R1 R2]. unfold fieldDimension. rewrite (nelems_read ver 10 10 (zlen lens) _ Hv ltac:(lia) (or_introl eq_refl) R1). cbn [rbind].
  rewrite R2. unfold maxDimensions. replace (1024 <? zlen lens) with false by lia. unfold zlen at 1. rewrite Nat2Z.id.
  match goal with |- context [get_dims ver _ (_ ++ ?x)] => destruct (dims_read ver Hv lens bl x F) as (dims & Ed & Em); rewrite Ed end. cbn [rbind].
  assert (Hd : zlen dims <= 1024) by (rewrite <- Em in Hl; unfold zlen in *; rewrite map_length in Hl; exact Hl).
  match goal with |- context [get_attr_list ver (be 4 0 ++ non_neg ver 0 ++ ?x)] => destruct (no_atts ver x Hv) as (m & Ea); rewrite Ea end. cbn [rbind].
  unfold fieldVariable. rewrite (nelems_read ver 11 11 k _ Hv ltac:(lia) (or_introl eq_refl) Hk). cbn [rbind].
  assert (C0 : 0 < counted ver k) by (pose proof (counted_range ver k Hv Hk); pose proof (counted_zero ver k Hv Hk); lia).
  cbn [get_vars_loop vl_rec]. replace (counted ver k <=? 0) with false by lia. unfold get_var.
  match goal with |- context [read_name ver (nm ++ ?x)] => destruct (name_read ver nm x Hv Hnm) as [x1 E1]; rewrite E1 end. cbn [rbind].
  destruct (rank_counted ver ids Hv Hr) as [I1 I2]. rewrite number_read by assumption. cbn [rbind]. rewrite I2.
  unfold maxDimensions. replace (1024 <? zlen ids) with false by lia. unfold zlen at 1. rewrite Nat2Z.id. rewrite numbers_read by assumption. cbn [rbind].
  match goal with |- context [get_attr_list ver (be 4 0 ++ non_neg ver 0 ++ ?x)] => destruct (no_atts ver x Hv) as (m2 & Ea2); rewrite Ea2 end. cbn [rbind].
  rewrite word_read by exact Ht. cbn [rbind]. rewrite number_read by assumption. cbn [rbind].
  assert (Ez : zlen lens = zlen dims) by (rewrite <- Em; unfold zlen; rewrite map_length; reflexivity).
  destruct HB as (i & r & -> & HB). inversion Fi as [|? ? Hi Fr]; subst x l. rewrite Ez in HB. cbn [map has_unlimited tl].
  destruct HB as [HB|[HB1 HB2]].
  - rewrite (dim_at_beyond ver dims i Hv Hd Hi HB). reflexivity.
  - rewrite <- Em in HB1. destruct (dim_at_zero ver dims i Hv Hd Hi HB1) as (d & Ed2 & E0). rewrite Ed2. cbn [rbind]. rewrite E0. cbn [Z.eqb].
    rewrite (prod_beyond ver dims r Hv Hd Fr HB2). reflexivity.
Qed.
Theorem name_length_crash ver nr nd lens bl rest : known_ver ver -> number ver nr -> nr <> numbers ver - 1 ->
  nd <= 1024 -> number ver nd -> Forall2 (any_dim ver) lens bl -> zlen lens < nd -> long_name ver rest ->
  cdf_open (bs "CDF" ++ [ver] ++ non_neg ver nr ++ be 4 10 ++ non_neg ver nd ++ List.concat bl ++ rest) = Panic.
Proof.
  intros Hv Hnr N Hl Hnd F Hlt HL. unfold cdf_open. rewrite (start_read ver nr _ Hv Hnr N). unfold fieldDimension.
  rewrite (nelems_read ver 10 10 nd _ Hv ltac:(lia) (or_introl eq_refl) Hnd). cbn [rbind].
  destruct (counted_small ver nd 1025 Hv Hnd ltac:(lia)) as [_ C2]. rewrite C2 by lia. unfold maxDimensions. replace (1024 <? nd) with false by lia.
  rewrite (dims_panic ver Hv lens bl F (Z.to_nat nd) rest); [reflexivity| |exact HL]. assert (List.length lens = List.length bl) by (clear -F; induction F; cbn [List.length]; congruence). unfold zlen in Hlt. lia.
Qed.
