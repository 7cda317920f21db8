(** C87: GetVariable of any variable of any file that opens as CDF. *)
From Coq Require Import Lia ZifyBool ZifyNat.
From Verif Require Import Prelude GoVal BaseLemmas OrderedMapModel ArraySpec ArrayProofs CdfFormat CdfWriterModel CdfReaderModel CdfConvert CdfFixed
  CdfBounds CdfMissing CdfFormatEx CdfSliceEx CdfSlice CdfStore CdfReadCrash.
Ltac Zify.zify_post_hook ::= Z.div_mod_to_equations.

(** A _FillValue that is one thing, but not a number of the given type *)
Definition odd_fill (k : nk) (u : gval) : Prop :=
  (forall gt l, u <> VSlice gt l) /\ (forall z, u <> VNum k z) \/ exists gt x, u = VSlice gt [x] /\ forall z, x <> VNum k z.
Lemma odd_fill_crash v t u : om_get (v_attrs v) (bs "_FillValue") = Some u -> odd_fill (fill_kind t) u -> fill_pattern v t = Panic.
Proof.
  intros E H. unfold fill_pattern. rewrite E. destruct H as [[H1 H2]|(gt & x & -> & H)].
  - destruct u as [k z|s|gt l|]; cbn [rbind]; try reflexivity.
    + destruct (nk_eqb k (fill_kind t)) eqn:K; [|reflexivity]. apply nk_eqb_eq in K. subst k. destruct (H2 z eq_refl).
    + destruct (H1 gt l eq_refl).
  - cbn [rbind]. destruct x as [k z|s|gt' l|]; try reflexivity.
    destruct (nk_eqb k (fill_kind t)) eqn:K; [|reflexivity]. apply nk_eqb_eq in K. subst k. destruct (H z eq_refl).
Qed.
Lemma fill_crash_odd v t : fill_pattern v t = Panic -> exists u, om_get (v_attrs v) (bs "_FillValue") = Some u /\ odd_fill (fill_kind t) u.
Proof.
  unfold fill_pattern. destruct (om_get (v_attrs v) (bs "_FillValue")) as [u|]; [|discriminate]. intros H. exists u. split; [reflexivity|].
  assert (N : forall x, match x with VNum k z => if nk_eqb k (fill_kind t) then Ok (enc_be k z) else Panic | _ => Panic end = Panic ->
    forall z, x <> VNum (fill_kind t) z).
  { intros x X z ->. rewrite (proj2 (nk_eqb_eq _ _) eq_refl) in X. discriminate. }
  destruct u as [k z|s|gt l|]; cbn [rbind] in H; try (left; split; [discriminate|apply N; exact H]).
  destruct l as [|x [|y l]]; cbn [rbind] in H; try discriminate. right. exists gt, x. split; [reflexivity|apply N; exact H].
Qed.

(** Asking for the variable crashes for no file. *)
Theorem C87_getter f c n : are_bytes f -> cdf_open f = Ok c -> get_var_getter c n <> Panic.
Proof.
  intros B EO. destruct (opened_in f c EO B) as (_ & _ & _ & F4). unfold get_var_getter.
  destruct (om_get (c_vars c) n) as [v|] eqn:Ev; [|discriminate]. destruct (F4 n v Ev) as (_ & _ & V3).
  pose proof (var_dims_fine c (v_ids v) V3 true) as VF. destruct (var_dims c true (v_ids v)) as [l| |]; cbn [rbind]; [|discriminate|contradiction].
  cbv zeta. match goal with |- (let '(_, _) := ?x in _) <> _ => destruct x end. destruct (ty_of_code (v_type v)); discriminate.
Qed.

(** Whatever the bytes, reading a variable crashes only if its declared shape needs more than the memory there can be, if its
    _FillValue is not of its type, where that is used, or if the declared sizes of the records pass 2^63 bytes. *)
Theorem C87_reason_partial f c n : are_bytes f -> cdf_open f = Ok c -> get_variable c n = Panic ->
  exists g, get_var_getter c n = Ok g /\
    (2 ^ 48 < 24 * volume (g_lens g) \/
     ((g_unl g = false \/ c_special c = true) /\ exists u, om_get (v_attrs (g_var g)) (bs "_FillValue") = Some u /\ odd_fill (fill_kind (g_ty g)) u) \/
     (g_unl g = true /\ 2 ^ 63 <= c_numrecs c * c_recsize c)).
Proof.
  intros B EO H. pose proof (C87_getter f c n B EO) as NG. unfold get_variable in H.
  destruct (get_var_getter c n) as [g| |] eqn:EG; cbn [rbind] in H; try discriminate; [|contradiction]. exists g. split; [reflexivity|].
  pose proof (getter_kinds f c n g EO B EG) as (GC & _).
  destruct (Z_lt_le_dec (2 ^ 48) (24 * volume (g_lens g))) as [L|L]; [left; exact L|right].
  pose proof (all_fine f c n g EO B EG L) as AF.
  assert (HP : get_slice_c g 0 (g_len g) = Panic).
  { unfold get_slice in H. destruct (get_slice_c g 0 (g_len g)); cbn [rmap rbind] in H; try discriminate. reflexivity. }
  unfold one_piece in AF. rewrite GC in AF.
  destruct (fill_pattern (g_var g) (g_ty g)) as [pat|e|] eqn:EF.
  - right. destruct (g_unl g) eqn:U; [|exfalso; apply AF; [discriminate|discriminate|exact HP]]. split; [reflexivity|].
    destruct (Z_lt_le_dec (c_numrecs c * c_recsize c) (2 ^ 63)) as [R|R]; [|exact R].
    exfalso. apply AF; [discriminate|intros _; exact R|exact HP].
  - right. destruct (g_unl g) eqn:U; [|exfalso; apply AF; [discriminate|discriminate|exact HP]]. split; [reflexivity|].
    destruct (Z_lt_le_dec (c_numrecs c * c_recsize c) (2 ^ 63)) as [R|R]; [|exact R].
    exfalso. apply AF; [discriminate|intros _; exact R|exact HP].
  - destruct (g_unl g) eqn:U; [|left; split; [left; reflexivity|apply fill_crash_odd; exact EF]].
    destruct (c_special c) eqn:S; [left; split; [right; reflexivity|apply fill_crash_odd; exact EF]|].
    right. split; [reflexivity|]. destruct (Z_lt_le_dec (c_numrecs c * c_recsize c) (2 ^ 63)) as [R|R]; [|exact R].
    exfalso. apply AF; [intros [X|X]; discriminate|intros _; exact R|exact HP].
Qed.

Lemma fixed_start g : Forall (fun d => 0 < d) (g_lens g) -> volume (g_lens g) < 2 ^ 63 -> g_unl g = false -> v_begin (g_var g) < 2 ^ 63 -> 0 <= v_begin (g_var g) ->
  g_chunk g = match g_lens g with [] => 1 | x :: _ => if x =? 0 then total_size (g_lens g) else i64 (Z.quot (total_size (g_lens g)) (i64 x)) end ->
  g_len g = match g_lens g with [] => 1 | x :: _ => if x =? 0 then 0 else i64 x end ->
  get_slice_c g 0 (g_len g) = (let* pat := fill_pattern (g_var g) (g_ty g) in let* _ := go_make (volume (g_lens g)) (tysize (g_ty g)) in
    let got := ztake (volume (g_lens g) * tysize (g_ty g)) (zdrop (v_begin (g_var g)) (c_file (g_cdf g))) in
    convert false (g_ty g) (g_lens g) (dec_list (fill_kind (g_ty g)) (Z.to_nat (volume (g_lens g)))
      (got ++ fill_stream pat (Z.to_nat (volume (g_lens g) * tysize (g_ty g) - zlen got))))).
Proof.
  intros D V U B1 B0 CH LN. pose proof (volume_pos _ D) as VP. rewrite total_size_ok in CH by (try exact D; lia).
  assert (S : exists nch, (nch = match g_lens g with [] => 1 | x :: _ => if x =? 0 then 0 else i64 (g_len g - 0) end) /\
    i64 (nch * g_chunk g) = volume (g_lens g) /\ (match g_lens g with [] => [] | _ :: r => nch :: r end) = g_lens g /\ 0 <= g_len g).
  { destruct (g_lens g) as [|x r] eqn:EL.
    - exists 1. rewrite CH, LN. cbn [volume]. repeat split; try reflexivity; lia.
    - apply Forall_cons_iff in D. destruct D as [D1 D2]. replace (x =? 0) with false in * by lia.
      pose proof (volume_tail_le x r D1 D2) as W1. pose proof (volume_head_le x r D1 D2) as W2. cbn [volume] in *.
      pose proof (volume_pos _ D2) as W3.
      rewrite (i64_small x) in CH, LN by lia. rewrite (Z.mul_comm x), Z.quot_mul in CH by lia. rewrite (i64_small (volume r)) in CH by lia.
      exists x. rewrite CH, LN, Z.sub_0_r. rewrite (i64_small x) by lia. rewrite (i64_small (x * volume r)) by lia.
      repeat split; try reflexivity; lia. }
  destruct S as (nch & S1 & S2 & S4 & S5).
  unfold get_slice_c. replace (g_len g <? 0) with false by lia. rewrite <- S1. cbv zeta. rewrite S2, S4, U.
  rewrite ?Z.mul_0_l. change (i64 0) with 0. rewrite ?Z.mul_0_l. change (i64 0) with 0. rewrite Z.add_0_r.
  rewrite (i64_small (v_begin (g_var g))) by lia. rewrite (i64_small (v_begin (g_var g))) by lia. cbn [andb].
  replace (v_begin (g_var g) <? 0) with false by lia.
  destruct (fill_pattern (g_var g) (g_ty g)); cbn [rbind]; [|reflexivity|reflexivity].
  destruct (go_make (volume (g_lens g)) (tysize (g_ty g))); reflexivity.
Qed.
Lemma begin_pos f c n g : are_bytes f -> cdf_open f = Ok c -> get_var_getter c n = Ok g -> 0 <= v_begin (g_var g).
Proof.
  intros B EO EG. destruct (opened_in f c EO B) as (_ & _ & _ & F4).
  unfold get_var_getter in EG. destruct (om_get (c_vars c) n) as [v|] eqn:Ev; [|discriminate]. destruct (F4 n v Ev) as (V1 & _).
  destruct (var_dims c true (v_ids v)); cbn [rbind] in EG; try discriminate. cbv zeta in EG.
  match type of EG with (let '(_, _) := ?x in _) = _ => destruct x end. destruct (ty_of_code (v_type v)); [|discriminate]. injection EG as <-. cbn [g_var]. lia.
Qed.
Lemma fixed_read f c n g : are_bytes f -> cdf_open f = Ok c -> get_var_getter c n = Ok g -> g_unl g = false -> volume (g_lens g) < 2 ^ 63 ->
  v_begin (g_var g) < 2 ^ 63 ->
  (fill_pattern (g_var g) (g_ty g) = Panic \/ (exists pat, fill_pattern (g_var g) (g_ty g) = Ok pat) /\ go_make (volume (g_lens g)) (tysize (g_ty g)) = Panic) ->
  get_variable c n = Panic.
Proof.
  intros B EO EG U V BG H. destruct (getter_kinds f c n g EO B EG) as (GC & CF & N0 & R0 & K & CH & LN).
  destruct K as [[_ K]|[K _]]; [|congruence]. pose proof (begin_pos f c n g B EO EG) as B0.
  unfold get_variable. rewrite EG. cbn [rbind]. unfold get_slice. rewrite (fixed_start g K V U BG B0 CH LN).
  destruct H as [H|[(pat & H1) H2]]; [rewrite H; reflexivity|]. rewrite H1. cbn [rbind]. rewrite H2. reflexivity.
Qed.

(** Every variable of fixed size with such a _FillValue crashes when it is read, in every file, although all of its data may be there. *)
Theorem C87_fill_refuted f c n g u : are_bytes f -> cdf_open f = Ok c -> get_var_getter c n = Ok g -> g_unl g = false ->
  volume (g_lens g) < 2 ^ 63 -> v_begin (g_var g) < 2 ^ 63 ->
  om_get (v_attrs (g_var g)) (bs "_FillValue") = Some u -> odd_fill (fill_kind (g_ty g)) u -> get_variable c n = Panic.
Proof. intros B EO EG U V BG E O. apply (fixed_read f c n g B EO EG U V BG). left. exact (odd_fill_crash _ _ _ E O). Qed.

(** Every variable of fixed size that is declared larger than memory crashes when it is read, however short the file. *)
Theorem C87_size_refuted f c n g : are_bytes f -> cdf_open f = Ok c -> get_var_getter c n = Ok g -> g_unl g = false ->
  volume (g_lens g) < 2 ^ 63 -> 2 ^ 48 < volume (g_lens g) * tysize (g_ty g) -> v_begin (g_var g) < 2 ^ 63 ->
  om_get (v_attrs (g_var g)) (bs "_FillValue") = None -> get_variable c n = Panic.
Proof.
  intros B EO EG U V M BG E. apply (fixed_read f c n g B EO EG U V BG). right. split.
  - unfold fill_pattern. rewrite E. eexists. reflexivity.
  - unfold go_make. destruct (volume (g_lens g) <? 0); [reflexivity|].
    replace (2 ^ 48 <? volume (g_lens g) * tysize (g_ty g)) with true by lia. reflexivity.
Qed.

(** Every record variable, but a lone one of a small type, crashes when it is read if the declared sizes of a record together are
    2^63 bytes or more and there are two records, wherever the data are and whether they are there or not. *)
Theorem C87_records_refuted f c n g : are_bytes f -> cdf_open f = Ok c -> get_var_getter c n = Ok g -> g_unl g = true -> c_special c = false ->
  24 * volume (g_lens g) <= 2 ^ 48 -> v_begin (g_var g) < 2 ^ 63 -> 2 <= c_numrecs c -> 2 ^ 63 <= c_recsize c < 2 ^ 64 -> get_variable c n = Panic.
Proof.
  intros B EO EG U SP HV BG N2 RS. destruct (getter_kinds f c n g EO B EG) as (GC & CF & N0 & R0 & K & CH & LN).
  destruct K as [[K _]|[_ (ds & K1 & K2 & K3)]]; [congruence|]. pose proof (begin_pos f c n g B EO EG) as B0.
  rewrite K1 in HV, CH, LN. replace (c_numrecs c =? 0) with false in CH, LN by lia. cbn [volume] in HV.
  pose proof (volume_pos _ K2) as W3. pose proof (volume_tail_le (c_numrecs c) ds ltac:(lia) K2) as W1.
  pose proof (volume_head_le (c_numrecs c) ds ltac:(lia) K2) as W2. pose proof (tysize_pos (g_ty g)) as TS.
  rewrite total_size_ok in CH by (try (constructor; [lia|exact K2]); cbn [volume]; lia). cbn [volume] in CH.
  rewrite (i64_small (c_numrecs c)) in CH, LN by lia. rewrite Z.mul_comm, Z.quot_mul in CH by lia. rewrite (i64_small (volume ds)) in CH by lia.
  assert (VS : v_vsize (g_var g) = volume ds * tysize (g_ty g)) by (apply K3; lia).
  assert (VB : 0 < v_vsize (g_var g) <= volume ds * 8) by (rewrite VS; split; [apply Z.mul_pos_pos|apply Z.mul_le_mono_nonneg_l]; lia).
  assert (NV : c_numrecs c * v_vsize (g_var g) <= c_numrecs c * (volume ds * 8)) by (apply Z.mul_le_mono_nonneg_l; lia).
  assert (N2V : 2 * v_vsize (g_var g) <= c_numrecs c * v_vsize (g_var g)) by (apply Z.mul_le_mono_nonneg_r; lia).
  unfold get_variable. rewrite EG. cbn [rbind]. unfold get_slice, get_slice_c. rewrite LN, K1, CH, GC, U, SP, CF. cbn [andb negb].
  replace (c_numrecs c <? 0) with false by lia. replace (c_numrecs c =? 0) with false by lia. cbv zeta. rewrite Z.sub_0_r.
  rewrite (i64_small (c_numrecs c)) by lia. rewrite (i64_small (c_numrecs c * volume ds)) by lia.
  rewrite ?Z.mul_0_l. change (i64 0) with 0. rewrite ?Z.mul_0_l. change (i64 0) with 0.
  replace (c_numrecs c * volume ds * tysize (g_ty g)) with (c_numrecs c * v_vsize (g_var g)) by (rewrite VS; ring).
  rewrite go_make_ok by lia. cbn [rbind].
  assert (T8 : c_numrecs c * volume ds * tysize (g_ty g) <= c_numrecs c * volume ds * 8) by (apply Z.mul_le_mono_nonneg_l; lia).
  rewrite go_make_ok by lia. cbn [rbind]. rewrite (i64_small (c_numrecs c * v_vsize (g_var g))) by lia.
  replace (Z.to_nat (c_numrecs c)) with (S (S (Z.to_nat (c_numrecs c - 2)))) by lia. cbn [record_readers].
  replace (c_numrecs c * v_vsize (g_var g) <=? 0) with false by lia. rewrite Z.mul_0_l. change (i64 0) with 0. change (0 <? 0) with false. cbv zeta iota.
  change (0 + 1) with 1. rewrite (i64_small (c_numrecs c * v_vsize (g_var g) - v_vsize (g_var g))) by lia.
  replace (c_numrecs c * v_vsize (g_var g) - v_vsize (g_var g) <=? 0) with false by lia. rewrite Z.mul_1_l.
  assert (IR : i64 (i64 (c_recsize c)) <? 0 = true).
  { assert (E : i64 (c_recsize c) = c_recsize c - 2 ^ 64) by (unfold i64, signed; rewrite Z.mod_small by lia; replace (c_recsize c <? 2 ^ (64 - 1)) with false by lia; reflexivity).
    rewrite E, i64_small by lia. lia. }
  rewrite IR. rewrite !Z.add_0_r. rewrite (i64_small (v_begin (g_var g))) by lia. rewrite (i64_small (v_begin (g_var g))) by lia.
  rewrite (i64_small (v_begin (g_var g))) by lia. cbn [multi_read].
  replace (c_numrecs c * v_vsize (g_var g) <=? 0) with false by lia. replace (v_vsize (g_var g) <=? 0) with false by lia.
  replace (v_begin (g_var g) <? 0) with false by lia. cbv zeta.
  match goal with |- context[zlen ?x] => assert (L : zlen x <= v_vsize (g_var g)) by (rewrite zlen_ztake_min; lia) end.
  match goal with |- context[?x <=? 0] => replace (x <=? 0) with false by lia end. reflexivity.
Qed.

(** Files of up to 204 bytes: a variable of shorts with a _FillValue of type int and all of its data; one of 2^30 times 2^30 bytes
    in a file without data; two record variables that declare 2^62 bytes per record each. *)
Definition rcx_fill : bytes := put_header (mkFheader 1 0 [(bs "x", 2)] [] [mkFvar (bs "a") [0] [mkFatt (bs "_FillValue") (ANums I32 [-9])] (ENum I16) 4 108]) ++ be 2 7 ++ be 2 8.
Definition rcx_size : bytes := put_header (mkFheader 1 0 [(bs "y", 2 ^ 30); (bs "x", 2 ^ 30)] [] [mkFvar (bs "a") [0; 1] [] (ENum I8) (2 ^ 31 - 1) 100]).
Definition rcx_recs : bytes :=
  put_header (mkFheader 5 2 [(bs "t", 0)] [] [mkFvar (bs "a") [0] [] (ENum I32) (2 ^ 62) 180; mkFvar (bs "b") [0] [] (ENum I32) (2 ^ 62) 184]) ++ flat_map (be 4) [1; 2; 3; 4].
Example C87_example_fill :
  are_bytes rcx_fill /\ cdf_open rcx_fill = Ok (opened rcx_fill) /\
  let g := var_of rcx_fill (bs "a") in
  get_var_getter (opened rcx_fill) (bs "a") = Ok g /\ g_unl g = false /\ volume (g_lens g) = 2 /\ v_begin (g_var g) = 108 /\ zlen rcx_fill = 112 /\
  om_get (v_attrs (g_var g)) (bs "_FillValue") = Some (VNum I32 (-9)) /\ odd_fill (fill_kind (g_ty g)) (VNum I32 (-9)) /\
  get_variable (opened rcx_fill) (bs "a") = Panic.
Proof.
  split; [apply are_bytes_check; vm_compute; reflexivity|]. split; [vm_compute; reflexivity|]. cbv zeta.
  do 6 (split; [vm_compute; reflexivity|]). split; [|vm_compute; reflexivity].
  left. split; [discriminate|]. intros z. vm_compute. discriminate.
Qed.
Example C87_example_size :
  are_bytes rcx_size /\ cdf_open rcx_size = Ok (opened rcx_size) /\
  let g := var_of rcx_size (bs "a") in
  get_var_getter (opened rcx_size) (bs "a") = Ok g /\ g_unl g = false /\ volume (g_lens g) = 2 ^ 60 /\ tysize (g_ty g) = 1 /\ v_begin (g_var g) = 100 /\ zlen rcx_size < 120 /\
  om_get (v_attrs (g_var g)) (bs "_FillValue") = None /\
  get_variable (opened rcx_size) (bs "a") = Panic.
Proof.
  split; [apply are_bytes_check; vm_compute; reflexivity|]. split; [vm_compute; reflexivity|]. cbv zeta.
  do 7 (split; [vm_compute; reflexivity|]). vm_compute. reflexivity.
Qed.
Example C87_example_records :
  are_bytes rcx_recs /\ cdf_open rcx_recs = Ok (opened rcx_recs) /\
  let g := var_of rcx_recs (bs "a") in
  get_var_getter (opened rcx_recs) (bs "a") = Ok g /\ g_unl g = true /\ volume (g_lens g) = 2 /\
  om_get (v_attrs (g_var g)) (bs "_FillValue") = None /\ c_special (opened rcx_recs) = false /\ v_begin (g_var g) = 180 /\ c_numrecs (opened rcx_recs) = 2 /\ c_recsize (opened rcx_recs) = 2 ^ 63 /\
  get_variable (opened rcx_recs) (bs "a") = Panic.
Proof.
  split; [apply are_bytes_check; vm_compute; reflexivity|]. split; [vm_compute; reflexivity|]. cbv zeta.
  do 8 (split; [vm_compute; reflexivity|]). vm_compute. reflexivity.
Qed.
(** With none of the reasons there is a value. *)
Example C87_example_fine :
  are_bytes grid_file /\ cdf_open grid_file = Ok (opened grid_file) /\ get_var_getter (opened grid_file) (bs "b") = Ok (var_of grid_file (bs "b")) /\
  exists x, get_variable (opened grid_file) (bs "b") = Ok x.
Proof.
  split; [apply are_bytes_check; vm_compute; reflexivity|]. split; [vm_compute; reflexivity|]. split; [vm_compute; reflexivity|].
  eexists. vm_compute. reflexivity.
Qed.

Print Assumptions C87_getter.
Print Assumptions C87_reason_partial.
Print Assumptions C87_fill_refuted.
Print Assumptions C87_size_refuted.
Print Assumptions C87_records_refuted.
