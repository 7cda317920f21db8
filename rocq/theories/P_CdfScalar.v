(** C89: slices of CDF variables without dimensions. *)
From Coq Require Import Lia ZifyBool ZifyNat.
From Verif Require Import Prelude GoVal BaseLemmas OrderedMapModel ArraySpec ArrayProofs SliceSpec CdfFormat CdfWriterModel CdfReaderModel CdfConvert CdfFixed
  CdfBounds CdfRecord CdfMissing CdfFormatEx CdfSliceEx CdfSlice.

(** The getter of the element that comes [b] elements later *)
Definition shifted (g : getter) (b : Z) : getter :=
  let v := g_var g in
  mkGetter (g_cdf g) (mkRvar (v_name v) (v_ids v) (v_attrs v) (v_type v) (v_vsize v) (v_begin v + b * tysize (g_ty g)))
    [] (g_names g) false 1 1 (g_ty g).

Lemma shifted_slice g b e : fixed_getter g -> g_lens g = [] -> b <= e -> - 2 ^ 58 < b < 2 ^ 58 ->
  get_slice_c g b e = get_slice_c (shifted g b) 0 1.
Proof.
  intros FG NE BE R. destruct FG as [F1 F2 F3 F4 F5 F6]. unfold get_slice_c, shifted. cbn [g_lens g_chunk g_ty g_var g_cdf g_unl v_begin].
  replace (e <? b) with false by lia. change (1 <? 0) with false. rewrite F1, F3, NE. cbn [andb tl volume].
  pose proof (tysize_pos (g_ty g)) as TS. set (sz := tysize (g_ty g)) in *.
  assert (S1 : - 2 ^ 61 < b * sz < 2 ^ 61) by (split; nia).
  rewrite !Z.mul_1_r. change (i64 0) with 0. rewrite ?Z.mul_0_l. change (i64 0) with 0. rewrite (i64_small b) by lia. rewrite (i64_small (b * sz)) by lia.
  rewrite (i64_small (v_begin (g_var g))) by lia. rewrite (i64_small (v_begin (g_var g) + b * sz)) by lia. rewrite Z.add_0_r.
  rewrite (i64_small (v_begin (g_var g) + b * sz)) by lia. reflexivity.
Qed.

(** The element [b] elements behind that of the variable *)
Lemma scalar_at f c n g t fill b e : fixed_var f c n g t fill -> g_lens g = [] -> (t = EChar -> 0 <= stored_or fill t f (v_begin (g_var g) + b * esize t) 0 < 128) -> b <= e -> - 2 ^ 58 < b < 2 ^ 58 ->
  0 <= v_begin (g_var g) + b * esize t < 2 ^ 62 -> ends_between f (v_begin (g_var g) + b * esize t) 1 t ->
  get_slice g b e = Ok (nest t [] [stored_or fill t f (v_begin (g_var g) + b * esize t) 0]).
Proof.
  intros FV NE NC BE R PL EB. destruct (fixed_var_parts _ _ _ _ _ _ FV) as (FG & CF & FP & TE & TS).
  destruct (getter_fixed f c n g (fv_open _ _ _ _ _ _ FV) (fv_are_bytes _ _ _ _ _ _ FV) (fv_getter _ _ _ _ _ _ FV)
    (fv_fixed _ _ _ _ _ _ FV) (fv_memory _ _ _ _ _ _ FV) (fv_offset _ _ _ _ _ _ FV)) as (_ & _ & WT).
  destruct (has_fill_pattern _ _ _ (fv_fill _ _ _ _ _ _ FV) WT) as [_ IR].
  assert (FM : fixed_getter (shifted g b)).
  { constructor; unfold shifted; cbn [g_unl g_lens g_chunk g_len g_var v_begin tl]; try reflexivity; [constructor|cbn; lia|rewrite TS; exact PL]. }
  unfold get_slice. rewrite (shifted_slice g b e FG NE BE R).
  assert (FP' : fill_pattern (g_var (shifted g b)) (g_ty (shifted g b)) = Ok (enc_be (elt_kind t) fill)) by exact FP.
  assert (VB : v_begin (g_var (shifted g b)) = v_begin (g_var g) + b * esize t) by (unfold shifted; cbn [g_var v_begin]; rewrite TS; reflexivity).
  assert (DF : g_data (shifted g b) (enc_be (elt_kind t) fill) = [stored_or fill t f (v_begin (g_var g) + b * esize t) 0]).
  { rewrite (data_or_fill (shifted g b) t fill FM).
    - rewrite VB. change (g_cdf (shifted g b)) with (g_cdf g). rewrite CF. reflexivity.
    - exact (fv_elt _ _ _ _ _ _ FV).
    - exact IR.
    - rewrite VB. change (g_cdf (shifted g b)) with (g_cdf g). rewrite CF. exact EB. }
  destruct (values_fixed (shifted g b) _ FM FP') as (x & X1 & X2).
  { intros X _. change (g_ty (shifted g b)) with (g_ty g) in X. rewrite DF. constructor; [|constructor]. apply NC.
    rewrite (fv_elt _ _ _ _ _ _ FV) in X. destruct t as [|k]; [reflexivity|destruct k; discriminate]. }
  change (g_len (shifted g b)) with 1 in X1. rewrite X1. cbn [rmap]. rewrite X2, DF. change (g_ty (shifted g b)) with (g_ty g). rewrite TE. reflexivity.
Qed.

(** A variable without dimensions has one row, which is its value: the one stored, or the fill value.
    A character beyond ASCII is not treated. *)
Theorem C89_value f c n g t fill : fixed_var f c n g t fill -> g_lens g = [] -> (t = EChar -> 0 <= stored_or fill t f (v_begin (g_var g)) 0 < 128) -> ends_between f (v_begin (g_var g)) 1 t ->
  g_len g = 1 /\ values g = Ok (nest t [] [stored_or fill t f (v_begin (g_var g)) 0]) /\
  get_slice g 0 1 = Ok (nest t [] [stored_or fill t f (v_begin (g_var g)) 0]).
Proof.
  intros FV NE NC EB. destruct (fixed_var_parts _ _ _ _ _ _ FV) as (FG & _). pose proof (fg_begin g FG) as BG.
  assert (L : g_len g = 1) by (rewrite (fg_len g FG), NE; reflexivity).
  pose proof (scalar_at f c n g t fill 0 1 FV NE) as S. rewrite Z.mul_0_l, Z.add_0_r in S.
  specialize (S NC ltac:(lia) ltac:(lia) BG EB). split; [exact L|]. split; [|exact S]. unfold values. rewrite L. exact S.
Qed.

(** No bound is checked: all other slices, also empty ones, give one element as well, which is of
    what lies before or behind the variable if they do not begin with 0. *)
Theorem C89_refuted f c n g t fill b e : fixed_var f c n g t fill -> g_lens g = [] -> (t = EChar -> 0 <= stored_or fill t f (v_begin (g_var g) + b * esize t) 0 < 128) -> b <= e -> - 2 ^ 58 < b < 2 ^ 58 ->
  0 <= v_begin (g_var g) + b * esize t < 2 ^ 62 -> ends_between f (v_begin (g_var g) + b * esize t) 1 t ->
  get_slice g b e = Ok (nest t [] [stored_or fill t f (v_begin (g_var g) + b * esize t) 0]).
Proof. exact (scalar_at f c n g t fill b e). Qed.

(** It is an error where that would be before the beginning of the file. *)
Theorem C89_before f c n g t fill b e : fixed_var f c n g t fill -> g_lens g = [] -> b <= e -> - 2 ^ 58 < b < 2 ^ 58 ->
  v_begin (g_var g) + b * esize t < 0 -> get_slice g b e = Err EBadSeek.
Proof.
  intros FV NE BE R PL. destruct (fixed_var_parts _ _ _ _ _ _ FV) as (FG & CF & FP & TE & TS). rewrite <- TS in PL.
  unfold get_slice. rewrite (shifted_slice g b e FG NE BE R). destruct FG as [F1 F2 F3 F4 F5 F6].
  unfold get_slice_c, shifted. cbn [g_lens g_chunk g_ty g_var g_cdf g_unl v_begin andb]. change (1 <? 0) with false.
  pose proof (tysize_pos (g_ty g)) as T8. set (sz := tysize (g_ty g)) in *. assert (S1 : - 2 ^ 61 < b * sz < 2 ^ 61) by (split; nia).
  rewrite ?Z.mul_0_l. change (i64 0) with 0. rewrite ?Z.mul_0_l. change (i64 0) with 0. cbv zeta.
  rewrite (i64_small (v_begin (g_var g) + b * sz)) by lia. rewrite Z.add_0_r. rewrite (i64_small (v_begin (g_var g) + b * sz)) by lia.
  replace (v_begin (g_var g) + b * sz <? 0) with true by lia. reflexivity.
Qed.

(** The only box that has the right number of bounds crashes. *)
Theorem C89_box_refuted g bs_ es : g_lens g = [] ->
  get_slice_md g bs_ es = match bs_, es with [], [] => Panic | _, _ => Err ETooManyDimensions end.
Proof.
  intros NE. unfold get_slice_md. rewrite NE. change (zlen (@nil Z)) with 0.
  destruct bs_ as [|b br]; [destruct es as [|e er]; [reflexivity|]|].
  - replace (zlen (e :: er) =? 0) with false by (rewrite zlen_cons; pose proof (zlen_nonneg er); lia). rewrite orb_true_r. reflexivity.
  - replace (zlen (b :: br) =? 0) with false by (rewrite zlen_cons; pose proof (zlen_nonneg br); lia). destruct es; reflexivity.
Qed.

(** A number between two others *)
Definition scalar_header : fheader :=
  mkFheader 1 0 [] []
    [ mkFvar (bs "p") [] [] (ENum I32) 4 128; mkFvar (bs "s") [] [] (ENum I32) 4 132; mkFvar (bs "q") [] [] (ENum I32) 4 136 ].
Definition scalar_file : bytes := put_header scalar_header ++ flat_map (be 4) [11; 22; 33].
Example C89_example :
  fixed_var scalar_file (opened scalar_file) (bs "s") (var_of scalar_file (bs "s")) (ENum I32) (-2147483647) /\
  g_lens (var_of scalar_file (bs "s")) = [] /\ v_begin (g_var (var_of scalar_file (bs "s"))) = 132 /\ zlen scalar_file = 140 /\
  values (var_of scalar_file (bs "s")) = Ok (VNum I32 22) /\
  get_slice (var_of scalar_file (bs "s")) 0 0 = Ok (VNum I32 22) /\
  get_slice (var_of scalar_file (bs "s")) (-1) 5 = Ok (VNum I32 11) /\
  get_slice (var_of scalar_file (bs "s")) 1 2 = Ok (VNum I32 33) /\
  get_slice (var_of scalar_file (bs "s")) 2 2 = Ok (VNum I32 (-2147483647)) /\
  get_slice (var_of scalar_file (bs "s")) (-34) 0 = Err EBadSeek.
Proof.
  split; [fixed_tac; left; split; vm_compute; reflexivity|]. split; [vm_compute; reflexivity|]. split; [vm_compute; reflexivity|]. split; [vm_compute; reflexivity|].
  split; [vm_compute; reflexivity|]. split; [vm_compute; reflexivity|]. split; [vm_compute; reflexivity|]. split; [vm_compute; reflexivity|]. split; vm_compute; reflexivity.
Qed.

Print Assumptions C89_value.
Print Assumptions C89_refuted.
Print Assumptions C89_before.
Print Assumptions C89_box_refuted.
