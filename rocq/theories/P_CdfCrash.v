(** C11: what makes opening arbitrary bytes as CDF crash. *)
From Coq Require Import Lia ZifyBool ZifyNat.
From Verif Require Import Prelude BaseLemmas GoVal CdfFormat CrashSpec CdfReaderModel CdfFormatEx CdfCrash CdfCrashSure.

(** Whatever the bytes, opening crashes only where the file begins as a header, in the widest sense, up to a length of
    a name or of an attribute that no memory holds, or to a variable with a dimension id that is needed and that no
    dimension has. *)
Theorem C11_reason_partial f : are_bytes f -> cdf_open f = Panic -> bad_header f.
Proof. exact (header_crash f). Qed.

(** A file with such a place never opens: it crashes unless one of five refusals comes first. *)
Theorem C11_place f : bad_header f ->
  cdf_open f = Panic \/
  exists e, In e [ECorruptedFile; EKeysDontMatch; EUnknownType; EDuplicateVariable; ENoStreaming] /\ cdf_open f = Err e.
Proof. exact (header_fails f). Qed.

(** Any dimensions, no attributes, and a first variable with such dimension ids: it crashes, in every version *)
Theorem C11_ids_refuted ver nr lens bl k nm ids t size rest : ver = 1 \/ ver = 2 \/ ver = 5 -> number ver nr -> nr <> numbers ver - 1 ->
  zlen lens <= 1024 -> Forall2 (any_dim ver) lens bl -> number ver k -> 0 < k -> any_name ver nm -> zlen ids <= 1024 -> Forall (number ver) ids ->
  bad_ids lens ids -> 0 <= t < 2 ^ 32 -> number ver size ->
  cdf_open (bs "CDF" ++ [ver] ++ non_neg ver nr ++ be 4 10 ++ non_neg ver (zlen lens) ++ List.concat bl ++ be 4 0 ++ non_neg ver 0 ++
    be 4 11 ++ non_neg ver k ++ nm ++ non_neg ver (zlen ids) ++ flat_map (non_neg ver) ids ++ be 4 0 ++ non_neg ver 0 ++ be 4 t ++ non_neg ver size ++ rest) = Panic.
Proof. exact (ids_crash ver nr lens bl k nm ids t size rest). Qed.

(** Any dimensions and then a name that is too long, negative lengths among them: it crashes, in every version *)
Theorem C11_name_refuted ver nr nd lens bl rest : ver = 1 \/ ver = 2 \/ ver = 5 -> number ver nr -> nr <> numbers ver - 1 ->
  nd <= 1024 -> number ver nd -> Forall2 (any_dim ver) lens bl -> zlen lens < nd -> long_name ver rest ->
  cdf_open (bs "CDF" ++ [ver] ++ non_neg ver nr ++ be 4 10 ++ non_neg ver nd ++ List.concat bl ++ rest) = Panic.
Proof. exact (name_length_crash ver nr nd lens bl rest). Qed.

Example C11_example_reason :
  (are_bytes bad_id_file /\ cdf_open bad_id_file = Panic) /\ (are_bytes neg_name_file /\ cdf_open neg_name_file = Panic).
Proof.
  split; (split; [vm_compute; repeat constructor; intro; discriminate|]); [exact bad_id_panics|exact neg_name_panics].
Qed.
(** A record dimension, a dimension of three, and a variable over the first and a third one *)
Definition kx_name (c : Z) : bytes := non_neg 2 1 ++ [c; 0; 0; 0].
Lemma kx_name_is c : any_name 2 (kx_name c).
Proof. exists 1, [c; 0; 0; 0]. split; [unfold number, numbers; cbn; lia|]. split; [reflexivity|]. split; [vm_compute; discriminate|reflexivity]. Qed.
Example C11_example_ids :
  number 2 7 /\ 7 <> numbers 2 - 1 /\ zlen [0; 3] <= 1024 /\
  Forall2 (any_dim 2) [0; 3] [kx_name 116 ++ non_neg 2 0; kx_name 120 ++ non_neg 2 3] /\ number 2 1 /\ any_name 2 (kx_name 118) /\
  Forall (number 2) [0; 1; 2] /\ bad_ids [0; 3] [0; 1; 2] /\ ~ bad_ids [0; 3] [1; 2] /\ number 2 12 /\
  long_name 2 (non_neg 2 (2 ^ 31) ++ [1]) /\ long_name 5 (non_neg 5 (2 ^ 64 - 1)) /\ ~ long_name 5 (non_neg 5 (2 ^ 48) ++ [1]).
Proof.
  assert (W : forall n, 0 <= n < 2 ^ 32 -> number 2 n) by (intros n H; exact H).
  assert (W5 : forall n, 0 <= n < 2 ^ 64 -> number 5 n) by (intros n H; exact H).
  split; [apply W; lia|]. split; [discriminate|]. split; [vm_compute; discriminate|].
  split; [constructor; [|constructor; [|constructor]]|].
  { exists (kx_name 116), 0. split; [apply kx_name_is|]. split; [apply W; lia|]. split; reflexivity. }
  { exists (kx_name 120), 3. split; [apply kx_name_is|]. split; [apply W; lia|]. split; reflexivity. }
  split; [apply W; lia|]. split; [apply kx_name_is|]. split; [repeat constructor; apply W; lia|].
  split; [exists 0, [1; 2]; split; [reflexivity|]; right; split; [reflexivity|]; right; left; vm_compute; discriminate|].
  split.
  { intros (i & r & E & [H|[H _]]); injection E as <- <-; [change (zlen [0; 3]) with 2 in H; lia|cbn in H; discriminate]. }
  split; [apply W; lia|]. split; [exists (2 ^ 31), [1]; split; [apply W; lia|]; split; [vm_compute; reflexivity|reflexivity]|].
  split; [exists (2 ^ 64 - 1), []; split; [apply W5; lia|]; split; [vm_compute; reflexivity|rewrite app_nil_r; reflexivity]|].
  intros (n & rest & Hn & L & E). change (non_neg 5) with (be 8) in E. assert (En : be 8 (2 ^ 48) = be 8 n).
  { pose proof (f_equal (firstn 8) E) as E8. rewrite !firstn_app, !be_length in E8. rewrite !firstn_all2 in E8 by (rewrite be_length; apply le_n).
    cbn [Nat.sub firstn] in E8. rewrite !app_nil_r in E8. exact E8. }
  apply (f_equal of_be) in En. rewrite !of_be_be8 in En by (try exact Hn; lia). subst n. vm_compute in L. discriminate L.
Qed.

Print Assumptions C11_reason_partial.
Print Assumptions C11_place.
Print Assumptions C11_ids_refuted.
Print Assumptions C11_name_refuted.
Print Assumptions C11_example_reason.
Print Assumptions C11_example_ids.
