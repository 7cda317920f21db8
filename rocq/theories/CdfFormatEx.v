(** A concrete conforming file with a record variable, and malformed files. *)
From Coq Require Import ZifyBool ZifyNat.
From Verif Require Import Prelude GoVal BaseLemmas ArraySpec CdfFormat OrderedMapModel CdfWriterModel CdfReaderModel CdfCodec.
Ltac Zify.zify_post_hook ::= Z.div_mod_to_equations.

(** One encoding of each header: zero padding, no absent lists *)
Definition put_pad (b : bytes) : bytes := b ++ zrep ((- zlen b) mod 4) 0.
Lemma put_pad_padded b : padded b (put_pad b).
Proof.
  exists (zrep ((- zlen b) mod 4) 0). split; [reflexivity|]. unfold put_pad. rewrite zlen_app, zlen_zrep.
  pose proof (zlen_nonneg b). split; lia.
Qed.
Definition put_name (ver : Z) (nm : bytes) : bytes := non_neg ver (zlen nm) ++ put_pad nm.
Definition put_list {A} (item : A -> bytes) (tag ver : Z) (l : list A) : bytes :=
  be 4 tag ++ non_neg ver (zlen l) ++ List.concat (map item l).
Definition put_dim (ver : Z) (d : bytes * Z) : bytes := put_name ver (fst d) ++ non_neg ver (snd d).
Definition put_att (ver : Z) (a : fatt) : bytes :=
  put_name ver (fa_name a) ++ be 4 (type_code (aval_type (fa_val a))) ++ non_neg ver (aval_count (fa_val a)) ++
  put_pad (aval_bytes (fa_val a)).
Definition put_var (ver : Z) (v : fvar) : bytes :=
  put_name ver (fv_name v) ++ non_neg ver (zlen (fv_dims v)) ++ flat_map (non_neg ver) (fv_dims v) ++
  put_list (put_att ver) 12 ver (fv_atts v) ++ be 4 (type_code (fv_type v)) ++ non_neg ver (fv_size v) ++ offs ver (fv_begin v).
Definition put_header (h : fheader) : bytes :=
  bs "CDF" ++ [fh_ver h] ++ non_neg (fh_ver h) (fh_numrecs h) ++ put_list (put_dim (fh_ver h)) 10 (fh_ver h) (fh_dims h) ++
  put_list (put_att (fh_ver h)) 12 (fh_ver h) (fh_atts h) ++ put_list (put_var (fh_ver h)) 11 (fh_ver h) (fh_vars h).
Lemma put_list_bytes {A} (R : A -> bytes -> Prop) item tag ver l : (forall a, R a (item a)) ->
  list_bytes R tag ver l (put_list item tag ver l).
Proof.
  intros H. left. exists (map item l). split; [|reflexivity]. induction l as [|a l IH]; [constructor|]. cbn [map]. constructor; [apply H|exact IH].
Qed.
Lemma put_name_bytes ver nm : name_bytes ver nm (put_name ver nm).
Proof. exists (put_pad nm). split; [apply put_pad_padded|reflexivity]. Qed.
Lemma put_att_bytes ver a : att_bytes ver a (put_att ver a).
Proof. exists (put_name ver (fa_name a)), (put_pad (aval_bytes (fa_val a))). split; [apply put_name_bytes|]. split; [apply put_pad_padded|reflexivity]. Qed.
Lemma put_header_bytes h : header_bytes h (put_header h).
Proof.
  eexists _, _, _. split; [|split; [|split; [|reflexivity]]]; apply put_list_bytes; intros x.
  - exists (put_name (fh_ver h) (fst x)). split; [apply put_name_bytes|reflexivity].
  - apply put_att_bytes.
  - exists (put_name (fh_ver h) (fv_name x)), (put_list (put_att (fh_ver h)) 12 (fh_ver h) (fv_atts x)).
    split; [apply put_name_bytes|]. split; [|reflexivity]. apply put_list_bytes. apply put_att_bytes.
Qed.

(** Version 1; two records of a (t, x) array of shorts, and a fixed array of doubles *)
Definition rec_header : fheader :=
  mkFheader 1 2 [(bs "t", 0); (bs "x", 3)] [mkFatt (bs "title") (AText (bs "demo")); mkFatt (bs "lims") (ANums F32 [1; 2])]
    [ mkFvar (bs "r") [0; 1] [mkFatt (bs "scale") (ANums I16 [-7])] (ENum I16) 8 264;
      mkFvar (bs "s") [0] [] (ENum I32) 4 272;
      mkFvar (bs "fix") [1] [] (ENum F64) 24 240 ].
Definition rec_data : bytes := flat_map (be 8) [11; 12; 13] ++ flat_map (be 2) [1; 2; -3; 0] ++ be 4 77 ++ flat_map (be 2) [4; 5; 6; 0] ++ be 4 (-78).
Lemma rec_start : zlen (put_header rec_header) = 240.
Proof. vm_compute. reflexivity. Qed.

Lemma rec_header_ok : header_ok rec_header /\ names_distinct rec_header /\ Forall (unlimited_first (fh_dims rec_header)) (fh_vars rec_header).
Proof.
  assert (NK : forall ver nm, forallb (fun b => 0 <? b) nm = true -> zlen nm < 2 ^ 31 -> fname_ok ver nm).
  { intros ver nm H L. split; [|split].
    - intros X. rewrite forallb_forall in H. specialize (H 0 X). discriminate.
    - unfold nlimit. destruct (ver =? 5); lia.
    - lia. }
  split; [constructor|split].
  all: cbn [rec_header fh_ver fh_numrecs fh_dims fh_atts fh_vars].
  - left. reflexivity.
  - cbn. lia.
  - cbn. lia.
  - repeat constructor; try (apply NK; reflexivity); cbn; lia.
  - reflexivity.
  - repeat constructor; try (apply NK; reflexivity); try (cbn; lia); try discriminate; cbn; intuition discriminate.
  - reflexivity.
  - repeat apply Forall_cons; try apply Forall_nil; constructor; cbn [fv_name fv_dims fv_atts fv_size fv_begin];
      try (apply NK; reflexivity); try (cbn; lia);
      repeat constructor; try (apply NK; reflexivity); try (cbn; lia); try discriminate; cbn; intuition discriminate.
  - split; [|split]; cbn; repeat constructor; cbn; intuition discriminate.
  - repeat constructor; cbn; lia.
Qed.

(** The same header with two variables called "r" *)
Definition dup_header : fheader :=
  mkFheader 1 0 [] [] [mkFvar (bs "r") [] [] (ENum I16) 4 100; mkFvar (bs "r") [] [] (ENum I16) 4 104].
Lemma dup_header_ok : header_ok dup_header /\ ~ names_distinct dup_header.
Proof.
  split.
  - constructor; cbn [dup_header fh_ver fh_numrecs fh_dims fh_atts fh_vars]; try (cbn; lia); try apply Forall_nil.
    repeat apply Forall_cons; try apply Forall_nil; constructor; cbn [fv_name fv_dims fv_atts fv_size fv_begin];
      try apply Forall_nil; try (cbn; lia); (split; [cbn; intuition discriminate|split; cbn; lia]).
  - intros (_ & _ & H). cbn in H. apply NoDup_cons_iff in H. destruct H as [H _]. apply H. left. reflexivity.
Qed.

(** A dimension id that is out of range *)
Definition bad_id_file : bytes :=
  put_header (mkFheader 1 0 [] [] [mkFvar (bs "v") [5] [] (ENum I16) 4 100]).
Lemma bad_id_panics : cdf_open bad_id_file = Panic.
Proof. vm_compute. reflexivity. Qed.
(** A negative length of a name *)
Definition neg_name_file : bytes := bs "CDF" ++ [1] ++ be 4 0 ++ be 4 10 ++ be 4 1 ++ be 4 (- 2 ^ 30).
Lemma neg_name_panics : cdf_open neg_name_file = Panic.
Proof. vm_compute. reflexivity. Qed.
