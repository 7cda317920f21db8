(** C32, C34, C52: datatypes and data of HDF5 variables. *)
From Verif Require Import Prelude GoVal H5Base H5MetaWrite H5MetaRead H5Value H5TypeRead
  TypeSpec MetaSpec BaseLemmas H5ChecksumProofs H5MetaProofs H5TypeProofs H5DataProofs H5StoreProofs
  H5VarProofs.
From Coq Require Import ZifyBool ZifyNat.

(** ** C32 *)

(** The datatype message of a variable is parsed to the description of its element type,
    with nothing left over. *)
Theorem C32_variable_datatype s dims v :
  var_type s -> value_of s dims v -> shape_ok s dims v ->
  exists dt, buildDatatypeMessage false v (List.length dims) = Ok dt /\
             parseDatatype dt = Ok (describe s, []).
Proof.
  intros Ht Hv Hs. exists (sdt s). split; [apply variable_codec; assumption|].
  apply parse_message. apply Ht.
Qed.

(** The same of one element of any type that can be written, compounds with sequences
    included (attributes have such values); whatever follows is left alone if no opaque
    type is involved. *)
Theorem C32_element_datatype s v :
  writable s -> conf s v -> seqs_ok s v = true -> s <> SStr ->
  exists dt, buildDatatypeMessage false v 0 = Ok dt /\ parseDatatype dt = Ok (describe s, []) /\
    (has_opaque s = false -> forall fuel r, (List.length dt <= fuel)%nat ->
       printDatatype fuel (dt ++ r) = Ok (describe s, r)).
Proof.
  intros Hw Hc Hq Hs. exists (sdt s). split; [|split].
  - apply build_sdt; try assumption. intros E. contradiction.
  - apply parse_message. exact Hw.
  - intros Ho fuel r Hf. apply parse_sdt; [exact Hw| |congruence].
    pose proof (depth_le s). lia.
Qed.

(** A scalar string has its own length, with a terminating zero. *)
Theorem C32_scalar_string t : text t -> zlen t + 1 < 2 ^ 32 ->
  exists dt, buildDatatypeMessage false (HStr t) 0 = Ok dt /\
             parseDatatype dt = Ok (DString (zlen t + 1), []).
Proof.
  intros Ht Hl. destruct (scalar_string t Ht Hl) as (A & B & _). exists (stringDt (zlen t + 1)).
  split; assumption.
Qed.

(** Types that are accepted and not read back: an opaque member that is not the last one,
    a compound of 256 members, one of 65536 bytes, a slice of compounds without elements. *)
Definition opaque_first : hval :=
  HComp [(bs "a", HOpaque [1; 2]); (bs "b", HNum I32 7)].
Definition big_comp : hval :=
  HComp [(bs "b", HNum I32 7); (bs "a", HOpaque (zrep 65532 1))].
Definition many : hval := HComp (repeat (bs "a", HNum I8 1) 256).
Definition parsed (v : hval) (n : nat) : res (option dty) :=
  let* dt := buildDatatypeMessage false v n in
  match parseDatatype dt with Ok (d, _) => Ok (Some d) | Err e => Err e | _ => Ok None end.
Theorem C32_unreadable_refuted :
  parsed opaque_first 0 = Err EInternal /\
  parsed (HSlice TComp []) 1 = Err EInternal /\
  parsed (HSlice TOpaque []) 1 = Err EInternal /\
  parsed many 0 = Ok (Some (DComp 256 [])) /\
  parsed big_comp 0 = Err EInternal.
Proof. vm_compute. split; [|split; [|split; [|split]]]; reflexivity. Qed.

(** A compound with a number, a nested compound with a string, an enumeration and, at the
    end, an opaque member. *)
Definition ex_sty : sty :=
  SComp [(bs "n", SNum I16); (bs "in", SComp [(bs "t", SStr); (bs "x", SNum F64)]);
         (bs "e", SEnum U8 [bs "off"; bs "on"] [0; 1]); (bs "o", SOpaque 3)].
Definition ex_elem (n : Z) (t : bytes) : hval :=
  HComp [(bs "n", HNum I16 n); (bs "in", HComp [(bs "t", HStr t); (bs "x", HNum F64 5)]);
         (bs "e", HEnum (HNum U8 1) [bs "off"; bs "on"] [HNum U8 0; HNum U8 1]);
         (bs "o", HOpaque [1; 2; 3])].
Definition ex_var : hval := HSlice TComp [ex_elem (-2) (bs "abc"); ex_elem 300 (bs "de")].

Lemma text_dec t : forallb (fun b => (0 <? b) && (b <? 256)) t = true -> text t.
Proof.
  intros H. apply Forall_forall. intros b Hb. rewrite forallb_forall in H. specialize (H b Hb). lia.
Qed.

Lemma ex_elem_conf n t : in_range I16 n = true -> text t -> zlen t < 2 ^ 32 -> conf ex_sty (ex_elem n t).
Proof.
  intros Hn Ht Hl. eexists. split; [reflexivity|].
  split; [reflexivity|]. split; [exists n; split; [reflexivity|exact Hn]|].
  split; [reflexivity|]. split.
  { eexists. split; [reflexivity|]. split; [reflexivity|].
    split; [exists t; split; [reflexivity|split; [exact Ht|exact Hl]]|].
    split; [reflexivity|]. split; [exists 5; split; reflexivity|exact I]. }
  split; [reflexivity|]. split; [exists 1; split; reflexivity|].
  split; [reflexivity|]. split; [exists [1; 2; 3]; split; reflexivity|exact I].
Qed.

Lemma ex_writable : writable ex_sty.
Proof.
  split; [reflexivity|]. split; [left; split; reflexivity|].
  split; [apply text_dec; reflexivity|]. split; [exact I|]. split; [reflexivity|].
  split; [apply text_dec; reflexivity|]. split.
  { split; [reflexivity|]. split; [left; split; reflexivity|].
    split; [apply text_dec; reflexivity|]. split; [exact I|]. split; [reflexivity|].
    split; [apply text_dec; reflexivity|]. split; [exact I|]. split; [reflexivity|exact I]. }
  split; [reflexivity|]. split; [apply text_dec; reflexivity|]. split.
  { split; [split; discriminate|]. split; [reflexivity|]. split; [reflexivity|].
    split; [repeat (apply Forall_cons; [apply text_dec; reflexivity|]); apply Forall_nil|].
    repeat (apply Forall_cons; [reflexivity|]). apply Forall_nil. }
  split; [reflexivity|]. split; [apply text_dec; reflexivity|].
  split; [split; reflexivity|]. split; [|exact I]. intros H. contradiction.
Qed.

Lemma ex_var_ok : var_ok (ex_sty, [2], ex_var).
Proof.
  split; [|split].
  - split; [exact ex_writable|]. left. reflexivity.
  - eexists. split; [reflexivity|]. split; [reflexivity|].
    apply Forall_cons; [apply ex_elem_conf; [reflexivity|apply text_dec; reflexivity|reflexivity]|].
    apply Forall_cons; [apply ex_elem_conf; [reflexivity|apply text_dec; reflexivity|reflexivity]|].
    apply Forall_nil.
  - split; [|reflexivity]. intros n [<-|[]]. reflexivity.
Qed.

Example C32_example :
  var_ok (ex_sty, [2], ex_var) /\
  parsed ex_var 1 = Ok (Some (DComp 30
    [(bs "n", 0, [], DFixed 2 true false);
     (bs "in", 2, [], DComp 24 [(bs "t", 0, [], DVlen 16 true (DString 1));
                                (bs "x", 16, [], DFloat 8 false)]);
     (bs "e", 26, [], DEnum 1 1 false false [bs "off"; bs "on"] [HNum U8 0; HNum U8 1]);
     (bs "o", 27, [], DOpaque 3)])).
Proof. split; [exact ex_var_ok|]. vm_compute. reflexivity. Qed.

(** ** C34 *)

(** The file has the heap with the objects [objs] at [addr], or there is no heap and none is
    needed. *)
Definition heap_stored (f : bytes) (addr : Z) (objs : list bytes) : Prop :=
  (objs = [] /\ addr = 0) \/
  (exists n b, globalHeap n objs = (addr, b) /\ has_at f n b).

Lemma heap_stored_gives f addr hf : heap_stored f addr (hs_objs hf) -> zlen f < 2 ^ 63 ->
  zlen (hs_objs hf) <= 65535 -> heap_gives (readGlobalHeap f) addr hf.
Proof.
  intros [[E ->]|(n & b & E & Hat)] Hf Hc.
  - split; [lia|]. split; [lia|]. intros i x Hi. rewrite E in Hi. destruct i; discriminate.
  - assert (Ha : 0 <= addr < 2 ^ 64).
    { destruct Hat as (pre & post & Ef & Hn). unfold globalHeap in E. cbv zeta in E.
      assert (E1 : addr = n + zlen (pad8 n)) by congruence.
      assert (E2 : exists t, b = pad8 n ++ t) by (apply (f_equal snd) in E; cbn [snd] in E; eexists; symmetry; exact E).
      destruct E2 as (t & ->). pose proof (zlen_nonneg pre). pose proof (zlen_nonneg (pad8 n)).
      rewrite Ef, !zlen_app in Hf. pose proof (zlen_nonneg t). pose proof (zlen_nonneg post). lia. }
    split; [exact Ha|]. split; [lia|]. intros i x Hi Hx.
    rewrite (heap_read n (hs_objs hf) f addr b E Hat Hf Hc) by lia.
    replace (Z.to_nat (Z.of_nat i + 1 - 1)) with i by lia. rewrite Hi. destruct x; [congruence|reflexivity].
Qed.

(** Any variables, in any order: the writer collects their strings and sequences, and from
    the heap so built, the data it then writes for each of them is read back as the value
    that was to be written, on a little-endian host.  The data take just the bytes that
    the dimensions and the type ask for. *)
Theorem C34_values_read_back_partial vars :
  Forall var_ok vars ->
  exists hf ixs,
    collectHeap false (map var_in vars) = Ok (hf, ixs) /\
    forall f addr, heap_stored f addr (hs_objs hf) -> zlen f < 2 ^ 63 ->
      zlen (hs_objs hf) <= 65535 ->
      Forall2 (fun x ix =>
        match x with
        | (s, dims, v) =>
            exists data,
              writeDataVar false {| he_addr := addr; he_idx := map_idx (hs_map hf) |} v
                (List.length dims) ix = Ok (data, []) /\
              zlen data = fold_left Z.mul dims (size_of s) /\
              forall rest, alloc (readGlobalHeap f) (describe s) dims (data ++ rest) = Ok (v, rest)
        end) vars ixs.
Proof.
  intros H. unfold collectHeap.
  set (h0 := {| hs_objs := []; hs_map := [] |}).
  assert (H0 : hinv h0) by apply hinv_empty.
  set (h1 := fold_left _ _ h0).
  assert (G : good h0 h1) by (apply strings_good; exact H0). destruct G as [G1 G2].
  destruct (vlen_vars vars H h1 G1) as (hf & ixs & A1 & A2 & A3 & A4).
  { pose proof (collected_all (map var_in vars) h0 h1 H0 (grow_refl h1)) as C.
    revert C. generalize h1. clear. intros h1 C. induction vars as [|[[s d] v] vars IH]; [constructor|].
    cbn [map] in C. inversion C as [|x' r' C1 C2]; subst x' r'. constructor; [exact C1|apply IH; assumption]. }
  exists hf, ixs. split; [exact A1|]. intros f addr Hh Hf Hc.
  pose proof (A4 hf _ addr (grow_refl hf) A2 (heap_stored_gives f addr hf Hh Hf Hc)) as F.
  eapply Forall2_imp; [|exact F]. intros [[s d] v] ix R. exact R.
Qed.

(** A scalar string. *)
Theorem C34_scalar_string t : text t -> zlen t + 1 < 2 ^ 32 ->
  forall heap e ix rest, exists data, writeDataVar false e (HStr t) 0 ix = Ok (data, ix) /\
    alloc heap (DString (zlen t + 1)) [] (data ++ rest) = Ok (HStr t, rest).
Proof. intros Ht Hl. apply scalar_string; assumption. Qed.

(** The dimensions that go into the dataspace are those of the array, if none is zero. *)
Theorem C34_dimensions s dims v : array_of s dims v -> (forall n, In n dims -> 0 < n) ->
  getDimsLimited (List.length dims) v = dims.
Proof. intros H Hp. eapply dims_limited; eassumption. Qed.

(** A big-endian host writes big-endian data under a little-endian type: 1 is read as 256. *)
Definition no_heap (_ _ : Z) : res (option bytes) := Err EInternal.
Definition trip (big : bool) (v : hval) (n : nat) : res hval :=
  let* dt := buildDatatypeMessage big v n in
  let* (d, _) := parseDatatype dt in
  let* (h, ix) := collectVlenVar big (collectStrings {| hs_objs := []; hs_map := [] |} v) v n in
  let e := {| he_addr := 48; he_idx := map_idx (hs_map h) |} in
  let* (data, _) := writeDataVar big e v n ix in
  let heap a i := if a =? 48 then Ok (nth_error (hs_objs h) (Z.to_nat (i - 1))) else Err EEOF in
  let* (w, _) := alloc heap d (getDimsLimited n v) data in
  Ok w.
Theorem C34_big_endian_refuted :
  trip true (HSlice (TNum I16) [HNum I16 1; HNum I16 2]) 1
  = Ok (HSlice (TNum I16) [HNum I16 256; HNum I16 512]).
Proof. vm_compute. reflexivity. Qed.

(** Values that are accepted and come back different, or not at all: sequences inside a
    compound variable, strings in sequences of compounds (stored with a heap address of
    0), sequences of sequences (a level and the last number are lost), an array of no sequences, a string with a zero in it. *)
Theorem C34_values_refuted :
  trip false (HComp [(bs "a", HSlice (TNum I8) [HNum I8 1])]) 0 = Err EUnsupportedType /\
  trip false (HSlice TComp [HComp [(bs "a", HStr (bs "x"))]]) 0 = Err EEOF /\
  trip false (HSlice (TSlice (TSlice (TNum I8)))
                [HSlice (TSlice (TNum I8)) [HSlice (TNum I8) [HNum I8 1; HNum I8 2];
                                            HSlice (TNum I8) [HNum I8 3]]]) 1
    = Ok (HSlice (TSlice (TNum I8)) [HSlice (TNum I8) [HNum I8 1; HNum I8 2]]) /\
  trip false (HSlice (TSlice (TNum I8)) []) 1 = Panic /\
  trip false (HSlice TStr [HStr [65; 0; 66]]) 1 = Ok (HSlice TStr [HStr [65]]).
Proof. vm_compute. repeat split. Qed.

(** A two-dimensional array of numbers, strings that occur twice and one that is empty,
    rows of different lengths, compounds, an enumeration. *)
Definition ex_rows : hval :=
  HSlice (TSlice (TNum U16)) [HSlice (TNum U16) [HNum U16 1; HNum U16 65535]; HSlice (TNum U16) [];
                              HSlice (TNum U16) [HNum U16 7]].
Definition ex_enum : hval :=
  HEnum (HSlice (TNum I8) [HNum I8 (-1); HNum I8 4]) [bs "m"; bs "f"] [HNum I8 (-1); HNum I8 4].
Definition ex_strings : hval := HSlice TStr [HStr (bs "one"); HStr []; HStr (bs "one"); HStr (bs "two")].
Example C34_example :
  trip false (HSlice (TSlice (TNum I32)) [HSlice (TNum I32) [HNum I32 1; HNum I32 (-2)];
                                          HSlice (TNum I32) [HNum I32 3; HNum I32 4]]) 2
    = Ok (HSlice (TSlice (TNum I32)) [HSlice (TNum I32) [HNum I32 1; HNum I32 (-2)];
                                      HSlice (TNum I32) [HNum I32 3; HNum I32 4]]) /\
  trip false ex_strings 1 = Ok ex_strings /\
  trip false ex_rows 1 = Ok ex_rows /\
  trip false ex_var 1 = Ok ex_var /\
  trip false ex_enum 1 = Ok ex_enum.
Proof. vm_compute. split; [|split; [|split; [|split]]]; reflexivity. Qed.

Lemma ex_rows_ok : var_ok (SVlen (SNum U16), [3], ex_rows).
Proof.
  split; [|split].
  - split; [split; [exact I|reflexivity]|]. right. eexists. reflexivity.
  - eexists. split; [reflexivity|]. split; [reflexivity|].
    assert (C : forall l, Forall (fun z => in_range U16 z = true) l -> zlen l < 2 ^ 32 ->
              conf (SVlen (SNum U16)) (HSlice (TNum U16) (map (HNum U16) l))).
    { intros l Hl Hz. apply conf_vlen. exists (map (HNum U16) l). split; [reflexivity|].
      split; [rewrite zlen_map; exact Hz|]. apply Forall_map. eapply Forall_impl; [|exact Hl].
      intros z Ez. exists z. split; [reflexivity|exact Ez]. }
    apply Forall_cons; [apply (C [1; 65535]); [|reflexivity]|].
    { apply Forall_cons; [reflexivity|]. apply Forall_cons; [reflexivity|]. apply Forall_nil. }
    apply Forall_cons; [apply (C []); [apply Forall_nil|reflexivity]|].
    apply Forall_cons; [apply (C [7]); [|reflexivity]|apply Forall_nil].
    apply Forall_cons; [reflexivity|]. apply Forall_nil.
  - split; [|reflexivity]. intros n [<-|[]]. reflexivity.
Qed.
Example C34_hypotheses :
  Forall var_ok [(ex_sty, [2], ex_var); (SVlen (SNum U16), [3], ex_rows)].
Proof.
  apply Forall_cons; [exact ex_var_ok|]. apply Forall_cons; [exact ex_rows_ok|]. apply Forall_nil.
Qed.

(** ** C52 *)

(** The offsets of compound members are read at the width at which they were written,
    for every size of the compound up to 65535 and from 2^24 on. *)
Theorem C52_offset_width_partial val total rest :
  0 <= val < total -> total < 65536 \/ 16777216 <= total < 2 ^ 32 ->
  readEnc (offsetWidth 3 total) (writeEnc val total ++ rest) = Ok (val, rest).
Proof. intros Hv Ht. apply enc_width_ok; [exact Hv|]. unfold size_ok. lia. Qed.

(** The decoder at a width it knows gets every value that fits. *)
Theorem C52_fixed_width w val rest :
  In w [1; 2; 4; 8] -> 0 <= val < 2 ^ (8 * w) -> readEnc w (le (Z.to_nat w) val ++ rest) = Ok (val, rest).
Proof.
  intros Hw Hv. unfold readEnc.
  destruct Hw as [<-|[<-|[<-|[<-|[]]]]].
  - cbn [Z.eqb Pos.eqb]. change (Z.to_nat 1) with 1%nat. cbn [le app].
    rewrite Z.mod_small by exact Hv. apply read8_cons.
  - cbn [Z.eqb Pos.eqb]. apply read16_le. exact Hv.
  - cbn [Z.eqb Pos.eqb]. apply read32_le'. exact Hv.
  - cbn [Z.eqb Pos.eqb]. apply read64_le. exact Hv.
Qed.

(** In between the writer uses four bytes and the reader expects three, which its decoder
    does not know: every such compound is unreadable. *)
Theorem C52_three_bytes_refuted val total rest :
  65536 <= total < 16777216 ->
  zlen (writeEnc val total) = 4 /\ offsetWidth 3 total = 3 /\
  readEnc (offsetWidth 3 total) (writeEnc val total ++ rest) = Err EInternal.
Proof.
  intros Ht. unfold writeEnc, offsetWidth. change (3 <? 3) with false. cbv iota.
  replace (total <? 256) with false by lia. replace (total <? 65536) with false by lia.
  replace (total <? 16777216) with true by lia.
  split; [apply zlen_le|]. split; reflexivity.
Qed.

Example C52_example : 
  readEnc (offsetWidth 3 300) (writeEnc 258 300 ++ [9]) = Ok (258, [9]) /\
  readEnc (offsetWidth 3 200) (writeEnc 199 200 ++ [9]) = Ok (199, [9]) /\
  readEnc (offsetWidth 3 16777216) (writeEnc 16777215 16777216 ++ [9]) = Ok (16777215, [9]) /\
  readEnc (offsetWidth 3 70000) (writeEnc 5 70000 ++ [9]) = Err EInternal.
Proof. vm_compute. split; [|split; [|split]]; reflexivity. Qed.

Print Assumptions C32_variable_datatype.
Print Assumptions C32_element_datatype.
Print Assumptions C32_scalar_string.
Print Assumptions C32_unreadable_refuted.
Print Assumptions C34_values_read_back_partial.
Print Assumptions C34_scalar_string.
Print Assumptions C34_dimensions.
Print Assumptions C34_big_endian_refuted.
Print Assumptions C34_values_refuted.
Print Assumptions C52_offset_width_partial.
Print Assumptions C52_fixed_width.
Print Assumptions C52_three_bytes_refuted.
