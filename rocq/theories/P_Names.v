(** Property C22: valid names. *)
From Verif Require Import Prelude GoVal ValidNameModel ValidNameProofs CdfWriterModel CdfReaderModel NameUse.

(** The recogniser accepts exactly the good names, for every string of Unicode scalar values. *)
Theorem C22_valid_exactly U cs : ucd_ascii U -> ucd_disjoint U -> Forall scalar_value cs ->
  (valid_name U (utf8_string cs) = true <-> good_name U cs).
Proof. exact (valid_name_iff U cs). Qed.

(** For byte strings that are not UTF-8, the same of the decoded code points (U+FFFD for every
    undecodable byte); accepted names are never empty and never contain a NUL byte. *)
Theorem C22_any_bytes U s : ucd_ascii U -> ucd_disjoint U ->
  (valid_name U s = true <-> good_name U (runes s)) /\
  (valid_name U s = true -> s <> [] /\ ~ In 0 s).
Proof. exact (valid_name_bytes U s). Qed.

(** Names of variables and attributes accepted by the CDF writer are good. *)
Theorem C22_cdf_accepts_only_good U st o st' : ucd_ascii U -> ucd_disjoint U ->
  wstep U st o = (st', Ok tt) ->
  (forall n v d a, o = WVar n v d a -> good_name U (runes n)) /\
  (forall n v d a k x, o = WVar n v d a -> In (k, x) a -> good_name U (runes k)) /\
  (forall a k x, o = WAttrs a -> In (k, x) a -> good_name U (runes k)).
Proof. exact (cdf_accepted_names U st o st'). Qed.

(** A valid name survives the encoding in a CDF header. *)
Theorem C22_cdf_name_codec U ver out name r : ucd_ascii U -> ucd_disjoint U ->
  valid_name U name = true -> ver = 2 \/ ver = 5 -> zlen out mod 4 = 0 -> zlen name < 2 ^ 31 ->
  exists b, write_name ver out name = out ++ b /\ read_name ver (b ++ r) = Ok (name, r).
Proof. exact (valid_name_codec U ver out name r). Qed.

Example C22_example :
  ucd_ascii ucd_example /\ ucd_disjoint ucd_example /\
  Forall scalar_value [233; 32; 8364; 128512] /\ good_name ucd_example [233; 32; 8364; 128512] /\
  ~ good_name ucd_example [95; 97] /\ ~ good_name ucd_example [97; 32].
Proof. exact names_example. Qed.

Print Assumptions C22_valid_exactly.
Print Assumptions C22_any_bytes.
Print Assumptions C22_cdf_accepts_only_good.
Print Assumptions C22_cdf_name_codec.
