(** Properties C01-C05: what is written to a CDF file is what is read back. *)
From Verif Require Import Prelude GoVal ValidNameModel ValidNameProofs OrderedMapModel ArraySpec CdfSpec CdfCalls
  CdfWriterModel CdfReaderModel CdfInv CdfRound CdfLayout CdfExamples.

(** C01.  Full claim: as below, with [storable] replaced by "rectangular, no dimension of length
    zero".  Missing: a scalar character of code 128 or more, string arrays whose longest string
    is not in the first row, and scalar signalling NaNs; for these the claim is false of the code
    ([C01_refuted]).  [accepted ops rs] are the calls that returned nil. *)
Theorem C01_values_partial U ops rs st f : ucd_ascii U -> ucd_disjoint U ->
  wrun U open_writer ops = (st, rs) -> fits ops rs st -> close_writer st = Ok f -> zlen f < 2 ^ 62 ->
  exists c, cdf_open f = Ok c /\
    forall n v d a, In (WVar n v d a) (accepted ops rs) ->
      exists x, get_variable c n = Ok x /\ var_values x = returned v.
Proof. exact (round_values U ops rs st f). Qed.

(** Under the same preconditions Close does succeed. *)
Theorem C01_close_partial U ops rs st : ucd_ascii U -> ucd_disjoint U ->
  wrun U open_writer ops = (st, rs) -> fits ops rs st -> exists f, close_writer st = Ok f.
Proof. intros UA UD E F. eexists. exact (close_fits U ops rs st UA UD E F). Qed.

(** A history with a rejected call, numbers, strings, scalars, attributes. *)
Example C01_example : fits ex_ops ex_rs ex_st /\ ucd_ascii U0 /\ ucd_disjoint U0 /\
  wrun U0 open_writer ex_ops = (ex_st, ex_rs) /\ close_writer ex_st = Ok ex_file /\ zlen ex_file < 2 ^ 62 /\
  ex_rs = [Ok tt; Ok tt; Err EDimensionSize; Ok tt; Ok tt; Ok tt].
Proof.
  exact (conj ex_fits (conj ucd_example_ascii (conj ucd_example_disjoint
    (conj (surjective_pairing _) (conj ex_close (conj ex_len ex_rs_eq)))))).
Qed.

(** Accepted and closed without error, but read back differently. *)
Theorem C01_refuted :
  (exists x, reads_as [WVar (bs "c") (VStr [200]) [] []] (bs "c") (Ok x) /\
     var_values x = VStr [195; 136]) /\
  (exists x, reads_as [WVar (bs "c") (VSlice (GSlice GString) [strs [bs "a"]; strs [bs "bcd"]]) [] []]
       (bs "c") (Ok x) /\
     var_values x = VSlice (GSlice GString) [strs [bs "a"]; strs [bs "b"]]) /\
  (exists x, reads_as [WVar (bs "c") (VNum F32 2141192192) [] []] (bs "c") (Ok x) /\
     var_values x = VNum F32 2145386496).
Proof. exact (conj (ex_intro _ _ (conj char_read eq_refl)) (conj late_read nan_read)). Qed.

(** C02. *)
Theorem C02_attributes U ops rs st f : ucd_ascii U -> ucd_disjoint U ->
  wrun U open_writer ops = (st, rs) -> fits ops rs st -> close_writer st = Ok f -> zlen f < 2 ^ 62 ->
  exists c, cdf_open f = Ok c /\
    (om_keys_visible (c_gattrs c) = map fst (last_attrs [] (accepted ops rs)) /\
     forall k y, In (k, y) (last_attrs [] (accepted ops rs)) ->
       om_get (c_gattrs c) k = Some (attr_returned y)) /\
    forall n v d a, In (WVar n v d a) (accepted ops rs) ->
      exists x, get_variable c n = Ok x /\
        om_keys_visible (var_attributes x) = map fst a /\
        forall k y, In (k, y) a -> om_get (var_attributes x) k = Some (attr_returned y).
Proof. exact (round_attributes U ops rs st f). Qed.

Example C02_example : In (bs "range", ints I16 [1; -2; 3]) (last_attrs [] (accepted ex_ops ex_rs)) /\
  In (WVar (bs "s") (VNum I16 (-5)) [] [(bs "n", VNum I8 3)]) (accepted ex_ops ex_rs).
Proof. rewrite ex_rs_eq. cbn. tauto. Qed.

(** C03.  [known_after] and [names_of] spell out first use and generated names. *)
Theorem C03_names U ops rs st f : ucd_ascii U -> ucd_disjoint U ->
  wrun U open_writer ops = (st, rs) -> fits ops rs st -> close_writer st = Ok f -> zlen f < 2 ^ 62 ->
  exists c, cdf_open f = Ok c /\
    list_variables c = var_names (accepted ops rs) /\
    NoDup (list_dimensions c) /\
    (forall n v d a, In (WVar n v d a) (accepted ops rs) ->
       exists x, get_variable c n = Ok x /\
         Forall2 (fun nm len => get_dimension c nm = Some len) (var_dimensions x) (stored_shape (named d) v) /\
         exists gen, var_dimensions x = firstn (List.length (stored_shape (named d) v)) (d ++ gen)) /\
    (all_ok rs -> (forall n v d a g, In (WVar n v d a) ops -> In g d -> g <> []) ->
       list_dimensions c = known_after [] ops /\
       forall i n v d a, nth_error ops i = Some (WVar n v d a) ->
         exists x, get_variable c n = Ok x /\
           var_dimensions x = names_of (known_after [] (firstn i ops)) (WVar n v d a)).
Proof. exact (round_names U ops rs st f). Qed.

(** What the names are in a small accepted history *)
Definition C03_ops : list wop :=
  [ WVar (bs "t") (rows F64 [[1; 2; 3]; [4; 5; 6]]) [bs "y"; bs "x"] [];
    WVar (bs "names") (strs [bs "abc"; bs "d"]) [bs "y"] [];
    WVar (bs "c") (ints U8 [9; 8; 7; 6]) [] [] ].
Example C03_example :
  all_ok (snd (wrun U0 open_writer C03_ops)) /\
  known_after [] C03_ops = [bs "y"; bs "x"; bs "_stringlen_names"; bs "_dimid_3"] /\
  names_of (known_after [] (firstn 1 C03_ops)) (nth 1 C03_ops (WGroup [])) = [bs "y"; bs "_stringlen_names"].
Proof. split; [vm_compute; repeat constructor|split; vm_compute; reflexivity]. Qed.

(** C04.  [w_dimlens], [w_dimids]: the writer's map from dimension names to lengths and ids,
    in order of insertion; [sv_dims], [sv_lens]: names and extents of an accepted variable. *)
Theorem C04_registry U ops st rs : wrun U open_writer ops = (st, rs) ->
  NoDup (map fst (w_dimlens st)) /\
  map fst (w_dimids st) = map fst (w_dimlens st) /\
  map snd (w_dimids st) = map Z.of_nat (seq 0 (List.length (w_dimids st))) /\
  Forall2 (fun o s => exists n v d a, o = WVar n v d a /\ sv_name s = n /\
     (exists gen, sv_dims s = d ++ gen) /\
     Forall2 (fun nm len => assoc nm (w_dimlens st) = Some len)
       (firstn (List.length (sv_lens s)) (sv_dims s)) (sv_lens s) /\
     (storable (named d) v -> sv_lens s = stored_shape (named d) v))
    (filter is_var (accepted ops rs)) (w_vars st).
Proof. exact (registry U ops st rs). Qed.

(** Lengths and ids once registered stay; new names come after the old ones. *)
Theorem C04_stable U ops1 ops2 st1 st2 rs1 rs2 :
  wrun U open_writer ops1 = (st1, rs1) -> wrun U st1 ops2 = (st2, rs2) ->
  exists more, map fst (w_dimlens st2) = map fst (w_dimlens st1) ++ more /\
  (forall nm n, assoc nm (w_dimlens st1) = Some n -> assoc nm (w_dimlens st2) = Some n) /\
  (forall nm i, assoc nm (w_dimids st1) = Some i -> assoc nm (w_dimids st2) = Some i).
Proof. exact (registry_stable U ops1 ops2 st1 st2 rs1 rs2). Qed.

Theorem C04_conflict U ops st rs name v d a st' r i dn n cur :
  wrun U open_writer ops = (st, rs) ->
  add_var U st name v d a = (st', r) ->
  storable (named d) v ->
  nth_error d i = Some dn -> dn <> [] -> nth_error (stored_shape (named d) v) i = Some n ->
  assoc dn (w_dimlens st) = Some cur -> n <> cur ->
  (exists e, r = Err e) /\ w_vars st' = w_vars st /\
  (valid_name U name = true -> Forall (fun kv => valid_name U (fst kv) = true) a ->
   Forall (fun kv => attr_supported (snd kv)) a -> r = Err EDimensionSize).
Proof. exact (size_conflict U ops st rs name v d a st' r i dn n cur). Qed.

Example C04_example : w_dimlens ex_st =
  [(bs "y", 2); (bs "x", 3); (bs "_stringlen_names", 3); (bs "_dimid_3", 3)] /\ zlen (w_vars ex_st) = 4 /\
  storable (named [bs "x"]) (ints I32 [1; 2]).
Proof.
  split; [vm_compute; reflexivity|]. split; [vm_compute; reflexivity|].
  constructor; [reflexivity|exists [2]; rect_tac|discriminate|discriminate|discriminate].
Qed.

(** C05.  The file is a header followed by one region per variable, in order; the recorded
    offset of a variable is where its region starts; a region is the variable's data in external
    representation, then less than four bytes of padding. *)
Theorem C05_positions U ops rs st f : ucd_ascii U -> ucd_disjoint U ->
  wrun U open_writer ops = (st, rs) -> fits ops rs st -> close_writer st = Ok f -> zlen f < 2 ^ 62 ->
  exists c head regions, cdf_open f = Ok c /\ f = head ++ List.concat regions /\
    List.length regions = List.length (filter is_var (accepted ops rs)) /\
    forall i n v d a, nth_error (filter is_var (accepted ops rs)) i = Some (WVar n v d a) ->
      exists r z rv, nth_error regions i = Some r /\
        r = xdr (returned v) ++ zrep z 0 /\ 0 <= z < 4 /\
        om_get (c_vars c) n = Some rv /\
        v_begin rv = zlen (head ++ List.concat (firstn i regions)) /\ v_begin rv mod 4 = 0.
Proof. exact (positions U ops rs st f). Qed.

Example C05_example : nth_error (filter is_var (accepted ex_ops ex_rs)) 1 =
  Some (WVar (bs "names") (strs [bs "abc"; bs "d"]) [bs "y"] []) /\
  xdr (returned (strs [bs "abc"; bs "d"])) = bs "abcd" ++ [0; 0].
Proof. rewrite ex_rs_eq. split; reflexivity. Qed.

Print Assumptions C01_values_partial.
Print Assumptions C01_close_partial.
Print Assumptions C01_refuted.
Print Assumptions C02_attributes.
Print Assumptions C03_names.
Print Assumptions C04_registry.
Print Assumptions C04_stable.
Print Assumptions C04_conflict.
Print Assumptions C05_positions.
