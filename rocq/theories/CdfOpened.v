(** Facts about every file that opens, and about opening conforming files. *)
From Coq Require Import ZifyBool ZifyNat Permutation.
From Verif Require Import Prelude GoVal BaseLemmas OrderedMapModel OrderedMapProofs ValidNameModel ValidNameProofs ArraySpec ArrayProofs
  CdfSpec CdfCalls CdfFormat
  CdfWriterModel CdfReaderModel CdfCodec CdfHeader CdfConvert CdfFile CdfFixed CdfStore CdfInv CdfRound CdfLayout CdfLocal CdfParse CdfConform.
Ltac Zify.zify_post_hook ::= Z.div_mod_to_equations.

(** ** Every opened file *)
Definition attrs_inv (m : omap gval) : Prop :=
  NoDup (om_keys m) /\ om_visible m = om_keys m /\ (forall k, In k (om_keys m) <-> om_get m k <> None).
Lemma assoc_in_keys {V} k (l : list (bytes * V)) : In k (map fst l) <-> assoc k l <> None.
Proof.
  split.
  - intros H N. apply assoc_None in N. contradiction.
  - intros H. destruct (in_dec (list_eq_dec Z.eq_dec) k (map fst l)) as [I|I]; [exact I|].
    exfalso. apply H. now apply assoc_None.
Qed.
Lemma attr_list_inv ver s m r : get_attr_list ver s = Ok (m, r) -> attrs_inv m.
Proof.
  unfold get_attr_list. destruct (get_nelems _ _ _) as [[n s1]| |]; cbn [rbind]; try discriminate.
  destruct (get_attrs_loop _ _ _ _) as [[l s2]| |]; cbn [rbind]; try discriminate.
  destruct (new_ordered_map _ _) as [om| |] eqn:E; cbn [rbind]; try discriminate.
  intros X. injection X as <- _.
  assert (PM : Permutation (map fst l) (map fst (build_map l))) by (apply new_ordered_map_ok; eexists; exact E).
  apply new_ordered_map_result in E. subst om. unfold attrs_inv, om_get. cbn [om_keys om_visible om_vals].
  split; [eapply Permutation_NoDup; [apply Permutation_sym; exact PM|apply build_map_keys]|].
  split; [reflexivity|]. intros k. rewrite <- assoc_in_keys. split; intros X; eapply Permutation_in; try exact X; [exact PM|].
  now apply Permutation_sym.
Qed.
Lemma get_var_attrs ver dims rs s v rs' r : get_var ver dims rs s = Ok ((v, rs'), r) -> attrs_inv (v_attrs v).
Proof.
  unfold get_var. intros E.
  repeat match type of E with
  | (let* (_, _) := get_attr_list ?a ?b in _) = _ => destruct (get_attr_list a b) as [[at_ s4]| |] eqn:EA; cbn [rbind] in E; try discriminate
  | (let* _ := ?x in _) = _ => destruct x as [?| |]; cbn [rbind] in E; try discriminate
  | (let (_, _) := ?p in _) = _ => destruct p
  | (if ?b then _ else _) = _ => destruct b; try discriminate
  end;
  injection E as <- _ _; cbn [v_attrs]; exact (attr_list_inv _ _ _ _ EA).
Qed.
Lemma vars_loop_inv ver dims fuel : forall n st s st' r l,
  get_vars_loop ver dims fuel n st s = Ok (st', r) ->
  vl_vars st = om_of l -> NoDup (map fst l) -> Forall (fun kv => v_name (snd kv) = fst kv /\ attrs_inv (v_attrs (snd kv))) l ->
  exists l', vl_vars st' = om_of l' /\ NoDup (map fst l') /\
    Forall (fun kv => v_name (snd kv) = fst kv /\ attrs_inv (v_attrs (snd kv))) l'.
Proof.
  induction fuel as [|fuel IH]; intros n st s st' r l E EV ND FA; cbn [get_vars_loop] in E.
  - destruct (n <=? 0); [|discriminate]. injection E as <- _. exists l. split; [exact EV|split; assumption].
  - destruct (n <=? 0); [injection E as <- _; exists l; split; [exact EV|split; assumption]|].
    destruct (get_var _ _ _ _) as [[[v rs] s1]| |] eqn:EG; cbn [rbind] in E; try discriminate.
    destruct (om_get (vl_vars st) (v_name v)) eqn:EO; [discriminate|].
    destruct (has_unlimited _ _) as [u| |]; cbn [rbind] in E; try discriminate.
    rewrite EV in EO. unfold om_get, om_of in EO. cbn [om_vals] in EO. apply assoc_None in EO.
    apply IH with (l := l ++ [(v_name v, v)]) in E; [exact E| | |].
    + cbn [vl_vars]. rewrite EV. now apply om_of_add.
    + rewrite map_app. cbn [map fst]. now apply NoDup_snoc.
    + apply Forall_app. split; [exact FA|]. constructor; [|constructor]. cbn [fst snd]. split; [reflexivity|].
      exact (get_var_attrs _ _ _ _ _ _ _ EG).
Qed.

Lemma parse_inv f h r : parse_header f = Ok (h, r) ->
  attrs_inv (h_gattrs h) /\ exists l, vl_vars (h_loop h) = om_of l /\ NoDup (map fst l) /\
    Forall (fun kv => v_name (snd kv) = fst kv /\ attrs_inv (v_attrs (snd kv))) l.
Proof.
  unfold parse_header. intros E.
  destruct (read_bytes 4 f) as [[m s0]| |]; cbn [rbind] in E; try discriminate.
  destruct (negb _); [discriminate|]. cbv zeta in E. destruct (negb _); [discriminate|].
  destruct (read_number _ _) as [[nr s1]| |]; cbn [rbind] in E; try discriminate.
  destruct (nr =? _); [discriminate|].
  destruct (get_nelems _ fieldDimension _) as [[nd s2]| |]; cbn [rbind] in E; try discriminate.
  destruct (_ <? nd); [discriminate|].
  destruct (get_dims _ _ _) as [[ds s3]| |]; cbn [rbind] in E; try discriminate.
  destruct (get_attr_list _ _) as [[ga s4]| |] eqn:EA; cbn [rbind] in E; try discriminate.
  destruct (get_nelems _ fieldVariable _) as [[nv s5]| |]; cbn [rbind] in E; try discriminate.
  destruct (get_vars_loop _ _ _ _ _ _) as [[vl s6]| |] eqn:EV; cbn [rbind] in E; try discriminate.
  injection E as <- _. cbn [h_gattrs h_loop]. split; [exact (attr_list_inv _ _ _ _ EA)|].
  eapply (vars_loop_inv _ _ _ _ _ _ _ _ []); [exact EV|reflexivity|constructor|constructor].
Qed.

Lemma mem_single k x : mem x [k] = true <-> x = k.
Proof.
  unfold mem. cbn [existsb]. rewrite orb_false_r. apply beqb_eq.
Qed.

Lemma opened_unique f c : cdf_open f = Ok c ->
  NoDup (list_variables c) /\
  NoDup (om_keys_visible (c_gattrs c)) /\
  (forall k, In k (om_keys_visible (c_gattrs c)) -> om_get (c_gattrs c) k <> None) /\
  (forall n, In n (list_variables c) <-> om_get (c_vars c) n <> None) /\
  (forall n v, om_get (c_vars c) n = Some v ->
     v_name v = n /\ NoDup (om_keys_visible (v_attrs v)) /\
     (forall k, In k (om_keys_visible (v_attrs v)) <-> om_get (v_attrs v) k <> None)).
Proof.
  rewrite open_parse. destruct (parse_header f) as [[h data]| |] eqn:E; try discriminate. intros X. injection X as <-.
  destruct (parse_inv f h data E) as ((G1 & G2 & G3) & l & L1 & L2 & L3).
  unfold list_variables, om_keys_visible. cbn [fst cdf_of_hdr c_vars c_gattrs].
  rewrite L1. cbn [om_of om_visible]. split; [exact L2|].
  assert (HF : NoDup (om_visible (om_hide (h_gattrs h) ncpKey)) /\
    (forall k, In k (om_visible (om_hide (h_gattrs h) ncpKey)) -> om_get (om_hide (h_gattrs h) ncpKey) k <> None)).
  { unfold om_hide. cbn [om_visible]. split; [now apply NoDup_filter|].
    intros k Hk. apply filter_In in Hk. destruct Hk as [Hk _]. unfold om_get. cbn [om_vals]. apply G3. exact Hk. }
  split; [apply HF|]. split; [apply HF|]. split.
  - intros n. unfold om_get. cbn [om_vals]. apply assoc_in_keys.
  - intros n v Hn. unfold om_get in Hn. cbn [om_vals om_of] in Hn. apply assoc_Some_In in Hn.
    rewrite Forall_forall in L3. destruct (L3 _ Hn) as (N1 & N2 & N3 & N4). cbn [fst snd] in *.
    split; [exact N1|]. rewrite N3. split; [exact N2|exact N4].
Qed.

(** ** Names that are not listed *)
Definition no_nf {A} (r : res A) : Prop := r <> Err ENotFound.
Lemma nf_bind {A B} (x : res A) (f : A -> res B) : no_nf x -> (forall a, no_nf (f a)) -> no_nf (rbind x f).
Proof. unfold no_nf. intros H1 H2. destruct x; cbn [rbind]; [apply H2|congruence|discriminate]. Qed.
Lemma nf_ok {A} (a : A) : no_nf (Ok a). Proof. discriminate. Qed.
Lemma nf_panic {A} : no_nf (@Panic A). Proof. discriminate. Qed.
Lemma nf_make n sz : no_nf (go_make n sz).
Proof. unfold go_make. destruct (_ || _); discriminate. Qed.
Lemma nf_dim_at ds i : no_nf (dim_at ds i).
Proof. unfold dim_at. destruct (_ <? _); [|discriminate]. destruct (nth_error _ _); discriminate. Qed.
Lemma nf_var_dims c ids : forall first, no_nf (var_dims c first ids).
Proof.
  induction ids as [|i ids IH]; intros first; [discriminate|]. cbn [var_dims]. destruct (_ <? _); [|discriminate].
  apply nf_bind; [apply nf_dim_at|]. intros d. destruct (d_len d =? 0).
  - destruct first; [|discriminate]. apply nf_bind; [apply IH|]. discriminate.
  - apply nf_bind; [apply IH|]. discriminate.
Qed.
Lemma nf_multi f rs : forall need, no_nf (multi_read f rs need).
Proof.
  induction rs as [|r rs IH]; intros need; cbn [multi_read]; destruct (need <=? 0); try discriminate.
  destruct r as [[off lim]|]; [|discriminate]. destruct (lim <=? 0); [apply IH|]. destruct (off <? 0); [discriminate|].
  apply nf_bind; [apply IH|]. discriminate.
Qed.
Lemma nf_rows t d1 n : forall data, no_nf (conv_rows t n d1 data).
Proof.
  induction n as [|n IH]; intros data; cbn [conv_rows]; [discriminate|]. destruct (_ <? _); [discriminate|].
  apply nf_bind; [apply IH|]. discriminate.
Qed.
Lemma nf_empty t n : no_nf (empty_slice t n). Proof. destruct n; discriminate. Qed.
Lemma nf_convert slow t dims : forall data, no_nf (convert slow t dims data).
Proof.
  induction dims as [|d ds IH]; intros data.
  - cbn [convert]. destruct data; [discriminate|]. destruct t; discriminate.
  - destruct ds as [|d1 ds].
    + cbn [convert]. destruct slow; [|discriminate]. destruct data; [apply nf_empty|]. destruct (_ <? _); discriminate.
    + assert (LP : forall n cur, no_nf (conv_loop slow t (d1 :: ds) n cur)).
      { induction n as [|n IHn]; intros cur; cbn [conv_loop]; [discriminate|].
        apply nf_bind; [apply IH|]. intros x. destruct n; [discriminate|]. destruct (_ <? _); [discriminate|].
        apply nf_bind; [apply IHn|]. discriminate. }
      assert (GE : forall data, no_nf (match data with
         | [] => empty_slice t (List.length (d :: d1 :: ds))
         | _ => let* _ := go_make d 24 in let* l := conv_loop slow t (d1 :: ds) (Z.to_nat d) data in
           match l with [] => Panic | x :: _ => Ok (CSlice (ctype_of x) l []) end end)).
      { intros dt. destruct dt; [apply nf_empty|]. apply nf_bind; [apply nf_make|]. intros _.
        apply nf_bind; [apply LP|]. intros l. destruct l; discriminate. }
      destruct (negb slow && (zlen (d1 :: ds) =? 1)) eqn:EB.
      * destruct ds as [|d2 ds].
        -- cbn [convert]. rewrite EB. apply nf_bind; [apply nf_make|]. intros _. apply nf_bind; [apply nf_rows|]. discriminate.
        -- exfalso. rewrite !zlen_cons in EB. pose proof (zlen_nonneg ds). destruct slow; cbn [negb andb] in EB; [discriminate|lia].
      * cbn [convert]. rewrite EB. exact (GE data).
Qed.
Lemma nf_slice g b e : no_nf (get_slice g b e).
Proof.
  unfold get_slice. assert (H : no_nf (get_slice_c g b e)).
  { unfold get_slice_c. destruct (e <? b); [discriminate|]. cbv zeta. apply nf_bind.
    - destruct (g_unl g && _).
      + apply nf_bind; [apply nf_make|]. intros _. apply nf_bind; [apply nf_make|]. intros _. apply nf_multi.
      + destruct (_ <? 0); [discriminate|]. apply nf_bind.
        * unfold fill_pattern. destruct (om_get _ _) as [u|]; [|discriminate]. apply nf_bind.
          { destruct u as [| |t [|x [|y l]]|]; discriminate. }
          intros u'. destruct u'; try discriminate. destruct (nk_eqb _ _); discriminate.
        * intros pat. apply nf_bind; [apply nf_make|]. discriminate.
    - intros raw. apply nf_convert. }
  unfold no_nf in *. destruct (get_slice_c g b e); cbn [rmap]; congruence.
Qed.

Lemma not_found f c n : cdf_open f = Ok c ->
  (get_variable c n = Err ENotFound <-> ~ In n (list_variables c)) /\
  (get_var_getter c n = Err ENotFound <-> ~ In n (list_variables c)).
Proof.
  intros E. destruct (opened_unique f c E) as (_ & _ & _ & H & _).
  assert (G : get_var_getter c n = Err ENotFound <-> ~ In n (list_variables c)).
  { rewrite (H n). unfold get_var_getter. destruct (om_get (c_vars c) n) as [v|] eqn:EV.
    - split; [|intros N; exfalso; apply N; discriminate]. intros X. exfalso. revert X.
      apply nf_bind; [apply nf_var_dims|]. intros ds. cbv zeta.
      destruct (match map _ ds with [] => _ | _ => _ end) as [chunk len]. destruct (ty_of_code _); discriminate.
    - split; [intros _ N; apply N; reflexivity|reflexivity]. }
  split; [|exact G]. rewrite <- G. unfold get_variable. split.
  - intros X. destruct (get_var_getter c n) as [g| |]; cbn [rbind] in X; [|congruence|discriminate].
    exfalso. revert X. apply nf_bind; [apply nf_slice|]. discriminate.
  - intros ->. reflexivity.
Qed.

Lemma dimension_listed c n : (exists len, get_dimension c n = Some len) <-> In n (list_dimensions c).
Proof.
  unfold get_dimension, list_dimensions. induction (c_dims c) as [|d l IH]; cbn [find map].
  - split; [intros (len & X); discriminate|intros []].
  - destruct (beqb_spec (d_name d) n) as [->|N]; cbn [option_map].
    + split; [intros _; left; reflexivity|intros _; eexists; reflexivity].
    + rewrite IH. split; [intros X; right; exact X|]. intros [X|X]; [contradiction|exact X].
Qed.

(** ** Conforming files *)
Lemma find_rdims_assoc l nm : option_map d_len (find (fun d => beqb (d_name d) nm) (rdims l)) = assoc nm l.
Proof.
  induction l as [|[k n] l IH]; [reflexivity|]. cbn [rdims map find d_name assoc fst snd].
  assert (ES : beqb k nm = beqb nm k).
  { destruct (beqb_spec k nm), (beqb_spec nm k); congruence. }
  rewrite ES. destruct (beqb nm k); [reflexivity|exact IH].
Qed.

Lemma var_dims_f h c v : header_ok h -> c_dims c = rdims (fh_dims h) -> c_numrecs c = fh_numrecs h ->
  Forall (fun i => 0 <= i < zlen (fh_dims h)) (fv_dims v) -> unlimited_first (fh_dims h) v ->
  exists l, var_dims c true (fv_dims v) = Ok l /\ map (fun x => fst (fst x)) l = fvar_shape h v /\
    map (fun x => snd (fst x)) l = fvar_names h v /\ existsb snd l = is_record (fh_dims h) v.
Proof.
  intros HO HC HN HI HU. unfold fvar_shape, fvar_names, unlimited_first, is_record in *.
  assert (REST : forall ids, Forall (fun i => 0 <= i < zlen (fh_dims h)) ids -> Forall (fun i => 0 < dim_length (fh_dims h) i) ids ->
    exists l, var_dims c false ids = Ok l /\
      map (fun x => fst (fst x)) l = map (fun i => if dim_length (fh_dims h) i =? 0 then fh_numrecs h else dim_length (fh_dims h) i) ids /\
      map (fun x => snd (fst x)) l = map (fun i => match nth_error (fh_dims h) (Z.to_nat i) with Some (nm, _) => nm | None => [] end) ids /\
      existsb snd l = false).
  { induction ids as [|i ids IH]; intros H1 H2; [exists []; repeat split|].
    apply Forall_cons_iff in H1. destruct H1 as [H1 H1']. apply Forall_cons_iff in H2. destruct H2 as [H2 H2'].
    destruct (IH H1' H2') as (l & L1 & L2 & L3 & L4). destruct (dim_at_any (fh_dims h) i H1) as ([nm n] & E1 & E2 & E3).
    exists ((n, nm, false) :: l). cbn [var_dims map fst snd existsb]. rewrite HC. rewrite E2, E1, E3. unfold rdims. rewrite zlen_map.
    replace (i <? zlen (fh_dims h)) with true by lia. cbn [rbind d_len fst snd] in *.
    replace (n =? 0) with false by lia. rewrite L1. cbn [rbind d_name]. rewrite L2, L3, L4. repeat split. }
  destruct (fv_dims v) as [|i ids]; [exists []; repeat split|]. cbn [tl] in HU.
  apply Forall_cons_iff in HI. destruct HI as [H1 H1']. destruct (REST ids H1' HU) as (l & L1 & L2 & L3 & L4).
  destruct (dim_at_any (fh_dims h) i H1) as ([nm n] & E1 & E2 & E3). cbn [fst snd] in *.
  cbn [var_dims map]. rewrite HC, E2, E1, E3, HN. unfold rdims. rewrite zlen_map.
  replace (i <? zlen (fh_dims h)) with true by lia. cbn [rbind d_len d_name].
  destruct (n =? 0) eqn:En; rewrite L1; cbn [rbind]; eexists; (split; [reflexivity|]); cbn [map fst snd existsb];
    rewrite L2, L3, ?L4; repeat split.
Qed.

Record reads_header (h : fheader) (f : bytes) (c : cdf) : Prop := mkReads {
  rh_file : c_file c = f;
  rh_ver : c_ver c = fh_ver h;
  rh_numrecs : c_numrecs c = fh_numrecs h;
  rh_vars : list_variables c = map fv_name (fh_vars h);
  rh_dims : list_dimensions c = map fst (fh_dims h);
  rh_dim : forall nm, get_dimension c nm = assoc nm (fh_dims h);
  rh_gkeys : om_keys_visible (c_gattrs c) = filter (fun k => negb (beqb k (bs "_NCProperties"))) (map fa_name (fh_atts h));
  rh_gvals : forall a, In a (fh_atts h) -> om_get (c_gattrs c) (fa_name a) = Some (aval_value (fa_val a));
  rh_getter : forall v, In v (fh_vars h) -> unlimited_first (fh_dims h) v ->
    exists g, get_var_getter c (fv_name v) = Ok g /\
      g_names g = fvar_names h v /\ shape g = fvar_shape h v /\
      om_keys_visible (v_attrs (g_var g)) = map fa_name (fv_atts v) /\
      (forall a, In a (fv_atts v) -> om_get (v_attrs (g_var g)) (fa_name a) = Some (aval_value (fa_val a))) /\
      elt_of (g_ty g) = fv_type v /\ v_begin (g_var g) = fv_begin v /\ g_unl g = is_record (fh_dims h) v
}.

Lemma rattrs_get l a : keys_distinct l -> In a l -> om_get (om_of (rattrs l)) (fa_name a) = Some (aval_value (fa_val a)).
Proof.
  intros D H. apply om_of_get; [rewrite rattrs_keys; exact D|]. unfold rattrs. apply in_map_iff. exists a. split; [reflexivity|exact H].
Qed.

Lemma conforming_opens h b d : header_ok h -> names_distinct h -> header_bytes h b ->
  exists c, cdf_open (b ++ d) = Ok c /\ reads_header h (b ++ d) c.
Proof.
  intros HO ND HB. destruct (parse_any h b d HO HB) as [PA _]. specialize (PA ND).
  exists (cdf_of_hdr (b ++ d) (hdr_f h)). split; [rewrite open_parse, PA; reflexivity|].
  destruct ND as (D1 & D2 & D3).
  pose proof (fold_add_vars (fh_dims h) (fh_vars h) (mkVl 0 empty_om 0 None) [] eq_refl) as FV. cbn [map app] in FV. specialize (FV D3).
  constructor; unfold cdf_of_hdr, hdr_f; cbn [c_file c_ver c_numrecs h_ver h_numrecs h_dims h_gattrs h_loop]; try reflexivity.
  - unfold list_variables, om_keys_visible. cbn [c_vars]. rewrite FV. cbn [om_of om_visible]. rewrite map_map. reflexivity.
  - unfold list_dimensions. cbn [c_dims]. apply map_d_name.
  - intros nm. unfold get_dimension. cbn [c_dims]. apply find_rdims_assoc.
  - unfold om_keys_visible. cbn [c_gattrs]. unfold om_hide. cbn [om_of om_hidden mem existsb om_visible om_keys].
    rewrite rattrs_keys. apply filter_ext. intros k. unfold mem. cbn [existsb]. now rewrite orb_false_r.
  - intros a Ha. cbn [c_gattrs]. exact (rattrs_get _ a D1 Ha).
  - intros v Hv HU. unfold get_var_getter. cbn [c_vars]. rewrite FV.
    assert (EG : om_get (om_of (map (fun v => (fv_name v, rvar_f (fh_dims h) v)) (fh_vars h))) (fv_name v) = Some (rvar_f (fh_dims h) v)).
    { apply om_of_get; [rewrite map_map; exact D3|]. apply in_map_iff. exists v. split; [reflexivity|exact Hv]. }
    rewrite EG. pose proof HO as HO'. destruct HO as [_ O2 O3 O4 _ _ _ O8]. rewrite Forall_forall in O8. specialize (O8 v Hv).
    destruct (var_dims_f h (mkCdf (b ++ d) (fh_ver h) (fh_numrecs h)
       (fst (finish_rec (fold_left (add_f (fh_dims h)) (fh_vars h) (mkVl 0 empty_om 0 None)))) (rdims (fh_dims h))
       (om_hide (om_of (rattrs (fh_atts h))) ncpKey) (vl_vars (fold_left (add_f (fh_dims h)) (fh_vars h) (mkVl 0 empty_om 0 None)))
       (snd (finish_rec (fold_left (add_f (fh_dims h)) (fh_vars h) (mkVl 0 empty_om 0 None))))) v)
      as (l & L1 & L2 & L3 & L4); [exact HO'|reflexivity|reflexivity|apply (fo_dims _ _ _ O8)|exact HU|].
    cbn [rvar_f v_ids]. rewrite FV in L1. rewrite L1. cbn [rbind]. cbv zeta. rewrite L2, L3, L4.
    destruct (match fvar_shape h v with [] => _ | _ => _ end) as [chunk len] eqn:EC.
    change (v_type (rvar_f (fh_dims h) v)) with (type_code (fv_type v)). rewrite ty_of_type_code. eexists. split; [reflexivity|].
    cbn [g_names g_lens g_var v_attrs g_ty v_begin shape g_unl].
    split; [reflexivity|]. split.
    { unfold shape. cbn [g_lens]. rewrite <- (map_id (fvar_shape h v)) at 2. apply map_ext_in. intros n Hn. apply i64_id.
      unfold fvar_shape in Hn. apply in_map_iff in Hn. destruct Hn as (i & <- & Hi).
      pose proof (fo_dims _ _ _ O8) as FD. rewrite Forall_forall in FD. destruct (dim_at_any (fh_dims h) i (FD i Hi)) as ([nm n] & E1 & _ & E3).
      rewrite E3. cbn [snd]. rewrite Forall_forall in O4. destruct (O4 _ (nth_error_In _ _ E1)) as [_ BN]. cbn [snd] in BN.
      assert (nlimit (fh_ver h) <= 2 ^ 63) by (unfold nlimit; destruct (_ =? 5); lia). destruct (n =? 0); lia. }
    split; [unfold om_keys_visible; cbn [om_of om_visible]; apply rattrs_keys|].
    split; [intros a Ha; apply rattrs_get; [|exact Ha]; rewrite Forall_forall in D2; now apply D2|].
    split; [destruct (fv_type v); reflexivity|]. split; reflexivity.
Qed.

Lemma dup_rejected h b d : header_ok h -> header_bytes h b -> ~ names_distinct h ->
  cdf_open (b ++ d) = Err EKeysDontMatch \/ cdf_open (b ++ d) = Err EDuplicateVariable.
Proof.
  intros HO HB ND. destruct (parse_any h b d HO HB) as [_ PA]. rewrite open_parse.
  destruct (PA ND) as [-> | ->]; [left|right]; reflexivity.
Qed.
Lemma header_cut h b b1 b2 : header_ok h -> names_distinct h -> header_bytes h b -> b = b1 ++ b2 -> b2 <> [] ->
  cdf_open b1 = Err EEOF.
Proof.
  intros HO ND HB -> N. destruct (parse_any h _ [] HO HB) as [PA _]. specialize (PA ND).
  destruct (local_parse_header _ _ _ PA) as (c & E & [_ H2]). rewrite !app_nil_r in E.
  rewrite open_parse. rewrite (H2 b1 b2 (eq_sym E) N). reflexivity.
Qed.

Lemma ztake_prefix {A} n (a b : list A) : n <= zlen a -> ztake n (a ++ b) = ztake n a.
Proof.
  intros H. unfold ztake, zlen in *. rewrite firstn_app. replace (Z.to_nat n - List.length a)%nat with 0%nat by lia.
  cbn [firstn]. apply app_nil_r.
Qed.
Lemma zdrop_nonempty {A} n (a : list A) : 0 <= n < zlen a -> zdrop n a <> [].
Proof.
  intros H X. apply (f_equal (@List.length A)) in X. unfold zdrop in X. rewrite skipn_length in X. cbn [List.length] in X. unfold zlen in H. lia.
Qed.

Lemma written_cut U ops rs st f c n : ucd_ascii U -> ucd_disjoint U ->
  wrun U open_writer ops = (st, rs) -> fits ops rs st -> close_writer st = Ok f -> zlen f < 2 ^ 62 ->
  cdf_open f = Ok c -> 0 <= n < zlen f ->
  (forall name v, om_get (c_vars c) name = Some v -> n < v_begin v) ->
  cdf_open (ztake n f) = Err EEOF.
Proof.
  intros UA UD E F C Hf EO Hn HB. destruct (open_fits U ops rs st f UA UD E F C Hf) as (c' & rvs & O).
  assert (c' = c) as -> by (pose proof (op_open _ _ _ _ _ _ O); congruence).
  destruct (run_inv U ops st rs E) as (W & _ & _). pose proof (wi_ver U st W) as V.
  pose proof (op_ok _ _ _ _ _ _ O) as WK.
  assert (LT : n < zlen (file_header st)).
  { rewrite (op_file _ _ _ _ _ _ O) in Hn. unfold file_of in Hn. destruct (w_vars st) as [|s vs] eqn:EV.
    - cbn [flat_map] in Hn. rewrite app_nil_r in Hn. lia.
    - rewrite <- EV in *. pose proof (wok_names st WK) as NM.
      destruct (read_as_begins _ _ _ _ (op_read _ _ _ _ _ _ O) [] s vs EV NM) as (rv & B1 & B2).
      rewrite zlen_file_header by exact V. rewrite (op_cdf _ _ _ _ _ _ O) in HB. specialize (HB _ _ B1).
      rewrite B2 in HB. cbn [sizes fold_right] in HB. lia. }
  destruct (parse_header_file st [] WK) as (x & PX).
  { unfold small_file. rewrite <- (op_file _ _ _ _ _ _ O). lia. }
  destruct (local_parse_header _ _ _ PX) as (h & EH & [_ H2]). rewrite !app_nil_r in EH.
  rewrite open_parse.
  assert (ztake n f = ztake n (file_header st)) as ->.
  { rewrite (op_file _ _ _ _ _ _ O). unfold file_of. apply ztake_prefix. lia. }
  rewrite (H2 (ztake n (file_header st)) (zdrop n (file_header st))); [reflexivity| |].
  - rewrite <- EH. symmetry. apply firstn_skipn.
  - apply zdrop_nonempty. lia.
Qed.

Lemma sizes_in s vs : In s vs -> Forall (fun s => 0 <= psize s) vs -> psize s <= sizes vs.
Proof.
  intros H HF. induction HF as [|x vs Hx HF IH]; [destruct H|]. cbn [sizes fold_right]. fold (sizes vs).
  assert (0 <= sizes vs) by (clear - HF; induction HF as [|y vs Hy _ IH]; [cbn; lia|]; cbn [sizes fold_right]; fold (sizes vs); lia).
  destruct H as [->|H]; [lia|]. specialize (IH H). lia.
Qed.

Lemma written_conforms U ops rs st f : ucd_ascii U -> ucd_disjoint U ->
  wrun U open_writer ops = (st, rs) -> fits ops rs st -> close_writer st = Ok f -> zlen f < 2 ^ 62 ->
  (forall n v d a, In (WVar n v d a) (accepted ops rs) -> zlen (xdr (returned v)) + 3 < field_limit (w_ver st)) ->
  exists h b data, f = b ++ data /\ header_bytes h b /\ header_ok h /\ names_distinct h /\
    fh_ver h = w_ver st /\ fh_numrecs h = 0 /\ fh_dims h = w_dimlens st /\
    map fv_name (fh_vars h) = var_names (accepted ops rs) /\
    Forall (fun v => (elt5 (fv_type v) = true -> fh_ver h = 5) /\ is_record (fh_dims h) v = false /\ unlimited_first (fh_dims h) v) (fh_vars h).
Proof.
  intros UA UD E F C Hf SZ. destruct (open_fits U ops rs st f UA UD E F C Hf) as (c' & rvs & O).
  destruct (run_inv U ops st rs E) as (W & _ & A). pose proof (wi_ver U st W) as V.
  pose proof (op_ok _ _ _ _ _ _ O) as WK. pose proof (op_good _ _ _ _ _ _ O) as HG. rewrite Forall_forall in HG.
  exists (header_of st), (file_header st), (flat_map sdata (w_vars st)).
  split; [apply (op_file _ _ _ _ _ _ O)|]. split; [now apply header_of_bytes|].
  assert (IF : Forall (in_field (w_ver st)) (w_vars st)).
  { apply Forall_forall. intros s Hs. destruct (Forall2_in_r _ _ _ s A Hs) as (o & Ho & Ad).
    destruct Ad as (n & v & d & a & -> & Y1 & Y2 & Y3 & Y4 & Y5). apply filter_In in Ho. destruct Ho as [Ho _].
    specialize (SZ n v d a Ho). destruct (HG s Hs) as ((b & zs & D) & _ & _).
    pose proof (dc_bytes _ _ _ _ _ D) as DB. rewrite Y2 in DB. rewrite <- DB in SZ.
    unfold in_field, psize. pose proof (wok_stores st WK) as WS. rewrite Forall_forall in WS. destruct (WS s Hs) as (b' & B1 & B2).
    rewrite (dc_store _ _ _ _ _ D) in B1. injection B1 as <-. rewrite <- B2. pose proof (round4_bounds (zlen b)).
    rewrite field_limit_lim in SZ by exact V. lia. }
  destruct (header_of_ok st WK) as [K1 K2].
  { rewrite (op_file _ _ _ _ _ _ O) in Hf. unfold file_of in Hf.
    rewrite zlen_app, zlen_file_header, zlen_sdatas in Hf by (exact V || apply (wok_stores st WK)). unfold sizes. lia. }
  { exact IF. }
  split; [exact K1|]. split; [exact K2|]. split; [reflexivity|]. split; [reflexivity|].
  split; [cbn [header_of fh_dims]; apply dims_of_lens; apply W|].
  split; [cbn [header_of fh_vars]; rewrite fvars_names; rewrite (added_names _ _ A); apply var_names_filter|].
  cbn [header_of fh_vars fh_ver fh_dims]. pose proof (wi_vars U st W) as WV. pose proof (wok_rvars st WK) as WR.
  remember (data_start st) as off. clear Heqoff. revert off. clear - WV WR V.
  induction (w_vars st) as [|s vs IH]; intros off; [constructor|]. cbn [fvars_of].
  apply Forall_cons_iff in WV. destruct WV as [W1 W2]. apply Forall_cons_iff in WR. destruct WR as [R1 R2].
  constructor; [|apply IH; assumption]. cbn [fv_type]. split.
  - intros X. apply (vi_ver _ _ _ W1). destruct (sv_ty s) as [|[]]; cbn in *; congruence.
  - destruct R1 as (_ & _ & _ & RI & _). unfold is_record, unlimited_first. cbn [fv_dims].
    assert (G : Forall (fun i => 0 < dim_length (dims_of st) i) (var_ids (w_dimids st) s)).
    { eapply Forall_impl; [|exact RI]. intros i (_ & _ & nm & n & Hn & Hp). unfold dim_length. rewrite Hn. exact Hp. }
    destruct (var_ids (w_dimids st) s) as [|i ids]; [split; [reflexivity|constructor]|].
    apply Forall_cons_iff in G. destruct G as [G1 G2]. split; [|exact G2].
    unfold dim_length in G1. destruct (nth_error (dims_of st) (Z.to_nat i)) as [[nm n]|]; [lia|reflexivity].
Qed.
