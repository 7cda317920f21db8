(** Version selection, failed calls, and independence of Go's map order. *)
From Coq Require Import ZifyBool ZifyNat Permutation.
From Verif Require Import Prelude GoVal BaseLemmas ValidNameModel ValidNameProofs OrderedMapModel
  ArraySpec ArrayProofs CdfSpec CdfCalls CdfWriterModel CdfReaderModel CdfCodec CdfHeader CdfConvert
  CdfFile CdfFixed CdfStore CdfInv CdfRound CdfLayout CdfClose.
Ltac Zify.zify_post_hook ::= Z.div_mod_to_equations.

(** ** C06 *)
(** A call that uses a type only CDF-5 has *)
Definition uses_v5 (o : wop) : Prop :=
  match o with
  | WVar _ v _ a => (exists k, base_type (type_of v) = GNum k /\ only_v5 k) \/
                    Exists (fun kv => attr_only_v5 (snd kv)) a
  | _ => False
  end.

Lemma dl_type v : forall dims nn L ty, wt v = true -> dim_lengths v dims nn = Ok (L, ty) ->
  forall k, ty = TNum k <-> base_type (type_of v) = GNum k.
Proof.
  induction v as [k0 z|s| |t|t x l IH] using first_ind; intros dims nn L ty W E k; cbn [dim_lengths type_of base_type] in *.
  - injection E as <- <-. split; intros X; injection X as ->; reflexivity.
  - destruct ((zlen s =? 1) && nn); injection E as <- <-; split; discriminate.
  - discriminate.
  - destruct t as [k0| |t|]; try discriminate. injection E as <- <-. cbn. split; intros X; injection X as ->; reflexivity.
  - apply wt_slice in W. apply Forall_cons_iff in W. destruct W as [[T1 T2] _]. rewrite <- T1.
    destruct t as [k0| |t|]; try (eapply IH; [exact T2|exact E]).
    destruct (max_strlen (x :: l) =? 0); [discriminate|]. injection E as <- <-. rewrite T1. cbn. split; discriminate.
Qed.

Lemma v5ty_iff v dims nn L ty : wt v = true -> dim_lengths v dims nn = Ok (L, ty) ->
  (v5ty ty = true <-> exists k, base_type (type_of v) = GNum k /\ only_v5 k).
Proof.
  intros W E. pose proof (dl_type v dims nn L ty W E) as D. split.
  - intros H. destruct ty as [|k]; [discriminate|]. exists k. split; [now apply D|now apply only_v5_kind].
  - intros (k & B & O). apply D in B. subst ty. now apply only_v5_kind.
Qed.

Lemma check_v5_five ver a v1 : check_v5 ver a = Ok v1 ->
  (v1 = 5 -> ver = 5 \/ Exists (fun kv => attr_only_v5 (snd kv)) a) /\
  (Exists (fun kv => attr_only_v5 (snd kv)) a -> v1 = 5) /\ (ver = 5 -> v1 = 5).
Proof.
  induction a as [|[k x] a IH]; cbn [check_v5]; intros H.
  - injection H as ->. split; [auto|]. split; [|auto]. intros X. inversion X.
  - destruct (Z.eqb_spec (attr_version x) 0); [discriminate|].
    destruct (Z.eqb_spec (attr_version x) 5) as [E5|N5].
    + injection H as <-. split; [|auto]. intros _. right. left. now apply attr_only_v5_version.
    + destruct (IH H) as (I1 & I2 & I3). split; [|split; [|exact I3]].
      * intros X. destruct (I1 X) as [Y|Y]; [left; exact Y|right; right; exact Y].
      * intros X. apply I2. inversion X as [? ? Y|? ? Y]; subst; [|exact Y]. exfalso. apply N5.
        now apply attr_only_v5_version.
Qed.

Lemma add_dims_ver name ty lens : forall i vdims st st' r, add_dims name ty i lens vdims st = (st', r) ->
  w_ver st' = w_ver st.
Proof.
  induction lens as [|n lens IH]; intros i vdims st st' r E; cbn [add_dims] in E.
  - injection E as <- _. reflexivity.
  - destruct (nth_error _ i) as [dn|]; [|injection E as <- _; reflexivity].
    destruct (assoc dn (w_dimlens st)).
    + destruct (n =? z); [eapply IH; eauto|]. injection E as <- _. reflexivity.
    + apply IH in E. exact E.
Qed.

Lemma wstep_ver U st o st' r : op_wt o -> wstep U st o = (st', r) ->
  (w_ver st' = 5 -> w_ver st = 5 \/ uses_v5 o) /\
  (w_ver st = 5 -> w_ver st' = 5) /\
  (r = Ok tt -> uses_v5 o -> w_ver st' = 5).
Proof.
  intros W E. destruct o as [a|n v d a|g]; cbn [wstep uses_v5 op_wt] in *.
  - unfold add_attributes in E. destruct (valid_attr_names U a); injection E as <- <-; cbn [w_ver]; tauto.
  - unfold add_var in E.
    destruct (negb (valid_name U n)); [injection E as <- <-; repeat split; auto; discriminate|].
    destruct (negb (valid_attr_names U a)); [injection E as <- <-; repeat split; auto; discriminate|].
    destruct (check_v5 (w_ver st) a) as [v1|e|] eqn:Ec;
      [|injection E as <- <-; repeat split; auto; discriminate|injection E as <- <-; repeat split; auto; discriminate].
    destruct (check_v5_five _ _ _ Ec) as (C1 & C2 & C3).
    assert (C4 : v1 = 5 -> w_ver st = 5 \/ (exists k, base_type (type_of v) = GNum k /\ only_v5 k) \/
                    Exists (fun kv => attr_only_v5 (snd kv)) a) by (intros X; destruct (C1 X); auto).
    destruct (dim_lengths v [] _) as [[lens ty]|e|] eqn:DL;
      [|injection E as <- <-; cbn [set_ver w_ver]; repeat split; auto; discriminate
       |injection E as <- <-; cbn [set_ver w_ver]; repeat split; auto; discriminate].
    pose proof (v5ty_iff v _ _ _ _ W DL) as V5.
    set (st2 := if v5ty ty then set_ver (set_ver st v1) 5 else set_ver st v1) in *.
    assert (V2 : w_ver st2 = if v5ty ty then 5 else v1) by (unfold st2; destruct (v5ty ty); reflexivity).
    assert (K : (w_ver st2 = 5 -> w_ver st = 5 \/ (exists k, base_type (type_of v) = GNum k /\ only_v5 k) \/
                    Exists (fun kv => attr_only_v5 (snd kv)) a) /\ (w_ver st = 5 -> w_ver st2 = 5) /\
                ((exists k, base_type (type_of v) = GNum k /\ only_v5 k) \/
                    Exists (fun kv => attr_only_v5 (snd kv)) a -> w_ver st2 = 5)).
    { rewrite V2. destruct (v5ty ty) eqn:Et.
      - split; [|auto]. intros _. right. left. now apply V5.
      - split; [exact C4|]. split; [exact C3|]. intros [X|X]; [apply V5 in X; congruence|auto]. }
    destruct K as (K1 & K2 & K3).
    destruct (add_dims n ty 0 lens d st2) as [st3 r3] eqn:Ea.
    pose proof (add_dims_ver _ _ _ _ _ _ _ _ Ea) as V3.
    destruct r3; injection E as <- <-; cbn [push_var w_ver]; rewrite V3; repeat split; auto.
  - injection E as <- <-. repeat split; auto; discriminate.
Qed.

Lemma wrun_ver U ops : forall st st' rs, Forall op_wt ops -> wrun U st ops = (st', rs) ->
  (w_ver st' = 5 -> w_ver st = 5 \/ Exists uses_v5 ops) /\
  (w_ver st = 5 \/ Exists uses_v5 (accepted ops rs) -> w_ver st' = 5).
Proof.
  induction ops as [|o ops IH]; intros st st' rs F E; cbn [wrun] in E.
  - injection E as <- <-. split; [auto|]. intros [X|X]; [exact X|inversion X].
  - destruct (wstep U st o) as [s1 r1] eqn:E1. destruct (wrun U s1 ops) as [s2 r2] eqn:E2.
    injection E as <- <-. apply Forall_cons_iff in F. destruct F as [F1 F2].
    destruct (wstep_ver U st o s1 r1 F1 E1) as (V1 & V2 & V3). destruct (IH s1 s2 r2 F2 E2) as (I1 & I2).
    split.
    + intros X. destruct (I1 X) as [Y|Y]; [destruct (V1 Y); auto|auto].
    + intros X. apply I2. rewrite accepted_cons in X. destruct X as [X|X]; [left; auto|].
      destruct r1 as [[]| |]; auto. inversion X as [? ? Y|? ? Y]; subst; auto.
Qed.

Lemma version_selected U ops st rs : Forall op_wt ops -> wrun U open_writer ops = (st, rs) ->
  (w_ver st = 2 \/ w_ver st = 5) /\
  (w_ver st = 5 -> Exists uses_v5 ops) /\
  (Exists uses_v5 (accepted ops rs) -> w_ver st = 5).
Proof.
  intros F E. destruct (run_inv U ops st rs E) as (W & _ & _). destruct (wrun_ver U ops _ _ _ F E) as (V1 & V2).
  cbn in V1, V2. split; [exact (wi_ver U st W)|]. split; [|auto]. intros X. destruct (V1 X); [discriminate|assumption].
Qed.

(** Output is only appended to *)
Definition ext (out : bytes) (r : res bytes) : Prop := forall o, r = Ok o -> exists t, o = out ++ t.
Lemma pad_out_ext o t : exists u, pad_out (o ++ t) = o ++ u.
Proof. unfold pad_out. exists (t ++ zrep (round4 (zlen (o ++ t)) - zlen (o ++ t)) 0). now rewrite app_assoc. Qed.
Lemma write_name_ext ver o n : exists u, write_name ver o n = o ++ u.
Proof. unfold write_name. apply pad_out_ext. Qed.

Lemma write_attr_list_ext ver a : forall out, ext out (write_attr_list ver out a).
Proof.
  induction a as [|[k v] a IH]; intros out o E; cbn [write_attr_list] in E.
  - injection E as <-. exists []. now rewrite app_nil_r.
  - destruct (attr_payload v) as [[[t n] p]|]; [|discriminate].
    destruct (write_name_ext ver out k) as (u & Eu). rewrite Eu in E.
    apply IH in E. destruct E as (w & ->).
    destruct (padded_ty t).
    + rewrite <- (app_assoc out u). match goal with |- context[pad_out (out ++ ?x)] => destruct (pad_out_ext out x) as (q & ->) end.
      rewrite <- app_assoc. eauto.
    + rewrite <- !app_assoc. eauto.
Qed.
Lemma write_attributes_ext ver out a : ext out (write_attributes ver out a).
Proof.
  intros o E. unfold write_attributes in E. destruct a as [|kv a].
  - injection E as <-. eauto.
  - apply write_attr_list_ext in E. destruct E as (t & ->). rewrite <- app_assoc. eauto.
Qed.
Lemma write_vars_ext ids ver vs : forall out off, ext out (write_vars ids ver out vs off).
Proof.
  induction vs as [|s vs IH]; intros out off o E; cbn [write_vars] in E.
  - injection E as <-. exists []. now rewrite app_nil_r.
  - unfold write_var in E. destruct (write_name_ext ver out (sv_name s)) as (u & Eu). rewrite Eu in E.
    rewrite <- !app_assoc in E.
    match type of E with context[write_attributes ver ?x ?y] => destruct (write_attributes ver x y) as [o4|e|] eqn:E4 end;
      cbn [rbind] in E; try discriminate.
    apply write_attributes_ext in E4. destruct E4 as (w & ->).
    destruct (vsize_loop _ _ _); cbn [rbind] in E; try discriminate.
    apply IH in E. destruct E as (q & ->). rewrite <- !app_assoc. eauto.
Qed.
Lemma write_data_ext vs : forall out, ext out (write_data out vs).
Proof.
  induction vs as [|s vs IH]; intros out o E; cbn [write_data] in E.
  - injection E as <-. exists []. now rewrite app_nil_r.
  - unfold write_data1 in E. destruct (store _ _ _) as [b|e|]; cbn [rbind] in E; try discriminate.
    apply IH in E. destruct E as (q & ->). destruct (padded_ty (sv_ty s)).
    + destruct (pad_out_ext out b) as (u & ->). rewrite <- app_assoc. eauto.
    + rewrite <- app_assoc. eauto.
Qed.
Lemma write_dims_ext ver lens names : forall out, exists t, write_dims ver lens out names = out ++ t.
Proof.
  induction names as [|n names IH]; intros out; cbn [write_dims]; [exists []; now rewrite app_nil_r|].
  destruct (write_name_ext ver out n) as (u & ->).
  match goal with |- context[write_dims ver lens ?o names] => destruct (IH o) as (t & ->) end.
  rewrite <- !app_assoc. eauto.
Qed.
Lemma prologue_ext st : exists t, write_prologue st = bs "CDF" ++ [u8 (w_ver st)] ++ t.
Proof.
  unfold write_prologue. destruct (0 <? zlen (w_dimlens st)).
  - match goal with |- context[write_dims ?v ?l ?o ?n] => destruct (write_dims_ext v l n o) as (t & ->) end.
    rewrite <- !app_assoc. eauto.
  - rewrite <- !app_assoc. eauto.
Qed.

Lemma Ok_inj {A} (a b : A) : Ok a = Ok b -> a = b.
Proof. congruence. Qed.

Lemma file_start st f : close_writer st = Ok f -> exists t, f = bs "CDF" ++ [u8 (w_ver st)] ++ t.
Proof.
  unfold close_writer, write_all. intros E. destruct (prologue_ext st) as (p & Ep). rewrite Ep in E.
  destruct (check_v5 _ _) as [ver|e|]; cbn [rbind] in E; try discriminate.
  destruct (write_attributes ver _ _) as [o2|e|] eqn:E2; cbn [rbind] in E; try discriminate.
  apply write_attributes_ext in E2. destruct E2 as (t2 & ->).
  destruct (w_vars st) as [|s vs].
  - apply Ok_inj in E. rewrite <- E. rewrite <- !app_assoc. eauto.
  - destruct (vars_size _ _ _) as [bg|e|]; cbn [rbind] in E; try discriminate.
    destruct (write_vars _ _ _ _ _) as [o4|e|] eqn:E4; cbn [rbind] in E; try discriminate.
    apply write_vars_ext in E4. destruct E4 as (t4 & ->). apply write_data_ext in E. destruct E as (t5 & ->).
    rewrite <- !app_assoc. eauto.
Qed.

Lemma version_byte U ops st rs f : wrun U open_writer ops = (st, rs) -> close_writer st = Ok f ->
  nth 3 f 0 = w_ver st.
Proof.
  intros E C. destruct (file_start st f C) as (t & ->). destruct (run_inv U ops st rs E) as (W & _ & _).
  cbn. destruct (wi_ver U st W) as [-> | ->]; reflexivity.
Qed.

(** No CDF-5 type code in a version 2 file *)
Definition classic_type (code : Z) : Prop := 1 <= code <= 6.

Lemma tcode_classic t : v5ty t = false -> classic_type (tcode t).
Proof. unfold classic_type. destruct t as [|[]]; cbn; intros; try discriminate; lia. Qed.

Lemma read_as_in ids off vs l : read_as ids off vs l -> forall n r, In (n, r) l ->
  exists s rv o, In s vs /\ r = rvar_of ids s rv o.
Proof.
  induction 1 as [|off s vs rv l _ IH]; intros n r HI; [destruct HI|]. destruct HI as [HI|HI].
  - injection HI as _ <-. exists s, rv, off. split; [left; reflexivity|reflexivity].
  - destruct (IH n r HI) as (s' & rv' & o' & X1 & X2). exists s', rv', o'. split; [right; exact X1|exact X2].
Qed.

Lemma attrs_back_in a k y : om_get (om_of (attrs_back a)) k = Some y ->
  exists x, In (k, x) a /\ y = attr_back x.
Proof.
  unfold om_get, om_of. cbn [om_vals]. intros H. apply assoc_Some_In in H.
  unfold attrs_back in H. apply in_map_iff in H. destruct H as ([k' x] & E & HI). cbn [fst snd] in E.
  injection E as <- <-. exists x. split; [exact HI|reflexivity].
Qed.
Lemma attr_back_v5 x : wt x = true -> attr_version x <> 0 -> attr_only_v5 (attr_back x) -> attr_only_v5 x.
Proof.
  intros W N. destruct x as [k z|s|t l|]; cbn [attr_back]; auto.
  destruct l as [|y [|y2 l]]; auto. apply wt_slice in W. apply Forall_cons_iff in W. destruct W as [[T _] _].
  subst t. destruct y as [k z|s|t' l'|]; cbn in *; auto.
Qed.

Lemma attrs_no_v5 a k y : attrs_ok 2 a -> om_get (om_of (attrs_back a)) k = Some y -> ~ attr_only_v5 y.
Proof.
  intros AO H X. destruct (attrs_back_in a k y H) as (x & HI & ->).
  destruct AO as (A & _). rewrite Forall_forall in A. destruct (A _ HI) as (W & (N & V) & _). cbn [snd] in *.
  apply attr_back_v5 in X; [|exact W|exact N]. apply attr_only_v5_version in X. lia.
Qed.

Lemma no_v5_codes U ops rs st f : ucd_ascii U -> ucd_disjoint U ->
  wrun U open_writer ops = (st, rs) -> fits ops rs st -> close_writer st = Ok f -> zlen f < 2 ^ 62 ->
  nth 3 f 0 = 2 ->
  exists c, cdf_open f = Ok c /\
    (forall k y, om_get (c_gattrs c) k = Some y -> ~ attr_only_v5 y) /\
    forall n rv, om_get (c_vars c) n = Some rv -> classic_type (v_type rv) /\
      forall k y, om_get (v_attrs rv) k = Some y -> ~ attr_only_v5 y.
Proof.
  intros UA UD E F C Hf V. rewrite (version_byte U ops st rs f E C) in V.
  destruct (open_fits U ops rs st f UA UD E F C Hf) as (c & rvs & O).
  exists c. split; [apply O|]. destruct (run_inv U ops st rs E) as (W & _ & _).
  pose proof (op_ok _ _ _ _ _ _ O) as WK. rewrite (op_cdf _ _ _ _ _ _ O). cbn [cdf_of c_gattrs c_vars].
  split.
  - intros k y H. pose proof (wok_gattrs st WK) as AO. rewrite V in AO. eapply attrs_no_v5; [exact AO|].
    unfold gattrs_read, om_hide in H. unfold om_get in *. cbn [om_vals om_of] in *.
    exact H.
  - intros n rv H. unfold om_get, om_of in H. cbn [om_vals] in H. apply assoc_Some_In in H.
    destruct (read_as_in _ _ _ _ (op_read _ _ _ _ _ _ O) n rv H) as (s & r & o & Hs & ->).
    cbn [rvar_of v_type v_attrs]. pose proof (wi_vars U st W) as WV. rewrite Forall_forall in WV. specialize (WV s Hs).
    split.
    + apply tcode_classic. destruct (v5ty (sv_ty s)) eqn:X; [|reflexivity]. apply (vi_ver _ _ _ WV) in X. lia.
    + intros k y Hk. pose proof (wok_rvars st WK) as WR. rewrite Forall_forall in WR. destruct (WR s Hs) as (_ & _ & _ & _ & AO).
      rewrite V in AO. eapply attrs_no_v5; eauto.
Qed.

(** ** C08 *)
Lemma rejected_call U st n v d a st' r : wt v = true -> add_var U st n v d a = (st', r) -> r <> Ok tt ->
  (uses_v5 (WVar n v d a) \/ r = Err EDimensionSize -> w_vars st' = w_vars st /\ w_gattrs st' = w_gattrs st) /\
  (~ uses_v5 (WVar n v d a) -> r <> Err EDimensionSize -> st' = st).
Proof.
  intros W E NR. unfold add_var in E.
  destruct (negb (valid_name U n)); [injection E as <- <-; auto|].
  destruct (negb (valid_attr_names U a)); [injection E as <- <-; auto|].
  destruct (check_v5 (w_ver st) a) as [v1|e|] eqn:Ec;
    [|injection E as <- <-; auto|injection E as <- <-; auto].
  destruct (check_v5_five _ _ _ Ec) as (C1 & C2 & C3).
  assert (K : ~ uses_v5 (WVar n v d a) -> set_ver st v1 = st).
  { intros N. assert (v1 = w_ver st) as ->.
    { destruct (check_v5_cases _ _ _ Ec) as [X|X]; [exact X|]. destruct (C1 X) as [Y|Y]; [congruence|].
      exfalso. apply N. right. exact Y. }
    destruct st; reflexivity. }
  destruct (dim_lengths v [] _) as [[lens ty]|e|] eqn:DL;
    [|injection E as <- <-; split; [split; reflexivity|auto]|injection E as <- <-; split; [split; reflexivity|auto]].
  set (st2 := if v5ty ty then set_ver (set_ver st v1) 5 else set_ver st v1) in *.
  assert (S2 : w_vars st2 = w_vars st /\ w_gattrs st2 = w_gattrs st)
    by (unfold st2; destruct (v5ty ty); split; reflexivity).
  destruct (add_dims n ty 0 lens d st2) as [st3 r3] eqn:Ea.
  assert (X : w_vars st3 = w_vars st2 /\ w_gattrs st3 = w_gattrs st2 /\ r3 <> Panic /\ forall e, r3 = Err e -> e = EDimensionSize).
  { clear - Ea. revert Ea. assert (Hi : (0 <= List.length d)%nat) by lia. revert Hi.
    generalize 0%nat as i, d as vd, st2 as s0. clear. induction lens as [|m lens IH]; intros i vd s0 Hi E; cbn [add_dims] in E.
    - injection E as <- <-. repeat split; try discriminate.
    - match type of E with context[nth_error ?w i] => set (vd' := w) in * end.
      assert (Hl : (S i <= List.length vd')%nat).
      { unfold vd'. destruct (nth i vd []) eqn:En.
        - rewrite app_length. cbn. lia.
        - destruct (Nat.lt_ge_cases i (List.length vd)); [lia|]. rewrite nth_overflow in En by lia. discriminate. }
      destruct (nth_error vd' i) as [dn|] eqn:Edn; [|exfalso; apply nth_error_None in Edn; lia].
      destruct (assoc dn (w_dimlens s0)).
      + destruct (m =? z).
        * eapply IH in E; eauto. 
        * injection E as <- <-. repeat split; try discriminate. intros e X. congruence.
      + eapply IH in E; eauto. }
  destruct X as (X1 & X2 & X3 & X4).
  destruct r3 as [vd|e|]; injection E as <- <-; [congruence| |congruence].
  split; [intros _; split; [rewrite X1|rewrite X2]; apply S2|].
  intros _ N. exfalso. apply N. f_equal. apply X4. reflexivity.
Qed.

(** ** C55: association lists up to permutation *)
Record same (st st' : wst) : Prop := mkSame {
  sm_vars : w_vars st = w_vars st'; sm_gattrs : w_gattrs st = w_gattrs st';
  sm_names : w_dimnames st = w_dimnames st'; sm_next : w_next st = w_next st';
  sm_ver : w_ver st = w_ver st';
  sm_lens : Permutation (w_dimlens st) (w_dimlens st'); sm_nd1 : NoDup (map fst (w_dimlens st));
  sm_ids : Permutation (w_dimids st) (w_dimids st'); sm_nd2 : NoDup (map fst (w_dimids st))
}.

Lemma assoc_perm {V} (l l' : list (bytes * V)) k : Permutation l l' -> NoDup (map fst l) -> assoc k l = assoc k l'.
Proof.
  intros P ND. assert (ND' : NoDup (map fst l')) by (eapply Permutation_NoDup; [apply Permutation_map; exact P|exact ND]).
  destruct (assoc k l) eqn:E.
  - apply assoc_Some_In in E. symmetry. apply In_assoc; [exact ND'|]. eapply Permutation_in; eauto.
  - apply assoc_None in E. symmetry. apply assoc_None. intros X. apply E.
    eapply Permutation_in; [apply Permutation_sym, Permutation_map; exact P|exact X].
Qed.
Lemma same_lens st st' k : same st st' -> assoc k (w_dimlens st) = assoc k (w_dimlens st').
Proof. intros [S1 S2 S3 S4 S5 S6 S7 S8 S9]. now apply assoc_perm. Qed.
Lemma same_ids st st' k : same st st' -> assoc k (w_dimids st) = assoc k (w_dimids st').
Proof. intros [S1 S2 S3 S4 S5 S6 S7 S8 S9]. now apply assoc_perm. Qed.

Lemma assoc_set_old {V} k (v : V) l : In k (map fst l) -> map fst (assoc_set k v l) = map fst l.
Proof.
  induction l as [|[k' v'] l IH]; intros H; [destruct H|]. cbn [assoc_set]. destruct (beqb_spec k k') as [->|N].
  - reflexivity.
  - cbn [map fst] in *. f_equal. apply IH. destruct H; [congruence|assumption].
Qed.

Lemma set_perm {V} k (v : V) l l' : Permutation l l' -> NoDup (map fst l) ->
  Permutation (assoc_set k v l) (assoc_set k v l') /\ NoDup (map fst (assoc_set k v l)).
Proof.
  intros P ND. assert (ND' : NoDup (map fst l')) by (eapply Permutation_NoDup; [apply Permutation_map; exact P|exact ND]).
  destruct (in_dec (list_eq_dec Z.eq_dec) k (map fst l)) as [I|I].
  - assert (I' : In k (map fst l')) by (eapply Permutation_in; [apply Permutation_map; exact P|exact I]).
    split; [|now rewrite assoc_set_old].
    apply NoDup_Permutation.
    + apply (NoDup_map_inv fst). now rewrite assoc_set_old.
    + apply (NoDup_map_inv fst). now rewrite assoc_set_old.
    + assert (G : forall m, NoDup (map fst m) -> In k (map fst m) -> forall x, In x (assoc_set k v m) <->
        assoc (fst x) (assoc_set k v m) = Some (snd x)).
      { intros m N M [a b]. cbn [fst snd]. split; [|apply assoc_Some_In].
        apply In_assoc. now rewrite assoc_set_old. }
      intros [a b]. rewrite (G l ND I), (G l' ND' I'). cbn [fst snd].
      destruct (beqb_spec a k) as [->|N].
      * now rewrite !assoc_set_same.
      * rewrite !assoc_set_other by (congruence || auto). now rewrite (assoc_perm l l' a P ND).
  - assert (I' : ~ In k (map fst l')).
    { intros X. apply I. eapply Permutation_in; [apply Permutation_sym, Permutation_map; exact P|exact X]. }
    rewrite !assoc_set_new by assumption. split; [now apply Permutation_app_tail|].
    rewrite map_app. now apply NoDup_snoc.
Qed.

Definition out_same {A} (x y : wst * res A) : Prop := same (fst x) (fst y) /\ snd x = snd y.

Lemma add_dims_same name ty lens : forall i vdims st st', same st st' ->
  out_same (add_dims name ty i lens vdims st) (add_dims name ty i lens vdims st').
Proof.
  induction lens as [|n lens IH]; intros i vdims st st' S; cbn [add_dims]; [split; [exact S|reflexivity]|].
  rewrite <- (sm_next _ _ S). destruct (nth_error _ i) as [dn|]; [|split; [exact S|reflexivity]].
  rewrite <- (same_lens _ _ dn S). destruct (assoc dn (w_dimlens st)).
  - destruct (n =? z); [now apply IH|]. split; [exact S|reflexivity].
  - apply IH. destruct S as [S1 S2 S3 S4 S5 S6 S7 S8 S9].
    destruct (set_perm dn n _ _ S6 S7) as [P1 P2]. destruct (set_perm dn (w_next st) _ _ S8 S9) as [P3 P4].
    split; cbn [w_vars w_gattrs w_dimlens w_dimnames w_dimids w_next w_ver]; auto; congruence.
Qed.

Lemma set_ver_same st st' v : same st st' -> same (set_ver st v) (set_ver st' v).
Proof. intros [S1 S2 S3 S4 S5 S6 S7 S8 S9]. split; auto. Qed.

Lemma wstep_same U st st' o : same st st' -> out_same (wstep U st o) (wstep U st' o).
Proof.
  intros S. destruct o as [a|n v d a|g]; cbn [wstep].
  - unfold add_attributes. destruct (valid_attr_names U a); [|split; [exact S|reflexivity]].
    split; [|reflexivity]. destruct S as [S1 S2 S3 S4 S5 S6 S7 S8 S9]. cbn [fst]. split; auto.
  - unfold add_var. destruct (negb (valid_name U n)); [split; [exact S|reflexivity]|].
    destruct (negb (valid_attr_names U a)); [split; [exact S|reflexivity]|].
    rewrite <- (sm_ver _ _ S). destruct (check_v5 (w_ver st) a) as [v1|e|]; try (split; [exact S|reflexivity]).
    destruct (dim_lengths v [] _) as [[lens ty]|e|]; try (split; [apply set_ver_same; exact S|reflexivity]).
    assert (S' : same (if v5ty ty then set_ver (set_ver st v1) 5 else set_ver st v1)
                      (if v5ty ty then set_ver (set_ver st' v1) 5 else set_ver st' v1))
      by (destruct (v5ty ty); repeat apply set_ver_same; exact S).
    pose proof (add_dims_same n ty lens 0 d _ _ S') as H.
    destruct (add_dims n ty 0 lens d _) as [s3 r3]. destruct (add_dims n ty 0 lens d _) as [s3' r3'].
    destruct H as [H1 H2]. cbn [fst snd] in H1, H2. subst r3'.
    destruct r3; split; try reflexivity; try exact H1.
    cbn [fst]. destruct H1 as [Q1 Q2 Q3 Q4 Q5 Q6 Q7 Q8 Q9]. split; cbn [push_var w_vars w_gattrs w_dimlens w_dimnames w_dimids w_next w_ver]; auto. congruence.
  - split; [exact S|reflexivity].
Qed.

Lemma zlen_perm {A} (l l' : list A) : Permutation l l' -> zlen l = zlen l'.
Proof. intros P. unfold zlen. now rewrite (Permutation_length P). Qed.

Lemma write_dims_same ver names l l' : (forall k, assoc k l = assoc k l') ->
  forall out, write_dims ver l out names = write_dims ver l' out names.
Proof. intros H. induction names as [|n names IH]; intros out; [reflexivity|]. cbn [write_dims]. rewrite H. apply IH. Qed.

Lemma write_vars_same ids ids' ver vs : (forall k, assoc k ids = assoc k ids') ->
  forall out off, write_vars ids ver out vs off = write_vars ids' ver out vs off.
Proof.
  intros H. induction vs as [|s vs IH]; intros out off; [reflexivity|]. cbn [write_vars].
  assert (E : write_var ids ver out s off = write_var ids' ver out s off).
  { unfold write_var. do 2 f_equal. f_equal. rewrite !flat_map_concat_map. f_equal. apply map_ext. intros nm. now rewrite H. }
  rewrite E. destruct (write_var ids' ver out s off) as [[o v]| |]; cbn [rbind]; auto.
Qed.

Lemma close_same st st' : same st st' -> close_writer st = close_writer st'.
Proof.
  intros S. unfold close_writer, write_all.
  assert (P : write_prologue st = write_prologue st').
  { unfold write_prologue. rewrite (zlen_perm _ _ (sm_lens _ _ S)), (sm_ver _ _ S), (sm_next _ _ S), (sm_names _ _ S).
    rewrite (write_dims_same _ _ (w_dimlens st) (w_dimlens st')); [reflexivity|]. intros k. now apply same_lens. }
  rewrite P, (sm_ver _ _ S), (sm_gattrs _ _ S), (sm_vars _ _ S).
  destruct (check_v5 _ _) as [ver| |]; cbn [rbind]; auto.
  destruct (write_attributes _ _ _); cbn [rbind]; auto. destruct (w_vars st') as [|s vs]; [reflexivity|].
  destruct (vars_size _ _ _); cbn [rbind]; auto.
  rewrite (write_vars_same (w_dimids st) (w_dimids st')); [reflexivity|]. intros k. now apply same_ids.
Qed.

(** A run in which the entries of Go's maps are reordered arbitrarily before every call *)
Definition shuffled (st st' : wst) : Prop :=
  exists l i, Permutation (w_dimlens st) l /\ Permutation (w_dimids st) i /\
    st' = mkWst (w_vars st) (w_gattrs st) l (w_dimnames st) i (w_next st) (w_ver st).
Inductive runs (U : ucd) : wst -> list wop -> wst -> list (res unit) -> Prop :=
| runs_nil st st' : shuffled st st' -> runs U st [] st' []
| runs_cons st st1 st2 st' o ops r rs :
    shuffled st st1 -> wstep U st1 o = (st2, r) -> runs U st2 ops st' rs ->
    runs U st (o :: ops) st' (r :: rs).

Lemma same_trans a b c : same a b -> same b c -> same a c.
Proof.
  intros [A1 A2 A3 A4 A5 A6 A7 A8 A9] [B1 B2 B3 B4 B5 B6 B7 B8 B9].
  split; try congruence; auto; eapply Permutation_trans; eauto.
Qed.
Lemma same_sym a b : same a b -> same b a.
Proof.
  intros [A1 A2 A3 A4 A5 A6 A7 A8 A9].
  split; try congruence; try (now apply Permutation_sym); eapply Permutation_NoDup; try (apply Permutation_map; eassumption); assumption.
Qed.
Lemma shuffled_same st st' s0 : same s0 st -> shuffled st st' -> same s0 st'.
Proof.
  intros S (l & i & P1 & P2 & ->). apply (same_trans s0 st); [exact S|].
  pose proof (same_sym _ _ S) as T. destruct T as [A1 A2 A3 A4 A5 A6 A7 A8 A9]. split; auto.
Qed.

Lemma runs_same U ops : forall s0 st st' rs, same s0 st -> runs U st ops st' rs ->
  let '(s1, rs1) := wrun U s0 ops in same s1 st' /\ rs1 = rs.
Proof.
  induction ops as [|o ops IH]; intros s0 st st' rs S R; inversion R; subst; cbn [wrun].
  - split; [|reflexivity]. eapply shuffled_same; eauto.
  - match goal with H : shuffled st _ |- _ => pose proof (shuffled_same _ _ _ S H) as S1 end.
    pose proof (wstep_same U _ _ o S1) as [O1 O2].
    match goal with H : wstep U st1 o = _ |- _ => rewrite H in O1, O2 end. cbn [fst snd] in O1, O2.
    destruct (wstep U s0 o) as [s2 r2]. cbn [fst snd] in O1, O2. subst r2.
    match goal with H : runs U st2 ops _ _ |- _ => specialize (IH s2 st2 _ _ O1 H) end.
    destruct (wrun U s2 ops) as [s3 rs3]. destruct IH as [I1 ->]. split; [exact I1|reflexivity].
Qed.

Lemma map_order U ops st1 rs1 st2 rs2 :
  runs U open_writer ops st1 rs1 -> runs U open_writer ops st2 rs2 ->
  rs1 = rs2 /\ close_writer st1 = close_writer st2.
Proof.
  intros R1 R2. assert (S : same open_writer open_writer).
  { split; try reflexivity; constructor. }
  pose proof (runs_same U ops _ _ _ _ S R1) as H1. pose proof (runs_same U ops _ _ _ _ S R2) as H2.
  destruct (wrun U open_writer ops) as [s rs]. destruct H1 as [H1 <-], H2 as [H2 <-]. split; [reflexivity|].
  rewrite <- (close_same _ _ H1). now apply close_same.
Qed.
