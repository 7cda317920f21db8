(** When Close succeeds, and that the writer does not panic; version; shuffled maps. *)
From Coq Require Import ZifyBool ZifyNat Permutation.
From Verif Require Import Prelude GoVal BaseLemmas ValidNameModel ValidNameProofs OrderedMapModel
  ArraySpec ArrayProofs CdfSpec CdfCalls CdfWriterModel CdfReaderModel CdfCodec CdfHeader CdfConvert
  CdfFile CdfFixed CdfStore CdfInv CdfRound CdfLayout.
Ltac Zify.zify_post_hook ::= Z.div_mod_to_equations.

(** ** Storing never fails for values of one Go type *)
Lemma rmapM_all {A B} (f : A -> res B) l : (forall x, In x l -> exists y, f x = Ok y) ->
  exists ys, rmapM f l = Ok ys.
Proof.
  induction l as [|x l IH]; intros H; [exists []; reflexivity|].
  destruct (H x) as (y & Hy); [left; reflexivity|]. destruct IH as (ys & Hys); [intros; apply H; right; assumption|].
  exists (y :: ys). cbn [rmapM]. rewrite Hy. cbn [rbind]. rewrite Hys. reflexivity.
Qed.

Lemma type_num v k : type_of v = GNum k -> exists z, v = VNum k z.
Proof. destruct v; cbn; intros H; try discriminate. injection H as ->. eauto. Qed.
Lemma type_str v : type_of v = GString -> exists s, v = VStr s.
Proof. destruct v; cbn; intros H; try discriminate. eauto. Qed.
Lemma type_slice v t : type_of v = GSlice t -> exists l, v = VSlice t l.
Proof. destruct v; cbn; intros H; try discriminate. injection H as ->. eauto. Qed.

Lemma nk_eqb_refl k : nk_eqb k k = true.
Proof. destruct k; reflexivity. Qed.

(** Induction along first elements *)
Lemma first_ind (P : gval -> Prop) : (forall k z, P (VNum k z)) -> (forall s, P (VStr s)) -> P VOther ->
  (forall t, P (VSlice t [])) -> (forall t x l, P x -> P (VSlice t (x :: l))) -> forall v, P v.
Proof.
  intros H1 H2 H3 H4 H5. fix IH 1. intros [k z|s|t l|]; [apply H1|apply H2| |apply H3].
  destruct l as [|x l]; [apply H4|apply H5; apply IH].
Qed.

Definition storing (v : gval) (dims L : list Z) (ty : cty) : Prop :=
  exists lens, L = dims ++ lens /\
    (lens = [] -> (exists k, type_of v = GNum k /\ ty = TNum k) \/ type_of v = GString) /\
    forall v', wt v' = true -> type_of v' = type_of v -> exists b, store ty lens v' = Ok b.

Lemma storing_strings l dims : storing (VSlice GString l) dims ((dims ++ [zlen l]) ++ [max_strlen l]) TChar.
Proof.
  exists [zlen l; max_strlen l]. split; [now rewrite <- app_assoc|]. split; [discriminate|].
  intros v' W' T. cbn [type_of] in T. apply type_slice in T. destruct T as (l' & ->).
  apply wt_slice in W'. rewrite Forall_forall in W'.
  change (store TChar [zlen l; max_strlen l] (VSlice GString l')) with
      (rmap (@List.concat Z) (rmapM (store TChar [max_strlen l]) l')).
  destruct (rmapM_all (store TChar [max_strlen l]) l') as (ys & ->).
  - intros y Hy. destruct (W' y Hy) as [Q1 Q2]. apply type_str in Q1. destruct Q1 as (s & ->). cbn [store]. eauto.
  - cbn [rmap]. eauto.
Qed.

Lemma store_total v : forall dims nn L ty, wt v = true -> dim_lengths v dims nn = Ok (L, ty) ->
  storing v dims L ty.
Proof.
  induction v as [k z|s| |t|t x l IH] using first_ind; intros dims nn L ty W E; cbn [dim_lengths] in E.
  - injection E as <- <-. exists []. split; [now rewrite app_nil_r|]. split.
    + intros _. left. exists k. split; reflexivity.
    + intros v' W' T. apply type_num in T. destruct T as (z' & ->). cbn [store]. rewrite nk_eqb_refl. eauto.
  - destruct ((zlen s =? 1) && nn); injection E as <- <-.
    + exists []. split; [now rewrite app_nil_r|]. split; [intros _; right; reflexivity|].
      intros v' W' T. apply type_str in T. destruct T as (s' & ->). cbn [store]. eauto.
    + exists [zlen s]. split; [reflexivity|]. split; [discriminate|].
      intros v' W' T. apply type_str in T. destruct T as (s' & ->). cbn [store]. eauto.
  - discriminate.
  - destruct t as [k| |t|]; try discriminate.
    injection E as <- <-. exists [0]. split; [reflexivity|]. split; [discriminate|].
    intros v' W' T. cbn [type_of] in T. apply type_slice in T. destruct T as (l' & ->).
    cbn [store]. rewrite nk_eqb_refl. eauto.
  - assert (G : dim_lengths x (dims ++ [zlen (x :: l)]) nn = Ok (L, ty) ->
      t <> GString -> storing (VSlice t (x :: l)) dims L ty).
    { intros Ex Nt. apply wt_slice in W. apply Forall_cons_iff in W. destruct W as [[T1 T2] _].
      destruct (IH _ _ _ _ T2 Ex) as (lens & -> & I1 & I2).
      exists (zlen (x :: l) :: lens). split; [now rewrite <- app_assoc|]. split; [discriminate|].
      intros v' W' T. cbn [type_of] in T. apply type_slice in T. destruct T as (l' & ->).
      apply wt_slice in W'. rewrite Forall_forall in W'. rewrite T1 in *.
      destruct lens as [|d ds].
      - destruct (I1 eq_refl) as [(k & -> & ->)| ->]; [|contradiction].
        cbn [store]. rewrite nk_eqb_refl. eauto.
      - change (store ty (zlen (x :: l) :: d :: ds) (VSlice t l')) with
          (rmap (@List.concat Z) (rmapM (store ty (d :: ds)) l')).
        destruct (rmapM_all (store ty (d :: ds)) l') as (ys & ->).
        + intros y Hy. destruct (W' y Hy) as [Q1 Q2]. apply I2; assumption.
        + cbn [rmap]. eauto. }
    destruct t as [k| |t|]; try (apply G; [exact E|discriminate]).
    destruct (max_strlen (x :: l) =? 0); [discriminate|]. injection E as <- <-. apply storing_strings.
Qed.

(** A value has an unsupported type somewhere *)
Definition supported (v : gval) : Prop := base_type (type_of v) <> GOther.

Lemma dim_lengths_no_panic v : forall dims nn, wt v = true -> supported v -> dim_lengths v dims nn <> Panic.
Proof.
  induction v as [k z|s| |t|t x l IH] using first_ind; intros dims nn W S E; cbn [dim_lengths] in E.
  - discriminate.
  - destruct ((zlen s =? 1) && nn); discriminate.
  - apply S. reflexivity.
  - destruct t; discriminate.
  - assert (G : dim_lengths x (dims ++ [zlen (x :: l)]) nn = Panic -> False).
    { intros Ex. apply wt_slice in W. apply Forall_cons_iff in W. destruct W as [[T1 T2] _].
      eapply IH; [exact T2| |exact Ex]. unfold supported in *. cbn [type_of base_type] in S. now rewrite T1. }
    destruct t as [k| |t|].
    + apply G. exact E.
    + destruct (max_strlen (x :: l) =? 0); discriminate.
    + apply G. exact E.
    + apply S. reflexivity.
Qed.

Lemma check_v5_no_panic ver a : check_v5 ver a <> Panic.
Proof.
  revert ver; induction a as [|[k x] a IH]; intros ver; cbn [check_v5]; [discriminate|].
  destruct (attr_version x =? 0); [discriminate|]. destruct (attr_version x =? 5); [discriminate|]. apply IH.
Qed.

Lemma add_var_no_panic U ops st rs name v d a : wrun U open_writer ops = (st, rs) ->
  wt v = true -> supported v -> snd (add_var U st name v d a) <> Panic.
Proof.
  intros E W S. destruct (run_inv U ops st rs E) as (WI & _ & _). unfold add_var.
  destruct (negb (valid_name U name)); [discriminate|].
  destruct (negb (valid_attr_names U a)); [discriminate|].
  destruct (check_v5 (w_ver st) a) as [v1|e|] eqn:Ec; [|discriminate|exfalso; eapply check_v5_no_panic; eauto].
  destruct (dim_lengths v [] _) as [[lens ty]|e|] eqn:DL; [|discriminate|exfalso; eapply dim_lengths_no_panic; eauto].
  set (st2 := if v5ty ty then set_ver (set_ver st v1) 5 else set_ver st v1).
  assert (R : reg_ok st2).
  { pose proof (wi_reg U st WI) as [R1 R2 R3 R4 R5 R6]. unfold st2. destruct (v5ty ty); split; assumption. }
  assert (P : Forall (fun n => 0 <= n) lens) by (eapply dim_lengths_nonneg; [|exact DL]; constructor).
  destruct (add_dims name ty 0 lens d st2) as [st3 r3] eqn:Ea.
  destruct (add_dims_ok name ty lens 0 d st2 st3 r3 R P) as (_ & _ & NP & _); auto; [lia|].
  destruct r3; cbn [snd]; try discriminate. congruence.
Qed.

(** ** Close *)
Definition inner_nonzero (lens : list Z) : Prop := Forall (fun n => n <> 0) (tl lens).
Definition attrs_supported (a : attrs) : Prop := Forall (fun kv => attr_supported (snd kv)) a.

Definition okerr {A} (r : res A) (P : Prop) : Prop :=
  match r with Ok _ => P | Err _ => ~ P | Panic => False end.

Lemma attr_payload_iff v : attr_payload v <> None <-> attr_supported v.
Proof. destruct v as [k z|s|[k| |t|] l|]; cbn; split; intros; try exact I; try discriminate; try contradiction; congruence. Qed.

Lemma write_attr_list_iff ver a : forall out, okerr (write_attr_list ver out a) (attrs_supported a).
Proof.
  induction a as [|[k v] a IH]; intros out; cbn [write_attr_list]; [constructor|].
  destruct (attr_payload v) as [[[t n] p]|] eqn:Ep.
  - match goal with |- okerr (write_attr_list _ ?o _) _ => specialize (IH o) end.
    destruct (write_attr_list _ _ _); cbn [okerr] in *; [|intros X; apply IH|exact IH].
    + constructor; [|exact IH]. apply attr_payload_iff. cbn [snd]. congruence.
    + apply Forall_cons_iff in X. apply X.
  - intros X. apply Forall_cons_iff in X. destruct X as [X _]. apply attr_payload_iff in X. apply X. exact Ep.
Qed.
Lemma write_attributes_iff ver out a : okerr (write_attributes ver out a) (attrs_supported a).
Proof. unfold write_attributes. destruct a; [constructor|]. apply write_attr_list_iff. Qed.

Lemma attributes_size_iff ver a : okerr (attributes_size ver a) (attrs_supported a).
Proof.
  unfold attributes_size. generalize (4 + numsize ver) as count.
  induction a as [|[k v] a IH]; intros count; cbn [attr_list_size]; [constructor|].
  assert (G : forall c, attr_supported v -> okerr (attr_list_size ver c a) (attrs_supported ((k, v) :: a))).
  { intros c Sv. specialize (IH c). destruct (attr_list_size ver c a); cbn [okerr] in *; [|intros X; apply IH|exact IH].
    - constructor; [exact Sv|exact IH].
    - apply Forall_cons_iff in X. apply X. }
  destruct v as [kd z|s|[kd| |t|] l|]; try (apply G; exact I);
    (intros X; apply Forall_cons_iff in X; apply X).
Qed.

Lemma vsize_loop_iff lens : forall first acc,
  okerr (vsize_loop first lens acc) (if first then inner_nonzero lens else Forall (fun n => n <> 0) lens).
Proof.
  induction lens as [|n lens IH]; intros first acc; cbn [vsize_loop].
  - destruct first; constructor.
  - destruct (Z.eqb_spec n 0) as [->|N]; cbn [negb].
    + destruct first; [apply (IH false)|]. intros X. apply Forall_cons_iff in X. destruct X. congruence.
    + specialize (IH false (acc * n)). cbn in IH. destruct (vsize_loop false lens (acc * n)); cbn [okerr] in *.
      * destruct first; [exact IH|]. constructor; assumption.
      * destruct first; [exact IH|]. intros X. apply Forall_cons_iff in X. apply IH. apply X.
      * exact IH.
Qed.

Definition var_closable (s : svar) : Prop := attrs_supported (sv_attrs s) /\ inner_nonzero (sv_lens s).

Lemma write_var_iff ids ver out s off : okerr (write_var ids ver out s off) (var_closable s).
Proof.
  unfold write_var, var_closable.
  match goal with |- context[write_attributes ver ?o _] => pose proof (write_attributes_iff ver o (sv_attrs s)) as H end.
  destruct (write_attributes _ _ _); cbn [okerr rbind] in *; [|intros [X _]; contradiction|exact H].
  pose proof (vsize_loop_iff (sv_lens s) true (tysize (sv_ty s))) as V.
  destruct (vsize_loop _ _ _); cbn [okerr rbind] in *; [split; assumption|intros [_ X]; contradiction|exact V].
Qed.

Lemma write_vars_iff ids ver vs : forall out off, okerr (write_vars ids ver out vs off) (Forall var_closable vs).
Proof.
  induction vs as [|s vs IH]; intros out off; cbn [write_vars]; [constructor|].
  pose proof (write_var_iff ids ver out s off) as H.
  destruct (write_var ids ver out s off) as [[o vsz]|e|]; cbn [okerr rbind] in *;
    [|intros X; apply Forall_cons_iff in X; apply H; apply X|exact H].
  specialize (IH o (off + vsz)). destruct (write_vars ids ver o vs (off + vsz)); cbn [okerr] in *.
  - constructor; assumption.
  - intros X. apply Forall_cons_iff in X. apply IH. apply X.
  - exact IH.
Qed.

Lemma vars_size_iff ver vs : forall acc, okerr (vars_size ver acc vs) (Forall (fun s => attrs_supported (sv_attrs s)) vs).
Proof.
  induction vs as [|s vs IH]; intros acc; cbn [vars_size]; [constructor|].
  unfold var_size. pose proof (attributes_size_iff ver (sv_attrs s)) as H.
  destruct (attributes_size ver (sv_attrs s)); cbn [okerr rbind] in *;
    [|intros X; apply Forall_cons_iff in X; apply H; apply X|exact H].
  match goal with |- okerr (vars_size ver ?a vs) _ => specialize (IH a) end.
  destruct (vars_size ver _ vs); cbn [okerr] in *.
  - constructor; assumption.
  - intros X. apply Forall_cons_iff in X. apply IH. apply X.
  - exact IH.
Qed.

Lemma write_data_ok vs : Forall (fun s => exists b, store (sv_ty s) (sv_lens s) (sv_val s) = Ok b) vs ->
  forall out, exists o, write_data out vs = Ok o.
Proof.
  induction 1 as [|s vs (b & Hb) _ IH]; intros out; cbn [write_data]; [eauto|].
  unfold write_data1. rewrite Hb. cbn [rbind]. apply IH.
Qed.

(** CDF-5 attributes stop the check of the global attributes, so [check_v5] alone does not
    decide whether they are supported *)
Lemma check_v5_supported ver a : attrs_supported a -> exists v, check_v5 ver a = Ok v.
Proof.
  induction a as [|[k x] a IH]; intros S; cbn [check_v5]; [eauto|].
  apply Forall_cons_iff in S. destruct S as [S1 S2]. cbn [snd] in S1. apply supported_version in S1.
  destruct (Z.eqb_spec (attr_version x) 0); [contradiction|].
  destruct (attr_version x =? 5); [eauto|]. apply IH. exact S2.
Qed.

Definition closable (st : wst) : Prop := attrs_supported (w_gattrs st) /\ Forall var_closable (w_vars st).

Lemma close_iff st :
  Forall (fun s => exists b, store (sv_ty s) (sv_lens s) (sv_val s) = Ok b) (w_vars st) ->
  okerr (close_writer st) (closable st).
Proof.
  intros HS. unfold close_writer, write_all, closable.
  destruct (check_v5 (w_ver st) (w_gattrs st)) as [ver|e|] eqn:Ec; cbn [rbind].
  2:{ intros [X _]. destruct (check_v5_supported (w_ver st) _ X). congruence. }
  2:{ eapply check_v5_no_panic; eauto. }
  pose proof (write_attributes_iff ver (write_prologue st) (w_gattrs st)) as H.
  destruct (write_attributes ver (write_prologue st) (w_gattrs st)) as [out2|e|]; cbn [okerr rbind] in *;
    [|intros [X _]; contradiction|exact H].
  destruct (w_vars st) as [|s vs] eqn:Ev; [split; [exact H|constructor]|]. rewrite <- Ev in *. clear Ev s vs.
  match goal with |- context[vars_size ver ?a ?l] => pose proof (vars_size_iff ver l a) as V; destruct (vars_size ver a l) as [bg|e|] end;
    cbn [okerr rbind] in *; [| |exact V].
  2:{ intros [_ X]. apply V. eapply Forall_impl; [|exact X]. intros s [Y _]. exact Y. }
  match goal with |- context[write_vars ?i ver ?o ?l bg] => pose proof (write_vars_iff i ver l o bg) as Q; destruct (write_vars i ver o l bg) as [o4|e|] end;
    cbn [okerr rbind] in *; [|intros [_ X]; contradiction|exact Q].
  destruct (write_data_ok _ HS o4) as (o & ->). split; assumption.
Qed.

Definition op_wt (o : wop) : Prop := match o with WVar _ v _ _ => wt v = true | _ => True end.

Lemma in_accepted o ops : forall rs, In o (accepted ops rs) -> In o ops.
Proof.
  induction ops as [|p ops IH]; intros [|r rs] H; cbn [accepted] in H; try contradiction.
  destruct r; [destruct H as [->|H]; [left; reflexivity|]| |]; right; eapply IH; eassumption.
Qed.

Lemma run_stores U ops st rs : Forall op_wt ops -> wrun U open_writer ops = (st, rs) ->
  Forall (fun s => exists b, store (sv_ty s) (sv_lens s) (sv_val s) = Ok b) (w_vars st).
Proof.
  intros HW E. destruct (run_inv U ops st rs E) as (_ & _ & A). apply Forall_forall. intros s Hs.
  destruct (Forall2_in_r _ _ _ _ A Hs) as (o & Ho & (n & v & d & a & -> & A1 & A2 & A3 & A4 & A5)).
  apply filter_In in Ho. destruct Ho as [Ho _]. apply in_accepted in Ho.
  rewrite Forall_forall in HW. specialize (HW _ Ho). cbn [op_wt] in HW.
  destruct (store_total v [] (nonames d) (sv_lens s) (sv_ty s) HW A4) as (lens & L & _ & T).
  cbn [app] in L. rewrite L, A2. apply T; [exact HW|reflexivity].
Qed.


Lemma dl_extent v : forall dims nn L ty, wt v = true -> dim_lengths v dims nn = Ok (L, ty) ->
  exists sl, L = dims ++ extent v ++ sl /\ (type_of v <> GString -> ~ In 0 sl) /\ (List.length sl <= 1)%nat.
Proof.
  induction v as [k z|s| |t|t x l IH] using first_ind; intros dims nn L ty W E; cbn [dim_lengths extent] in *.
  - injection E as <- <-. exists []. split; [now rewrite !app_nil_r|]. split; [intros _ []|cbn; lia].
  - destruct ((zlen s =? 1) && nn); injection E as <- <-.
    + exists []. split; [now rewrite !app_nil_r|]. split; [intros _ []|cbn; lia].
    + exists [zlen s]. split; [reflexivity|]. split; [cbn; congruence|cbn; lia].
  - discriminate.
  - destruct t as [k| |t|]; try discriminate.
    injection E as <- <-. exists []. rewrite app_nil_r. split; [reflexivity|]. split; [intros _ []|cbn; lia].
  - apply wt_slice in W. apply Forall_cons_iff in W. destruct W as [[T1 T2] _].
    assert (G : dim_lengths x (dims ++ [zlen (x :: l)]) nn = Ok (L, ty) -> t <> GString ->
      exists sl, L = dims ++ (zlen (x :: l) :: extent x) ++ sl /\
        (type_of (VSlice t (x :: l)) <> GString -> ~ In 0 sl) /\ (List.length sl <= 1)%nat).
    { intros Ex Nt. destruct (IH _ _ _ _ T2 Ex) as (sl & I1 & I2 & I3). exists sl.
      split; [rewrite I1, <- app_assoc; reflexivity|]. split; [|exact I3]. intros _. apply I2. congruence. }
    destruct t as [k| |t|]; try (apply G; [exact E|discriminate]).
    destruct (Z.eqb_spec (max_strlen (x :: l)) 0); [discriminate|]. injection E as <- <-.
    apply type_str in T1. destruct T1 as (s & ->).
    exists [max_strlen (VStr s :: l)]. cbn [extent]. split; [now rewrite <- app_assoc|].
    split; [|cbn; lia]. intros _ [X|[]]. congruence.
Qed.

(** No empty row below the first level (following first elements) *)
Definition rows_nonempty (v : gval) : Prop := ~ In 0 (tl (extent v)).

Lemma inner_nonzero_iff v d lens ty : wt v = true -> dim_lengths v [] (nonames d) = Ok (lens, ty) ->
  (inner_nonzero lens <-> rows_nonempty v).
Proof.
  intros W E. destruct (dl_extent v [] (nonames d) lens ty W E) as (sl & -> & I2 & I3).
  unfold inner_nonzero, rows_nonempty. cbn [app]. rewrite Forall_forall.
  destruct v as [k z|s|t l|]; cbn [extent] in *.
  - cbn [app tl]. split; [intros _ []|]. intros _ x Hx. destruct sl as [|y [|y2 sl]]; cbn in *; try contradiction; lia.
  - cbn [app tl]. split; [intros _ []|]. intros _ x Hx. destruct sl as [|y [|y2 sl]]; cbn in *; try contradiction; lia.
  - cbn [app tl]. specialize (I2 ltac:(discriminate)). split.
    + intros H X. apply (H 0); [apply in_app_iff; left; exact X|reflexivity].
    + intros H x Hx ->. apply in_app_iff in Hx. destruct Hx; contradiction.
  - discriminate.
Qed.

(** C56, C57: exactly when Close succeeds *)
Definition op_closable (o : wop) : Prop :=
  match o with WVar _ v _ a => attrs_supported a /\ rows_nonempty v | _ => True end.

Lemma Forall2_Forall_iff {A B} (R : A -> B -> Prop) (P : A -> Prop) (Q : B -> Prop) l l' :
  Forall2 R l l' -> (forall x y, In x l -> R x y -> (P x <-> Q y)) -> (Forall P l <-> Forall Q l').
Proof.
  induction 1 as [|x y l l' Hxy _ IH]; intros H; [split; constructor|].
  rewrite !Forall_cons_iff, (H x y), IH; [reflexivity| |left; reflexivity|exact Hxy].
  intros. apply H; [right; assumption|assumption].
Qed.

Lemma close_calls U ops st rs : Forall op_wt ops -> wrun U open_writer ops = (st, rs) ->
  okerr (close_writer st)
    (attrs_supported (last_attrs [] (accepted ops rs)) /\ Forall op_closable (accepted ops rs)).
Proof.
  intros HW E. pose proof (close_iff st (run_stores U ops st rs HW E)) as H.
  destruct (run_inv U ops st rs E) as (_ & G & A). unfold closable in H. rewrite G in H.
  assert (X : Forall op_closable (accepted ops rs) <-> Forall var_closable (w_vars st)).
  { rewrite <- (Forall2_Forall_iff added op_closable var_closable _ _ A).
    - clear. generalize (accepted ops rs) as l. induction l as [|o l IH]; [split; constructor|].
      cbn [filter]. rewrite Forall_cons_iff. destruct o as [a|n v d a|g]; cbn [is_var op_closable].
      + rewrite IH. tauto.
      + rewrite Forall_cons_iff, IH. reflexivity.
      + rewrite IH. tauto.
    - intros o s Ho (n & v & d & a & -> & A1 & A2 & A3 & A4 & A5). apply filter_In in Ho. destruct Ho as [Ho _].
      apply in_accepted in Ho. rewrite Forall_forall in HW. specialize (HW _ Ho). cbn [op_wt] in HW.
      cbn [op_closable]. unfold var_closable. rewrite A3.
      rewrite (inner_nonzero_iff v d _ _ HW A4). reflexivity. }
  destruct (close_writer st); cbn [okerr] in *; [|rewrite X; exact H|exact H].
  rewrite X. exact H.
Qed.
