(** Listing, dimensions, registry and data positions of written CDF files. *)
From Coq Require Import ZifyBool ZifyNat Permutation.
From Verif Require Import Prelude GoVal BaseLemmas ValidNameModel ValidNameProofs OrderedMapModel
  ArraySpec ArrayProofs CdfSpec CdfCalls CdfWriterModel CdfReaderModel CdfCodec CdfHeader CdfConvert
  CdfFile CdfFixed CdfStore CdfInv CdfRound.
Ltac Zify.zify_post_hook ::= Z.div_mod_to_equations.

(** ** Shapes *)
Lemma stored_lens nmd v lens ty : storable nmd v ->
  dim_lengths v [] (negb nmd) = Ok (lens, ty) ->
  lens = stored_shape nmd v /\ (ty = TChar <-> chars v = true).
Proof.
  intros [W [ds R] ST SC SN] E. unfold chars.
  pose proof (rect_extent ds v R) as EX.
  destruct (base_cases v ds R W) as [[k B]|B].
  - rewrite (dl_num k ds v R W B) in E. cbn [app] in E. injection E as <- <-.
    assert (S : stored_shape nmd v = full_shape v).
    { destruct v as [| s | |]; try reflexivity. cbn in B. discriminate. }
    rewrite S. unfold full_shape. rewrite EX, B, app_nil_r. split; [reflexivity|]. split; intros; discriminate.
  - destruct (ST B) as [L1 L2]. destruct ds as [|d ds].
    + rect_nil R; [cbn in B; discriminate|]. cbn [dim_lengths] in E. cbn [type_of base_type].
      unfold stored_shape, full_shape. cbn [type_of base_type extent longest app] in *.
      destruct (zlen s =? 1) eqn:Z1.
      * destruct s as [|c [|c2 s]]; rewrite ?zlen_cons in Z1; try (cbn in Z1; discriminate);
          [|pose proof (zlen_nonneg s); lia].
        destruct nmd; cbn in E; injection E as <- <-; split; auto; split; auto.
      * cbn [andb] in E. injection E as <- <-. split; [|split; auto].
        destruct s as [|c [|c2 s]]; try reflexivity. cbn in Z1. discriminate.
    + rewrite dl_str with (ds := d :: ds) in E; auto; [|discriminate|lia].
      cbn [app] in E. injection E as <- <-.
      assert (S : stored_shape nmd v = full_shape v).
      { destruct v as [| s | |]; try reflexivity. inversion R. }
      rewrite S. unfold full_shape. rewrite EX, B, L2. split; [reflexivity|]. split; auto.
Qed.

(** ** C04: the registry *)
Lemma seq_ids (names : list bytes) : forall (ids : list (bytes * Z)) k, NoDup names ->
  map fst ids = names ->
  (forall i nm, nth_error names i = Some nm -> assoc nm ids = Some (Z.of_nat (k + i))) ->
  map snd ids = map Z.of_nat (seq k (List.length names)).
Proof.
  induction names as [|n names IH]; intros ids k ND M H.
  - destruct ids; [reflexivity|discriminate].
  - destruct ids as [|[n' z] ids]; [discriminate|]. cbn [map fst] in M. injection M as -> M.
    apply NoDup_cons_iff in ND. destruct ND as [N1 N2].
    cbn [map snd List.length seq].
    pose proof (H 0%nat n eq_refl) as H0. cbn [assoc] in H0. rewrite beqb_refl in H0.
    injection H0 as ->. f_equal; [lia|]. apply IH; auto.
    intros i nm Hi. pose proof (H (S i) nm Hi) as Hs. cbn [assoc] in Hs.
    destruct (beqb_spec nm n) as [->|_].
    + exfalso. apply N1. eapply nth_error_In; eauto.
    + rewrite Hs. f_equal. lia.
Qed.

Lemma registry U ops st rs : wrun U open_writer ops = (st, rs) ->
  NoDup (map fst (w_dimlens st)) /\
  map fst (w_dimids st) = map fst (w_dimlens st) /\
  map snd (w_dimids st) = map Z.of_nat (seq 0 (List.length (w_dimids st))) /\
  Forall2 (fun o s => exists n v d a, o = WVar n v d a /\ sv_name s = n /\
     (exists gen, sv_dims s = d ++ gen) /\
     Forall2 (fun nm len => assoc nm (w_dimlens st) = Some len)
       (firstn (List.length (sv_lens s)) (sv_dims s)) (sv_lens s) /\
     (storable (named d) v -> sv_lens s = stored_shape (named d) v))
    (filter is_var (accepted ops rs)) (w_vars st).
Proof.
  intros E. destruct (run_inv U ops st rs E) as ([W1 [R1 R2 R3 R4 R5 R6] W3 W4] & _ & A).
  split; [now rewrite R2|]. split; [congruence|]. split.
  - replace (List.length (w_dimids st)) with (List.length (w_dimnames st))
      by (rewrite <- R3; apply map_length).
    apply (seq_ids (w_dimnames st)); auto.
  - assert (W4' : Forall (fun s => registered (w_dimlens st) s) (w_vars st)).
    { eapply Forall_impl; [|exact W4]. intros s Hs. apply Hs. }
    clear W4. revert W4'. induction A as [|o s l l' HA _ IH]; intros F; [constructor|].
    apply Forall_cons_iff in F. destruct F as [F1 F2]. constructor; [|auto].
    destruct HA as (n & v & d & a & Eo & A1 & A2 & A3 & A4 & A5).
    exists n, v, d, a. split; [exact Eo|]. split; [exact A1|]. split; [exact A5|].
    split; [exact (proj2 (registered_spec _ _ F1))|].
    intros S. eapply stored_lens; [exact S|]. unfold named. rewrite negb_nonames. exact A4.
Qed.

(** Lengths and ids, once assigned, never change *)
Lemma registry_stable U ops1 ops2 st1 st2 rs1 rs2 :
  wrun U open_writer ops1 = (st1, rs1) -> wrun U st1 ops2 = (st2, rs2) ->
  exists more, map fst (w_dimlens st2) = map fst (w_dimlens st1) ++ more /\
  (forall nm n, assoc nm (w_dimlens st1) = Some n -> assoc nm (w_dimlens st2) = Some n) /\
  (forall nm i, assoc nm (w_dimids st1) = Some i -> assoc nm (w_dimids st2) = Some i).
Proof.
  intros E1 E2. destruct (run_inv U ops1 st1 rs1 E1) as (W & _ & _).
  destruct (wrun_inv U ops2 st1 st2 rs2 W E2) as (W2 & _ & _ & L & (more & N)).
  exists more. pose proof (wi_reg U st1 W) as [R1 R2 R3 R4 R5 R6].
  pose proof (wi_reg U st2 W2) as [Q1 Q2 Q3 Q4 Q5 Q6].
  split; [congruence|]. split; [exact L|].
  intros nm i H. pose proof (assoc_Some_In _ _ _ H) as HI. apply In_nth_error in HI.
  destruct HI as (j & Hj).
  assert (Hn : nth_error (w_dimnames st1) j = Some nm).
  { rewrite <- R3. now rewrite (map_nth_error fst _ _ Hj). }
  pose proof (R4 j nm Hn) as E. rewrite H in E. injection E as ->.
  apply Q4. rewrite N. rewrite nth_error_app1; [exact Hn|].
  apply nth_error_Some. congruence.
Qed.

Lemma wrun_app U a : forall st b, wrun U st (a ++ b) =
  (let '(st1, r1) := wrun U st a in let '(st2, r2) := wrun U st1 b in (st2, r1 ++ r2)).
Proof.
  induction a as [|o a IH]; intros st b; cbn [app wrun].
  - destruct (wrun U st b) as [s r]. reflexivity.
  - destruct (wstep U st o) as [s1 r1]. rewrite IH.
    destruct (wrun U s1 a) as [s2 r2]. destruct (wrun U s2 b) as [s3 r3]. reflexivity.
Qed.

(** A disagreeing extent *)
Lemma size_conflict U ops st rs name v d a st' r i dn n cur :
  wrun U open_writer ops = (st, rs) ->
  add_var U st name v d a = (st', r) ->
  storable (named d) v ->
  nth_error d i = Some dn -> dn <> [] -> nth_error (stored_shape (named d) v) i = Some n ->
  assoc dn (w_dimlens st) = Some cur -> n <> cur ->
  (exists e, r = Err e) /\ w_vars st' = w_vars st /\
  (valid_name U name = true -> Forall (fun kv => valid_name U (fst kv) = true) a ->
   Forall (fun kv => attr_supported (snd kv)) a -> r = Err EDimensionSize).
Proof.
  intros E AV S Hd Hne Hn Hc Hneq.
  destruct (run_inv U ops st rs E) as (W & _ & _).
  unfold add_var in AV.
  destruct (valid_name U name) eqn:Vn; cbn [negb] in AV.
  2:{ injection AV as <- <-. split; [eauto|]. split; [reflexivity|]. discriminate. }
  destruct (valid_attr_names U a) eqn:Va; cbn [negb] in AV.
  2:{ injection AV as <- <-. split; [eauto|]. split; [reflexivity|]. intros _ F _.
      exfalso. unfold valid_attr_names in Va. assert (X : forallb (fun kv => valid_name U (fst kv)) a = true)
        by (apply forallb_forall; apply Forall_forall; exact F).
      rewrite X in Va. discriminate. }
  destruct (check_v5 (w_ver st) a) as [v1|e|] eqn:Ec.
  2:{ injection AV as <- <-. split; [eauto|]. split; [reflexivity|]. intros _ _ F. exfalso.
      revert Ec. generalize (w_ver st). induction a as [|[k x] a IH]; intros ver Ec; cbn [check_v5] in Ec; [discriminate|].
      apply Forall_cons_iff in F. destruct F as [F1 F2]. cbn [snd] in F1. apply supported_version in F1.
      destruct (Z.eqb_spec (attr_version x) 0); [contradiction|].
      destruct (attr_version x =? 5); [discriminate|]. eapply IH; eauto.
      unfold valid_attr_names in *. cbn [forallb] in Va. apply andb_true_iff in Va. apply Va. }
  2:{ exfalso. revert Ec. generalize (w_ver st). clear. induction a as [|[k x] a IH]; intros ver Ec; cbn [check_v5] in Ec; [discriminate|].
      destruct (attr_version x =? 0); [discriminate|]. destruct (attr_version x =? 5); [discriminate|]. eapply IH; eauto. }
  assert (DL : exists ty, dim_lengths v [] (nonames d) = Ok (stored_shape (named d) v, ty)).
  { assert (X : exists lens ty, dim_lengths v [] (negb (named d)) = Ok (lens, ty)).
    { destruct S as [W' [ds R] ST SC SN]. destruct (base_cases v ds R W') as [[k B]|B].
      - exists ([] ++ ds), (TNum k). apply (dl_num k ds v R W' B).
      - destruct (ST B) as [L1 L2]. destruct ds as [|d0 ds].
        + rect_nil R; [cbn in B; discriminate|]. cbn [dim_lengths].
          destruct ((zlen s =? 1) && negb (named d)); eauto.
        + eexists. eexists. apply dl_str with (ds := d0 :: ds); auto; [discriminate|lia]. }
    destruct X as (lens & ty & X). exists ty. destruct (stored_lens _ _ _ _ S X) as [<- _].
    unfold named in X. now rewrite negb_nonames in X. }
  destruct DL as (ty & DL).
  unfold nonames in DL. rewrite DL in AV.
  set (st2 := if v5ty ty then set_ver (set_ver st v1) 5 else set_ver st v1) in *.
  assert (S2 : w_vars st2 = w_vars st /\ w_dimlens st2 = w_dimlens st /\ reg_ok st2).
  { pose proof (wi_reg U st W) as [R1 R2 R3 R4 R5 R6].
    unfold st2. destruct (v5ty ty); split; [reflexivity|split; [reflexivity|split; assumption] |
      reflexivity|split; [reflexivity|split; assumption]]. }
  destruct S2 as (S1 & S2 & S3).
  destruct (add_dims name ty 0 (stored_shape (named d) v) d st2) as [st3 r3] eqn:Ea.
  destruct (add_dims_ok name ty (stored_shape (named d) v) 0 d st2 st3 r3 S3) as (A1 & A2 & A3 & A4 & A5); auto.
  { eapply dim_lengths_nonneg; [|exact DL]. constructor. } { lia. }
  destruct r3 as [vd|e|].
  - exfalso. destruct (A4 vd eq_refl) as ((gen & G) & A6). destruct (A6 i n Hn) as (dn' & D1 & D2).
    cbn [Nat.add] in D1. rewrite G in D1. rewrite nth_error_app1 in D1 by (apply nth_error_Some; congruence).
    rewrite Hd in D1. injection D1 as <-.
    rewrite (ex_lens _ _ A2 dn cur) in D2 by (rewrite S2; exact Hc). congruence.
  - injection AV as <- <-. split; [eauto|]. split.
    + rewrite (ex_vars _ _ A2). exact S1.
    + intros _ _ _. f_equal. apply A5. reflexivity.
  - congruence.
Qed.

(** ** C03: names *)
Lemma mem_In x l : mem x l = true <-> In x l.
Proof.
  unfold mem. rewrite existsb_exists. split.
  - intros (y & H1 & H2). apply beqb_eq in H2. now subst.
  - intros H. exists x. split; [exact H|now apply beqb_eq].
Qed.

Lemma assoc_mem st nm : reg_ok st ->
  (mem nm (w_dimnames st) = match assoc nm (w_dimlens st) with Some _ => true | None => false end).
Proof.
  intros [R1 R2 R3 R4 R5 R6]. destruct (assoc nm (w_dimlens st)) eqn:Ea.
  - apply mem_In. rewrite <- R2. apply assoc_Some_In in Ea. now apply (in_map fst) in Ea.
  - destruct (mem nm (w_dimnames st)) eqn:M; [|reflexivity]. apply mem_In in M. rewrite <- R2 in M.
    apply assoc_None in Ea. contradiction.
Qed.

Definition is_char (t : cty) : bool := match t with TChar => true | _ => false end.

Lemma skipn_cons_nth {A} (l : list A) i x r : skipn i l = x :: r -> nth_error l i = Some x /\ skipn (S i) l = r.
Proof.
  revert l; induction i as [|i IH]; intros [|y l] H; cbn in *; try discriminate.
  - injection H as -> ->. split; reflexivity.
  - apply IH in H. exact H.
Qed.
Lemma skipn_firstn_S {A} (l : list A) i n x : nth_error l i = Some x ->
  skipn i (firstn (i + S n) l) = x :: skipn (S i) (firstn (S i + n) l).
Proof.
  revert l; induction i as [|i IH]; intros [|y l] H; cbn [nth_error] in H; try discriminate.
  - injection H as ->. reflexivity.
  - change (S i + S n)%nat with (S (i + S n)). cbn [firstn skipn].
    rewrite (IH l H). reflexivity.
Qed.

Lemma add_dims_names name ty lens : forall i vdims st st' vd,
  reg_ok st -> Forall (fun n => 0 <= n) lens -> (i <= List.length vdims)%nat ->
  Forall (fun g => g <> []) vdims ->
  add_dims name ty i lens vdims st = (st', Ok vd) ->
  let used := dim_names (w_dimnames st) (is_char ty) name (List.length lens) (skipn i vdims) in
  skipn i (firstn (i + List.length lens) vd) = used /\
  w_dimnames st' = fold_left learn used (w_dimnames st).
Proof.
  induction lens as [|n lens IH]; intros i vdims st st' vd R P Hi NE E used.
  - unfold used. cbn [add_dims List.length dim_names fold_left] in *. injection E as <- <-.
    split; [|reflexivity]. rewrite Nat.add_0_r. rewrite skipn_all2; [reflexivity|]. rewrite firstn_length. lia.
  - pose proof E as E0. cbn [add_dims] in E.
    apply Forall_cons_iff in P. destruct P as [Pn P].
    set (g := match ty, lens with TChar, [] => stringlen_name name | _, _ => dimid_name (w_next st) end) in *.
    set (nm := match skipn i vdims with
               | x :: _ => x
               | [] => if is_char ty && Nat.eqb (List.length lens) 0 then bs "_stringlen_" ++ name
                       else bs "_dimid_" ++ dec (zlen (w_dimnames st)) end).
    set (vdims' := match nth i vdims [] with [] => vdims ++ [g] | _ => vdims end) in *.
    assert (Hg : skipn i vdims = [] -> g = nm).
    { intros Es. unfold nm. rewrite Es. unfold g. rewrite (rg_next st R).
      destruct ty; destruct lens; reflexivity. }
    assert (Hgne : g <> []).
    { unfold g, stringlen_name, dimid_name. destruct ty; destruct lens; discriminate. }
    assert (V : nth_error vdims' i = Some nm /\ skipn (S i) vdims' = tl (skipn i vdims) /\
                Forall (fun g => g <> []) vdims' /\ (S i <= List.length vdims')%nat).
    { unfold vdims'. destruct (skipn i vdims) as [|x r] eqn:Es.
      - assert (Hl : i = List.length vdims).
        { assert (L : List.length (skipn i vdims) = 0%nat) by (rewrite Es; reflexivity).
          rewrite skipn_length in L. lia. }
        rewrite nth_overflow by lia. rewrite Hg by reflexivity. subst i. split.
        + rewrite nth_error_app2 by lia. rewrite Nat.sub_diag. reflexivity.
        + split; [|split].
          * rewrite skipn_all2; [reflexivity|]. rewrite app_length. cbn. lia.
          * apply Forall_app. split; [exact NE|]. constructor; [|constructor]. rewrite <- Hg by reflexivity. exact Hgne.
          * rewrite app_length. cbn. lia.
      - apply skipn_cons_nth in Es. destruct Es as [E1 E2].
        assert (Ex : nth i vdims [] = x) by (now apply nth_error_nth).
        assert (x <> []).
        { rewrite Forall_forall in NE. apply NE. eapply nth_error_In; eauto. }
        rewrite Ex. destruct x as [|c x]; [contradiction|]. split; [exact E1|].
        split; [exact E2|]. split; [exact NE|]. apply nth_error_Some. rewrite E1. discriminate. }
    destruct V as (V1 & V2 & V3 & V4).
    match type of E with context[nth_error ?v i] => change v with vdims' in E end.
    match type of E with match ?x with _ => _ end = _ => replace x with (Some nm) in E by (symmetry; exact V1) end.
    assert (U : used = nm :: dim_names (learn (w_dimnames st) nm) (is_char ty) name (List.length lens) (tl (skipn i vdims))).
    { reflexivity. }
    assert (C : forall st1, reg_ok st1 -> w_dimnames st1 = learn (w_dimnames st) nm ->
      add_dims name ty (S i) lens vdims' st1 = (st', Ok vd) ->
      skipn i (firstn (i + List.length (n :: lens)) vd) = used /\
      w_dimnames st' = fold_left learn used (w_dimnames st)).
    { intros st1 R1 D1 E1.
      destruct (IH (S i) vdims' st1 st' vd R1 P V4 V3 E1) as (I1 & I2).
      destruct (add_dims_ok name ty lens (S i) vdims' st1 st' (Ok vd) R1 P V4 E1) as (_ & _ & _ & K & _).
      destruct (K vd eq_refl) as ((gen & G) & _).
      rewrite V2, D1 in I1, I2.
      assert (Hn : nth_error vd i = Some nm).
      { rewrite G. rewrite nth_error_app1 by exact V4. exact V1. }
      split.
      - cbn [List.length]. rewrite (skipn_firstn_S vd i (List.length lens) nm Hn). rewrite U, <- I1. reflexivity.
      - rewrite U. cbn [fold_left]. exact I2. }
    pose proof (assoc_mem st nm R) as M.
    destruct (assoc nm (w_dimlens st)) as [cur|] eqn:Ea.
    + destruct (n =? cur); [|discriminate]. apply (C st); auto. unfold learn. now rewrite M.
    + destruct (register_ok st nm n R Pn Ea) as (Q1 & Q2 & Q3).
      apply (C (register st nm n)); auto. unfold learn. rewrite M. reflexivity.
Qed.

(** The names in force, over a history in which every call is accepted *)
Lemma add_var_names_of U st name v d a st' : winv U st ->
  add_var U st name v d a = (st', Ok tt) -> storable (named d) v -> Forall (fun g => g <> []) d ->
  w_dimnames st' = fold_left learn (names_of (w_dimnames st) (WVar name v d a)) (w_dimnames st) /\
  exists s, w_vars st' = w_vars st ++ [s] /\ added (WVar name v d a) s /\
    vnames s = names_of (w_dimnames st) (WVar name v d a).
Proof.
  intros W E S NE. unfold add_var in E.
  destruct (negb (valid_name U name)); [discriminate|].
  destruct (negb (valid_attr_names U a)); [discriminate|].
  destruct (check_v5 (w_ver st) a) as [v1|e|]; try discriminate.
  destruct (dim_lengths v [] match d with [] => true | _ => false end) as [[lens ty]|e|] eqn:DL; try discriminate.
  set (st2 := if v5ty ty then set_ver (set_ver st v1) 5 else set_ver st v1) in *.
  assert (S2 : w_vars st2 = w_vars st /\ w_dimnames st2 = w_dimnames st /\ reg_ok st2).
  { pose proof (wi_reg U st W) as [R1 R2 R3 R4 R5 R6].
    unfold st2. destruct (v5ty ty); (split; [reflexivity|split; [reflexivity|split; assumption]]). }
  destruct S2 as (S1 & S2 & S3).
  destruct (add_dims name ty 0 lens d st2) as [st3 [vd|e|]] eqn:Ea; try discriminate.
  injection E as <-.
  assert (P : Forall (fun n => 0 <= n) lens) by (eapply dim_lengths_nonneg; [|exact DL]; constructor).
  destruct (add_dims_names name ty lens 0 d st2 st3 vd S3 P) as (A1 & A2); auto; [lia|].
  destruct (add_dims_ok name ty lens 0 d st2 st3 (Ok vd) S3 P) as (_ & X & _ & K & _); auto; [lia|].
  destruct (stored_lens (named d) v lens ty S) as [L1 L2].
  { unfold named. rewrite negb_nonames. exact DL. }
  assert (CH : is_char ty = chars v).
  { destruct ty; cbn [is_char].
    - symmetry. now apply L2.
    - destruct (chars v); [|reflexivity]. assert (XX : TNum k = TChar) by (now apply L2). discriminate. }
  assert (EQ : names_of (w_dimnames st) (WVar name v d a) =
    dim_names (w_dimnames st2) (is_char ty) name (List.length lens) (skipn 0 d)).
  { cbn [names_of skipn]. now rewrite S2, CH, L1. }
  rewrite EQ. cbn [push_var w_dimnames w_vars]. rewrite S2 in *. split; [exact A2|].
  exists (mkSvar name v ty lens vd a). split; [now rewrite (ex_vars _ _ X), S1|]. split.
  - exists name, v, d, a. cbn [sv_name sv_val sv_attrs sv_lens sv_ty sv_dims].
    destruct (K vd eq_refl) as (G & _).
    split; [reflexivity|]. split; [reflexivity|]. split; [reflexivity|]. split; [reflexivity|].
    split; [exact DL|exact G].
  - unfold vnames. cbn [sv_lens sv_dims]. exact A1.
Qed.

Definition all_ok (rs : list (res unit)) : Prop := Forall (fun r => r = Ok tt) rs.
Lemma accepted_all ops : forall rs, all_ok rs -> List.length ops = List.length rs -> accepted ops rs = ops.
Proof.
  induction ops as [|o ops IH]; intros [|r rs] A L; try discriminate; [reflexivity|].
  apply Forall_cons_iff in A. destruct A as [-> A]. cbn [accepted]. f_equal. apply IH; auto.
Qed.
Lemma wrun_len U ops : forall st st' rs, wrun U st ops = (st', rs) -> List.length ops = List.length rs.
Proof.
  induction ops as [|o ops IH]; intros st st' rs E; cbn [wrun] in E.
  - injection E as <- <-. reflexivity.
  - destruct (wstep U st o) as [s1 r1]. destruct (wrun U s1 ops) as [s2 r2] eqn:E2.
    injection E as <- <-. cbn [List.length]. f_equal. eapply IH; eauto.
Qed.

Definition plain_op (o : wop) : Prop :=
  match o with WVar _ v d _ => storable (named d) v /\ Forall (fun g => g <> []) d | _ => True end.

Lemma run_names U ops : forall st st' rs, winv U st -> wrun U st ops = (st', rs) -> all_ok rs ->
  Forall plain_op ops ->
  w_dimnames st' = known_after (w_dimnames st) ops /\
  exists l, w_vars st' = w_vars st ++ l /\
  forall i n v d a, nth_error ops i = Some (WVar n v d a) ->
    exists s, In s l /\ sv_name s = n /\
      vnames s = names_of (known_after (w_dimnames st) (firstn i ops)) (WVar n v d a).
Proof.
  induction ops as [|o ops IH]; intros st st' rs W E A P; cbn [wrun] in E.
  - injection E as <- <-. split; [reflexivity|]. exists []. rewrite app_nil_r. split; [reflexivity|].
    intros [|i]; discriminate.
  - destruct (wstep U st o) as [s1 r1] eqn:E1. destruct (wrun U s1 ops) as [s2 r2] eqn:E2.
    injection E as <- <-. apply Forall_cons_iff in A. destruct A as [-> A].
    apply Forall_cons_iff in P. destruct P as [P1 P].
    destruct (wstep_inv U st o s1 _ W E1) as (W1 & _).
    destruct (IH s1 s2 r2 W1 E2 A P) as (I1 & l & I2 & I3).
    assert (K : w_dimnames s1 = known_after (w_dimnames st) [o] /\
      exists l0, w_vars s1 = w_vars st ++ l0 /\
      forall n v d a, o = WVar n v d a -> exists s, In s l0 /\ sv_name s = n /\
        vnames s = names_of (w_dimnames st) o).
    { destruct o as [a|n v d a|gname]; cbn [wstep] in E1.
      - unfold add_attributes in E1. destruct (valid_attr_names U a); [|discriminate].
        injection E1 as <-. cbn [known_after names_of fold_left w_dimnames]. split; [reflexivity|].
        exists []. cbn [w_vars]. rewrite app_nil_r. split; [reflexivity|]. discriminate.
      - destruct P1 as [P1 P2].
        destruct (add_var_names_of U st n v d a s1 W E1 P1 P2) as (N1 & s & N2 & N3 & N4).
        split; [exact N1|]. exists [s]. split; [exact N2|]. intros n0 v0 d0 a0 [= <- <- <- <-].
        exists s. split; [left; reflexivity|]. split; [|exact N4].
        destruct N3 as (n1 & v1 & d1 & a1 & EQ & Y & _). injection EQ as <- <- <- <-. exact Y.
      - discriminate. }
    destruct K as (K1 & l0 & K2 & K3). split.
    + rewrite I1, K1. reflexivity.
    + exists (l0 ++ l). split; [rewrite I2, K2; now rewrite app_assoc|].
      intros [|i] n v d a Hn; cbn [nth_error firstn known_after] in *.
      * injection Hn as ->. destruct (K3 n v d a eq_refl) as (s & X1 & X2 & X3).
        exists s. split; [apply in_app_iff; left; exact X1|]. split; assumption.
      * destruct (I3 i n v d a Hn) as (s & X1 & X2 & X3). exists s.
        split; [apply in_app_iff; right; exact X1|]. split; [exact X2|].
        rewrite X3, K1. reflexivity.
Qed.

Lemma sv_unique st s s' : NoDup (map sv_name (w_vars st)) -> In s (w_vars st) -> In s' (w_vars st) ->
  sv_name s = sv_name s' -> s = s'.
Proof.
  intros ND. generalize (w_vars st) as l, ND. clear. induction l as [|x l IH]; intros ND H H' E; [destruct H|].
  cbn [map] in ND. apply NoDup_cons_iff in ND. destruct ND as [N1 N2].
  destruct H as [->|H], H' as [->|H'].
  - reflexivity.
  - exfalso. apply N1. rewrite E. now apply in_map.
  - exfalso. apply N1. rewrite <- E. now apply in_map.
  - now apply IH.
Qed.

Lemma Forall2_imp {A B} (R Q : A -> B -> Prop) l l' : (forall x y, R x y -> Q x y) ->
  Forall2 R l l' -> Forall2 Q l l'.
Proof. intros I. induction 1; constructor; auto. Qed.

Lemma map_d_name l : map d_name (rdims l) = map fst l.
Proof. unfold rdims. rewrite map_map. reflexivity. Qed.

Lemma find_rdims l nm n : assoc nm l = Some n ->
  option_map d_len (find (fun d => beqb (d_name d) nm) (rdims l)) = Some n.
Proof.
  induction l as [|[k x] l IH]; intros H; cbn [assoc] in H; [discriminate|].
  cbn [rdims map find d_name fst snd]. destruct (beqb_spec nm k) as [->|N].
  - rewrite beqb_refl. cbn. exact H.
  - destruct (beqb_spec k nm) as [->|_]; [contradiction|]. apply IH. exact H.
Qed.

Lemma round_names U ops rs st f : ucd_ascii U -> ucd_disjoint U ->
  wrun U open_writer ops = (st, rs) -> fits ops rs st -> close_writer st = Ok f -> zlen f < 2 ^ 62 ->
  exists c, cdf_open f = Ok c /\
    list_variables c = var_names (accepted ops rs) /\
    NoDup (list_dimensions c) /\
    (forall n v d a, In (WVar n v d a) (accepted ops rs) ->
       exists x, get_variable c n = Ok x /\
         Forall2 (fun nm len => get_dimension c nm = Some len) (var_dimensions x) (stored_shape (named d) v) /\
         exists gen, var_dimensions x = firstn (List.length (stored_shape (named d) v)) (d ++ gen)) /\
    (all_ok rs -> (forall n v d a g, In (WVar n v d a) ops -> In g d -> g <> []) ->
       list_dimensions c = known_after [] ops /\
       forall i n v d a, nth_error ops i = Some (WVar n v d a) ->
         exists x, get_variable c n = Ok x /\
           var_dimensions x = names_of (known_after [] (firstn i ops)) (WVar n v d a)).
Proof.
  intros UA UD E F C Hf. destruct (open_fits U ops rs st f UA UD E F C Hf) as (c & rvs & O).
  exists c. split; [apply O|].
  destruct (run_inv U ops st rs E) as (W & G & A).
  pose proof (wi_reg U st W) as R. pose proof R as [R1 R2 R3 R4 R5 R6].
  assert (CD : c_dims c = rdims (w_dimlens st)).
  { rewrite (op_cdf _ _ _ _ _ _ O). cbn [cdf_of c_dims]. now rewrite dims_of_lens. }
  assert (LD : list_dimensions c = w_dimnames st).
  { unfold list_dimensions. rewrite CD, map_d_name. exact R2. }
  assert (ND : NoDup (map sv_name (w_vars st))) by (apply (wok_names st (op_ok _ _ _ _ _ _ O))).
  split.
  { rewrite (op_cdf _ _ _ _ _ _ O). unfold list_variables. cbn [cdf_of c_vars om_keys_visible om_of om_visible].
    rewrite (read_as_names _ _ _ _ (op_read _ _ _ _ _ _ O)). rewrite (added_names _ _ A). apply var_names_filter. }
  split; [now rewrite LD|]. split.
  - intros n v d a HI.
    destruct (round_variable U ops rs st f c rvs n v d a UA E O Hf HI) as (x & s & X1 & X2 & X3 & X4 & X5 & X6 & X7).
    exists x. split; [exact X1|]. rewrite X3.
    destruct X4 as (n' & v' & d' & a' & EQ & Y1 & Y2 & Y3 & Y4 & Y5). injection EQ as <- <- <- <-.
    destruct (stored_lens (named d) v (sv_lens s) (sv_ty s)) as [L _].
    { apply (ft_vars _ _ _ F n v d a HI). } { unfold named. rewrite negb_nonames. exact Y4. }
    rewrite <- L. split.
    + pose proof (wi_vars U st W) as WV. rewrite Forall_forall in WV. specialize (WV s X5).
      destruct (registered_spec _ _ (vi_reg _ _ _ WV)) as [_ Z].
      eapply Forall2_imp; [|exact Z]. intros nm len Hl. unfold get_dimension. rewrite CD. now apply find_rdims.
    + destruct Y5 as (gen & Y5). exists gen. unfold vnames. now rewrite Y5.
  - intros AO NE.
    assert (EA : accepted ops rs = ops) by (apply accepted_all; [exact AO|eapply wrun_len; eauto]).
    assert (PO : Forall plain_op ops).
    { apply Forall_forall. intros o Ho. destruct o as [|n v d a|]; cbn; auto. split.
      - rewrite <- EA in Ho. apply (ft_vars _ _ _ F n v d a Ho).
      - apply Forall_forall. intros g Hg. eapply NE; eauto. }
    destruct (run_names U ops open_writer st rs (open_winv U) E AO PO) as (N1 & l & N2 & N3).
    cbn [open_writer w_dimnames w_vars app] in N1, N2, N3. split; [now rewrite LD|].
    intros i n v d a Hi. destruct (N3 i n v d a Hi) as (s & S1 & S2 & S3).
    assert (HI : In (WVar n v d a) (accepted ops rs)) by (rewrite EA; eapply nth_error_In; eauto).
    destruct (round_variable U ops rs st f c rvs n v d a UA E O Hf HI) as (x & s' & X1 & X2 & X3 & X4 & X5 & X6 & X7).
    exists x. split; [exact X1|]. rewrite X3, <- S3. f_equal.
    apply (sv_unique st); auto; [now rewrite N2|].
    destruct X4 as (n' & v' & d' & a' & EQ & Y1 & _). injection EQ as <- <- <- <-. congruence.
Qed.

(** ** C05: positions *)
Lemma Forall2_nth_l {A B} (R : A -> B -> Prop) l l' : Forall2 R l l' ->
  forall i x, nth_error l i = Some x -> exists y, nth_error l' i = Some y /\ R x y.
Proof.
  induction 1 as [|x y l l' Hxy _ IH]; intros [|i] z Hz; cbn in Hz; try discriminate.
  - injection Hz as <-. exists y. split; [reflexivity|assumption].
  - apply IH. exact Hz.
Qed.

Lemma zlen_concat_sdata vs : Forall stores vs -> zlen (List.concat (map sdata vs)) = sizes vs.
Proof. intros H. rewrite <- flat_map_concat_map. now apply zlen_sdatas. Qed.

Lemma data_start_mod st : wver (w_ver st) -> data_start st mod 4 = 0.
Proof.
  intros Hv. unfold data_start, file_prefix, vars_header.
  pose proof (enc_vars_mod (w_dimids st) (w_ver st) 0 (w_vars st) Hv).
  pose proof (numsize_mod _ Hv).
  pose proof (enc_dims_mod (w_ver st) (dims_of st) Hv).
  pose proof (enc_attrs_mod (w_ver st) (w_gattrs st) Hv).
  rewrite !zlen_app, zlen_enc_number by exact Hv.
  change (zlen (bs "CDF")) with 3. change (zlen [w_ver st]) with 1.
  destruct (w_vars st) as [|s vs].
  - rewrite zlen_app, zlen_be, zlen_enc_number by exact Hv. lia.
  - rewrite zlen_app, zlen_be, zlen_enc_number by exact Hv. lia.
Qed.
Lemma sizes_mod vs : sizes vs mod 4 = 0.
Proof.
  induction vs as [|s vs IH]; [reflexivity|]. cbn [sizes fold_right]. fold (sizes vs).
  pose proof (psize_mod s). lia.
Qed.

Lemma positions U ops rs st f : ucd_ascii U -> ucd_disjoint U ->
  wrun U open_writer ops = (st, rs) -> fits ops rs st -> close_writer st = Ok f -> zlen f < 2 ^ 62 ->
  exists c head regions, cdf_open f = Ok c /\ f = head ++ List.concat regions /\
    List.length regions = List.length (filter is_var (accepted ops rs)) /\
    forall i n v d a, nth_error (filter is_var (accepted ops rs)) i = Some (WVar n v d a) ->
      exists r z rv, nth_error regions i = Some r /\
        r = xdr (returned v) ++ zrep z 0 /\ 0 <= z < 4 /\
        om_get (c_vars c) n = Some rv /\
        v_begin rv = zlen (head ++ List.concat (firstn i regions)) /\ v_begin rv mod 4 = 0.
Proof.
  intros UA UD E F C Hf. destruct (open_fits U ops rs st f UA UD E F C Hf) as (c & rvs & O).
  exists c, (file_header st), (map sdata (w_vars st)). split; [apply O|].
  destruct (run_inv U ops st rs E) as (W & G & A). pose proof (wi_ver U st W) as Hv.
  pose proof (op_ok _ _ _ _ _ _ O) as WK.
  split; [rewrite (op_file _ _ _ _ _ _ O); unfold file_of; now rewrite flat_map_concat_map|].
  split; [rewrite map_length; symmetry; exact (Forall2_len _ _ _ A)|].
  intros i n v d a Hi. destruct (Forall2_nth_l _ _ _ A i _ Hi) as (s & Hs & Ad).
  destruct Ad as (n' & v' & d' & a' & EQ & Y1 & Y2 & Y3 & Y4 & Y5). injection EQ as <- <- <- <-.
  apply nth_error_split in Hs as Hs'. destruct Hs' as (l1 & l2 & El & Ll).
  destruct (read_as_begins _ _ _ _ (op_read _ _ _ _ _ _ O) l1 s l2 El (wok_names st WK)) as (rv & B1 & B2).
  pose proof (op_good _ _ _ _ _ _ O) as HG. rewrite Forall_forall in HG.
  destruct (HG s) as ((b & zs & D) & _ & _); [eapply nth_error_In; eauto|].
  assert (SD : sdata s = pad4 b).
  { unfold sdata. rewrite (dc_store _ _ _ _ _ D). reflexivity. }
  exists (sdata s), (round4 (zlen b) - zlen b), rv.
  split; [exact (map_nth_error sdata _ _ Hs)|].
  split; [rewrite SD, <- Y2, <- (dc_bytes _ _ _ _ _ D); reflexivity|].
  split; [pose proof (round4_bounds (zlen b)); lia|].
  split; [rewrite (op_cdf _ _ _ _ _ _ O), <- Y1; exact B1|].
  assert (FI : firstn i (map sdata (w_vars st)) = map sdata l1).
  { rewrite El, map_app, firstn_app, map_length, <- Ll, Nat.sub_diag. cbn [firstn]. rewrite app_nil_r.
    rewrite firstn_all2 by (rewrite map_length; lia). reflexivity. }
  split.
  - rewrite B2, zlen_app, zlen_file_header by exact Hv. f_equal. symmetry.
    etransitivity; [|apply zlen_concat_sdata].
    + f_equal. f_equal. exact FI.
    +
    pose proof (wok_stores st WK) as WS. rewrite El in WS. apply Forall_app in WS. apply WS.
  - rewrite B2. pose proof (data_start_mod st Hv). pose proof (sizes_mod l1). lia.
Qed.
