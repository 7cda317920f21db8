(** Invariants of the CDF writer over arbitrary histories. *)
From Coq Require Import ZifyBool ZifyNat.
From Verif Require Import Prelude GoVal BaseLemmas ValidNameModel CdfWriterModel CdfCodec CdfCalls.
Ltac Zify.zify_post_hook ::= Z.div_mod_to_equations.

(** ** The dimension registry *)
Record reg_ok (st : wst) : Prop := mkReg {
  rg_nodup : NoDup (w_dimnames st);
  rg_lens : map fst (w_dimlens st) = w_dimnames st;
  rg_idkeys : map fst (w_dimids st) = w_dimnames st;
  rg_ids : forall i nm, nth_error (w_dimnames st) i = Some nm -> assoc nm (w_dimids st) = Some (Z.of_nat i);
  rg_next : w_next st = zlen (w_dimnames st);
  rg_pos : Forall (fun d => 0 <= snd d) (w_dimlens st)
}.

(** [extends st st']: nothing but the registry changed, and it only grew *)
Record extends (st st' : wst) : Prop := mkExt {
  ex_vars : w_vars st' = w_vars st;
  ex_gattrs : w_gattrs st' = w_gattrs st;
  ex_ver : w_ver st' = w_ver st;
  ex_names : exists r, w_dimnames st' = w_dimnames st ++ r;
  ex_lens : forall nm n, assoc nm (w_dimlens st) = Some n -> assoc nm (w_dimlens st') = Some n
}.

Lemma extends_refl st : extends st st.
Proof. split; try easy. exists []. now rewrite app_nil_r. Qed.
Lemma extends_trans a b c : extends a b -> extends b c -> extends a c.
Proof.
  intros [A1 A2 A3 [r A4] A5] [B1 B2 B3 [r' B4] B5]. split; try congruence.
  - exists (r ++ r'). rewrite B4, A4. now rewrite app_assoc.
  - auto.
Qed.

Definition register (st : wst) (dn : bytes) (n : Z) : wst :=
  mkWst (w_vars st) (w_gattrs st) (assoc_set dn n (w_dimlens st)) (w_dimnames st ++ [dn])
        (assoc_set dn (w_next st) (w_dimids st)) (w_next st + 1) (w_ver st).

Lemma NoDup_snoc {A} (l : list A) x : NoDup l -> ~ In x l -> NoDup (l ++ [x]).
Proof.
  intros H Hx. apply NoDup_rev in H. rewrite <- (rev_involutive (l ++ [x])). apply NoDup_rev.
  rewrite rev_app_distr. cbn. constructor; [|easy]. now rewrite <- in_rev.
Qed.

Lemma register_ok st dn n : reg_ok st -> 0 <= n -> assoc dn (w_dimlens st) = None ->
  reg_ok (register st dn n) /\ extends st (register st dn n) /\
  assoc dn (w_dimlens (register st dn n)) = Some n.
Proof.
  intros [R1 R2 R3 R4 R5 R6] Hn HN. apply assoc_None in HN.
  assert (HN2 : ~ In dn (w_dimnames st)) by (rewrite <- R2; exact HN).
  assert (HN3 : ~ In dn (map fst (w_dimids st))) by (rewrite R3; exact HN2).
  assert (X : assoc dn (w_dimlens (register st dn n)) = Some n)
    by (cbn [register w_dimlens]; apply assoc_set_same).
  split; [|split; [|exact X]].
  - split; cbn [register w_dimlens w_dimnames w_dimids w_next w_ver].
    + now apply NoDup_snoc.
    + rewrite assoc_set_new by easy. now rewrite map_app, R2.
    + rewrite assoc_set_new by easy. now rewrite map_app, R3.
    + intros i nm H. destruct (Nat.lt_ge_cases i (List.length (w_dimnames st))) as [Hi|Hi].
      * rewrite nth_error_app1 in H by easy. rewrite assoc_set_other; [now apply R4|].
        intros ->. apply HN2. now apply nth_error_In in H.
      * rewrite nth_error_app2 in H by easy.
        destruct (i - List.length (w_dimnames st))%nat as [|j] eqn:Ej; cbn in H.
        -- inversion H; subst. rewrite assoc_set_same. f_equal. rewrite R5. unfold zlen. lia.
        -- destruct j; easy.
    + rewrite zlen_app, R5. reflexivity.
    + rewrite assoc_set_new by easy. apply Forall_app. split; [easy|]. now repeat constructor.
  - split; try easy; cbn [register w_dimnames w_dimlens].
    + eauto.
    + intros nm m H. rewrite assoc_set_other; [easy|]. intros ->.
      apply HN. apply assoc_Some_In in H. now apply (in_map fst) in H.
Qed.

(** ** AddVar's loop over the dimensions *)
Lemma nth_app_len {A} (l : list A) x d : nth (List.length l) (l ++ [x]) d = x.
Proof. rewrite app_nth2 by lia. now rewrite Nat.sub_diag. Qed.

Lemma add_dims_ok name ty lens : forall i vdims st st' r,
  reg_ok st -> Forall (fun n => 0 <= n) lens -> (i <= List.length vdims)%nat ->
  add_dims name ty i lens vdims st = (st', r) ->
  reg_ok st' /\ extends st st' /\ r <> Panic /\
  (forall vd, r = Ok vd -> (exists gen, vd = vdims ++ gen) /\
     forall j n, nth_error lens j = Some n ->
       exists dn, nth_error vd (i + j) = Some dn /\ assoc dn (w_dimlens st') = Some n) /\
  (forall e, r = Err e -> e = EDimensionSize).
Proof.
  induction lens as [|n lens IH]; intros i vdims st st' r R P Hi E.
  - cbn [add_dims] in E. inversion E; subst. split; [easy|]. split; [apply extends_refl|].
    split; [easy|]. split; [|easy]. intros vd [= <-]. split; [exists []; now rewrite app_nil_r|].
    intros [|j] n H; easy.
  - cbn [add_dims] in E. inversion P as [|? ? Pn P']; subst.
    set (vdims' := match nth i vdims [] with
                   | [] => vdims ++ [match ty, lens with TChar, [] => stringlen_name name | _, _ => dimid_name (w_next st) end]
                   | _ => vdims end) in *.
    assert (Hv : exists g, vdims' = vdims ++ g).
    { unfold vdims'. destruct (nth i vdims []); [eauto|]. exists []. now rewrite app_nil_r. }
    assert (Hl : (S i <= List.length vdims')%nat).
    { unfold vdims'. destruct (nth i vdims []) eqn:En.
      - rewrite app_length. cbn. lia.
      - destruct (Nat.lt_ge_cases i (List.length vdims)); [lia|].
        rewrite nth_overflow in En by easy. easy. }
    destruct (nth_error vdims' i) as [dn|] eqn:Edn.
    2:{ apply nth_error_None in Edn. lia. }
    assert (Hcont : forall st1, reg_ok st1 -> extends st st1 -> assoc dn (w_dimlens st1) = Some n ->
      add_dims name ty (S i) lens vdims' st1 = (st', r) ->
      reg_ok st' /\ extends st st' /\ r <> Panic /\
      (forall vd, r = Ok vd -> (exists gen, vd = vdims ++ gen) /\
         forall j m, nth_error (n :: lens) j = Some m ->
           exists dn, nth_error vd (i + j) = Some dn /\ assoc dn (w_dimlens st') = Some m) /\
      (forall e, r = Err e -> e = EDimensionSize)).
    { intros st1 R1 X1 A1 E1. destruct (IH _ _ _ _ _ R1 P' Hl E1) as (I1 & I2 & I3 & I4 & I5).
      split; [easy|]. split; [eapply extends_trans; eauto|]. split; [easy|]. split; [|easy].
      intros vd Hvd. destruct (I4 vd Hvd) as ((gen & G) & I6). split.
      - destruct Hv as (g & Hg). exists (g ++ gen). rewrite G, Hg. now rewrite app_assoc.
      - intros [|j] m Hm.
        + cbn in Hm. inversion Hm; subst. exists dn. split.
          * rewrite Nat.add_0_r. rewrite nth_error_app1 by lia. exact Edn.
          * now apply (ex_lens _ _ I2).
        + cbn [nth_error] in Hm. destruct (I6 j m Hm) as (dn' & D1 & D2).
          exists dn'. split; [|easy]. now replace (i + S j)%nat with (S i + j)%nat by lia. }
    destruct (assoc dn (w_dimlens st)) as [cur|] eqn:Ea.
    + destruct (n =? cur) eqn:Ec.
      * apply (Hcont st); auto; [apply extends_refl|]. rewrite Ea. f_equal. lia.
      * inversion E; subst. split; [easy|]. split; [apply extends_refl|]. split; [easy|].
        split; [easy|]. now intros e [= <-].
    + change (add_dims name ty (S i) lens vdims' (register st dn n) = (st', r)) in E.
      destruct (register_ok st dn n R Pn Ea) as (R1 & R2 & R3). now apply (Hcont (register st dn n)).
Qed.

Lemma dim_lengths_nonneg : forall v dims nn lens ty, Forall (fun n => 0 <= n) dims ->
  dim_lengths v dims nn = Ok (lens, ty) -> Forall (fun n => 0 <= n) lens.
Proof.
  assert (S1 : forall dims n, Forall (fun n => 0 <= n) dims -> 0 <= n -> Forall (fun n => 0 <= n) (dims ++ [n])).
  { intros. apply Forall_app. split; [easy|]. now repeat constructor. }
  assert (MS : forall l, 0 <= max_strlen l).
  { induction l; cbn; lia. }
  fix IH 1. intros v dims nn lens ty P E. destruct v as [k z|s|t l|]; cbn [dim_lengths] in E.
  - now inversion E; subst.
  - destruct ((zlen s =? 1) && nn); inversion E; subst; [easy|]. apply S1; [easy|apply zlen_nonneg].
  - assert (P' : Forall (fun n => 0 <= n) (dims ++ [zlen l])) by (apply S1; [easy|apply zlen_nonneg]).
    destruct t.
    + destruct l as [|x l]; [now inversion E; subst|]. eapply IH; eauto.
    + destruct (max_strlen l =? 0); [easy|]. inversion E; subst. apply S1; [easy|apply MS].
    + destruct l as [|x l]; [easy|]. eapply IH; eauto.
    + destruct l as [|x l]; [easy|]. eapply IH; eauto.
  - easy.
Qed.

(** ** Histories *)
Definition nonames (d : list bytes) : bool := match d with [] => true | _ => false end.

(** The variable stored for an accepted AddVar *)
Definition added (o : wop) (s : svar) : Prop :=
  exists n v d a, o = WVar n v d a /\ sv_name s = n /\ sv_val s = v /\ sv_attrs s = a /\
    dim_lengths v [] (nonames d) = Ok (sv_lens s, sv_ty s) /\ exists gen, sv_dims s = d ++ gen.

Definition registered (lens : list (bytes * Z)) (s : svar) : Prop :=
  forall j n, nth_error (sv_lens s) j = Some n ->
    exists dn, nth_error (sv_dims s) j = Some dn /\ assoc dn lens = Some n.

Record var_inv (U : ucd) (st : wst) (s : svar) : Prop := mkVinv {
  vi_name : valid_name U (sv_name s) = true;
  vi_anames : Forall (fun kv => valid_name U (fst kv) = true) (sv_attrs s);
  vi_reg : registered (w_dimlens st) s;
  vi_ver : v5ty (sv_ty s) = true -> w_ver st = 5;
  vi_aver5 : Forall (fun kv => attr_version (snd kv) <> 0) (sv_attrs s) ->
             Forall (fun kv => attr_version (snd kv) <= w_ver st) (sv_attrs s)
}.

Record winv (U : ucd) (st : wst) : Prop := mkWinv {
  wi_ver : wver (w_ver st);
  wi_reg : reg_ok st;
  wi_gnames : Forall (fun kv => valid_name U (fst kv) = true) (w_gattrs st);
  wi_vars : Forall (var_inv U st) (w_vars st)
}.

Lemma attr_version_cases v : attr_version v = 0 \/ attr_version v = 2 \/ attr_version v = 5.
Proof.
  destruct v as [k z|s|t l|]; cbn; auto.
  - destruct (v5kind k); auto.
  - destruct t; auto. destruct (v5kind k); auto.
Qed.

Lemma check_v5_cases ver a v1 : check_v5 ver a = Ok v1 -> v1 = ver \/ v1 = 5.
Proof.
  induction a as [|[k v] a IH]; cbn; [now intros [= ->]; left|].
  destruct (attr_version v =? 0); [easy|]. destruct (attr_version v =? 5); [intros [= <-]; now right|easy].
Qed.
Lemma check_v5_le ver a v1 : wver ver -> check_v5 ver a = Ok v1 ->
  Forall (fun kv => attr_version (snd kv) <> 0) a ->
  Forall (fun kv => attr_version (snd kv) <= v1) a.
Proof.
  intros Hv. induction a as [|[k v] a IH]; cbn [check_v5]; intros H F; [constructor|].
  inversion F as [|? ? F1 F2]; subst. cbn [snd] in *.
  destruct (Z.eqb_spec (attr_version v) 0); [easy|].
  destruct (Z.eqb_spec (attr_version v) 5) as [E5|N5].
  - inversion H; subst. constructor; cbn [snd]; [lia|]. clear - F2.
    eapply Forall_impl; [|exact F2]. intros [k' v'] _. cbn [snd].
    destruct (attr_version_cases v') as [X|[X|X]]; lia.
  - constructor; cbn [snd]; [|now apply IH].
    pose proof (check_v5_cases _ _ _ H). destruct (attr_version_cases v) as [X|[X|X]]; destruct Hv; lia.
Qed.

Lemma var_inv_mono U st st' s : var_inv U st s ->
  (forall nm n, assoc nm (w_dimlens st) = Some n -> assoc nm (w_dimlens st') = Some n) ->
  w_ver st <= w_ver st' -> wver (w_ver st') -> var_inv U st' s.
Proof.
  intros [V1 V2 V3 V4 V6] HL HV HW. split; auto.
  - intros j n H. destruct (V3 j n H) as (dn & D1 & D2). eauto.
  - intros H. specialize (V4 H). destruct HW; lia.
  - intros H. specialize (V6 H). eapply Forall_impl; [|exact V6]. cbn. intros; lia.
Qed.

Lemma vars_mono U st st' : Forall (var_inv U st) (w_vars st) -> w_vars st' = w_vars st ->
  (forall nm n, assoc nm (w_dimlens st) = Some n -> assoc nm (w_dimlens st') = Some n) ->
  w_ver st <= w_ver st' -> wver (w_ver st') -> Forall (var_inv U st') (w_vars st').
Proof.
  intros H -> HL HV HW. eapply Forall_impl; [|exact H]. intros s Hs. eapply var_inv_mono; eauto.
Qed.

Lemma set_ver_winv U st v : winv U st -> wver v -> w_ver st <= v -> winv U (set_ver st v).
Proof.
  intros [W1 W2 W3 W4] Hv Hle. split; auto.
  - destruct W2. split; auto.
  - now apply (vars_mono U st).
Qed.

Lemma add_var_inv U st name val dims a st' r : winv U st ->
  add_var U st name val dims a = (st', r) ->
  winv U st' /\ w_gattrs st' = w_gattrs st /\
  (forall nm n, assoc nm (w_dimlens st) = Some n -> assoc nm (w_dimlens st') = Some n) /\
  (exists l, w_dimnames st' = w_dimnames st ++ l) /\
  match r with
  | Ok _ => exists s, w_vars st' = w_vars st ++ [s] /\ added (WVar name val dims a) s
  | _ => w_vars st' = w_vars st
  end.
Proof.
  intros W E. unfold add_var in E.
  destruct (valid_name U name) eqn:Vn; cbn [negb] in E;
    [|inversion E; subst; repeat split; try apply W; eauto; exists []; now rewrite app_nil_r].
  destruct (valid_attr_names U a) eqn:Va; cbn [negb] in E;
    [|inversion E; subst; repeat split; try apply W; eauto; exists []; now rewrite app_nil_r].
  destruct (check_v5 (w_ver st) a) as [v1| |] eqn:Ec;
    [|inversion E; subst; repeat split; try apply W; eauto; exists []; now rewrite app_nil_r
     |inversion E; subst; repeat split; try apply W; eauto; exists []; now rewrite app_nil_r].
  assert (Hv1 : wver v1 /\ w_ver st <= v1).
  { pose proof (wi_ver U st W) as Hv. destruct (check_v5_cases _ _ _ Ec) as [->| ->];
      [split; [easy|lia]|]. split; [now right|]. destruct Hv; lia. }
  assert (W1 : winv U (set_ver st v1)) by (now apply set_ver_winv).
  destruct (dim_lengths val [] (match dims with [] => true | _ => false end)) as [[lens ty]| |] eqn:Ed;
    [|inversion E; subst; repeat split; try apply W1; eauto; exists []; cbn; now rewrite app_nil_r
     |inversion E; subst; repeat split; try apply W1; eauto; exists []; cbn; now rewrite app_nil_r].
  set (st2 := if v5ty ty then set_ver (set_ver st v1) 5 else set_ver st v1) in *.
  assert (W2 : winv U st2).
  { unfold st2. destruct (v5ty ty); [|easy]. apply set_ver_winv; [easy|now right|].
    cbn. destruct Hv1 as [[-> | ->] _]; lia. }
  assert (S2 : w_vars st2 = w_vars st /\ w_gattrs st2 = w_gattrs st /\ w_dimlens st2 = w_dimlens st /\
               w_dimnames st2 = w_dimnames st /\ v1 <= w_ver st2 /\ (v5ty ty = true -> w_ver st2 = 5)).
  { unfold st2. destruct (v5ty ty); cbn; repeat split; try easy; try lia.
    destruct Hv1 as [[-> | ->] _]; lia. }
  destruct S2 as (S1 & S2 & S3 & S4 & S5 & S6).
  destruct (add_dims name ty 0 lens dims st2) as [st3 r3] eqn:Ea.
  destruct (add_dims_ok name ty lens 0 dims st2 st3 r3) as (A1 & A2 & A3 & A4 & _); auto.
  { apply W2. } { eapply dim_lengths_nonneg; [|exact Ed]. constructor. } { lia. }
  destruct A2 as [X1 X2 X3 [l X4] X5].
  assert (W3 : winv U st3).
  { destruct W2 as [Y1 Y2 Y3 Y4]. split; [now rewrite X3|easy|now rewrite X2|].
    apply (vars_mono U st2); auto; [lia|now rewrite X3]. }
  assert (K : (w_gattrs st3 = w_gattrs st) /\
    (forall nm n, assoc nm (w_dimlens st) = Some n -> assoc nm (w_dimlens st3) = Some n) /\
    (exists l, w_dimnames st3 = w_dimnames st ++ l) /\ w_vars st3 = w_vars st).
  { repeat split; [congruence| | |congruence].
    - intros nm n H. apply X5. now rewrite S3.
    - exists l. congruence. }
  destruct K as (K1 & K2 & K3 & K4).
  destruct r3 as [vd| |]; inversion E; subst; [|easy|easy].
  destruct (A4 vd eq_refl) as ((gen & G) & A5).
  split; [|split; [easy|split; [easy|split; [easy|]]]].
  { split; cbn [push_var w_ver w_gattrs w_vars w_dimlens w_dimnames w_dimids w_next].
  - apply W3.
  - destruct A1. split; auto.
  - apply W3.
  - apply Forall_app. split.
    + pose proof (wi_vars U st3 W3) as F. eapply Forall_impl; [|exact F]. intros s Hs.
      eapply (var_inv_mono U st3); eauto; [cbn; lia|]. cbn. apply W3.
    + constructor; [|constructor]. split; cbn [sv_name sv_attrs sv_ty push_var w_ver w_dimlens].
      * easy.
      * unfold valid_attr_names in Va. rewrite forallb_forall in Va. now apply Forall_forall.
      * intros j n H. cbn [sv_lens sv_dims] in *. now apply (A5 j n).
      * intros H. rewrite X3. now apply S6.
      * intros H. eapply Forall_impl; [|exact (check_v5_le _ _ _ (wi_ver U st W) Ec H)].
        cbn. intros. lia. }
  - exists (mkSvar name val ty lens vd a). split; [cbn [push_var w_vars]; now rewrite K4|].
    exists name, val, dims, a. cbn. repeat split; eauto.
Qed.

Lemma wstep_inv U st o st' r : winv U st -> wstep U st o = (st', r) ->
  winv U st' /\
  (forall nm n, assoc nm (w_dimlens st) = Some n -> assoc nm (w_dimlens st') = Some n) /\
  (exists l, w_dimnames st' = w_dimnames st ++ l) /\
  match r with
  | Ok _ => w_gattrs st' = last_attrs (w_gattrs st) [o] /\
            exists l, w_vars st' = w_vars st ++ l /\ Forall2 added (filter is_var [o]) l
  | _ => w_vars st' = w_vars st /\ w_gattrs st' = w_gattrs st
  end.
Proof.
  intros W E. destruct o as [a|n v d a|g]; cbn [wstep] in E.
  - unfold add_attributes in E. destruct (valid_attr_names U a) eqn:Va; inversion E; subst.
    + split; [|split; [easy|split; [|split; [easy|]]]]; cbn; [split; cbn| |].
      * apply W.
      * destruct (wi_reg U st W). split; auto.
      * unfold valid_attr_names in Va. rewrite forallb_forall in Va. now apply Forall_forall.
      * destruct W as [W1 W2 W3 W4]. eapply Forall_impl; [|exact W4]. intros s Hs.
        eapply var_inv_mono; eauto. cbn. lia.
      * exists []. now rewrite app_nil_r.
      * exists []. rewrite app_nil_r. split; [easy|constructor].
    + repeat split; try apply W; auto. exists []. now rewrite app_nil_r.
  - destruct (add_var_inv U st n v d a st' r W E) as (A1 & A2 & A3 & A4 & A5).
    split; [easy|]. split; [easy|]. split; [easy|]. destruct r; [|easy|easy].
    cbn [last_attrs filter is_var]. split; [easy|]. destruct A5 as (s & S1 & S2).
    exists [s]. split; [easy|]. now repeat constructor.
  - inversion E; subst. repeat split; try apply W; auto. exists []. now rewrite app_nil_r.
Qed.

Lemma accepted_cons o ops r rs : accepted (o :: ops) (r :: rs) =
  match r with Ok _ => o :: accepted ops rs | _ => accepted ops rs end.
Proof. destruct r; reflexivity. Qed.

Lemma last_attrs_cons o l init : last_attrs init (o :: l) = last_attrs (last_attrs init [o]) l.
Proof. destruct o; reflexivity. Qed.

Lemma wrun_inv U ops : forall st st' rs, winv U st -> wrun U st ops = (st', rs) ->
  winv U st' /\ w_gattrs st' = last_attrs (w_gattrs st) (accepted ops rs) /\
  (exists l, w_vars st' = w_vars st ++ l /\ Forall2 added (filter is_var (accepted ops rs)) l) /\
  (forall nm n, assoc nm (w_dimlens st) = Some n -> assoc nm (w_dimlens st') = Some n) /\
  (exists l, w_dimnames st' = w_dimnames st ++ l).
Proof.
  induction ops as [|o ops IH]; intros st st' rs W E; cbn [wrun] in E.
  - inversion E; subst. split; [easy|]. split; [easy|]. split; [exists []; rewrite app_nil_r; split; [easy|constructor]|].
    split; [easy|]. exists []. now rewrite app_nil_r.
  - destruct (wstep U st o) as [st1 r] eqn:E1. destruct (wrun U st1 ops) as [st2 rs2] eqn:E2.
    inversion E; subst. destruct (wstep_inv U st o st1 r W E1) as (W1 & L1 & (n1 & N1) & C1).
    destruct (IH st1 st' rs2 W1 E2) as (W2 & G2 & (l2 & V2 & F2) & L2 & (n2 & N2)).
    split; [easy|].
    assert (X : w_gattrs st' = last_attrs (w_gattrs st) (accepted (o :: ops) (r :: rs2)) /\
      exists l, w_vars st' = w_vars st ++ l /\ Forall2 added (filter is_var (accepted (o :: ops) (r :: rs2))) l).
    { rewrite accepted_cons. destruct r.
      - destruct C1 as (G1 & l1 & V1 & F1). split.
        + rewrite last_attrs_cons, <- G1. exact G2.
        + exists (l1 ++ l2). split; [rewrite V2, V1; now rewrite app_assoc|].
          change (o :: accepted ops rs2) with ([o] ++ accepted ops rs2). rewrite filter_app.
          now apply Forall2_app.
      - destruct C1 as (V1 & G1). split; [now rewrite <- G1|]. exists l2. split; [now rewrite <- V1|easy].
      - destruct C1 as (V1 & G1). split; [now rewrite <- G1|]. exists l2. split; [now rewrite <- V1|easy]. }
    destruct X as [X1 X2]. split; [easy|]. split; [easy|]. split; [auto|].
    exists (n1 ++ n2). rewrite N2, N1. now rewrite app_assoc.
Qed.

Lemma open_winv U : winv U open_writer.
Proof.
  split; cbn; try constructor; cbn; auto; try constructor; try easy.
  intros [|i]; easy.
Qed.

Lemma run_inv U ops st rs : wrun U open_writer ops = (st, rs) ->
  winv U st /\ w_gattrs st = last_attrs [] (accepted ops rs) /\
  Forall2 added (filter is_var (accepted ops rs)) (w_vars st).
Proof.
  intros E. destruct (wrun_inv U ops _ _ _ (open_winv U) E) as (W & G & (l & V & F) & _).
  cbn in V. subst l. easy.
Qed.
