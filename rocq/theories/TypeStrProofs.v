(** Proofs about the type strings. *)
From Coq Require Import Lia ZifyBool ZifyNat.
From Verif Require Import Prelude GoVal BaseLemmas OrderedMapModel OrderedMapProofs ArraySpec ArrayProofs CdfWriterModel CdfReaderModel
  CdfBounds CdfTypes CdfConvert TypeStrModel TypeStrSpec.

(** ** Variables *)

Lemma convert_type t : forall ds data v, convert false t ds data = Ok v ->
  t <> TChar \/ (List.length ds <= 2)%nat \/ data <> [] ->
  ctype_of v = arr_type (elt_of t) (List.length ds).
Proof.
  induction ds as [|d ds IH]; intros data v H C.
  - cbn [convert] in H. destruct data; [discriminate|]. destruct t; injection H as <-; reflexivity.
  - destruct ds as [|d1 ds].
    + cbn [convert] in H. injection H as <-. apply ctype_conv_row.
    + destruct ds as [|d2 ds].
      * rewrite convert_rank2 in H. destruct (go_make d _); cbn [rbind] in H; try discriminate.
        destruct (conv_rows _ _ _ _); cbn [rbind] in H; try discriminate. injection H as <-. destruct t; reflexivity.
      * rewrite convert_generic in H by (right; discriminate). destruct data as [|z data].
        -- destruct t as [|k]; [destruct C as [C|[C|C]]; [contradiction|cbn [List.length] in C; lia|contradiction]|].
           cbn [empty_slice] in H. injection H as <-. cbn [ctype_of elem_gtype List.length elt_of].
           clear. assert (E : forall n, nest_slice (GNum k) (S n) = arr_type (ENum k) (S n)).
           { induction n as [|n IHn]; [reflexivity|]. change (nest_slice (GNum k) (S (S n))) with (GSlice (nest_slice (GNum k) (S n))).
             rewrite IHn. reflexivity. }
           change (GSlice (nest_slice (GNum k) (S (S (List.length ds))))) with (nest_slice (GNum k) (S (S (S (List.length ds))))).
           exact (E (S (S (List.length ds)))).
        -- destruct (go_make d 24); cbn [rbind] in H; try discriminate.
           destruct (conv_loop false t (d1 :: d2 :: ds) (Z.to_nat d) (z :: data)) as [l|e|] eqn:El; cbn [rbind] in H; try discriminate.
           destruct l as [|x l]; [discriminate|]. injection H as <-. cbn [ctype_of].
           destruct (Z.to_nat d) as [|n]; [discriminate|]. cbn [conv_loop] in El.
           destruct (convert false t (d1 :: d2 :: ds) (z :: data)) as [y|e|] eqn:Ey; cbn [rbind] in El; try discriminate.
           assert (y = x) as ->.
           { destruct n; [injection El as -> _; reflexivity|]. destruct (_ <? _); [discriminate|].
             fold (conv_loop false t (d1 :: d2 :: ds)) in El.
             destruct (conv_loop false t (d1 :: d2 :: ds) (S n) _); cbn [rbind] in El; try discriminate.
             injection El as -> _. reflexivity. }
           rewrite (IH _ _ Ey) by (right; right; discriminate). reflexivity.
Qed.

(** A conversion of no data gives an empty slice from rank three on *)
Lemma convert_none t d d1 d2 ds v : convert false t (d :: d1 :: d2 :: ds) [] = Ok v ->
  exists u, v = CSlice u [] [].
Proof.
  rewrite convert_generic by (right; discriminate). cbn [empty_slice]. intros [= <-]. eauto.
Qed.

Lemma slice_rec_type : forall n b e v w, slice_rec n b e v = Ok w ->
  ctype_of w = ctype_of v /\ ((exists t s, v = CSlice t [] s /\ s = []) -> exists t s, w = CSlice t [] s).
Proof.
  destruct n as [|n]; intros b e v w H; cbn [slice_rec] in H.
  - injection H as <-. split; [reflexivity|]. intros (t & s & -> & ->). eauto.
  - destruct v as [k z|s|t l sp]; [injection H as <-; split; [reflexivity|]; intros (t & s & E & _); discriminate E| |].
    + injection H as <-. split; [reflexivity|]. intros (t & s' & E & _); discriminate E.
    + destruct b as [|b0 b]; [discriminate|]. destruct e as [|e0 e]; [discriminate|].
      destruct (_ || _ || _) eqn:C; [discriminate|].
      assert (N : forall t' s', CSlice t l sp = CSlice t' [] s' /\ s' = [] -> ztake (e0 - b0) (zdrop b0 (l ++ sp)) = []).
      { intros t' s' [E ->]. injection E as _ -> ->. unfold zdrop, ztake. cbn [app]. rewrite skipn_nil. apply firstn_nil. }
      destruct n as [|n].
      * injection H as <-. split; [reflexivity|]. intros (t' & s' & E). rewrite (N t' s' E). eauto.
      * destruct (rmapM _ _) as [l'|?|] eqn:El; cbn [rbind] in H; try discriminate. injection H as <-.
        split; [reflexivity|]. intros (t' & s' & E). rewrite (N t' s' E) in El. cbn in El. injection El as <-. eauto.
Qed.

(** What the calls on a getter return has the type of an array of the variable's rank *)
Lemma get_slice_type g b e p : get_slice_c g b e = Ok p ->
  g_ty g <> TChar \/ (List.length (g_lens g) <= 2)%nat \/ (forall t, p <> CSlice t [] []) ->
  ctype_of p = arr_type (elt_of (g_ty g)) (List.length (g_lens g)).
Proof.
  unfold get_slice_c. intros H C. destruct (e <? b); [discriminate|].
  match type of H with rbind ?x _ = _ => destruct x as [raw|er|] end; cbn [rbind] in H; try discriminate.
  match type of H with convert _ _ ?ds ?dat = _ => set (D := ds) in *; set (data := dat) in * end.
  assert (L : List.length D = List.length (g_lens g)) by (unfold D; destruct (g_lens g); reflexivity).
  rewrite <- L. apply convert_type with (data := data); [exact H|]. rewrite L.
  destruct C as [C|[C|C]]; [left; exact C|right; left; exact C|].
  destruct (le_gt_dec (List.length (g_lens g)) 2) as [G|G]; [right; left; exact G|right; right].
  intros E. rewrite E in H. destruct D as [|d [|d1 [|d2 ds]]]; cbn [List.length] in L; try lia.
  destruct (convert_none _ _ _ _ _ _ H) as [u ->]. exact (C u eq_refl).
Qed.

Definition chars_of (t : cty) : bool := match t with TChar => true | TNum _ => false end.

Lemma arr_spelled t n : spelled (arr_type (elt_of t) n) =
  brackets (levels (chars_of t) n) (spelled (arr_type (elt_of t) 0)).
Proof.
  assert (E : forall n, spelled (arr_type (elt_of t) (S n)) = brackets (levels (chars_of t) (S n)) (spelled (arr_type (elt_of t) 0))).
  { clear n. induction n as [|n IH]; [destruct t as [|k]; [reflexivity|destruct k; reflexivity]|].
    change (arr_type (elt_of t) (S (S n))) with (GSlice (arr_type (elt_of t) (S n))). cbn [spelled]. rewrite IH.
    destruct t; reflexivity. }
  destruct n as [|n]; [destruct t as [|k]; [reflexivity|destruct k; reflexivity]|apply E].
Qed.

Lemma go_type_base code t : ty_of_code code = Some t -> go_type code = Ok (spelled (arr_type (elt_of t) 0)).
Proof.
  unfold ty_of_code. intros H.
  repeat match type of H with
  | match ?c with _ => _ end = _ => destruct c; try discriminate
  end; injection H as <-; reflexivity.
Qed.

Lemma cdl_type_base code t : ty_of_code code = Some t ->
  exists s, cdl_type code = Ok (bs s) /\ In (code, s) cdl_names.
Proof.
  unfold ty_of_code. intros H.
  repeat match type of H with
  | match ?c with _ => _ end = _ => destruct c; try discriminate
  end; (eexists; split; [reflexivity|]; unfold cdl_names; cbn [In]; tauto).
Qed.

Lemma getter_code c name g : get_var_getter c name = Ok g -> ty_of_code (v_type (g_var g)) = Some (g_ty g).
Proof.
  unfold get_var_getter. destruct (om_get _ _) as [v|]; [|discriminate].
  destruct (var_dims c true (v_ids v)) as [ds|?|]; cbn [rbind]; try discriminate.
  destruct (match map _ ds with [] => _ | _ => _ end) as [chunk len].
  destruct (ty_of_code (v_type v)) as [t|] eqn:E; [|discriminate]. intros [= <-]. exact E.
Qed.

(** ** Attributes *)

Lemma zero_spelled t : plain t -> zero_go_type t = Some (spelled t).
Proof. induction t as [k| |t IH|]; cbn [plain]; intros H; [destruct k; reflexivity|reflexivity|cbn; rewrite (IH H); reflexivity|contradiction]. Qed.

Fixpoint gval_ind2 (Q : gval -> Prop) (Hn : forall k z, Q (VNum k z)) (Hs : forall s, Q (VStr s))
  (Hl : forall t l, Forall Q l -> Q (VSlice t l)) (Ho : Q VOther) (v : gval) : Q v :=
  match v with
  | VNum k z => Hn k z
  | VStr s => Hs s
  | VSlice t l => Hl t l ((fix go (l : list gval) : Forall Q l :=
      match l with [] => Forall_nil _ | x :: r => Forall_cons x (gval_ind2 Q Hn Hs Hl Ho x) (go r) end) l)
  | VOther => Ho
  end.

Lemma gtype_eqb_eq a b : gtype_eqb a b = true -> a = b.
Proof.
  revert b; induction a as [k| |a IH|]; intros [k'| |b|]; cbn [gtype_eqb]; try discriminate; try reflexivity.
  - destruct k, k'; cbn [nk_eqb]; try discriminate; reflexivity.
  - intros H. rewrite (IH _ H). reflexivity.
Qed.

Lemma pGoType_spelled v : wt v = true -> plain (type_of v) -> pGoType v = Some (spelled (type_of v)).
Proof.
  induction v as [k z|s|t l IH|] using gval_ind2; cbn [type_of plain]; intros W H; [destruct k; reflexivity|reflexivity| |contradiction].
  cbn [pGoType spelled]. destruct l as [|x l]; [rewrite (zero_spelled t H); reflexivity|].
  cbn [wt forallb] in W. apply andb_prop in W. destruct W as [W1 W2]. apply andb_prop in W1. destruct W1 as [W1 _].
  apply andb_prop in W2. destruct W2 as [W2 _]. apply gtype_eqb_eq in W1.
  inversion IH as [|? ? IHx _]; subst. rewrite (IHx W2 H). reflexivity.
Qed.

Lemma split_last_app c a b : ~ In c b -> split_last c (a ++ c :: b) = Some (a, b).
Proof.
  intros H. assert (N : split_last c b = None).
  { clear a. induction b as [|x b IH]; [reflexivity|]. cbn [split_last]. rewrite IH by (intros G; apply H; right; exact G).
    replace (x =? c) with false; [reflexivity|]. symmetry. apply Z.eqb_neq. intros ->. apply H. left. reflexivity. }
  induction a as [|x a IH]; cbn [app split_last]; [rewrite N, Z.eqb_refl; reflexivity|]. rewrite IH. reflexivity.
Qed.
Lemma split_last_none c b : ~ In c b -> split_last c b = None.
Proof.
  induction b as [|x b IH]; intros H; [reflexivity|]. cbn [split_last]. rewrite IH by (intros G; apply H; right; exact G).
  replace (x =? c) with false; [reflexivity|]. symmetry. apply Z.eqb_neq. intros ->. apply H. left. reflexivity.
Qed.

Lemma dec_fuel_no fuel : forall z c, 0 <= z -> In c (dec_fuel fuel z) -> 48 <= c <= 57.
Proof.
  induction fuel as [|fu IH]; intros z c Hz H; cbn [dec_fuel] in H; [destruct H|].
  apply in_app_or in H. destruct H as [H|H].
  - destruct (z / 10 =? 0); [destruct H|]. apply (IH (z / 10)); [apply Z.div_pos; lia|exact H].
  - destruct H as [H|[]]. pose proof (Z.mod_pos_bound z 10 ltac:(lia)). lia.
Qed.
Lemma comma_list_chars ds c : Forall (fun d => 0 < d) ds -> In c (comma_list ds) -> c <> 40 /\ c <> 41.
Proof.
  induction ds as [|d ds IH]; intros P H; [destruct H|]. inversion P as [|? ? P1 P2]; subst.
  assert (A : In c (dec d) \/ c = 44 \/ In c (comma_list ds)).
  { cbn [comma_list] in H. destruct ds; [left; exact H|]. apply in_app_or in H. destruct H as [H|H]; [left; exact H|].
    apply in_app_or in H. destruct H as [[H|[]]|H]; [right; left; symmetry; exact H|right; right; exact H]. }
  destruct A as [A|[->|A]]; [|lia|apply (IH P2 A)].
  unfold dec in A. apply dec_fuel_no in A; lia.
Qed.

Lemma cdl_of_chars t c : In c (cdl_of t) -> c <> 40 /\ c <> 41.
Proof. destruct t as [k| | |]; [destruct k|..]; cbn; intuition lia. Qed.

Lemma comma_cons d ds : comma_list (d :: ds) = dec d ++ match ds with [] => [] | _ => bs "," ++ comma_list ds end.
Proof. destruct ds; [cbn [comma_list]; rewrite app_nil_r; reflexivity|reflexivity]. Qed.

Lemma putDim_extents t d ds : 0 < d -> Forall (fun d => 0 < d) ds ->
  putDim (with_extents (cdl_of t) ds) d = with_extents (cdl_of t) (d :: ds).
Proof.
  intros Hd P. unfold putDim, with_extents. replace (d =? 0) with false by lia.
  destruct ds as [|e ds].
  - rewrite split_last_none by (intros H; apply cdl_of_chars in H; destruct H as [H _]; exact (H eq_refl)).
    cbn [comma_list]. reflexivity.
  - change (bs "(" ++ comma_list (e :: ds) ++ bs ")") with (lpar :: comma_list (e :: ds) ++ bs ")").
    rewrite split_last_app.
    + destruct (comma_list (e :: ds) ++ bs ")") as [|x r] eqn:E; [destruct (comma_list (e :: ds)); discriminate E|].
      rewrite <- E. rewrite (comma_cons d (e :: ds)). rewrite <- !app_assoc. reflexivity.
    + intros H. apply in_app_or in H. destruct H as [H|[H|[]]]; [|discriminate H].
      apply comma_list_chars in H; [|exact P]. destruct H as [H _]. exact (H eq_refl).
Qed.

Lemma pType_extents ds v : rectangular ds v -> Forall (fun d => 0 < d) ds -> wt v = true ->
  pType v = Some (with_extents (cdl_of (base_of (type_of v))) ds).
Proof.
  revert ds. induction v as [k z|s|t l IH|] using gval_ind2; intros ds R P W; inversion R as [| |? ? ? R1]; subst.
  - destruct k; reflexivity.
  - reflexivity.
  - cbn [pType]. inversion P as [|? ? P1 P2]; subst. destruct l as [|x l]; [change (zlen (@nil gval)) with 0 in P1; lia|].
    cbn [wt forallb] in W. apply andb_prop in W. destruct W as [W1 W2]. apply andb_prop in W1. destruct W1 as [W1 _].
    apply andb_prop in W2. destruct W2 as [W2 _]. apply gtype_eqb_eq in W1.
    inversion IH as [|? ? IHx _]; subst. inversion R1 as [|? ? Rx _]; subst. rewrite (IHx _ Rx P2 W2).
    cbn [type_of base_of]. rewrite putDim_extents by assumption. reflexivity.
Qed.

(** No ")(" to replace *)
Lemma commas_id s : (forall a b, s = a ++ rpar :: lpar :: b -> False) -> commas s = s.
Proof.
  induction s as [|x s IH]; intros H; [reflexivity|]. destruct s as [|y r]; [reflexivity|].
  change (commas (x :: y :: r)) with (if (x =? rpar) && (y =? lpar) then 44 :: commas r else x :: commas (y :: r)).
  destruct ((x =? rpar) && (y =? lpar)) eqn:E.
  - exfalso. apply (H [] r). assert (x = rpar /\ y = lpar) as [-> ->] by lia. reflexivity.
  - rewrite IH; [reflexivity|]. intros a b G. apply (H (x :: a) b). rewrite G. reflexivity.
Qed.

Lemma commas_extents t ds : Forall (fun d => 0 < d) ds -> commas (with_extents (cdl_of t) ds) = with_extents (cdl_of t) ds.
Proof.
  intros P. apply commas_id. intros a b E. unfold with_extents in E. destruct ds as [|d ds].
  - assert (I : In rpar (cdl_of t)) by (rewrite E; apply in_or_app; right; left; reflexivity).
    apply cdl_of_chars in I. destruct I as [_ I]. exact (I eq_refl).
  - set (inn := comma_list (d :: ds)) in *.
    assert (Hin : forall c, In c (cdl_of t ++ bs "(" ++ inn) -> c <> 41).
    { intros c H. apply in_app_or in H. destruct H as [H|H]; [apply cdl_of_chars in H; tauto|].
      apply in_app_or in H. destruct H as [[<-|[]]|H]; [discriminate|]. apply comma_list_chars in H; [tauto|exact P]. }
    rewrite !app_assoc in E. rewrite <- (app_assoc (cdl_of t)) in E.
    assert (G : forall (l : bytes) a0, (forall c, In c l -> c <> 41) -> l ++ bs ")" = a0 ++ rpar :: lpar :: b -> False).
    { induction l as [|x l IHl]; intros a0 Hl Q.
      - destruct a0 as [|? [|? ?]]; discriminate Q.
      - destruct a0 as [|y a0]; cbn [app] in Q; injection Q as Q1 Q2; [exact (Hl x (or_introl eq_refl) Q1)|].
        apply (IHl a0); [intros c Hc; apply Hl; right; exact Hc|exact Q2]. }
    exact (G _ _ Hin E).
Qed.

(** ** Attributes of an opened file *)

Section Opened.
(** What get_attr gives always has some property *)
Context (Q : gval -> Prop) (HQ : forall ver s k v r, get_attr ver s = Ok ((k, v), r) -> Q v).
Lemma attrs_loop_all ver fuel : forall n s l r, get_attrs_loop ver fuel n s = Ok (l, r) ->
  Forall (fun kv => Q (snd kv)) l.
Proof.
  induction fuel as [|fuel IH]; intros n s l r E; cbn [get_attrs_loop] in E.
  - destruct (n <=? 0); [|discriminate]. injection E as <- _. constructor.
  - destruct (n <=? 0); [injection E as <- _; constructor|].
    destruct (get_attr ver s) as [[[k v] s1]| |] eqn:E1; cbn [rbind] in E; try discriminate.
    destruct (get_attrs_loop ver fuel (n - 1) s1) as [[l' s2]| |] eqn:E2; cbn [rbind] in E; try discriminate.
    injection E as <- _. constructor; [exact (HQ _ _ _ _ _ E1)|exact (IH _ _ _ _ E2)].
Qed.
Definition attrs_all (m : omap gval) : Prop := forall k v, om_get m k = Some v -> Q v.
Lemma attr_list_all ver s m r : get_attr_list ver s = Ok (m, r) -> attrs_all m.
Proof.
  unfold get_attr_list. intros E. destruct (get_nelems _ _ _) as [[n s1]| |] eqn:E1; cbn [rbind] in E; try discriminate.
  destruct (get_attrs_loop _ _ _ _) as [[l s2]| |] eqn:E2; cbn [rbind] in E; try discriminate.
  destruct (new_ordered_map _ _) as [om| |] eqn:E3; cbn [rbind] in E; try discriminate.
  injection E as <- _. apply new_ordered_map_result in E3. subst om. intros k v. unfold om_get. cbn [om_vals].
  intros G. apply assoc_Some_In in G. pose proof (attrs_loop_all _ _ _ _ _ _ E2) as F.
  apply (build_map_forall Q) in F. rewrite Forall_forall in F. exact (F _ G).
Qed.
Lemma get_var_all ver dims rs s v rs' r : get_var ver dims rs s = Ok ((v, rs'), r) -> attrs_all (v_attrs v).
Proof.
  unfold get_var. intros E.
  destruct (read_name ver s) as [[nm s1]| |]; cbn [rbind] in E; try discriminate.
  destruct (read_number ver s1) as [[nd s2]| |]; cbn [rbind] in E; try discriminate.
  destruct (_ <? nd); [discriminate|].
  destruct (read_numbers ver _ s2) as [[ids s3]| |]; cbn [rbind] in E; try discriminate.
  destruct (get_attr_list ver s3) as [[at_ s4]| |] eqn:E4; cbn [rbind] in E; try discriminate.
  destruct (read32 s4) as [[vt s5]| |]; cbn [rbind] in E; try discriminate.
  destruct (read_number ver s5) as [[vs s6]| |]; cbn [rbind] in E; try discriminate.
  destruct (has_unlimited dims ids) as [u| |]; cbn [rbind] in E; try discriminate.
  match type of E with (let* _ := ?x in _) = _ => destruct x as [[used rs1]| |]; cbn [rbind] in E; try discriminate end.
  match type of E with (let* _ := ?x in _) = _ => destruct x as [[off s7]| |]; cbn [rbind] in E; try discriminate end.
  injection E as <- _ _. exact (attr_list_all _ _ _ _ E4).
Qed.
Lemma vars_loop_all ver dims fuel : forall n st s st' r,
  get_vars_loop ver dims fuel n st s = Ok (st', r) ->
  (forall k v, om_get (vl_vars st) k = Some v -> attrs_all (v_attrs v)) ->
  forall k v, om_get (vl_vars st') k = Some v -> attrs_all (v_attrs v).
Proof.
  induction fuel as [|fuel IH]; intros n st s st' r E H; cbn [get_vars_loop] in E.
  - destruct (n <=? 0); [|discriminate]. injection E as <- _. exact H.
  - destruct (n <=? 0); [injection E as <- _; exact H|].
    destruct (get_var _ _ _ _) as [[[v rs] s1]| |] eqn:EG; cbn [rbind] in E; try discriminate.
    destruct (om_get (vl_vars st) (v_name v)) eqn:EO; [discriminate|].
    destruct (has_unlimited _ _) as [u| |]; cbn [rbind] in E; try discriminate.
    refine (IH _ _ _ _ _ E _).
    cbn [vl_vars]. intros k w. unfold om_get, om_add. destruct (mem _ _); cbn [om_vals];
      (intros X; destruct (bytes_dec k (v_name v)) as [->|N];
       [rewrite assoc_set_same in X; injection X as <-; exact (get_var_all _ _ _ _ _ _ _ EG)
       |rewrite assoc_set_other in X by exact N; exact (H k w X)]).
Qed.

Lemma opened_all f c : cdf_open f = Ok c -> 
  attrs_all (c_gattrs c) /\ forall k v, om_get (c_vars c) k = Some v -> attrs_all (v_attrs v).
Proof.
  unfold cdf_open, read_header. intros E.
  destruct (read_bytes 4 f) as [[m s0]| |] eqn:E0; cbn [rbind] in E; try discriminate.
  destruct (negb (beqb _ _)); [discriminate|]. cbv zeta in E. destruct (negb _) eqn:EV; [discriminate|].
  destruct (read_number _ _) as [[nr s1]| |]; cbn [rbind] in E; try discriminate.
  destruct (nr =? _); [discriminate|].
  destruct (get_nelems _ fieldDimension _) as [[nd s2]| |]; cbn [rbind] in E; try discriminate.
  destruct (_ <? nd); [discriminate|].
  destruct (get_dims _ _ _) as [[ds s3]| |]; cbn [rbind] in E; try discriminate.
  destruct (get_attr_list _ _) as [[ga s4]| |] eqn:E4; cbn [rbind] in E; try discriminate.
  destruct (get_nelems _ fieldVariable _) as [[nv s5]| |]; cbn [rbind] in E; try discriminate.
  destruct (get_vars_loop _ _ _ _ _ _) as [[vl s6]| |] eqn:EL; cbn [rbind] in E; try discriminate.
  destruct (finish_rec vl) as [rs sp]. injection E as <-. cbn [c_ver c_gattrs c_vars] in *.
  split.
  - intros k v G. apply om_get_hide in G. exact (attr_list_all _ _ _ _ E4 k v G).
  - apply (vars_loop_all _ _ _ _ _ _ _ _ EL). cbn [vl_vars]. intros k v G. discriminate.
Qed.
End Opened.

(** An attribute read from a file: a text, a number, or numbers *)
Definition attr_form (v : gval) : Prop :=
  (exists s, v = VStr s) \/ (exists k z, v = VNum k z) \/ exists k zs, v = VSlice (GNum k) (map (VNum k) zs).
Lemma get_attr_form ver s k v r : get_attr ver s = Ok ((k, v), r) -> attr_form v.
Proof.
  unfold get_attr. intros E.
  destruct (read_name ver s) as [[nm s1]| |] eqn:E1; cbn [rbind] in E; try discriminate.
  destruct (read32 s1) as [[vt s2]| |] eqn:E2; cbn [rbind] in E; try discriminate.
  destruct (read_number ver s2) as [[n s3]| |] eqn:E3; cbn [rbind] in E; try discriminate.
  destruct (ty_of_code vt) as [[|kd]|]; [| |discriminate].
  - destruct (read_bytes n s3) as [[b s4]| |]; cbn [rbind] in E; try discriminate.
    destruct (read_pad _ _) as [[? ?]| |]; cbn [rbind] in E; try discriminate.
    assert (EV : v = VStr b) by congruence. left. eauto.
  - destruct (check_version ver kd) as [[]| |] eqn:EC; cbn [rbind] in E; try discriminate.
    destruct (read_nums kd n s3) as [[zs s4]| |]; cbn [rbind] in E; try discriminate.
    destruct (read_pad _ _) as [[? ?]| |]; cbn [rbind] in E; try discriminate.
    assert (EV : v = attr_scalar (VSlice (GNum kd) (map (VNum kd) zs))) by congruence. right.
    destruct zs as [|z [|w zs]]; rewrite EV; [right; exists kd, []; reflexivity|left; exists kd, z; reflexivity|].
    right. exists kd, (z :: w :: zs). reflexivity.
Qed.

Lemma attr_form_types v : attr_form v ->
  pGoType v = Some (spelled (type_of v)) /\ pType v = Some (cdl_attr v) /\ commas (cdl_attr v) = cdl_attr v.
Proof.
  intros [(s & ->)|[(k & z & ->)|(k & zs & ->)]]; [repeat split; reflexivity|destruct k; repeat split; reflexivity|].
  destruct zs as [|z zs]; [destruct k; repeat split; reflexivity|].
  assert (P : 0 < zlen (VNum k z :: map (VNum k) zs)) by (rewrite zlen_cons; pose proof (zlen_nonneg (map (VNum k) zs)); lia).
  split; [destruct k; reflexivity|]. cbn [map pType cdl_attr].
  set (n := zlen (VNum k z :: map (VNum k) zs)) in *.
  change (cdl_of (GNum k) ++ bs "(" ++ dec n ++ bs ")") with (with_extents (cdl_of (GNum k)) [n]).
  split; [|apply commas_extents; repeat constructor; exact P].
  change (replaced k) with (with_extents (cdl_of (GNum k)) []). rewrite putDim_extents by (assumption || constructor). reflexivity.
Qed.
