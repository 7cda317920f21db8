(** The calls on the groups of any tree of objects: GetGroup, and the lists of names. *)
From Verif Require Import Prelude GoVal H5Base H5MetaRead H5Value H5TypeRead H5PathModel
  H5RecordModel H5FileRead PathSpec ForeignSpec BaseLemmas H5PathProofs H5ApiPath H5ApiProofs H5ForeignTree.
From Coq Require Import Lia ZifyBool ZifyNat Permutation.

Section RobjInd.
  Variable (P : robj -> Prop).
  Hypothesis (HP : forall i cs, Forall (fun c => P (snd c)) cs -> P (RObj i cs)).
  Fixpoint robj_ind' (o : robj) : P o :=
    match o with
    | RObj i cs =>
        HP i cs ((fix go (cs : list (bytes * robj)) : Forall (fun c => P (snd c)) cs :=
                    match cs with
                    | [] => Forall_nil _
                    | c :: r => Forall_cons c (robj_ind' (snd c)) (go r)
                    end) cs)
    end.
End RobjInd.

(** Names are proper and not used twice, and only groups have children *)
Inductive proper : robj -> Prop :=
| proper_obj i cs : NoDup (map fst cs) -> Forall (fun c => clean (fst c)) cs -> Forall (fun c => proper (snd c)) cs ->
    (ri_group i = false -> cs = []) -> proper (RObj i cs).

Lemma one_of {X} (g : bytes * robj -> list X) m o (cs : list (bytes * robj)) : NoDup (map fst cs) -> assoc m cs = Some o ->
  (forall c, In c cs -> fst c <> m -> g c = []) -> flat_map g cs = g (m, o).
Proof.
  induction cs as [|[n x] cs IH]; intros N E H; [discriminate|]. cbn [map fst] in N. inversion N as [|? ? N1 N2]; subst x0 l.
  cbn [assoc] in E. cbn [flat_map]. destruct (beqb m n) eqn:Eb.
  - apply beqb_eq in Eb. subst n. assert (x = o) by congruence. subst x.
    rewrite flat_map_nil; [apply app_nil_r|]. intros c Hc. apply H; [right; exact Hc|]. intros E1. apply N1. rewrite <- E1.
    apply in_map. exact Hc.
  - apply beqb_neq in Eb. rewrite (H (n, x)); [|left; reflexivity|cbn [fst]; congruence]. cbn [app]. apply IH; [exact N2|exact E|].
    intros c Hc. apply H. right. exact Hc.
Qed.

Lemma snoc_clean q n : Forall clean q -> clean n -> Forall clean (q ++ [n]).
Proof. intros H1 H2. apply Forall_app. split; [exact H1|]. constructor; [exact H2|constructor]. Qed.

Lemma lv_off h p : rh_name h = str p -> Forall clean p -> forall o q, proper o -> Forall clean q ->
  (forall r, p <> q ++ r) -> lvDescend h o (str q) = [].
Proof.
  intros Hh Hp o. induction o as [i cs IH] using robj_ind'. intros q HO Hq Hr.
  inversion HO as [? ? N1 N2 N3 N4]; subst. rewrite lv_eq, lv_go_there.
  - apply flat_map_nil. intros c Hc. rewrite Forall_forall in *. rewrite <- str_snoc. apply IH; [exact Hc|apply N3; exact Hc| |].
    + apply snoc_clean; [apply Forall_forall; exact Hq|apply N2; exact Hc].
    + intros r. rewrite <- app_assoc. apply Hr.
  - rewrite Hh. apply str_neq; [exact Hq|exact Hp|]. intros ->. apply (Hr []). rewrite app_nil_r. reflexivity.
Qed.
Lemma lv_on h p : rh_name h = str p -> Forall clean p -> forall r o q g, proper o -> Forall clean q ->
  p = q ++ r -> rfollow o r = Some g -> lvDescend h o (str q) = found h (map fst (r_children g)).
Proof.
  intros Hh Hp r. induction r as [|m r IH]; intros [i cs] q g HO Hq Er Ef;
    inversion HO as [? ? N1 N2 N3 N4]; subst i0 cs0; cbn [rfollow] in Ef; rewrite lv_eq.
  - destruct (ri_group i); [|discriminate]. injection Ef as <-. rewrite app_nil_r in Er. subst q. cbn [r_children].
    apply lv_go_here; [symmetry; exact Hh|]. eapply Forall_impl; [|exact N2]. intros c Hc. exact (proj1 Hc).
  - destruct (ri_group i); [|discriminate]. destruct (assoc m cs) as [o'|] eqn:Em; [|discriminate].
    pose proof (assoc_Some_In _ _ _ Em) as Hin. rewrite Forall_forall in N2, N3.
    rewrite lv_go_there.
    + rewrite (one_of _ m o' cs N1 Em).
      * cbn [fst snd]. rewrite <- str_snoc. apply IH; [exact (N3 _ Hin)|apply snoc_clean; [exact Hq|exact (N2 _ Hin)]| |exact Ef].
        rewrite <- app_assoc. exact Er.
      * intros c Hc Hne. rewrite <- str_snoc. apply (lv_off h p Hh Hp); [exact (N3 _ Hc)|apply snoc_clean; [exact Hq|exact (N2 _ Hc)]|].
        intros r' E. rewrite Er, <- app_assoc in E. apply app_inv_head in E. cbn [app] in E. injection E as E _. congruence.
    + rewrite Hh. apply str_neq; [exact Hq|exact Hp|]. rewrite Er. intros E. apply (f_equal (@List.length bytes)) in E.
      rewrite app_length in E. cbn [List.length] in E. lia.
Qed.

Lemma not_prefix p q : Forall clean p -> Forall clean q -> (forall r, q <> p ++ r) -> hasPrefix (str q) (str p) = false.
Proof.
  intros Hp Hq Hr. destruct (hasPrefix (str q) (str p)) eqn:E; [|reflexivity]. apply (str_prefix p q Hp Hq) in E.
  destruct E as (r & E). elim (Hr r E).
Qed.
Lemma sg_off p : Forall clean p -> forall o q, proper o -> Forall clean q ->
  (forall r, p <> q ++ r) -> (forall r, q <> p ++ r) -> sgList (str p) o (str q) = Ok [].
Proof.
  intros Hp o. induction o as [i cs IH] using robj_ind'. intros q HO Hq Hr Hr'.
  inversion HO as [? ? N1 N2 N3 N4]; subst. rewrite sg_eq. destruct (ri_group i); [|reflexivity]. cbn [negb].
  rewrite (not_prefix p q Hp Hq Hr'), andb_false_r. rewrite (sg_go_all _ _ _ (fun _ _ => [])).
  - f_equal. apply flat_map_nil. reflexivity.
  - intros n o Ho. rewrite Forall_forall in *. rewrite <- str_snoc. apply (IH (n, o) Ho); [exact (N3 _ Ho)| | |].
    + apply snoc_clean; [apply Forall_forall; exact Hq|exact (N2 _ Ho)].
    + intros r. rewrite <- app_assoc. apply Hr.
    + intros r E. destruct r as [|x r _] using rev_ind.
      * rewrite app_nil_r in E. apply (Hr [n]). symmetry. exact E.
      * rewrite app_assoc in E. apply app_inj_tail in E. destruct E as [E _]. apply (Hr' r). exact E.
Qed.
Definition sub_names (g : robj) : list bytes :=
  flat_map (fun c : bytes * robj => if ri_group (r_info (snd c)) then [fst c] else []) (r_children g).
Lemma sg_on p : Forall clean p -> forall r o q g, proper o -> Forall clean q ->
  p = q ++ r -> rfollow o r = Some g -> sgList (str p) o (str q) = Ok (sub_names g).
Proof.
  intros Hp r. induction r as [|m r IH]; intros [i cs] q g HO Hq Er Ef;
    inversion HO as [? ? N1 N2 N3 N4]; subst i0 cs0; cbn [rfollow] in Ef; rewrite sg_eq.
  - destruct (ri_group i); [|discriminate]. injection Ef as <-. rewrite app_nil_r in Er. subst q. cbn [negb].
    rewrite beqb_refl. cbn [negb andb]. rewrite Forall_forall in N2.
    rewrite (sg_go_all _ _ _ (fun o n => if ri_group (r_info o) then [n] else [])); [reflexivity|].
    intros n [i' cs'] Ho. cbn [r_info]. rewrite sg_eq. destruct (ri_group i'); [|reflexivity]. cbn [negb].
    rewrite <- str_snoc. pose proof (N2 _ Ho) as Hn. cbn [fst] in Hn. pose proof (snoc_clean _ _ Hp Hn) as Hpn.
    assert (E1 : beqb (str (p ++ [n])) (str p) = false).
    { apply beqb_neq. apply str_neq; [exact Hpn|exact Hp|]. intros E.
      apply (f_equal (@List.length bytes)) in E. rewrite app_length in E. cbn [List.length] in E. lia. }
    assert (E2 : hasPrefix (str (p ++ [n])) (str p) = true).
    { apply str_prefix; [exact Hp|exact Hpn|]. exists [n]. reflexivity. }
    match goal with |- (if ?b then _ else _) = _ => assert (E3 : b = true) by (rewrite ?str_snoc in E1, E2; rewrite ?str_snoc, E1, E2; reflexivity); rewrite E3 end.
    rewrite str_snoc. cbv zeta. rewrite zdrop_app_exact by reflexivity.
    rewrite zlen_app. change (zlen [slash]) with 1.
    replace (zlen n + 1 - 1) with (zlen n) by lia. rewrite ztake_app_exact by reflexivity.
    replace (existsb (Z.eqb slash) n) with false; [reflexivity|]. symmetry. apply Bool.not_true_iff_false. intros E.
    apply existsb_exists in E. destruct E as (x & X1 & X2). apply Z.eqb_eq in X2. subst x. exact (proj2 Hn X1).
  - destruct (ri_group i); [|discriminate]. destruct (assoc m cs) as [o'|] eqn:Em; [|discriminate]. cbn [negb].
    pose proof (assoc_Some_In _ _ _ Em) as Hin. rewrite Forall_forall in N2, N3.
    rewrite not_prefix; [|exact Hp|exact Hq|].
    + rewrite andb_false_r.
      rewrite (sg_go_all _ _ _ (fun _ n => if beqb n m then sub_names g else [])).
      * rewrite (one_of (fun x : bytes * robj => if beqb (fst x) m then sub_names g else []) m o' cs N1 Em).
        -- cbn [fst]. rewrite beqb_refl. reflexivity.
        -- intros c _ Hne. apply beqb_neq in Hne. rewrite Hne. reflexivity.
      * intros n o Ho. rewrite <- str_snoc. destruct (beqb n m) eqn:Eb.
        -- apply beqb_eq in Eb. subst n. rewrite (In_assoc _ _ _ N1 Ho) in Em. assert (o = o') by congruence. subst o.
           apply IH; [exact (N3 _ Ho)|apply snoc_clean; [exact Hq|exact (N2 _ Ho)]| |exact Ef]. rewrite <- app_assoc. exact Er.
        -- apply beqb_neq in Eb. apply (sg_off p Hp); [exact (N3 _ Ho)|apply snoc_clean; [exact Hq|exact (N2 _ Ho)]| |].
           ++ intros r' E. rewrite Er, <- app_assoc in E. apply app_inv_head in E. cbn [app] in E. injection E as E _. congruence.
           ++ intros r' E. rewrite Er in E. rewrite <- !app_assoc in E. apply app_inv_head in E. cbn [app] in E. injection E as E _. congruence.
    + intros r' E. rewrite Er in E. apply (f_equal (@List.length bytes)) in E. rewrite !app_length in E. cbn [List.length] in E. lia.
Qed.

(** ** Trees that are shown *)
Definition distinct (t : ftree) : Prop :=
  forall p kids, found_at t p (FGroup kids) -> NoDup (map fst (map fst kids)).

Lemma kids_in f other n kids : kids_are f other n kids -> forall name a t, In (name, a, t) kids -> object_is f other n a t.
Proof.
  induction kids as [|k kids IH]; intros H name a t Hi; [destruct Hi|]. inversion H; subst. destruct Hi as [E|Hi].
  - injection E as <- <- <-. assumption.
  - eapply IH; eassumption.
Qed.
Lemma objects_distinct f other n a t : object_is f other n a t -> distinct t.
Proof.
  intros HO p kids F. remember (FGroup kids) as u eqn:Eu. revert n a HO.
  induction F as [t|ks name a' t p u Hi F IH]; intros n a HO.
  - subst t. inversion HO; subst. assumption.
  - inversion HO; subst. eapply IH; [reflexivity|]. eapply kids_in; eassumption.
Qed.

Lemma shown_in f kids cs os : Permutation cs os -> Forall2 (kid_shown f) kids os -> forall name o, In (name, o) cs ->
  exists a t, In (name, a, t) kids /\ shows f t o /\ came f name a t o.
Proof.
  intros HP HF name o Hi. apply (Permutation_in _ HP) in Hi. clear HP cs.
  induction HF as [|[[n a] t] [n' o'] kids os [H1 H2] HF IH]; [destruct Hi|]. cbn [fst snd] in *. subst n'.
  destruct Hi as [E|Hi].
  - injection E as <- <-. exists a, t. split; [left; reflexivity|exact H2].
  - destruct (IH Hi) as (a1 & t1 & A & B). exists a1, t1. split; [right; exact A|exact B].
Qed.
Lemma in_shown f kids cs os : Permutation cs os -> Forall2 (kid_shown f) kids os -> forall name a t, In (name, a, t) kids ->
  exists o, In (name, o) cs /\ shows f t o /\ came f name a t o.
Proof.
  intros HP HF name a t Hi. assert (G : exists o, In (name, o) os /\ shows f t o /\ came f name a t o).
  { clear HP cs. induction HF as [|[[n a'] t'] [n' o'] kids os [H1 H2] HF IH]; [destruct Hi|]. cbn [fst snd] in *. subst n'.
    destruct Hi as [E|Hi].
    - injection E as -> -> ->. exists o'. split; [left; reflexivity|exact H2].
    - destruct (IH Hi) as (o & A & B). exists o. split; [right; exact A|exact B]. }
  destruct G as (o & A & B). exists o. split; [|exact B]. apply (Permutation_in _ (Permutation_sym HP)). exact A.
Qed.
Lemma shown_keys f kids cs os : Permutation cs os -> Forall2 (kid_shown f) kids os ->
  Permutation (map fst cs) (map fst (map fst kids)).
Proof.
  intros HP HF. apply (Permutation_trans (Permutation_map fst HP)). replace (map fst (map fst kids)) with (map fst os); [apply Permutation_refl|].
  clear HP. induction HF as [|k o kids os [H1 _] HF IH]; [reflexivity|]. cbn [map]. rewrite IH, H1. reflexivity.
Qed.
Lemma shows_proper f o : forall t, shows f t o -> distinct t -> plain_names t -> proper o.
Proof.
  induction o as [i cs IH] using robj_ind'. intros t HS HD HN. inversion HS as [kids i' cs' os G GD HP HF|dims i' G D|i' G D T]; subst.
  - constructor.
    + apply (Permutation_NoDup (Permutation_sym (shown_keys _ _ _ _ HP HF))). apply (HD []). constructor.
    + apply Forall_forall. intros [name o] Hi. destruct (shown_in _ _ _ _ HP HF _ _ Hi) as (a & t & Hk & _).
      exact (HN [] kids name a t (found_here _) Hk).
    + rewrite Forall_forall in *. intros [name o] Hi. destruct (shown_in _ _ _ _ HP HF _ _ Hi) as (a & t & Hk & Hs & _).
      apply (IH (name, o) Hi t Hs).
      * intros p ks F. apply (HD (name :: p)). econstructor; eassumption.
      * intros p ks n' a' u F. apply (HN (name :: p)). econstructor; eassumption.
    + congruence.
  - constructor; try constructor; reflexivity.
  - constructor; try constructor; reflexivity.
Qed.
Lemma follow_found f t p u : found_at t p u -> forall kids o, u = FGroup kids -> shows f t o -> distinct t ->
  exists g, rfollow o p = Some g /\ shows f u g.
Proof.
  induction 1 as [t|ks name a t p u Hi F IH]; intros kids [i cs] -> HS HD.
  - exists (RObj i cs). split; [|exact HS]. inversion HS; subst. cbn [rfollow].
    match goal with H : ri_group i = true |- _ => rewrite H end. reflexivity.
  - inversion HS as [ks' i' cs' os G GD HP HF| |]; subst. cbn [rfollow]. rewrite G.
    destruct (in_shown _ _ _ _ HP HF _ _ _ Hi) as (o & Ho & Hs & _).
    assert (N : NoDup (map fst cs)).
    { apply (Permutation_NoDup (Permutation_sym (shown_keys _ _ _ _ HP HF))). apply (HD []). constructor. }
    rewrite (In_assoc _ _ _ N Ho). apply (IH kids o eq_refl Hs).
    intros p' ks' F'. apply (HD (name :: p')). econstructor; eassumption.
Qed.
Lemma found_follow f p : forall t o g, rfollow o p = Some g -> shows f t o -> exists kids, found_at t p (FGroup kids).
Proof.
  induction p as [|n p IH]; intros t [i cs] g E HS; cbn [rfollow] in E; destruct (ri_group i) eqn:G; try discriminate.
  - inversion HS; subst; try congruence. exists kids. constructor.
  - destruct (assoc n cs) as [o|] eqn:Ea; [|discriminate]. inversion HS as [ks' i' cs' os G' GD HP HF| |]; subst; [|discriminate|discriminate].
    apply assoc_Some_In in Ea. destruct (shown_in _ _ _ _ HP HF _ _ Ea) as (a & t & Hk & Hs & _).
    destruct (IH t o g E Hs) as (ks & F). exists ks. econstructor; eassumption.
Qed.

(** What the calls give for a group *)
Record group_told (root : robj) (h : rhandle) (kids : list kid) : Prop := {
  gt_groups : exists subs, listSubgroups root h = Ok subs /\
    Permutation subs (map k_name (filter (fun k => is_fgroup (k_tree k)) kids));
  gt_vars : NoDup (listVariables root h) /\
    forall v, In v (listVariables root h) -> exists a dims, In (v, a, FData dims) kids;
  gt_data : forall v a dims, In (v, a, FData dims) kids -> In v (listVariables root h) \/ In v (listDimensions h);
  gt_types : forall v, In v (listTypes h) -> exists a, In (v, a, FType) kids;
  gt_type : forall v a, In (v, a, FType) kids -> In v (listTypes h) \/ In v (listDimensions h);
  gt_dims : NoDup (listDimensions h) /\ (forall v, In v (listDimensions h) ->
    exists a t, In (v, a, t) kids /\ is_fgroup t = false) /\
    forall v a d ds, In v (listDimensions h) -> In (v, a, FData (d :: ds)) kids -> getDimension h v = Ok (Some d)
}.

Lemma scale_dimension o : isDimensionScale (r_attrs o) = true -> ri_group (r_info o) = false -> isDimension o = true.
Proof.
  unfold isDimensionScale, isDimension. intros H G. rewrite G. destruct (hasClass _), (hasCoordinates _), (hasName _); reflexivity || discriminate.
Qed.
Lemma flat_map_sub {A} (g : A -> list bytes) (name : A -> bytes) l : (forall x, g x = [name x] \/ g x = []) ->
  NoDup (map name l) -> NoDup (flat_map g l).
Proof.
  intros Hg. induction l as [|x l IH]; intros N; [constructor|]. cbn [map] in N. inversion N as [|? ? N1 N2]; subst.
  cbn [flat_map]. destruct (Hg x) as [->| ->]; [|apply IH; exact N2]. cbn [app]. constructor; [|apply IH; exact N2].
  intros Hi. apply N1. apply in_flat_map in Hi. destruct Hi as (y & Hy & Hi). destruct (Hg y) as [E|E]; rewrite E in Hi.
  - destruct Hi as [<-|[]]. apply in_map. exact Hy.
  - destruct Hi.
Qed.

Lemma tree_told f t root path kids h : shows f t root -> distinct t -> plain_names t ->
  found_at t path (FGroup kids) -> Forall clean path -> rh_name h = str path ->
  rfollow root path = Some (rh_obj h) -> shows f (FGroup kids) (rh_obj h) -> group_told root h kids.
Proof.
  intros HS HD HN HF Hc Hh Hr HG. pose proof (shows_proper _ _ _ HS HD HN) as HP.
  destruct h as [hn [i cs]]. cbn [rh_name rh_obj] in *. subst hn.
  inversion HG as [ks' i' cs' os G GD Hp Hf| |]; subst.
  assert (N : NoDup (map fst cs)).
  { apply (Permutation_NoDup (Permutation_sym (shown_keys _ _ _ _ Hp Hf))). apply (HD _ _ HF). }
  set (h := mkRh (str path) (RObj i cs)) in *.
  assert (LV : listVariables root h = found h (map fst cs)).
  { apply (lv_on h path eq_refl Hc path root [] (RObj i cs) HP (Forall_nil _) eq_refl Hr). }
  assert (FV : forall n o, In (n, o) cs -> In n (found h (map fst cs)) <->
             isDimensionScale (r_attrs o) = false /\ ri_dims (r_info o) <> None).
  { intros n o Ho. unfold found. rewrite in_flat_map. unfold findVariable. cbn [h rh_obj r_children].
    pose proof (In_assoc _ _ _ N Ho) as Ea. split.
    - intros (n' & _ & Hi). destruct (assoc n' cs) as [o'|] eqn:Ea'; [|destruct Hi].
      destruct (isDimensionScale (r_attrs o')) eqn:E1; [destruct Hi|]. destruct (ri_dims (r_info o')) eqn:E2; [|destruct Hi].
      destruct Hi as [<-|[]]. rewrite Ea in Ea'. injection Ea' as <-. rewrite E1, E2. split; [reflexivity|discriminate].
    - intros [E1 E2]. exists n. split; [apply (in_map fst _ _ Ho)|]. rewrite Ea, E1.
      destruct (ri_dims (r_info o)); [left; reflexivity|congruence]. }
  assert (FN : forall n, In n (found h (map fst cs)) -> In n (map fst cs)).
  { intros n Hi. unfold found in Hi. apply in_flat_map in Hi. destruct Hi as (n' & Hn & Hi).
    destruct (findVariable h n'); [|destruct Hi]. destruct Hi as [<-|[]]. exact Hn. }
  assert (LD : forall n, In n (listDimensions h) <-> exists o, In (n, o) cs /\ isDimension o = true).
  { intros n. unfold listDimensions. cbn [h rh_obj r_children]. rewrite in_flat_map. split.
    - intros ([n' o] & Ho & Hi). cbn [fst snd] in Hi. destruct (isDimension o) eqn:E; [|destruct Hi].
      destruct Hi as [<-|[]]. exists o. split; assumption.
    - intros (o & Ho & E). exists (n, o). split; [exact Ho|]. cbn [fst snd]. rewrite E. left. reflexivity. }
  constructor.
  - exists (sub_names (RObj i cs)). split.
    + apply (sg_on path Hc path root [] (RObj i cs) HP (Forall_nil _) eq_refl Hr).
    + unfold sub_names. cbn [r_children].
      apply (Permutation_trans (Permutation_flat_map _ Hp)).
      clear - Hf. induction Hf as [|[[n a] t] [n' o] kids os (H1 & H2 & _) Hf IH]; [reflexivity|].
      cbn [fst snd] in *. subst n'. cbn [flat_map filter k_tree fst snd].
      inversion H2 as [ks i c o' G|d i G|i G]; subst; cbn [r_info is_fgroup]; rewrite G; cbn [app map k_name fst]; [|exact IH|exact IH].
      apply perm_skip. exact IH.
  - rewrite LV. split.
    + unfold found. apply (flat_map_sub _ (fun n => n)); [|rewrite map_id; exact N]. intros n.
      destruct (findVariable h n); [left|right]; reflexivity.
    + intros v Hv. pose proof (FN v Hv) as Hn. apply in_map_iff in Hn. destruct Hn as ([v' o] & E & Ho). cbn [fst] in E. subst v'.
      apply (FV v o Ho) in Hv. destruct (shown_in _ _ _ _ Hp Hf _ _ Ho) as (a & t' & Hk & Hs & _). destruct Hv as [_ Hv].
      inversion Hs as [ks i' c o' G' D|d i' G' D|i' G' D]; subst; cbn [r_info] in Hv; [congruence| |congruence].
      exists a, d. exact Hk.
  - intros v a dims Hk. rewrite LV. destruct (in_shown _ _ _ _ Hp Hf _ _ _ Hk) as (o & Ho & Hs & _).
    inversion Hs as [|d i' G' D|]; subst.
    destruct (isDimensionScale (r_attrs (RObj i' []))) eqn:E.
    + right. apply LD. exists (RObj i' []). split; [exact Ho|]. apply scale_dimension; [exact E|exact G'].
    + left. apply (FV v _ Ho). split; [exact E|]. cbn [r_info]. rewrite D. discriminate.
  - intros v Hv. unfold listTypes in Hv. cbn [h rh_obj r_children] in Hv. apply in_flat_map in Hv. destruct Hv as ([n o] & Ho & Hi).
    cbn [fst snd] in Hi. destruct (shown_in _ _ _ _ Hp Hf _ _ Ho) as (a & t' & Hk & Hs & _).
    inversion Hs as [ks i' c o' G' D|d i' G' D|i' G' D]; subst; cbn [r_info] in Hi; rewrite G', D in Hi; cbn [orb] in Hi.
    + destruct Hi.
    + destruct (isDimensionScale _); destruct Hi.
    + destruct (isDimensionScale _); [destruct Hi|]. destruct Hi as [<-|[]]. exists a. exact Hk.
  - intros v a Hk. destruct (in_shown _ _ _ _ Hp Hf _ _ _ Hk) as (o & Ho & Hs & _). inversion Hs as [| |i' G' D]; subst.
    destruct (isDimensionScale (r_attrs (RObj i' []))) eqn:E.
    + right. apply LD. exists (RObj i' []). split; [exact Ho|]. apply scale_dimension; [exact E|exact G'].
    + left. unfold listTypes. cbn [h rh_obj r_children]. apply in_flat_map. exists (v, RObj i' []). split; [exact Ho|].
      cbn [fst snd]. rewrite E. cbn [r_info]. rewrite G', D. left. reflexivity.
  - split; [|split].
    + unfold listDimensions. cbn [h rh_obj r_children]. apply (flat_map_sub _ fst); [|exact N]. intros c.
      destruct (isDimension (snd c)); [left|right]; reflexivity.
    + intros v Hv. apply LD in Hv. destruct Hv as (o & Ho & E). destruct (shown_in _ _ _ _ Hp Hf _ _ Ho) as (a & t' & Hk & Hs & _).
      exists a, t'. split; [exact Hk|]. unfold isDimension in E. inversion Hs as [ks i' c o' G'| |]; subst; [|reflexivity|reflexivity].
      cbn [r_info] in E. rewrite G' in E. discriminate.
    + intros v a d ds Hv Hk. destruct (in_shown _ _ _ _ Hp Hf _ _ _ Hk) as (o & Ho & Hs & _). inversion Hs as [|d' i' G' D|]; subst.
      apply LD in Hv. destruct Hv as (o & Ho' & E). unfold getDimension. cbn [h rh_obj r_children].
      rewrite (In_assoc _ _ _ N Ho).
      pose proof (In_assoc _ _ _ N Ho) as E1. rewrite (In_assoc _ _ _ N Ho') in E1. injection E1 as ->.
      rewrite E. cbn [r_info]. rewrite D. reflexivity.
Qed.
