(** The calls on a group, for the tree of objects that is read from a file the writer wrote. *)
From Verif Require Import Prelude GoVal OrderedMapModel ArraySpec H5Base H5MetaRead H5Value H5TypeRead H5FileWrite H5PathModel
  H5RecordModel H5FileRead PathSpec WriterSpec BaseLemmas H5PathProofs H5AttrProofs H5ObjectProofs H5TreeProofs
  H5SizeProofs H5PrepareProofs OrderedMapProofs H5ApiPath.
From Coq Require Import Lia ZifyBool ZifyNat Permutation.

(** ** What the lists need of every node *)
Definition api_node (g : wtree) : Prop :=
  NoDup (map fst (w_vars g) ++ map fst (w_groups g)) /\ Forall (fun v : bytes * hvar => fst v <> []) (w_vars g) /\
  Forall (fun x => clean (fst x)) (w_groups g).

Lemma walk_tall (P : path -> wtree -> Prop) q : forall t p g, tall P p t -> walk t q = Some g -> tall P (p ++ q) g.
Proof.
  induction q as [|n q IH]; intros t p g H E; cbn [walk] in E.
  - assert (t = g) by congruence. subst g. rewrite app_nil_r. exact H.
  - destruct t as [a vs gs]. cbn [w_groups] in E. destruct (assoc n gs) as [t'|] eqn:Ea; [|discriminate].
    rewrite tall_eq, talls_iff in H. destruct H as [_ H]. apply assoc_Some_In in Ea. specialize (H _ Ea). cbn [fst snd] in H.
    specialize (IH _ _ _ H E). rewrite <- app_assoc in IH. exact IH.
Qed.
Lemma walk_app q : forall t r, walk t (q ++ r) = match walk t q with Some g => walk g r | None => None end.
Proof.
  induction q as [|n q IH]; intros t r; [reflexivity|]. cbn [app walk]. destruct (assoc n (w_groups t)); [apply IH|reflexivity].
Qed.
Lemma walk_clean q : forall t p g, tall (fun _ => api_node) p t -> walk t q = Some g -> Forall clean q.
Proof.
  induction q as [|n q IH]; intros t p g H E; cbn [walk] in E; [constructor|].
  destruct t as [a vs gs]. cbn [w_groups] in E. destruct (assoc n gs) as [t'|] eqn:Ea; [|discriminate].
  rewrite tall_eq, talls_iff in H. destruct H as [(_ & _ & C) H]. apply assoc_Some_In in Ea. cbn [w_groups] in C.
  rewrite Forall_forall in C. constructor; [exact (C _ Ea)|]. exact (IH _ _ _ (H _ Ea) E).
Qed.

Lemma app_NoDup_l {A} (l m : list A) : NoDup (l ++ m) -> NoDup l /\ NoDup m /\ (forall x, In x l -> ~ In x m).
Proof.
  induction l as [|x l IH]; cbn [app]; intros H.
  - split; [constructor|]. split; [exact H|]. intros x [].
  - inversion H as [|? ? H1 H2]; subst x0 l0. destruct (IH H2) as (A1 & A2 & A3). split.
    + constructor; [|exact A1]. intros Hi. apply H1, in_or_app. left. exact Hi.
    + split; [exact A2|]. intros y [<-|Hy]; [|apply A3; exact Hy]. intros Hi. apply H1, in_or_app. right. exact Hi.
Qed.

Section Api.
Variables (f : bytes) (c : wctx).
Notation gobj := (group_obj f c).
Notation vobj := (var_obj f c).

(** ** Children *)
Lemma vars_children (vs : list (bytes * hvar)) (vos : list (bytes * robj)) : Forall2 (fun nv no => fst no = fst nv /\ vobj nv (snd no)) vs vos ->
  map fst vos = map fst vs /\
  forall n, match assoc n vs with
            | Some v => exists o, assoc n vos = Some o /\ vobj (n, v) o
            | None => assoc n vos = None
            end.
Proof.
  induction 1 as [|[n v] [n' o] vs vos [E H] _ [IH1 IH2]]; [split; [reflexivity|intros; reflexivity]|].
  cbn [fst snd] in *. subst n'. split; [cbn [map fst]; f_equal; exact IH1|]. intros m. cbn [assoc].
  destruct (beqb m n) eqn:Eb; [|apply IH2]. apply beqb_eq in Eb. subst m. exists o. auto.
Qed.
Lemma groups_children gs : forall gos, group_objs f c gs gos ->
  map fst gos = map fst gs /\
  forall n, match assoc n gs with
            | Some g => exists o, assoc n gos = Some o /\ gobj g o
            | None => assoc n gos = None
            end.
Proof.
  induction gs as [|[n g] gs IH]; intros [|[n' o] gos] H; try contradiction.
  - split; [reflexivity|intros; reflexivity].
  - destruct H as (-> & H1 & H2). destruct (IH _ H2) as [I1 I2]. cbn [map fst]. split; [f_equal; exact I1|].
    intros m. cbn [assoc]. destruct (beqb m n); [exists o; auto|apply I2].
Qed.
Lemma children t o : gobj t o ->
  ri_group (r_info o) = true /\ ri_dims (r_info o) = None /\
  Forall2 (attr_gives f) (attr_list (w_attrs t)) (r_attrs o) /\
  map fst (r_children o) = map fst (w_vars t) ++ map fst (w_groups t) /\
  forall n, match assoc n (w_vars t) with
            | Some v => exists o', assoc n (r_children o) = Some o' /\ vobj (n, v) o'
            | None => match assoc n (w_groups t) with
                      | Some g => exists o', assoc n (r_children o) = Some o' /\ gobj g o'
                      | None => assoc n (r_children o) = None
                      end
            end.
Proof.
  destruct t as [a vs gs]. intros (name & addr & al & vos & gos & -> & Ha & Hv & Hg). fold (group_objs f c) in Hg.
  cbn [r_info r_children w_attrs w_vars w_groups ri_group group_info ri_dims]. unfold r_attrs. cbn [r_info ri_attrs group_info].
  split; [reflexivity|]. split; [reflexivity|]. split; [exact Ha|].
  assert (Hg' : group_objs f c gs gos).
  { clear - Hg. revert gos Hg. induction gs as [|[n g] gs IH]; intros [|[n' o'] gos] H; try contradiction; [exact I|].
    destruct H as (A & B & C). split; [exact A|]. split; [exact B|]. apply IH. exact C. }
  destruct (vars_children _ _ Hv) as [V1 V2]. destruct (groups_children _ _ Hg') as [G1 G2].
  split; [rewrite map_app, V1, G1; reflexivity|]. intros n. rewrite assoc_app. specialize (V2 n). specialize (G2 n).
  destruct (assoc n vs) as [v|].
  - destruct V2 as (o' & -> & V). exists o'. auto.
  - rewrite V2. exact G2.
Qed.
Lemma var_leaf nv o : vobj nv o -> r_children o = [] /\ ri_group (r_info o) = false.
Proof. intros (addr & dims & d & dn & size & al & dal & -> & _). split; reflexivity. Qed.

(** ** GetGroup *)
Lemma follow_walk p : forall t o q, gobj t o -> tall (fun _ => api_node) q t ->
  match walk t p with
  | Some g => exists o', rfollow o p = Some o' /\ gobj g o'
  | None => rfollow o p = None
  end.
Proof.
  induction p as [|n p IH]; intros t o q H N.
  - cbn [walk]. destruct (children t o H) as (A & _). destruct o as [i cs]. cbn [rfollow r_info] in *. rewrite A. eauto.
  - cbn [walk]. destruct (children t o H) as (A & _ & _ & _ & B). specialize (B n). destruct o as [i cs].
    cbn [rfollow r_info r_children] in *. rewrite A. destruct t as [a vs gs]. cbn [w_vars w_groups] in *.
    rewrite tall_eq, talls_iff in N. destruct N as [(N1 & _) N2]. cbn [w_vars w_groups] in N1.
    destruct (assoc n vs) as [v|] eqn:Ev.
    + assert (E : assoc n gs = None).
      { apply assoc_None. destruct (app_NoDup_l _ _ N1) as (_ & _ & X). apply X. apply assoc_Some_In in Ev.
        apply in_map_iff. exists (n, v). auto. }
      rewrite E. destruct B as (o' & -> & V). destruct (var_leaf _ _ V) as [_ L]. destruct o' as [i' cs']. cbn [r_info] in L.
      destruct p; cbn [rfollow]; rewrite L; reflexivity.
    + destruct (assoc n gs) as [g|] eqn:Eg; [|rewrite B; reflexivity].
      destruct B as (o' & -> & V). apply assoc_Some_In in Eg. apply (IH g o' _ V (N2 _ Eg)).
Qed.

(** ** ListVariables *)
Definition found (h : rhandle) (ns : list bytes) : list bytes :=
  flat_map (fun n => match findVariable h n with Some _ => [n] | None => [] end) ns.
Lemma lv_leaf h o g : r_children o = [] -> lvDescend h o g = [].
Proof. destruct o as [i cs]. cbn [r_children]. intros ->. reflexivity. Qed.
Definition lv_go (h : rhandle) (group : bytes) := fix go (cs : list (bytes * robj)) : list bytes :=
  match cs with
  | [] => []
  | (n, c) :: r =>
      (if beqb group (rh_name h) && negb (beqb n [])
       then match findVariable h n with Some _ => [n] | None => [] end
       else lvDescend h c (group ++ n ++ [slash])) ++ go r
  end.
Lemma lv_eq h i cs group : lvDescend h (RObj i cs) group = lv_go h group cs.
Proof. reflexivity. Qed.
Lemma lv_go_app h group a b : lv_go h group (a ++ b) = lv_go h group a ++ lv_go h group b.
Proof.
  induction a as [|[n o] a IH]; [reflexivity|]. cbn [app lv_go]. rewrite <- app_assoc. f_equal. exact IH.
Qed.
Lemma lv_go_here h group cs : group = rh_name h -> Forall (fun x : bytes * robj => fst x <> []) cs ->
  lv_go h group cs = found h (map fst cs).
Proof.
  intros -> H. induction H as [|[n o] cs H1 _ IH]; [reflexivity|]. cbn [lv_go map fst found flat_map] in *.
  rewrite beqb_refl. replace (beqb n []) with false by (symmetry; apply beqb_neq; exact H1). cbn [negb andb]. f_equal. exact IH.
Qed.
Lemma lv_go_there h group cs : group <> rh_name h ->
  lv_go h group cs = flat_map (fun x : bytes * robj => lvDescend h (snd x) (group ++ fst x ++ [slash])) cs.
Proof.
  intros H. apply beqb_neq in H. induction cs as [|[n o] cs IH]; [reflexivity|]. cbn [lv_go flat_map fst snd].
  rewrite H. cbn [andb]. f_equal. exact IH.
Qed.

Lemma flat_map_nil {A B} (g : A -> list B) l : (forall x, In x l -> g x = []) -> flat_map g l = [].
Proof.
  induction l as [|x l IH]; intros H; [reflexivity|]. cbn [flat_map]. rewrite (H x) by (left; reflexivity).
  rewrite IH; [reflexivity|]. intros y Hy. apply H. right. exact Hy.
Qed.
Lemma str_neq p q : Forall clean p -> Forall clean q -> p <> q -> str p <> str q.
Proof. intros A B H E. apply H. apply (proj1 (str_eqb p q A B)). rewrite E. apply beqb_refl. Qed.

(** One of several groups *)
Lemma flat_map_one {X} (g : robj -> bytes -> list X) gs : forall gos m t, group_objs f c gs gos -> NoDup (map fst gs) ->
  assoc m gs = Some t -> exists o, In (m, o) gos /\ gobj t o /\
  ((forall n t' o', In (n, t') gs -> In (n, o') gos -> gobj t' o' -> n <> m -> g o' n = []) ->
   flat_map (fun x : bytes * robj => g (snd x) (fst x)) gos = g o m).
Proof.
  induction gs as [|[n t'] gs IH]; intros [|[n' o'] gos] m t H N E; try contradiction; [discriminate|].
  destruct H as (-> & H1 & H2). cbn [map fst] in N. inversion N as [|? ? N1 N2]; subst x l. cbn [assoc] in E.
  destruct (beqb m n) eqn:Eb.
  - apply beqb_eq in Eb. subst n. assert (t' = t) by congruence. subst t'. exists o'. split; [left; reflexivity|]. split; [exact H1|].
    intros H. cbn [flat_map snd fst]. rewrite flat_map_nil; [apply app_nil_r|]. intros [k ok] Hk. cbn [snd fst].
    destruct (groups_children _ _ H2) as [G1 G2].
    assert (Hn : In k (map fst gs)) by (rewrite <- G1; apply in_map_iff; exists (k, ok); auto).
    assert (Hne : k <> m) by (intros ->; contradiction).
    assert (N' : NoDup (map fst gos)) by (rewrite G1; exact N2). specialize (G2 k).
    destruct (assoc k gs) as [tk|] eqn:Ek; [|apply assoc_None in Ek; contradiction].
    destruct G2 as (ok' & A & B). rewrite (In_assoc _ _ _ N' Hk) in A. assert (ok = ok') by congruence. subst ok'.
    apply assoc_Some_In in Ek. apply (H k tk ok); [right; exact Ek|right; exact Hk|exact B|exact Hne].
  - apply beqb_neq in Eb. destruct (IH gos m t H2 N2 E) as (o & A & B & C). exists o. split; [right; exact A|]. split; [exact B|].
    intros H. cbn [flat_map snd fst]. rewrite (H n t' o'); [|left; reflexivity|left; reflexivity|exact H1|intros ->; contradiction].
    cbn [app]. apply C. intros k tk ok K1 K2. apply H; right; assumption.
Qed.
Lemma gobj_parts a vs gs o : gobj (WNode a vs gs) o -> exists i vos gos, o = RObj i (vos ++ gos) /\ ri_group i = true /\
  Forall2 (fun nv no => fst no = fst nv /\ vobj nv (snd no)) vs vos /\ group_objs f c gs gos.
Proof.
  intros H. apply group_obj_eq in H. destruct H as (name & addr & al & vos & gos & -> & _ & Hv & Hg).
  exists (group_info name addr al), vos, gos. auto.
Qed.
Lemma vos_leaf (vs : list (bytes * hvar)) (vos : list (bytes * robj)) x : Forall2 (fun nv no => fst no = fst nv /\ vobj nv (snd no)) vs vos -> In x vos ->
  r_children (snd x) = [] /\ ri_group (r_info (snd x)) = false.
Proof.
  induction 1 as [|nv no vs vos [_ H] _ IH]; intros Hi; [contradiction|]. destruct Hi as [<-|Hi]; [|apply IH; exact Hi].
  apply (var_leaf nv). exact H.
Qed.
Lemma gos_in gs : forall gos x, group_objs f c gs gos -> In x gos -> exists t, In (fst x, t) gs /\ gobj t (snd x).
Proof.
  induction gs as [|[n t] gs IH]; intros [|[n' o] gos] x H Hi; try contradiction.
  destruct H as (-> & H1 & H2). destruct Hi as [<-|Hi]; [exists t; split; [left; reflexivity|exact H1]|].
  destruct (IH _ _ H2 Hi) as (t' & A & B). exists t'. split; [right; exact A|exact B].
Qed.

Lemma lv_group h p : rh_name h = str p -> Forall clean p -> forall t q o, gobj t o -> tall (fun _ => api_node) q t ->
  Forall clean q ->
  ((forall r, p <> q ++ r) -> lvDescend h o (str q) = []) /\
  (forall r g, p = q ++ r -> walk t r = Some g ->
     lvDescend h o (str q) = found h (map fst (w_vars g) ++ map fst (w_groups g))).
Proof.
  intros Hh Hp t. induction t as [a vs gs IH] using wtree_ind'. intros q o H N Hq.
  destruct (gobj_parts _ _ _ _ H) as (i & vos & gos & -> & _ & Hv & Hg).
  rewrite tall_eq, talls_iff in N. destruct N as [(N1 & N2 & N3) N4]. cbn [w_vars w_groups] in N1, N2, N3.
  rewrite lv_eq. destruct (vars_children _ _ Hv) as [V1 _]. destruct (groups_children _ _ Hg) as [G1 _].
  rewrite Forall_forall in IH, N3.
  assert (Hcl : forall n t', In (n, t') gs -> Forall clean (q ++ [n])).
  { intros n t' Hi. apply Forall_app. split; [exact Hq|]. constructor; [exact (N3 _ Hi)|constructor]. }
  assert (Hvos : str q <> rh_name h -> lv_go h (str q) vos = []).
  { intros Hne. rewrite lv_go_there by exact Hne. apply flat_map_nil. intros x Hx. apply lv_leaf.
    exact (proj1 (vos_leaf _ _ _ Hv Hx)). }
  split.
  - intros Hr. assert (Hne : str q <> rh_name h).
    { rewrite Hh. apply str_neq; [exact Hq|exact Hp|]. intros ->. apply (Hr []). rewrite app_nil_r. reflexivity. }
    rewrite lv_go_app, (Hvos Hne). cbn [app]. rewrite lv_go_there by exact Hne. apply flat_map_nil. intros x Hx.
    destruct (gos_in _ _ _ Hg Hx) as (t' & T1 & T2). rewrite <- str_snoc.
    apply (IH _ T1); [exact T2|exact (N4 _ T1)|exact (Hcl _ _ T1)|]. intros r. rewrite <- app_assoc. apply Hr.
  - intros r g Er Ew. destruct r as [|m r].
    + rewrite app_nil_r in Er. cbn [walk] in Ew. assert (g = WNode a vs gs) by congruence. subst g p. cbn [w_vars w_groups].
      rewrite lv_go_here; [f_equal; etransitivity; [apply map_app|]; f_equal; [exact V1|exact G1]|symmetry; exact Hh|].
      apply Forall_app. split.
      * apply Forall_forall. intros x Hx. assert (Hi : In (fst x) (map fst vs)) by (pose proof (in_map fst _ _ Hx) as Hm; rewrite V1 in Hm; exact Hm).
        apply in_map_iff in Hi. destruct Hi as (y & Ey & Hy). rewrite Forall_forall in N2. pose proof (N2 _ Hy) as Hy'. rewrite Ey in Hy'. exact Hy'.
      * apply Forall_forall. intros x Hx. destruct (gos_in _ _ _ Hg Hx) as (t' & T1 & _). exact (proj1 (N3 _ T1)).
    + assert (Hne : str q <> rh_name h).
      { rewrite Hh. apply str_neq; [exact Hq|exact Hp|]. rewrite Er. intros E. apply (f_equal (@List.length bytes)) in E.
        rewrite app_length in E. cbn [List.length] in E. lia. }
      cbn [walk w_groups] in Ew. destruct (assoc m gs) as [t'|] eqn:Em; [|discriminate].
      rewrite lv_go_app, (Hvos Hne). cbn [app]. rewrite lv_go_there by exact Hne.
      destruct (app_NoDup_l _ _ N1) as (_ & N1' & _).
      destruct (flat_map_one (fun o n => lvDescend h o (str q ++ n ++ [slash])) gs gos m t' Hg N1' Em) as (o' & O1 & O2 & O3).
      apply assoc_Some_In in Em. rewrite O3.
      * rewrite <- str_snoc. apply (proj2 (IH _ Em _ _ O2 (N4 _ Em) (Hcl _ _ Em)) r g); [|exact Ew]. cbn [fst]. rewrite <- app_assoc. exact Er.
      * intros n t'' o'' T1 T2 T3 Hnm. rewrite <- str_snoc. apply (IH _ T1 _ _ T3 (N4 _ T1) (Hcl _ _ T1)).
        intros r' E. rewrite Er, <- app_assoc in E. apply app_inv_head in E. cbn [app] in E. injection E as E _; congruence.
Qed.

(** ** ListSubgroups *)
Definition sg_go (gn group : bytes) := fix go (cs : list (bytes * robj)) : res (list bytes) :=
  match cs with
  | [] => Ok []
  | (n, c) :: r =>
      let* a := sgList gn c (group ++ n ++ [slash]) in
      let* b := go r in
      Ok (a ++ b)
  end.
Lemma sg_eq gn i cs group : sgList gn (RObj i cs) group =
  if negb (ri_group i) then Ok []
  else if negb (beqb group gn) && hasPrefix group gn then
    let tail := zdrop (zlen gn) group in
    let tail := ztake (zlen tail - 1) tail in
    if existsb (Z.eqb slash) tail then Panic else Ok [tail]
  else sg_go gn group cs.
Proof. reflexivity. Qed.
Lemma sg_go_all gn group cs (k : robj -> bytes -> list bytes) :
  (forall n o, In (n, o) cs -> sgList gn o (group ++ n ++ [slash]) = Ok (k o n)) ->
  sg_go gn group cs = Ok (flat_map (fun x : bytes * robj => k (snd x) (fst x)) cs).
Proof.
  induction cs as [|[n o] cs IH]; intros H; [reflexivity|]. cbn [sg_go flat_map fst snd].
  rewrite (H n o) by (left; reflexivity). cbn [rbind]. rewrite IH; [reflexivity|]. intros n' o' Hi. apply H. right. exact Hi.
Qed.
Lemma sg_leaf gn o group : ri_group (r_info o) = false -> sgList gn o group = Ok [].
Proof. destruct o as [i cs]. cbn [r_info]. intros E. rewrite sg_eq, E. reflexivity. Qed.
Lemma flat_map_names (gos : list (bytes * robj)) : flat_map (fun x : bytes * robj => [fst x]) gos = map fst gos.
Proof. induction gos as [|x gos IH]; [reflexivity|]. cbn [flat_map map app]. rewrite IH. reflexivity. Qed.

Lemma sg_group p : Forall clean p -> forall t q o, gobj t o -> tall (fun _ => api_node) q t -> Forall clean q ->
  ((forall r, p <> q ++ r) -> (forall r, q <> p ++ r) -> sgList (str p) o (str q) = Ok []) /\
  (forall r g, p = q ++ r -> walk t r = Some g -> sgList (str p) o (str q) = Ok (map fst (w_groups g))).
Proof.
  intros Hp t. induction t as [a vs gs IH] using wtree_ind'. intros q o H N Hq.
  destruct (gobj_parts _ _ _ _ H) as (i & vos & gos & -> & Hi & Hv & Hg).
  rewrite tall_eq, talls_iff in N. destruct N as [(N1 & _ & N3) N4]. cbn [w_vars w_groups] in N1, N3.
  rewrite sg_eq, Hi. cbn [negb]. destruct (groups_children _ _ Hg) as [G1 _].
  rewrite Forall_forall in IH, N3.
  assert (Hcl : forall n t', In (n, t') gs -> Forall clean (q ++ [n])).
  { intros n t' Hn. apply Forall_app. split; [exact Hq|]. constructor; [exact (N3 _ Hn)|constructor]. }
  assert (Hgo : forall k, (forall n o', In (n, o') gos -> sgList (str p) o' (str q ++ n ++ [slash]) = Ok (k o' n)) ->
    sg_go (str p) (str q) (vos ++ gos) = Ok (flat_map (fun x : bytes * robj => k (snd x) (fst x)) gos)).
  { intros k Hk. assert (E : sg_go (str p) (str q) gos = Ok (flat_map (fun x : bytes * robj => k (snd x) (fst x)) gos)) by (apply sg_go_all; exact Hk).
    assert (L : forall x, In x vos -> ri_group (r_info (snd x)) = false) by (intros x Hx; exact (proj2 (vos_leaf _ _ _ Hv Hx))).
    clear - E L. induction vos as [|[n o] vos IH]; [exact E|]. cbn [app sg_go].
    rewrite (sg_leaf _ _ _ (L (n, o) (or_introl eq_refl))). cbn [rbind]. rewrite IH; [reflexivity|]. intros x Hx. apply L. right. exact Hx. }
  assert (Hpre : (forall r, q <> p ++ r) -> hasPrefix (str q) (str p) = false).
  { intros Hr. destruct (hasPrefix (str q) (str p)) eqn:E; [|reflexivity]. apply (str_prefix p q Hp Hq) in E.
    destruct E as (r & E). elim (Hr r E). }
  split.
  - intros Hr Hr'. rewrite (Hpre Hr'), andb_false_r. rewrite (Hgo (fun _ _ => [])).
    + f_equal. apply flat_map_nil. reflexivity.
    + intros n o' Ho. destruct (gos_in _ _ _ Hg Ho) as (t' & T1 & T2). cbn [fst snd] in *. rewrite <- str_snoc.
      apply (IH _ T1 _ _ T2 (N4 _ T1) (Hcl _ _ T1)).
      * intros r. rewrite <- app_assoc. apply Hr.
      * intros r E. destruct (exists_last (l := n :: r) ltac:(discriminate)) as (r1 & z & _). clear r1 z.
        destruct r as [|x r _] using rev_ind.
        -- rewrite app_nil_r in E. apply (Hr [n]). symmetry. exact E.
        -- rewrite app_assoc in E. apply app_inj_tail in E. destruct E as [E _]. apply (Hr' r). exact E.
  - intros r g Er Ew. destruct r as [|m r].
    + rewrite app_nil_r in Er. cbn [walk] in Ew. assert (g = WNode a vs gs) by congruence. subst g p. cbn [w_groups].
      rewrite beqb_refl. cbn [negb andb]. rewrite (Hgo (fun _ n => [n])).
      * f_equal. rewrite flat_map_names, G1. reflexivity.
      * intros n o' Ho. destruct (gos_in _ _ _ Hg Ho) as (t' & T1 & T2). cbn [fst snd] in *. rewrite <- str_snoc.
        destruct t' as [a' vs' gs']. destruct (gobj_parts _ _ _ _ T2) as (i' & vos' & gos' & -> & Hi' & _).
        rewrite sg_eq, Hi'. cbn [negb].
        replace (beqb (str (q ++ [n])) (str q)) with false.
        2:{ symmetry. apply beqb_neq. apply str_neq; [exact (Hcl _ _ T1)|exact Hq|]. intros E.
            apply (f_equal (@List.length bytes)) in E. rewrite app_length in E. cbn [List.length] in E. lia. }
        replace (hasPrefix (str (q ++ [n])) (str q)) with true.
        2:{ symmetry. apply (str_prefix q (q ++ [n]) Hq (Hcl _ _ T1)). exists [n]. reflexivity. }
        cbn [negb andb]. rewrite str_snoc, zdrop_app_exact by reflexivity. rewrite zlen_app.
        rewrite ztake_app_exact by (change (zlen [slash]) with 1; lia).
        destruct (N3 _ T1) as [_ Hs]. cbn [fst] in Hs.
        destruct (existsb (Z.eqb slash) n) eqn:Ex; [|reflexivity]. apply existsb_exists in Ex. destruct Ex as (x & X1 & X2).
        apply Z.eqb_eq in X2. subst x. elim Hs. exact X1.
    + cbn [walk w_groups] in Ew. destruct (assoc m gs) as [t'|] eqn:Em; [|discriminate].
      rewrite Hpre. 2:{ intros r' E. rewrite Er in E. apply (f_equal (@List.length bytes)) in E.
                        rewrite !app_length in E. cbn [List.length] in E. lia. }
      rewrite andb_false_r.
      destruct (app_NoDup_l _ _ N1) as (_ & N1' & _).
      set (k := fun (o : robj) n => if beqb n m then map fst (w_groups g) else []).
      destruct (flat_map_one k gs gos m t' Hg N1' Em) as (o' & O1 & O2 & O3).
      assert (Nn : NoDup (map fst gos)) by (rewrite G1; exact N1').
      rewrite (Hgo k).
      * rewrite O3; [unfold k; rewrite beqb_refl; reflexivity|]. intros n t'' o'' _ _ _ Hnm. unfold k.
        apply beqb_neq in Hnm. rewrite Hnm. reflexivity.
      * intros n o'' Ho. destruct (gos_in _ _ _ Hg Ho) as (t'' & T1 & T2). cbn [fst snd] in *. rewrite <- str_snoc.
        unfold k. destruct (beqb n m) eqn:Enm.
        -- apply beqb_eq in Enm. subst n. rewrite (In_assoc _ _ _ N1' T1) in Em. assert (t'' = t') by congruence. subst t''.
           apply (proj2 (IH _ T1 _ _ T2 (N4 _ T1) (Hcl _ _ T1)) r g); [|exact Ew]. cbn [fst]. rewrite <- app_assoc. exact Er.
        -- apply beqb_neq in Enm. apply (IH _ T1 _ _ T2 (N4 _ T1) (Hcl _ _ T1)).
           ++ cbn [fst]. intros r' E. rewrite Er, <- app_assoc in E. apply app_inv_head in E. cbn [app] in E. injection E as E _; congruence.
           ++ cbn [fst]. intros r' E. rewrite Er, <- app_assoc in E. apply app_inv_head in E. cbn [app] in E. injection E as E _; congruence.
Qed.
End Api.
