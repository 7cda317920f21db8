(** What the writer adds to a tree before it is written: dimension scales and the properties
    of the file; and sorting. *)
From Verif Require Import Prelude GoVal OrderedMapModel H5MetaWrite H5Value H5FileWrite TypeSpec FileSpec BaseLemmas
  OrderedMapProofs H5TreeProofs.
From Coq Require Import Lia ZifyBool ZifyNat Permutation.

(** ** Maps of attributes *)
Lemma set_all {V} (l : list (bytes * V)) : forall acc, NoDup (map fst acc ++ map fst l) ->
  fold_left (fun m kv => assoc_set (fst kv) (snd kv) m) l acc = acc ++ l.
Proof.
  induction l as [|[k v] l IH]; intros acc H; cbn [fold_left]; [rewrite app_nil_r; reflexivity|].
  cbn [map fst snd] in *. destruct (NoDup_mid _ _ _ H) as [A B]. rewrite assoc_set_new by exact A.
  rewrite IH; [rewrite <- app_assoc; reflexivity|]. rewrite map_app. exact B.
Qed.
Lemma assoc_self {V} (l : list (bytes * V)) d : NoDup (map fst l) ->
  map (fun k => (k, match assoc k l with Some v => v | None => d end)) (map fst l) = l.
Proof.
  intros H. rewrite map_map. revert H. induction l as [|[k v] l IH]; intros H; [reflexivity|]. cbn [map fst] in *.
  inversion H as [|? ? H1 H2]; subst x l0. cbn [assoc]. rewrite beqb_refl. f_equal.
  etransitivity; [|apply IH; exact H2]. apply map_ext_in. intros [k' v'] Hk. cbn [fst].
  destruct (beqb k' k) eqn:Eb; [|reflexivity]. apply beqb_eq in Eb. subst k'. exfalso. apply H1.
  apply (in_map fst) in Hk. exact Hk.
Qed.
Lemma attrs_map_id l : NoDup (map fst l) -> attrs_map l = Ok l.
Proof.
  intros H. unfold attrs_map. rewrite (set_all l [] H). cbn [app].
  destruct (proj2 (new_ordered_map_ok (map fst l) l) (Permutation_refl _)) as (m & Em). rewrite Em.
  rewrite (new_ordered_map_result _ _ _ Em). unfold om_keys_visible, om_get. cbn [om_visible om_vals].
  rewrite assoc_self by exact H. reflexivity.
Qed.
Lemma attrs_map_ok_NoDup l r : attrs_map l = Ok r -> NoDup (map fst l).
Proof.
  unfold attrs_map. set (vals := fold_left _ l []).
  destruct (new_ordered_map (map fst l) vals) as [m| |] eqn:Em; try discriminate. intros _.
  assert (P : Permutation (map fst l) (map fst vals)) by (apply new_ordered_map_ok; exists m; exact Em).
  eapply Permutation_NoDup; [apply Permutation_sym; exact P|].
  unfold vals. assert (G : forall l acc, NoDup (map fst acc) ->
    NoDup (map fst (fold_left (fun m (kv : bytes * hval) => assoc_set (fst kv) (snd kv) m) l acc))).
  { clear. induction l as [|[k v] l IH]; intros acc H; [exact H|]. cbn [fold_left]. apply IH. rewrite assoc_set_keys.
    cbn [fst]. destruct (mem k (map fst acc)) eqn:E; [exact H|]. apply NoDup_snoc; [exact H|]. apply mem_nIn. exact E. }
  apply G. constructor.
Qed.

(** ** Sorting *)
Lemma ninsert_perm {V} (x : bytes * V) l : Permutation (x :: l) (ninsert x l).
Proof.
  induction l as [|y l IH]; [apply Permutation_refl|]. cbn [ninsert]. destruct (ble (fst x) (fst y)); [apply Permutation_refl|].
  eapply Permutation_trans; [apply perm_swap|]. constructor. exact IH.
Qed.
Lemma nsort_perm {V} (l : list (bytes * V)) : Permutation l (nsort l).
Proof.
  induction l as [|x l IH]; [constructor|]. cbn [nsort]. eapply Permutation_trans; [|apply ninsert_perm].
  constructor. exact IH.
Qed.
Lemma assoc_nsort {V} (l : list (bytes * V)) k : NoDup (map fst l) -> assoc k (nsort l) = assoc k l.
Proof.
  intros H. pose proof (nsort_perm l) as P.
  assert (Hn : NoDup (map fst (nsort l))) by (eapply Permutation_NoDup; [apply Permutation_map, P|exact H]).
  destruct (assoc k l) as [v|] eqn:E.
  - apply assoc_Some_In in E. apply (Permutation_in _ P) in E. revert E Hn. generalize (nsort l). clear.
    induction l as [|[k' v'] l IH]; intros Hi Hn; [contradiction|]. cbn [assoc map fst] in *.
    inversion Hn as [|? ? H1 H2]; subst x l0. destruct Hi as [Hi|Hi].
    + assert (k' = k) by congruence. assert (v' = v) by congruence. subst k' v'. rewrite beqb_refl. reflexivity.
    + destruct (beqb k k') eqn:Eb; [|apply IH; assumption]. apply beqb_eq in Eb. subst k'. exfalso. apply H1.
      apply (in_map fst) in Hi. exact Hi.
  - apply assoc_None in E. apply assoc_None. intros Hi. apply E.
    eapply Permutation_in; [apply Permutation_sym, Permutation_map, P|exact Hi].
Qed.

Definition all_vars_in (p : path) := fix go (gs : list (bytes * wtree)) : list (vkey * hvar) :=
  match gs with [] => [] | (name, g) :: r => all_vars (p ++ [name]) g ++ go r end.
Lemma all_vars_eq p a vs gs : all_vars p (WNode a vs gs) = map (fun v => ((p, fst v), snd v)) vs ++ all_vars_in p gs.
Proof. reflexivity. Qed.
Lemma all_vars_in_In p gs x : In x (all_vars_in p gs) <-> exists g, In g gs /\ In x (all_vars (p ++ [fst g]) (snd g)).
Proof.
  induction gs as [|[n g] gs IH].
  - split; [contradiction|]. intros (g & [] & _).
  - cbn [all_vars_in]. rewrite in_app_iff, IH. split.
    + intros [H|(g' & H1 & H2)]; [exists (n, g); split; [left; reflexivity|exact H]|exists g'; split; [right; exact H1|exact H2]].
    + intros (g' & [<-|H1] & H2); [left; exact H2|right; exists g'; auto].
Qed.
Definition all_attrs_in (p : path) := fix go (gs : list (bytes * wtree)) : list (akey * hval) :=
  match gs with [] => [] | (name, g) :: r => all_attrs (p ++ [name]) g ++ go r end.
Lemma all_attrs_eq p a vs gs : all_attrs p (WNode a vs gs) =
  flat_map (fun v => attrs_at p (Some (fst v)) (hv_attrs (snd v))) vs ++ attrs_at p None a ++ all_attrs_in p gs.
Proof. reflexivity. Qed.
Lemma all_attrs_in_In p gs x : In x (all_attrs_in p gs) <-> exists g, In g gs /\ In x (all_attrs (p ++ [fst g]) (snd g)).
Proof.
  induction gs as [|[n g] gs IH].
  - split; [contradiction|]. intros (g & [] & _).
  - cbn [all_attrs_in]. rewrite in_app_iff, IH. split.
    + intros [H|(g' & H1 & H2)]; [exists (n, g); split; [left; reflexivity|exact H]|exists g'; split; [right; exact H1|exact H2]].
    + intros (g' & [<-|H1] & H2); [left; exact H2|right; exists g'; auto].
Qed.

Lemma sort_tree_eq a vs gs : sort_tree (WNode a vs gs) =
  WNode a (nsort vs) (nsort (map (fun g => (fst g, sort_tree (snd g))) gs)).
Proof. reflexivity. Qed.

Lemma all_vars_sort t : forall p x, In x (all_vars p (sort_tree t)) <-> In x (all_vars p t).
Proof.
  induction t as [a vs gs IH] using wtree_ind'. intros p x. rewrite sort_tree_eq, !all_vars_eq, !in_app_iff, !all_vars_in_In.
  assert (E1 : In x (map (fun v => (p, fst v, snd v)) (nsort vs)) <-> In x (map (fun v => (p, fst v, snd v)) vs)).
  { rewrite !in_map_iff. pose proof (nsort_perm vs) as P. split; intros (y & Ey & Hy); exists y; (split; [exact Ey|]).
    - eapply Permutation_in; [apply Permutation_sym; exact P|exact Hy].
    - eapply Permutation_in; [exact P|exact Hy]. }
  rewrite E1. rewrite Forall_forall in IH.
  assert (E2 : (exists g, In g (nsort (map (fun g => (fst g, sort_tree (snd g))) gs)) /\ In x (all_vars (p ++ [fst g]) (snd g))) <->
               (exists g, In g gs /\ In x (all_vars (p ++ [fst g]) (snd g)))).
  { split.
    - intros (g & Hg & Hx). apply (Permutation_in _ (Permutation_sym (nsort_perm _))) in Hg. apply in_map_iff in Hg.
      destruct Hg as (g' & <- & Hg'). exists g'. split; [exact Hg'|]. apply (IH g' Hg'). exact Hx.
    - intros (g & Hg & Hx). exists (fst g, sort_tree (snd g)). split.
      + apply (Permutation_in _ (nsort_perm _)). apply in_map_iff. exists g. auto.
      + apply (IH g Hg). exact Hx. }
  rewrite E2. reflexivity.
Qed.
Lemma all_attrs_sort t : forall p x, In x (all_attrs p (sort_tree t)) <-> In x (all_attrs p t).
Proof.
  induction t as [a vs gs IH] using wtree_ind'. intros p x. rewrite sort_tree_eq, !all_attrs_eq, !in_app_iff, !all_attrs_in_In.
  assert (E1 : In x (flat_map (fun v => attrs_at p (Some (fst v)) (hv_attrs (snd v))) (nsort vs)) <->
               In x (flat_map (fun v => attrs_at p (Some (fst v)) (hv_attrs (snd v))) vs)).
  { rewrite !in_flat_map. pose proof (nsort_perm vs) as P. split; intros (y & Hy & Ey); exists y; (split; [|exact Ey]).
    - eapply Permutation_in; [apply Permutation_sym; exact P|exact Hy].
    - eapply Permutation_in; [exact P|exact Hy]. }
  rewrite E1. rewrite Forall_forall in IH.
  assert (E2 : (exists g, In g (nsort (map (fun g => (fst g, sort_tree (snd g))) gs)) /\ In x (all_attrs (p ++ [fst g]) (snd g))) <->
               (exists g, In g gs /\ In x (all_attrs (p ++ [fst g]) (snd g)))).
  { split.
    - intros (g & Hg & Hx). apply (Permutation_in _ (Permutation_sym (nsort_perm _))) in Hg. apply in_map_iff in Hg.
      destruct Hg as (g' & <- & Hg'). exists g'. split; [exact Hg'|]. apply (IH g' Hg'). exact Hx.
    - intros (g & Hg & Hx). exists (fst g, sort_tree (snd g)). split.
      + apply (Permutation_in _ (nsort_perm _)). apply in_map_iff. exists g. auto.
      + apply (IH g Hg). exact Hx. }
  rewrite E2. reflexivity.
Qed.

(** ** Dimensions *)
(** A dimension of a variable *)
Definition has_dim (l : list (vkey * hvar)) (d : bytes) : Prop :=
  exists x, In x l /\ hv_scale (snd x) = false /\ In d (hv_dims (snd x)) /\ d <> [].

Lemma dims_of_names_spec names : forall shape acc, NoDup (map fst acc) ->
  NoDup (map fst (dims_of_names names shape acc)) /\
  forall d, In d (map fst (dims_of_names names shape acc)) <-> In d (map fst acc) \/ (In d names /\ d <> []).
Proof.
  induction names as [|n names IH]; intros shape acc H; cbn [dims_of_names].
  - split; [exact H|]. intros d. split; [auto|]. intros [A|[[] _]]. exact A.
  - set (size := match shape with [] => 0 | n :: _ => n end).
    set (acc' := if beqb n [] || mem n (map fst acc) then acc else acc ++ [(n, size)]).
    assert (Hn : NoDup (map fst acc') /\ forall d, In d (map fst acc') <-> In d (map fst acc) \/ (d = n /\ d <> [])).
    { unfold acc'. destruct (beqb n []) eqn:E1; cbn [orb].
      - apply beqb_eq in E1. subst n. split; [exact H|]. intros d. split; [auto|]. intros [A|[-> A]]; [exact A|congruence].
      - destruct (mem n (map fst acc)) eqn:E2.
        + split; [exact H|]. apply mem_In in E2. intros d. split; [auto|]. intros [A|[-> A]]; [exact A|exact E2].
        + apply mem_nIn in E2. rewrite map_app. cbn [map fst]. split; [apply NoDup_snoc; assumption|].
          intros d. rewrite in_app_iff. cbn [In]. split; [intros [A|[<-|[]]]; [auto|right; split; [reflexivity|]]|].
          * intros ->. rewrite beqb_refl in E1. discriminate.
          * intros [A|[-> A]]; auto. }
    destruct Hn as [Hn1 Hn2]. destruct (IH (tl shape) acc' Hn1) as [A B]. split; [exact A|].
    intros d. rewrite B, Hn2. cbn [In]. split.
    + intros [[C|[-> C]]|[C D]]; auto.
    + intros [C|[[<-|C] D]]; auto.
Qed.

Definition vars_dim (vs : list (bytes * hvar)) (d : bytes) : Prop :=
  exists v, In v vs /\ hv_scale (snd v) = false /\ In d (hv_dims (snd v)) /\ d <> [].
Lemma dims_of_vars_spec vs : forall acc, NoDup (map fst acc) ->
  NoDup (map fst (dims_of_vars vs acc)) /\
  forall d, In d (map fst (dims_of_vars vs acc)) <-> In d (map fst acc) \/ vars_dim vs d.
Proof.
  unfold dims_of_vars. induction vs as [|v vs IH]; intros acc H; cbn [fold_left].
  - split; [exact H|]. intros d. split; [auto|]. intros [A|(v & [] & _)]. exact A.
  - set (acc' := if hv_scale (snd v) then acc else dims_of_names (hv_dims (snd v)) (getDims (hv_val (snd v))) acc).
    assert (Hn : NoDup (map fst acc') /\ forall d, In d (map fst acc') <-> In d (map fst acc) \/
              (hv_scale (snd v) = false /\ In d (hv_dims (snd v)) /\ d <> [])).
    { unfold acc'. destruct (hv_scale (snd v)).
      - split; [exact H|]. intros d. split; [auto|]. intros [A|(A & _)]; [exact A|discriminate].
      - destruct (dims_of_names_spec (hv_dims (snd v)) (getDims (hv_val (snd v))) acc H) as [A B]. split; [exact A|].
        intros d. rewrite B. split; [intros [C|[C D]]; auto|intros [C|(_ & C & D)]; auto]. }
    destruct Hn as [Hn1 Hn2]. destruct (IH acc' Hn1) as [A B]. split; [exact A|].
    intros d. rewrite B, Hn2. split.
    + intros [[C|C]|(w & C & D)]; [auto| |]; right.
      * exists v. split; [left; reflexivity|exact C].
      * exists w. split; [right; exact C|exact D].
    + intros [C|(w & [<-|C] & D)]; [auto|auto|]. right. exists w. auto.
Qed.

Definition collectDimsIn := fix go (gs : list (bytes * wtree)) (acc : list (bytes * Z)) : list (bytes * Z) :=
  match gs with
  | [] => acc
  | (_, g) :: r => go r (collectDims g acc)
  end.
Lemma collectDims_eq a vs gs acc : collectDims (WNode a vs gs) acc = collectDimsIn gs (dims_of_vars vs acc).
Proof. reflexivity. Qed.
Lemma collectDims_spec t : forall p acc, NoDup (map fst acc) ->
  NoDup (map fst (collectDims t acc)) /\
  forall d, In d (map fst (collectDims t acc)) <-> In d (map fst acc) \/ has_dim (all_vars p t) d.
Proof.
  induction t as [a vs gs IH] using wtree_ind'. intros p acc H. rewrite collectDims_eq, all_vars_eq.
  destruct (dims_of_vars_spec vs acc H) as [A B].
  assert (G : forall acc, NoDup (map fst acc) -> NoDup (map fst (collectDimsIn gs acc)) /\
    forall d, In d (map fst (collectDimsIn gs acc)) <-> In d (map fst acc) \/ has_dim (all_vars_in p gs) d).
  { clear - IH. induction IH as [|[n g] gs Hg _ IHg]; intros acc H; cbn [collectDimsIn all_vars_in].
    - split; [exact H|]. intros d. split; [auto|]. intros [C|(x & [] & _)]. exact C.
    - cbn [snd] in Hg. destruct (Hg (p ++ [n]) acc H) as [A B]. destruct (IHg _ A) as [C D]. split; [exact C|].
      intros d. rewrite D, B. unfold has_dim. split.
      + intros [[E|(x & E & F)]|(x & E & F)]; [auto| |]; right; exists x; rewrite in_app_iff; auto.
      + intros [E|(x & E & F)]; [auto|]. rewrite in_app_iff in E. destruct E as [E|E]; [left; right|right]; exists x; auto. }
  destruct (G _ A) as [C D]. split; [exact C|]. intros d. rewrite D, B. unfold has_dim, vars_dim. split.
  - intros [[E|(v & E & F)]|(x & E & F)]; [auto| |]; right.
    + exists ((p, fst v), snd v). rewrite in_app_iff. split; [left; apply in_map_iff; exists v; auto|exact F].
    + exists x. rewrite in_app_iff. auto.
  - intros [E|(x & E & F)]; [auto|]. rewrite in_app_iff in E. destruct E as [E|E].
    + apply in_map_iff in E. destruct E as (v & <- & E). left. right. exists v. auto.
    + right. exists x. auto.
Qed.

(** ** Dimension scales *)
Definition coordinate (i : Z) (n : bytes) (v : hvar) : hvar :=
  mkHvar (hv_val v) (hv_dims v) (Some (scale_attrs n i ++ attr_list (hv_attrs v))) true.
Definition bare (i : Z) (n : bytes) (size : Z) : hvar :=
  mkHvar (HSlice (TNum I8) (zrep size (HNum I8 0))) [n] (Some (scale_attrs (scale_note size) i)) true.

(** What has become of the variables [vs] *)
Inductive prepared (D : list bytes) (vs : list (bytes * hvar)) (n : bytes) : hvar -> Prop :=
| prep_same v : assoc n vs = Some v -> ~ In n D -> prepared D vs n v
| prep_coord v i : assoc n vs = Some v -> In n D -> NoDup (map fst (scale_attrs n i ++ attr_list (hv_attrs v))) ->
    prepared D vs n (coordinate i n v)
| prep_bare i size : assoc n vs = None -> In n D -> 0 <= size <= 2 ^ 48 -> prepared D vs n (bare i n size).

Lemma scale_of_spec i d vs v : Forall (fun x => hv_scale (snd x) = false) vs ->
  scale_of i d vs = Ok v ->
  (exists w, assoc (fst d) vs = Some w /\ v = coordinate i (fst d) w /\
     NoDup (map fst (scale_attrs (fst d) i ++ attr_list (hv_attrs w)))) \/
  (assoc (fst d) vs = None /\ 0 <= snd d <= 2 ^ 48 /\ v = bare i (fst d) (snd d)).
Proof.
  intros Hs E. unfold scale_of in E. destruct (assoc (fst d) vs) as [w|] eqn:Ew.
  - assert (Sw : hv_scale w = false).
    { apply assoc_Some_In in Ew. rewrite Forall_forall in Hs. exact (Hs _ Ew). }
    rewrite Sw in E. unfold promote in E. left. exists w. split; [reflexivity|].
    destruct (attrs_map (scale_attrs (fst d) i ++ attr_list (hv_attrs w))) as [a| |] eqn:Ea; try discriminate. cbn [rbind] in E.
    pose proof (attrs_map_ok_NoDup _ _ Ea) as N. rewrite (attrs_map_id _ N) in Ea. split; [|exact N].
    injection Ea as Ea. subst a. injection E as E. symmetry. exact E.
  - right. split; [reflexivity|]. unfold synthetic, go_make in E.
    destruct ((snd d <? 0) || (2 ^ 48 <? snd d * 1)) eqn:Eg; [discriminate|]. cbn [rbind] in E.
    split; [lia|]. injection E as E. symmetry. exact E.
Qed.

(** The part of [vs] that is not in the list of scales is untouched, so that the tests of the
    loop all look at the original variables. *)
Lemma add_scales_spec ds : forall i vs r, NoDup (map fst ds) -> NoDup (map fst vs) ->
  Forall (fun x => hv_scale (snd x) = false \/ ~ In (fst x) (map fst ds)) vs ->
  add_scales i ds vs = Ok r ->
  NoDup (map fst r) /\
  (forall n, In n (map fst r) <-> In n (map fst vs) \/ In n (map fst ds)) /\
  (forall n v, assoc n r = Some v -> prepared (map fst ds) vs n v).
Proof.
  induction ds as [|d ds IH]; intros i vs r Hd Hv Hs E; cbn [add_scales] in E.
  - assert (r = vs) by congruence. subst r. split; [exact Hv|]. split; [intros n; cbn; tauto|].
    intros n v H. apply prep_same; [exact H|intros []].
  - cbn [map] in Hd. inversion Hd as [|? ? D1 D2]; subst x l.
    destruct (scale_of i d vs) as [v| |] eqn:Ev; try discriminate. cbn [rbind] in E.
    assert (Sv : (exists w, assoc (fst d) vs = Some w /\ v = coordinate i (fst d) w /\
                   NoDup (map fst (scale_attrs (fst d) i ++ attr_list (hv_attrs w)))) \/
                 (assoc (fst d) vs = None /\ 0 <= snd d <= 2 ^ 48 /\ v = bare i (fst d) (snd d))).
    { assert (E' : scale_of i d (filter (fun x => beqb (fst d) (fst x)) vs) = Ok v).
      { rewrite <- Ev. unfold scale_of. assert (Ea : assoc (fst d) (filter (fun x => beqb (fst d) (fst x)) vs) = assoc (fst d) vs).
        { clear. induction vs as [|[k w] vs IH]; [reflexivity|]. cbn [filter fst assoc]. destruct (beqb (fst d) k) eqn:Eb.
          - cbn [assoc]. rewrite Eb. reflexivity.
          - exact IH. }
        rewrite Ea. reflexivity. }
      assert (Ea : assoc (fst d) (filter (fun x => beqb (fst d) (fst x)) vs) = assoc (fst d) vs).
      { clear. induction vs as [|[k w] vs IH]; [reflexivity|]. cbn [filter fst assoc]. destruct (beqb (fst d) k) eqn:Eb.
        - cbn [assoc]. rewrite Eb. reflexivity.
        - exact IH. }
      rewrite <- Ea. apply scale_of_spec; [|exact E'].
      apply Forall_forall. intros x Hx. apply filter_In in Hx. destruct Hx as [Hx Hb]. apply beqb_eq in Hb.
      rewrite Forall_forall in Hs. destruct (Hs x Hx) as [A|A]; [exact A|]. exfalso. apply A. left. exact Hb. }
    set (vs' := assoc_set (fst d) v vs) in *.
    assert (Nk : map fst vs' = if mem (fst d) (map fst vs) then map fst vs else map fst vs ++ [fst d]) by apply assoc_set_keys.
    assert (N' : NoDup (map fst vs')).
    { rewrite Nk. destruct (mem (fst d) (map fst vs)) eqn:Em; [exact Hv|]. apply NoDup_snoc; [exact Hv|]. apply mem_nIn. exact Em. }
    assert (I' : forall n, In n (map fst vs') <-> In n (map fst vs) \/ n = fst d).
    { intros n. rewrite Nk. destruct (mem (fst d) (map fst vs)) eqn:Em.
      - apply mem_In in Em. split; [auto|]. intros [A| ->]; assumption.
      - rewrite in_app_iff. cbn [In]. split; [intros [A|[A|[]]]; auto|intros [A|A]; auto]. }
    destruct (IH (i + 1) vs' r D2 N') as (R1 & R2 & R3).
    { apply Forall_forall. intros [n w] Hx. cbn [fst snd].
      destruct (beqb n (fst d)) eqn:Eb.
      - apply beqb_eq in Eb. subst n. right. exact D1.
      - assert (In (n, w) vs).
        { assert (A : assoc n vs' = Some w).
          { clear - Hx N'. revert Hx N'. generalize vs'. clear. induction vs' as [|[k u] l IH]; intros Hi Hn; [contradiction|].
            cbn [assoc map fst] in *. inversion Hn as [|? ? H1 H2]; subst x l0. destruct Hi as [Hi|Hi].
            - assert (k = n) by congruence. assert (u = w) by congruence. subst k u. rewrite beqb_refl. reflexivity.
            - destruct (beqb n k) eqn:Ek; [|apply IH; assumption]. apply beqb_eq in Ek. subst k. exfalso. apply H1.
              apply (in_map fst) in Hi. exact Hi. }
          unfold vs' in A. rewrite assoc_set_other in A by (intros ->; rewrite beqb_refl in Eb; discriminate).
          apply assoc_Some_In. exact A. }
        rewrite Forall_forall in Hs. destruct (Hs _ H) as [A|A]; [left; exact A|right]. intros Hi. apply A. right. exact Hi. }
    { exact E. }
    split; [exact R1|]. split.
    + intros n. rewrite R2, I'. cbn [map In]. intuition congruence.
    + intros n u Hu. destruct (R3 n u Hu) as [w W1 W2|w j W1 W2 W3|j size W1 W2 W3].
      * unfold vs' in W1. destruct (beqb n (fst d)) eqn:Eb.
        -- apply beqb_eq in Eb. subst n. rewrite assoc_set_same in W1. assert (w = v) by congruence. subst w.
           destruct Sv as [(w & S1 & -> & S3)|(S1 & S2 & ->)].
           ++ apply prep_coord; [exact S1|left; reflexivity|exact S3].
           ++ apply prep_bare; [exact S1|left; reflexivity|exact S2].
        -- rewrite assoc_set_other in W1 by (intros ->; rewrite beqb_refl in Eb; discriminate).
           apply prep_same; [exact W1|]. intros [A|A]; [|exact (W2 A)]. subst n. rewrite beqb_refl in Eb. discriminate.
      * assert (Hne : n <> fst d) by (intros ->; exact (D1 W2)). unfold vs' in W1. rewrite assoc_set_other in W1 by exact Hne.
        apply prep_coord; [exact W1|right; exact W2|exact W3].
      * assert (Hne : n <> fst d) by (intros ->; exact (D1 W2)). unfold vs' in W1. rewrite assoc_set_other in W1 by exact Hne.
        apply prep_bare; [exact W1|right; exact W2|exact W3].
Qed.
