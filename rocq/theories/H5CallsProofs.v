(** From a history of calls to the tree that Close writes. *)
From Verif Require Import Prelude GoVal ValidNameModel OrderedMapModel ArraySpec H5Base H5MetaRead H5Value H5TypeRead H5FileWrite H5PathModel
  H5RecordModel H5FileRead H5WriterModel PathSpec WriterSpec TypeSpec FileSpec BaseLemmas ValidNameProofs H5PathProofs H5AttrProofs
  H5ObjectProofs H5TreeProofs H5PlaceProofs H5HeapProofs H5GoodProofs H5SizeProofs H5PrepareProofs H5WholeProofs H5WriterProofs H5ApiPath H5ApiProofs H5ApiValues H5FileProofs.
From Coq Require Import Lia ZifyBool ZifyNat Permutation.

(** ** Names in accepted calls *)
Section Names.
Variable U : ucd.
Definition event_names (e : event) : Prop :=
  match e with
  | EGroup q => exists p n, q = p ++ [n] /\ valid_name U n = true
  | EVar _ n v => valid_name U n = true /\ hv_scale v = false
  | EAttrs _ _ => True
  end.
Lemma step_names big pick s o s' x ps es : step U big pick s o = (s', x) -> Forall event_names es ->
  Forall event_names (snd (observe (ps, es) (o, x))).
Proof.
  intros H F. unfold observe. destruct x as [y|e|]; try exact F. destruct (nth_error ps (op_writer o)) as [p|]; [|exact F].
  unfold step in H. destruct (nth_error (st_writers s) (op_writer o)) as [g|]; [|discriminate].
  destruct (nth_error (st_groups s) g) as [G|]; [|discriminate]. destruct o as [w a|w n v d a|w n|w]; cbn [snd].
  - apply Forall_app. split; [exact F|]. constructor; [exact I|constructor].
  - apply Forall_app. split; [exact F|]. constructor; [|constructor]. cbn [event_names hv_scale]. split; [|reflexivity].
    unfold add_var in H. destruct (valid_name U n); [reflexivity|discriminate].
  - apply Forall_app. split; [exact F|]. constructor; [|constructor]. exists p, n. split; [reflexivity|].
    unfold create_group in H. destruct (valid_name U n); [reflexivity|discriminate].
  - exact F.
Qed.
Lemma run_names big pick ops : forall s s' outs x, run U big pick s ops = (s', outs) -> Forall event_names (snd x) ->
  Forall event_names (snd (fold_left observe (combine ops outs) x)).
Proof.
  induction ops as [|o r IH]; intros s s' outs [ps es] H F; cbn [run] in H.
  - assert (outs = []) by congruence. subst outs. exact F.
  - destruct (step U big pick s o) as [s1 y] eqn:E1. destruct (run U big pick s1 r) as [s2 ys] eqn:E2.
    assert (outs = y :: ys) by congruence. subst outs. cbn [combine fold_left].
    apply (IH s1 s2 ys _ E2). exact (step_names _ _ _ _ _ _ ps es E1 F).
Qed.
Lemma events_names big pick ops s outs : run U big pick open_writer ops = (s, outs) -> Forall event_names (events ops outs).
Proof. intros H. apply (run_names big pick ops open_writer s outs ([[]], []) H). constructor. Qed.
End Names.
Lemma events_covered U big pick ops s outs : run U big pick open_writer ops = (s, outs) -> covered (events ops outs).
Proof.
  intros H. destruct (run_inv U big pick ops open_writer outs s ([[]], []) inv_open) as [_ C]; [intros e []|exact H|exact C].
Qed.
Lemma last_attrs_event es p a : last_attrs es p = Some a -> last_attrs [] p = Some a \/ In (EAttrs p (Some a)) es.
Proof.
  unfold last_attrs. cbn [fold_left]. match goal with |- fold_left _ _ ?c0 = _ -> _ => generalize c0 end.
  induction es as [|e es IH]; intros cur H; [left; exact H|]. cbn [fold_left] in H. destruct (IH _ H) as [E|E]; [|right; right; exact E].
  destruct e as [q|q m w|q b]; try (left; exact E). destruct (path_eqb p q) eqn:Ee; [|left; exact E].
  apply path_eqb_eq in Ee. subst q. right. left. congruence.
Qed.
Lemma last_var_event es p n v : last_var es p n = Some v -> In (EVar p n v) es.
Proof.
  unfold last_var. intros H.
  assert (G : forall es cur, fold_left (fun cur e => match e with
                          | EVar q m v => if path_eqb p q && name_eqb n m then Some v else cur
                          | _ => cur end) es cur = Some v -> cur = Some v \/ In (EVar p n v) es).
  { clear. induction es as [|e es IH]; intros cur H; [left; exact H|]. cbn [fold_left] in H. destruct (IH _ H) as [E|E]; [|right; right; exact E].
    destruct e as [q|q m w|q a]; try (left; exact E). destruct (path_eqb p q && name_eqb n m) eqn:Ee; [|left; exact E].
    apply andb_true_iff in Ee. destruct Ee as [A B]. apply path_eqb_eq in A. apply name_eqb_eq in B. subst q m.
    right. left. congruence. }
  destruct (G es None H) as [E|E]; [discriminate|exact E].
Qed.

Section Calls.
Variables (U : ucd) (D S : list bytes) (es : list event) (t : wtree).
Hypothesis UA : ucd_ascii U.
Hypothesis UD : ucd_disjoint U.
Hypothesis DE : described es t.
Hypothesis CV : covered es.
Hypothesis NM : Forall (event_names U) es.
Hypothesis CF : calls_fine D S es.

Lemma node_of p g : walk t p = Some g -> group_made es p /\ w_attrs g = last_attrs es p /\
  (forall n, assoc n (w_vars g) = last_var es p n) /\ NoDup (map fst (w_vars g)) /\ NoDup (map fst (w_groups g)).
Proof. intros H. pose proof (DE p) as A. rewrite H in A. exact A. Qed.
Lemma made_walk p : group_made es p <-> exists g, walk t p = Some g.
Proof.
  split.
  - intros H. pose proof (DE p) as A. destruct (walk t p) as [g|]; [exists g; reflexivity|contradiction].
  - intros (g & H). exact (proj1 (node_of p g H)).
Qed.
Lemma sub_walk p g n : walk t p = Some g -> In n (map fst (w_groups g)) <-> group_made es (p ++ [n]).
Proof.
  intros H. rewrite made_walk, walk_app, H. cbn [walk]. split.
  - intros Hn. destruct (assoc n (w_groups g)) as [g'|] eqn:E; [exists g'; reflexivity|]. apply assoc_None in E. contradiction.
  - intros (g' & E). destruct (assoc n (w_groups g)) as [g2|] eqn:E2; [|discriminate]. apply assoc_Some_In in E2.
    apply in_map_iff. exists (n, g2). auto.
Qed.
Lemma var_made p n v : last_var es p n = Some v -> exists g, walk t p = Some g /\ assoc n (w_vars g) = Some v.
Proof.
  intros H. assert (G : group_made es p).
  { pose proof (DE p) as A. destruct (walk t p) as [g|]; [exact (proj1 A)|].
    rewrite (unmade_var es p n CV A) in H. discriminate. }
  apply made_walk in G. destruct G as (g & G). exists g. split; [exact G|]. destruct (node_of p g G) as (_ & _ & E & _). rewrite E. exact H.
Qed.
Lemma group_clean p n : group_made es (p ++ [n]) -> clean n.
Proof.
  intros [E|H]; [destruct p; discriminate|]. rewrite Forall_forall in NM. destruct (NM _ H) as (q & m & E & V).
  apply app_inj_tail in E. destruct E as [-> ->]. exact (valid_name_clean U m UA UD V).
Qed.

(** Variables and attributes anywhere in the tree *)
Lemma nodes_walk : tall (fun p g => walk t p = Some g) [] t.
Proof. apply tall_walk. intros q g H. split; [exact (proj2 (proj2 (proj2 (proj2 (node_of q g H)))))|exact H]. Qed.
Lemma all_vars_last p n v : In ((p, n), v) (all_vars [] t) -> last_var es p n = Some v.
Proof.
  intros H. destruct (vars_tall _ _ _ nodes_walk _ H) as (g & W & Hg). cbn [fst snd] in *.
  destruct (node_of p g W) as (_ & _ & E & N & _). rewrite <- E. apply In_assoc; assumption.
Qed.
Lemma all_values_in v : In v (all_values t) -> value_in es v.
Proof.
  intros H. apply in_app_or in H. destruct H as [H|H]; apply in_map_iff in H.
  - destruct H as ([[p n] w] & <- & H). exists p. right. exists n, w. split; [exact (all_vars_last p n w H)|]. left. reflexivity.
  - destruct H as ([k w] & <- & H). destruct (attrs_tall _ _ _ nodes_walk _ H) as (q & g & W & Hg). cbn [fst snd] in *.
    destruct (node_of q g W) as (_ & EA & E & N & _). exists q. destruct Hg as [Hg|([n v] & Hv & Hg)].
    + left. exists (snd k). rewrite <- EA. exact Hg.
    + right. exists n, v. split; [rewrite <- E; apply In_assoc; assumption|]. right. exists (snd k). exact Hg.
Qed.
Lemma dim_of_iff d : dim_of t d <-> dimension es d.
Proof.
  split.
  - intros ([[p n] v] & H & _ & Hd & _). cbn [snd] in *. exists p, n, v. split; [exact (all_vars_last p n v H)|exact Hd].
  - intros (p & n & v & H & Hd). destruct (cf_vars _ _ _ CF p n v H) as [_ FV].
    destruct (var_made p n v H) as (g & W & E). exists ((p, n), v). cbn [snd].
    split; [|split; [|split; [exact Hd|]]].
    + apply assoc_Some_In in E. pose proof (tall_vars (all_vars [] t) t [] (fun x Hx => Hx)) as TV.
      exact (tall_here _ _ _ (walk_tall _ p t [] g TV W) (n, v) E).
    + apply last_var_event in H. rewrite Forall_forall in NM. exact (proj2 (NM _ H)).
    + destruct FV as (_ & _ & FD). rewrite Forall_forall in FD. exact (proj1 (FD d Hd)).
Qed.

Lemma node_count p g : walk t p = Some g -> zlen (w_vars g) + zlen (w_groups g) <= zlen es.
Proof.
  intros W. destruct (node_of p g W) as (_ & _ & E & N & NG).
  set (l := map (fun v : bytes * hvar => EVar p (fst v) (snd v)) (w_vars g) ++ map (fun x : bytes * wtree => EGroup (p ++ [fst x])) (w_groups g)).
  assert (NL : NoDup l).
  { unfold l. apply NoDup_union.
    - assert (N' : NoDup (w_vars g)) by (revert N; apply NoDup_map_inv). apply FinFun.Injective_map_NoDup; [|exact N'].
      intros [a b] [a' b'] X. cbn [fst snd] in X. congruence.
    - rewrite <- (map_map fst (fun n => EGroup (p ++ [n]))). apply FinFun.Injective_map_NoDup; [|exact NG].
      intros a b X. assert (X' : p ++ [a] = p ++ [b]) by congruence. apply app_inj_tail in X'. exact (proj2 X').
    - intros e H1 H2. apply in_map_iff in H1. destruct H1 as (v & <- & _). apply in_map_iff in H2. destruct H2 as (x & X & _). discriminate. }
  assert (IL : incl l es).
  { intros e H. apply in_app_or in H. destruct H as [H|H]; apply in_map_iff in H.
    - destruct H as ([n v] & <- & H). cbn [fst snd]. apply last_var_event. rewrite <- E. apply In_assoc; assumption.
    - destruct H as (x & <- & H). assert (M : group_made es (p ++ [fst x])) by (apply (sub_walk p g _ W); apply in_map; exact H).
      destruct M as [M|M]; [destruct p; discriminate|exact M]. }
  pose proof (NoDup_incl_length NL IL) as L. unfold l in L. rewrite app_length, !map_length in L. unfold zlen. lia.
Qed.

Definition event_weight (e : event) : Z :=
  match e with EVar _ _ v => sequences (List.length (hv_dims v)) (hv_val v) | _ => 0 end.
Definition event_attrs (e : event) : list (akey * hval) :=
  match e with EVar p n v => attrs_at p (Some n) (hv_attrs v) | EAttrs p a => attrs_at p None a | EGroup _ => [] end.
Lemma attrs_at_weight p o a : sum aweight (attrs_at p o a) = attrs_sequences (attr_list a).
Proof. unfold attrs_at. rewrite sum_map. reflexivity. Qed.
Lemma sequences_in_sum l : sequences_in l = sum event_weight l + sum aweight (flat_map event_attrs l).
Proof.
  induction l as [|e l IH]; [reflexivity|]. cbn [sequences_in sum fold_right flat_map]. fold (sequences_in l) (sum event_weight l).
  fold (sum aweight (event_attrs e ++ flat_map event_attrs l)). rewrite sum_app, IH.
  destruct e; cbn [event_weight event_attrs]; rewrite ?attrs_at_weight; [change (sum aweight []) with 0|..]; lia.
Qed.
Lemma calls_atotal : aseq_total (all_attrs [] t) <= sum aweight (flat_map event_attrs es).
Proof.
  change (sum aweight (all_attrs [] t) <= sum aweight (flat_map event_attrs es)). apply (sum_partner eq).
  - intros x. apply attr_sequences_nonneg.
  - apply (NoDup_pairs fst).
    + intros x y H z H1 H2. apply H. congruence.
    + apply all_attrs_NoDup. apply tall_walk. intros p g W. destruct (node_of p g W) as (_ & EA & E & N & NG).
      split; [exact NG|]. split; [exact N|]. split; [exact NG|]. split.
      * rewrite EA. exact (proj1 (cf_attrs _ _ _ CF p)).
      * apply Forall_forall. intros [n v] Hv. cbn [snd]. assert (L : last_var es p n = Some v) by (rewrite <- E; apply In_assoc; assumption).
        destruct (cf_vars _ _ _ CF p n v L) as (_ & _ & (H & _) & _). exact H.
  - apply Forall_forall. intros [k w] Hx. right. exists (k, w). split; [|split; [reflexivity|apply Z.le_refl]].
    apply in_flat_map. destruct (tall_attrs_key _ _ _ nodes_walk _ Hx) as (q & g & W & Hg).
    destruct (node_of q g W) as (_ & EA & E & N & NG). destruct Hg as [Hg|([n v] & Hv & Hg)].
    + rewrite EA in Hg. destruct (last_attrs es q) as [a|] eqn:El; [|contradiction].
      destruct (last_attrs_event es q a El) as [Ha|Ha]; [|exists (EAttrs q (Some a)); split; [exact Ha|exact Hg]].
      destruct q; [|discriminate Ha]. injection Ha as <-. contradiction.
    + exists (EVar q n v). split; [|exact Hg]. apply last_var_event. rewrite <- E. apply In_assoc; assumption.
Qed.
Lemma calls_total : seq_total (all_vars [] t) + aseq_total (all_attrs [] t) <= sequences_in es.
Proof.
  rewrite sequences_in_sum. pose proof calls_atotal as AT. enough (sum weight (all_vars [] t) <= sum event_weight es).
  { change (seq_total (all_vars [] t)) with (sum weight (all_vars [] t)). lia. }
  apply (sum_partner (fun (x : vkey * hvar) e => e = EVar (fst (fst x)) (snd (fst x)) (snd x))).
  - intros [p|p n v|p a]; cbn [event_weight]; try lia. apply sequences_nonneg.
  - apply (NoDup_pairs fst).
    + intros [[p n] v] [[q m] w] H e -> X. cbn [fst snd] in *. apply H. congruence.
    + apply all_vars_NoDup. apply tall_walk. intros p g W. destruct (node_of p g W) as (_ & _ & _ & N & NG). split; [exact NG|]. split; assumption.
  - apply Forall_forall. intros [[p n] v] Hx. right. exists (EVar p n v). split; [|split; [reflexivity|apply Z.le_refl]].
    apply last_var_event. exact (all_vars_last p n v Hx).
Qed.

Theorem calls_tree_fine : w_attrs t <> None -> tree_fine D S t.
Proof.
  intros HA. constructor.
  - apply tall_walk. intros p g W. destruct (node_of p g W) as (M & EA & E & N & NG). split; [exact NG|]. cbn [app].
    split; [rewrite EA; apply (cf_attrs _ _ _ CF)|]. split; [|split; [|split]].
    + apply Forall_forall. intros [n v] Hv. cbn [fst snd]. assert (L : last_var es p n = Some v) by (rewrite <- E; apply In_assoc; assumption).
      destruct (cf_vars _ _ _ CF p n v L) as [F1 F2]. apply last_var_event in L. rewrite Forall_forall in NM. destruct (NM _ L) as [V1 V2].
      split; [exact (valid_name_nonempty U n V1)|]. auto.
    + apply Forall_forall. intros x Hx. apply (cf_groups _ _ _ CF p). apply (sub_walk p g _ W). apply in_map. exact Hx.
    + apply NoDup_union; [exact N|exact NG|]. intros n H1 H2. apply (sub_walk p g _ W) in H2.
      apply (cf_names _ _ _ CF p n); [|exact H2]. rewrite <- E. intros X. apply assoc_None in X. contradiction.
    + pose proof (node_count p g W). pose proof (cf_size _ _ _ CF). lia.
  - exact HA.
  - intros d H. apply dim_of_iff in H. exact (proj1 (cf_dims _ _ _ CF d H)).
  - intros d H Hi. apply dim_of_iff in H. apply (proj2 (proj2 (cf_dims _ _ _ CF d H))).
    apply (sub_walk [] t d eq_refl). exact Hi.
  - intros v s H. apply (cf_strings _ _ _ CF). exact (all_values_in v H).
  - intros d H. apply dim_of_iff in H. exact (proj1 (proj2 (cf_dims _ _ _ CF d H))).
  - intros v s H. apply (cf_heap _ _ _ CF). exact (all_values_in v H).
  - pose proof (cf_count _ _ _ CF). pose proof calls_total. lia.
Qed.
Lemma calls_clean : tall (fun _ g => Forall (fun x => clean (fst x)) (w_groups g)) [] t.
Proof.
  apply tall_walk. intros p g W. split; [exact (proj2 (proj2 (proj2 (proj2 (node_of p g W)))))|]. apply Forall_forall. intros x Hx.
  apply (group_clean p). apply (sub_walk p g _ W). apply in_map. exact Hx.
Qed.
Lemma calls_marked n v : assoc n (w_vars t) = Some v -> dim_of t n -> hasPrefix n dimMarker = false.
Proof.
  intros E H. apply dim_of_iff in H. destruct (hasPrefix n dimMarker) eqn:P; [|reflexivity]. apply hasPrefix_iff in P. destruct P as (r & P).
  destruct (node_of [] t eq_refl) as (_ & _ & EV & _). exfalso.
  apply (cf_marked _ _ _ CF n H) with (r := r); [|exact P]. rewrite <- EV, E. discriminate.
Qed.
End Calls.
