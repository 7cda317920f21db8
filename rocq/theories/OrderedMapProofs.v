(** OrderedMap refines an insertion-ordered map with a set of hidden keys. *)
From Coq Require Import Permutation Sorted.
From Verif Require Import Prelude BaseLemmas OrderedMapModel.

(** ** Sorting *)
Lemma ble_refl a : ble a a = true.
Proof. induction a as [|x a IH]; cbn; [reflexivity|]. rewrite Z.eqb_refl, IH. apply orb_true_r. Qed.
Lemma ble_total a b : ble a b = true \/ ble b a = true.
Proof.
  revert b; induction a as [|x a IH]; destruct b as [|y b]; cbn; auto.
  destruct (Z.ltb_spec x y); [now left|].
  destruct (Z.ltb_spec y x); [now right|].
  assert (x = y) by lia. subst. rewrite Z.eqb_refl. cbn. apply IH.
Qed.
Lemma ble_antisym a b : ble a b = true -> ble b a = true -> a = b.
Proof.
  revert b; induction a as [|x a IH]; destruct b as [|y b]; cbn; try easy.
  destruct (Z.ltb_spec x y), (Z.ltb_spec y x), (Z.eqb_spec x y), (Z.eqb_spec y x); cbn; try easy; try lia.
  subst. intros. f_equal. now apply IH.
Qed.
Lemma ble_trans a b c : ble a b = true -> ble b c = true -> ble a c = true.
Proof.
  revert b c; induction a as [|x a IH]; destruct b as [|y b]; destruct c as [|z c]; cbn; try easy.
  destruct (Z.ltb_spec x y), (Z.ltb_spec y z), (Z.ltb_spec x z),
    (Z.eqb_spec x y), (Z.eqb_spec y z), (Z.eqb_spec x z); cbn; try easy; try lia.
  intros. now apply IH with b.
Qed.

Lemma binsert_perm x l : Permutation (x :: l) (binsert x l).
Proof.
  induction l as [|y l IH]; cbn; [reflexivity|].
  destruct (ble x y); [reflexivity|].
  rewrite perm_swap. now constructor.
Qed.
Lemma bsort_perm l : Permutation l (bsort l).
Proof.
  induction l as [|x l IH]; cbn; [constructor|].
  rewrite <- binsert_perm. now constructor.
Qed.
Definition bleP a b : Prop := ble a b = true.
Lemma binsert_sorted x l : StronglySorted bleP l -> StronglySorted bleP (binsert x l).
Proof.
  induction 1 as [|y l Hs IH Hy]; cbn.
  - repeat constructor.
  - destruct (ble x y) eqn:E.
    + constructor; [now constructor|]. constructor; [easy|].
      eapply Forall_impl; [|exact Hy]. intros z Hz. now apply ble_trans with y.
    + constructor; [easy|].
      assert (bleP y x) by (destruct (ble_total x y); unfold bleP; congruence).
      eapply Permutation_Forall; [apply binsert_perm|]. now constructor.
Qed.
Lemma bsort_sorted l : StronglySorted bleP (bsort l).
Proof. induction l; cbn; [constructor|now apply binsert_sorted]. Qed.
Lemma sorted_unique a b : StronglySorted bleP a -> StronglySorted bleP b -> Permutation a b -> a = b.
Proof.
  intros Ha. revert b. induction Ha as [|x a Ha IH Hx]; intros b Hb P.
  - now apply Permutation_nil in P.
  - destruct Hb as [|y b Hb Hy].
    + apply Permutation_sym, Permutation_nil in P. easy.
    + assert (x = y).
      { assert (In x (y :: b)) by (eapply Permutation_in; [exact P|now left]).
        assert (In y (x :: a)) by (eapply Permutation_in; [symmetry; exact P|now left]).
        rewrite Forall_forall in Hx, Hy.
        destruct H as [->|H]; [easy|]. destruct H0 as [->|H0]; [easy|].
        apply ble_antisym; [now apply Hx|now apply Hy]. }
      subst. f_equal. apply IH; [easy|]. now apply Permutation_cons_inv in P.
Qed.
Lemma keys_eqb_eq a b : keys_eqb a b = true <-> a = b.
Proof.
  revert b; induction a as [|x a IH]; destruct b as [|y b]; cbn; try easy.
  rewrite andb_true_iff, beqb_eq, IH. split; [intros [-> ->]; easy|intros [= -> ->]; easy].
Qed.
Lemma keys_eqb_sort a b : keys_eqb (bsort a) (bsort b) = true <-> Permutation a b.
Proof.
  rewrite keys_eqb_eq. split.
  - intros E. rewrite (bsort_perm a), E, <- (bsort_perm b). reflexivity.
  - intros P. apply sorted_unique; try apply bsort_sorted.
    now rewrite <- (bsort_perm a), <- (bsort_perm b).
Qed.

Section OMP.
Context {V : Type}.

Lemma new_ordered_map_ok (keys : list bytes) (vals : list (bytes * V)) :
  (exists m, new_ordered_map keys vals = Ok m) <-> Permutation keys (map fst vals).
Proof.
  unfold new_ordered_map. split.
  - intros [m H]. destruct (zlen keys =? zlen vals); [|easy]. cbn in H.
    destruct (keys_eqb (bsort (map fst vals)) (bsort keys)) eqn:E; [|easy].
    apply keys_eqb_sort in E. now symmetry.
  - intros P. pose proof (Permutation_length P) as L. rewrite map_length in L.
    unfold zlen. rewrite L, Z.eqb_refl. cbn.
    symmetry in P. apply keys_eqb_sort in P. rewrite P. cbn. eexists. reflexivity.
Qed.
Lemma new_ordered_map_result (keys : list bytes) (vals : list (bytes * V)) m :
  new_ordered_map keys vals = Ok m -> m = mkOM keys vals keys [].
Proof.
  unfold new_ordered_map. destruct (negb _); [easy|]. destruct (negb _); [easy|]. congruence.
Qed.
Lemma new_ordered_map_err (keys : list bytes) (vals : list (bytes * V)) :
  ~ Permutation keys (map fst vals) -> new_ordered_map keys vals = Err EKeysDontMatch.
Proof.
  intros N. unfold new_ordered_map.
  destruct (zlen keys =? zlen vals); cbn; [|reflexivity].
  destruct (keys_eqb (bsort (map fst vals)) (bsort keys)) eqn:E; cbn; [|reflexivity].
  apply keys_eqb_sort in E. symmetry in E. easy.
Qed.

(** ** Abstract specification: entries in order of first insertion, and a hidden set. *)
Record spec : Type := mkSpec { s_ents : list (bytes * V); s_hid : list bytes }.

Inductive mop : Type := MAdd (k : bytes) (v : V) | MHide (k : bytes).

(** Insert at the end, or replace in place. *)
Fixpoint upsert (k : bytes) (v : V) (l : list (bytes * V)) : list (bytes * V) :=
  match l with
  | [] => [(k, v)]
  | (k', v') :: r => if bytes_dec k k' then (k', v) :: r else (k', v') :: upsert k v r
  end.

Definition spec_step (s : spec) (o : mop) : spec :=
  match o with
  | MAdd k v => mkSpec (upsert k v (s_ents s)) (s_hid s)
  | MHide k => mkSpec (s_ents s) (k :: s_hid s)
  end.

Definition hiddenb (s : spec) (k : bytes) : bool :=
  if in_dec bytes_dec k (s_hid s) then true else false.
Definition spec_keys (s : spec) : list bytes :=
  filter (fun k => negb (hiddenb s k)) (map fst (s_ents s)).
Fixpoint spec_lookup (k : bytes) (l : list (bytes * V)) : option V :=
  match l with
  | [] => None
  | (k', v) :: r => if bytes_dec k k' then Some v else spec_lookup k r
  end.
Definition spec_get (s : spec) (k : bytes) : option V := spec_lookup k (s_ents s).

Definition om_step (m : omap V) (o : mop) : omap V :=
  match o with
  | MAdd k v => om_add m k v
  | MHide k => om_hide m k
  end.

Definition om_run := fold_left om_step.
Definition spec_run := fold_left spec_step.

(** First occurrences only *)
Fixpoint firsts (seen : list bytes) (l : list bytes) : list bytes :=
  match l with
  | [] => []
  | x :: r => if in_dec bytes_dec x seen then firsts seen r else x :: firsts (x :: seen) r
  end.

Lemma upsert_assoc_set k v l : upsert k v l = assoc_set k v l.
Proof.
  induction l as [|[k' v'] l IH]; cbn; [reflexivity|].
  destruct (bytes_dec k k'), (beqb_spec k k'); subst; try easy. now rewrite IH.
Qed.
Lemma spec_lookup_assoc k l : spec_lookup k l = assoc k l.
Proof.
  induction l as [|[k' v'] l IH]; cbn; [reflexivity|].
  destruct (bytes_dec k k'), (beqb_spec k k'); subst; easy.
Qed.
Lemma hiddenb_mem s k : hiddenb s k = mem k (s_hid s).
Proof.
  unfold hiddenb. destruct (in_dec bytes_dec k (s_hid s)) as [H|H].
  - symmetry. now apply mem_In.
  - symmetry. now apply mem_nIn.
Qed.

Lemma firsts_nIn seen l x : In x (firsts seen l) -> ~ In x seen /\ In x l.
Proof.
  revert seen; induction l as [|y l IH]; cbn; [easy|]. intros seen.
  destruct (in_dec bytes_dec y seen).
  - intros H. apply IH in H. tauto.
  - cbn. intros [->|H]; [tauto|]. apply IH in H. cbn in H. tauto.
Qed.
Lemma firsts_NoDup seen l : NoDup (firsts seen l).
Proof.
  revert seen; induction l as [|y l IH]; cbn; [constructor|]. intros seen.
  destruct (in_dec bytes_dec y seen); [apply IH|].
  constructor; [|apply IH]. intros H. apply firsts_nIn in H. cbn in H. tauto.
Qed.
Lemma firsts_ext s1 s2 l : (forall z, In z s1 <-> In z s2) -> firsts s1 l = firsts s2 l.
Proof.
  revert s1 s2; induction l as [|x l IH]; cbn [firsts]; intros s1 s2 H; [reflexivity|].
  destruct (in_dec bytes_dec x s1) as [i|i], (in_dec bytes_dec x s2) as [j|j].
  - now apply IH.
  - exfalso; apply j; now apply H.
  - exfalso; apply i; now apply H.
  - f_equal. apply IH. intros z. cbn. now rewrite H.
Qed.
Lemma firsts_app seen a b : firsts seen (a ++ b) = firsts seen a ++ firsts (rev a ++ seen) b.
Proof.
  revert seen; induction a as [|x a IH]; intros seen; [reflexivity|].
  cbn [firsts app rev].
  destruct (in_dec bytes_dec x seen).
  - rewrite IH. f_equal. apply firsts_ext. intros z. rewrite !in_app_iff. cbn [In].
    split; [tauto|]. intros [[?|[<-|[]]]|?]; tauto.
  - cbn [app]. f_equal. rewrite IH. f_equal. apply firsts_ext. intros z.
    rewrite !in_app_iff. cbn [In]. tauto.
Qed.
Lemma firsts_drop f x s l : f x = false ->
  firsts (x :: s) (filter f l) = firsts s (filter f l).
Proof.
  intros E. revert s; induction l as [|y l IH]; intros s; cbn [filter]; [reflexivity|].
  destruct (f y) eqn:Ey; [|apply IH]. cbn [firsts].
  destruct (in_dec bytes_dec y (x :: s)) as [i|i], (in_dec bytes_dec y s) as [j|j].
  - apply IH.
  - destruct i as [<-|i]; [congruence|easy].
  - exfalso; apply i; now right.
  - f_equal. rewrite <- (IH (y :: s)). apply firsts_ext. intros z; cbn [In]; tauto.
Qed.
Lemma filter_firsts f seen l : filter f (firsts seen l) = firsts seen (filter f l).
Proof.
  revert seen; induction l as [|x l IH]; intros seen; cbn [firsts filter]; [reflexivity|].
  destruct (in_dec bytes_dec x seen) as [i|i].
  - rewrite IH. destruct (f x) eqn:E; [|reflexivity]. cbn [firsts].
    destruct (in_dec bytes_dec x seen); easy.
  - cbn [filter]. destruct (f x) eqn:E.
    + cbn [firsts]. destruct (in_dec bytes_dec x seen); [easy|]. now rewrite IH.
    + rewrite IH. now apply firsts_drop.
Qed.
Lemma firsts_id seen l : NoDup l -> (forall x, In x l -> ~ In x seen) -> firsts seen l = l.
Proof.
  intros ND; revert seen; induction ND as [|x l Hx ND IH]; intros seen H; cbn; [reflexivity|].
  destruct (in_dec bytes_dec x seen) as [i|i].
  - exfalso. apply (H x); [now left|easy].
  - f_equal. apply IH. intros y Hy [->|E]; [easy|]. apply (H y); [now right|easy].
Qed.

(** ** Invariant relating the implementation to the specification *)
Definition rel (m : omap V) (s : spec) : Prop :=
  (forall k, assoc k (om_vals m) = assoc k (s_ents s)) /\
  (forall k, In k (om_hidden m) <-> In k (s_hid s)) /\
  om_visible m = filter (fun k => negb (mem k (om_hidden m))) (om_keys m) /\
  firsts [] (om_visible m) = filter (fun k => negb (mem k (om_hidden m))) (map fst (s_ents s)) /\
  NoDup (map fst (s_ents s)).

Lemma mem_ext a b : (forall k, In k a <-> In k b) -> forall k, mem k a = mem k b.
Proof.
  intros H k. destruct (mem k a) eqn:E; symmetry.
  - apply mem_In, H, mem_In, E.
  - apply mem_nIn. rewrite <- H. now apply mem_nIn.
Qed.

Lemma filter_filter_and {A} (f g : A -> bool) l :
  filter f (filter g l) = filter (fun x => g x && f x) l.
Proof.
  induction l as [|x l IH]; cbn; [reflexivity|].
  destruct (g x); cbn; [|easy]. destruct (f x); now rewrite IH.
Qed.

Lemma NoDup_snoc {A} (l : list A) x : NoDup l -> ~ In x l -> NoDup (l ++ [x]).
Proof.
  intros H N. apply (Permutation_NoDup (l := x :: l)).
  - apply Permutation_cons_append.
  - now constructor.
Qed.

Lemma rel_add m s k v : rel m s -> rel (om_add m k v) (spec_step s (MAdd k v)).
Proof.
  intros (Hv & Hh & Hvis & Hf & ND). unfold om_add. cbn [spec_step].
  assert (ND' : NoDup (map fst (upsert k v (s_ents s)))).
  { rewrite upsert_assoc_set, assoc_set_keys. destruct (mem k _) eqn:E; [easy|].
    apply NoDup_snoc; [easy|]. now apply mem_nIn. }
  assert (Hget : forall k0, assoc k0 (assoc_set k v (om_vals m)) = assoc k0 (upsert k v (s_ents s))).
  { intros k0. rewrite upsert_assoc_set. destruct (bytes_dec k0 k) as [->|N].
    - now rewrite !assoc_set_same.
    - rewrite !assoc_set_other by easy. apply Hv. }
  destruct (mem k (om_hidden m)) eqn:E.
  - split; [exact Hget|]. split; [exact Hh|]. split; [exact Hvis|]. split; [|exact ND'].
    cbn [om_visible s_ents om_hidden]. rewrite Hf, upsert_assoc_set, assoc_set_keys.
    destruct (mem k (map fst (s_ents s))); [reflexivity|].
    rewrite filter_app. cbn. rewrite E. cbn. now rewrite app_nil_r.
  - split; [exact Hget|]. split; [exact Hh|]. split; [|split; [|exact ND']].
    + cbn [om_visible om_keys om_hidden]. rewrite filter_app, <- Hvis. cbn. now rewrite E.
    + cbn [om_visible s_ents om_hidden]. rewrite firsts_app, Hf, app_nil_r.
      rewrite upsert_assoc_set, assoc_set_keys.
      assert (Hin : In k (rev (om_visible m)) <-> In k (map fst (s_ents s))).
      { rewrite <- in_rev. split; intros H.
        - assert (In k (firsts [] (om_visible m))).
          { clear -H. assert (G : forall l seen, In k l -> ~ In k seen -> In k (firsts seen l)).
            { induction l as [|x l IH]; cbn; [easy|]. intros seen [->|Hx] N.
              - destruct (in_dec bytes_dec k seen); [easy|now left].
              - destruct (in_dec bytes_dec x seen); [now apply IH|].
                destruct (bytes_dec x k); [now left|right]. apply IH; [easy|]. cbn. tauto. }
            now apply G. }
          rewrite Hf in H0. now apply filter_In in H0.
        - assert (In k (firsts [] (om_visible m))) by (rewrite Hf; apply filter_In; now rewrite E).
          now apply firsts_nIn in H0. }
      cbn [firsts]. destruct (in_dec bytes_dec k (rev (om_visible m))) as [i|i].
      * apply Hin in i. apply mem_In in i. rewrite i. apply app_nil_r.
      * rewrite Hin in i. apply mem_nIn in i. rewrite i. rewrite filter_app. cbn. now rewrite E.
Qed.

Lemma rel_hide m s k : rel m s -> rel (om_hide m k) (spec_step s (MHide k)).
Proof.
  intros (Hv & Hh & Hvis & Hf & ND).
  set (hid := if mem k (om_hidden m) then om_hidden m else k :: om_hidden m).
  assert (Hhid : forall x, In x hid <-> x = k \/ In x (om_hidden m)).
  { intros x. unfold hid. destruct (mem k (om_hidden m)) eqn:E.
    - apply mem_In in E. split; [tauto|]. intros [->|?]; easy.
    - cbn. split; intros [?|?]; auto. }
  split; [exact Hv|]. split.
  { intros x. cbn [om_hide om_hidden spec_step s_hid]. fold hid. rewrite Hhid, Hh. cbn.
    split; intros [?|?]; auto. }
  split; [reflexivity|]. split; [|exact ND].
  cbn [om_hide om_visible om_hidden spec_step s_ents]. fold hid.
  assert (Ef : forall l, filter (fun x => negb (mem x hid)) l =
           filter (fun x => negb (beqb x k)) (filter (fun x => negb (mem x (om_hidden m))) l)).
  { intros l. rewrite filter_filter_and. apply filter_ext. intros x.
    destruct (mem x hid) eqn:E1, (mem x (om_hidden m)) eqn:E2, (beqb_spec x k); cbn; try easy.
    - apply mem_In, Hhid in E1. apply mem_nIn in E2. tauto.
    - apply mem_nIn in E1. rewrite Hhid in E1. apply mem_In in E2. tauto.
    - apply mem_nIn in E1. rewrite Hhid in E1. apply mem_In in E2. tauto.
    - apply mem_nIn in E1. rewrite Hhid in E1. tauto. }
  rewrite !Ef, <- Hvis, <- Hf. symmetry. apply filter_firsts.
Qed.

Lemma rel_run ops m s : rel m s -> rel (om_run ops m) (spec_run ops s).
Proof.
  revert m s; induction ops as [|o ops IH]; intros m s H; cbn; [exact H|].
  apply IH. destruct o; [now apply rel_add|now apply rel_hide].
Qed.

Lemma rel_init keys vals m : NoDup (map fst vals) -> new_ordered_map keys vals = Ok m ->
  exists ents, map fst ents = keys /\ Permutation ents vals /\ rel m (mkSpec ents []).
Proof.
  intros ND H. pose proof H as H1. apply new_ordered_map_result in H1. subst m.
  assert (P : Permutation keys (map fst vals)) by (apply new_ordered_map_ok; eauto).
  assert (exists ents, map fst ents = keys /\ Permutation ents vals) as (ents & E & P1).
  { apply Permutation_map_inv in P. destruct P as (l & E & P).
    exists l. split; [now symmetry|now symmetry]. }
  exists ents. split; [easy|]. split; [easy|].
  assert (NDk : NoDup keys) by (eapply Permutation_NoDup; [symmetry; exact P|exact ND]).
  assert (NDe : NoDup (map fst ents)) by (now rewrite E).
  repeat split; cbn [om_vals om_hidden om_visible om_keys s_ents s_hid] in *; auto.
  - intros k. destruct (assoc k vals) as [v|] eqn:Ev.
    + symmetry. apply In_assoc; [easy|]. eapply Permutation_in; [symmetry; exact P1|].
      now apply assoc_Some_In.
    + symmetry. apply assoc_None. apply assoc_None in Ev. intros Hk. apply Ev.
      eapply Permutation_in; [apply Permutation_map; exact P1|exact Hk].
  - cbn. induction keys; cbn; [reflexivity|]. f_equal. 
    clear -keys. induction keys; cbn; [reflexivity|]. now f_equal.
  - rewrite E. rewrite firsts_id by (try easy; intros ? ? []).
    cbn. clear. induction keys; cbn; [reflexivity|]. now f_equal.
Qed.

(** When no visible key is added again there are no duplicates at all. *)
Definition add_ok (s : spec) (o : mop) : Prop :=
  match o with
  | MAdd k _ => In k (s_hid s) \/ ~ In k (map fst (s_ents s))
  | MHide _ => True
  end.
Fixpoint adds_ok (s : spec) (ops : list mop) : Prop :=
  match ops with
  | [] => True
  | o :: r => add_ok s o /\ adds_ok (spec_step s o) r
  end.

Lemma visible_nodup ops m s : rel m s -> NoDup (om_visible m) -> adds_ok s ops ->
  NoDup (om_visible (om_run ops m)).
Proof.
  revert m s; induction ops as [|o ops IH]; intros m s R ND H; cbn; [exact ND|].
  destruct H as [Ho Hr]. apply IH with (spec_step s o); auto.
  - destruct o; [now apply rel_add|now apply rel_hide].
  - destruct R as (Hv & Hh & Hvis & Hf & NDs).
    destruct o as [k v|k]; cbn [om_step] in *.
    + unfold om_add. destruct (mem k (om_hidden m)) eqn:E; [exact ND|].
      cbn [om_visible]. apply NoDup_snoc; [exact ND|].
      cbn in Ho. destruct Ho as [Ho|Ho].
      * apply Hh in Ho. apply mem_nIn in E. easy.
      * intros Hk. apply Ho. rewrite firsts_id in Hf by (try easy; intros ? ? []).
        rewrite Hf in Hk. now apply filter_In in Hk.
    + unfold om_hide. cbn [om_visible].
      assert (NoDup (om_visible m)) by easy. rewrite Hvis in H.
      set (hid := if mem k (om_hidden m) then om_hidden m else k :: om_hidden m).
      replace (filter (fun k0 => negb (mem k0 hid)) (om_keys m))
        with (filter (fun x => negb (beqb x k)) (filter (fun k0 => negb (mem k0 (om_hidden m))) (om_keys m))).
      * now apply NoDup_filter.
      * rewrite filter_filter_and. apply filter_ext. intros x. unfold hid.
        destruct (mem k (om_hidden m)) eqn:Ek.
        { destruct (mem x (om_hidden m)) eqn:Ex; [reflexivity|]. cbn.
          destruct (beqb_spec x k); [subst; congruence|reflexivity]. }
        { change (mem x (k :: om_hidden m)) with (beqb x k || mem x (om_hidden m)).
          destruct (beqb x k), (mem x (om_hidden m)); reflexivity. }
Qed.

End OMP.

(** ** Forms used by the property file *)
Lemma enumerates_perm {A} (keys l : list A) : NoDup l ->
  (Permutation keys l <-> NoDup keys /\ forall k, In k keys <-> In k l).
Proof.
  intros ND. split.
  - intros P. split; [eapply Permutation_NoDup; [symmetry; exact P|easy]|].
    intros k. split; apply Permutation_in; [easy|now symmetry].
  - intros [N H]. now apply NoDup_Permutation.
Qed.

Lemma new_ordered_map_exactly {V} (keys : list bytes) (vals : list (bytes * V)) :
  NoDup (map fst vals) ->
  ((exists m, new_ordered_map keys vals = Ok m) <->
   (NoDup keys /\ forall k, In k keys <-> In k (map fst vals))) /\
  (~ (NoDup keys /\ forall k, In k keys <-> In k (map fst vals)) ->
   new_ordered_map keys vals = Err EKeysDontMatch).
Proof.
  intros ND. rewrite <- enumerates_perm by exact ND. split.
  - apply new_ordered_map_ok.
  - apply new_ordered_map_err.
Qed.

Lemma om_history {V} (keys : list bytes) (vals : list (bytes * V)) m ops :
  NoDup (map fst vals) -> new_ordered_map keys vals = Ok m ->
  exists ents, map fst ents = keys /\ Permutation ents vals /\
    let s := spec_run ops (mkSpec ents []) in
    (forall k, om_get (om_run ops m) k = spec_get s k) /\
    firsts [] (om_keys_visible (om_run ops m)) = spec_keys s /\
    (adds_ok (mkSpec ents []) ops -> om_keys_visible (om_run ops m) = spec_keys s).
Proof.
  intros ND H. pose proof (enumerates_perm keys _ ND) as HP.
  destruct (rel_init keys vals m ND H) as (ents & E & P & R).
  exists ents. split; [easy|]. split; [easy|]. intros s.
  pose proof (rel_run ops _ _ R) as R'. fold s in R'.
  assert (F : firsts [] (om_visible (om_run ops m)) = spec_keys s).
  { destruct R' as (_ & Hh & _ & Hf & _). rewrite Hf. unfold spec_keys. apply filter_ext.
    intros k. rewrite hiddenb_mem. f_equal. now apply mem_ext. }
  split; [|split].
  - intros k. unfold om_get, spec_get. rewrite spec_lookup_assoc. apply R'.
  - exact F.
  - intros HA. unfold om_keys_visible. rewrite <- F. symmetry. apply firsts_id; [|easy].
    apply visible_nodup with (mkSpec ents []); auto.
    apply new_ordered_map_result in H. subst m. cbn.
    apply (Permutation_NoDup (l := map fst vals)); [|easy].
    rewrite <- E. apply Permutation_map. now symmetry.
Qed.

Lemma om_nodup {V} (keys : list bytes) (vals : list (bytes * V)) m ops :
  NoDup (map fst vals) -> new_ordered_map keys vals = Ok m ->
  (forall ents, map fst ents = keys -> adds_ok (mkSpec ents []) ops) ->
  NoDup (om_keys_visible (om_run ops m)).
Proof.
  intros ND H HA. destruct (om_history keys vals m ops ND H) as (ents & E & P & _ & F & G).
  rewrite (G (HA ents E)). rewrite <- F. apply firsts_NoDup.
Qed.

Lemma om_example :
  let vals := [(bs "b", 1); (bs "a", 2)] in
  let keys := [bs "a"; bs "b"] in
  let ops := [MAdd (bs "c") 3; MHide (bs "a"); MAdd (bs "a") 4] in
  NoDup (map fst vals) /\
  exists m, new_ordered_map keys vals = Ok m /\ adds_ok (mkSpec [(bs "a", 2); (bs "b", 1)] []) ops /\
    om_keys_visible (om_run ops m) = [bs "b"; bs "c"] /\ om_get (om_run ops m) (bs "a") = Some 4.
Proof.
  cbn zeta. split.
  - repeat constructor; cbn; intuition easy.
  - eexists. split; [reflexivity|]. split; [|split; reflexivity].
    cbn. intuition easy.
Qed.

Lemma om_dup_witness : exists (m : omap Z) ops,
  new_ordered_map [] [] = Ok m /\ ~ NoDup (om_keys_visible (om_run ops m)).
Proof.
  exists (mkOM [] [] [] []), [MAdd (bs "a") 1; MAdd (bs "a") 2]. split; [reflexivity|].
  vm_compute. intros H. inversion H; subst. apply H2. now left.
Qed.

Lemma om_nodup_example :
  forall ents : list (bytes * Z), map fst ents = [bs "a"] ->
  adds_ok (mkSpec ents []) [MAdd (bs "c") 3; MHide (bs "a"); MAdd (bs "a") 4].
Proof.
  intros [|[k v] [|? ?]] E; cbn in E; try easy. inversion E; subst. cbn. intuition easy.
Qed.
