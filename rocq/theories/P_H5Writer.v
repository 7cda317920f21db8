(** C35, C36 and C62: histories of calls on the HDF5 writer. *)
From Verif Require Import Prelude BaseLemmas GoVal ValidNameModel H5MetaWrite H5Value H5FileWrite H5WriterModel
  WriterSpec H5StoreProofs H5WriterProofs.
From Coq Require Import Lia ZifyBool ZifyNat Permutation.

(** ** C35 *)

(** Whatever calls were made through whatever writers, the tree that Close writes is the one
    that the successful calls describe: the groups made, the last attributes given to each, the
    last variable given under each name, and nothing else. *)
Theorem C35_tree_of_maps U big pick ops s outs :
  run U big pick open_writer ops = (s, outs) -> described (events ops outs) (content s).
Proof. apply run_described. Qed.

(** A call that returns an error changes nothing (Close apart, which closes the writer). *)
Theorem C35_rejected_no_effect U big pick s o s' e :
  step U big pick s o = (s', Err e) -> match o with OClose _ => True | _ => s' = s end.
Proof. apply rejected. Qed.

Lemma supported_storable v : supported v = true <-> storable v.
Proof.
  induction v as [k z|s|fs IH|b|v ns vs IH|t l IH|] using hval_ind'; cbn [supported].
  - split; [constructor|reflexivity].
  - split; [constructor|reflexivity].
  - split.
    + intros H. constructor. revert H. induction IH as [|[n x] r Hx _ IHr]; intros H; constructor;
        apply andb_true_iff in H; destruct H as [A B]; [apply Hx; exact A|apply IHr; exact B].
    + intros H. inversion H as [| | |fs' F| | |]; subst. clear H. revert F.
      induction IH as [|[n x] r Hx _ IHr]; intros F; [reflexivity|].
      inversion F as [|y ys A B]; subst. apply andb_true_iff. split; [apply Hx; exact A|apply IHr; exact B].
  - split; [constructor|reflexivity].
  - rewrite IH. split; [constructor; assumption|]. intros H. inversion H; assumption.
  - destruct l as [|x r].
    + split.
      * intros H. constructor. intros E. rewrite E in H. discriminate.
      * intros H. inversion H as [| | | | |t' Ht|]; subst. destruct (leaf_ty t); try reflexivity. congruence.
    + inversion IH as [|y ys A B]; subst. rewrite A. split; [constructor; assumption|].
      intros H. inversion H; assumption.
  - split; [discriminate|]. intros H. inversion H.
Qed.

(** Which calls are accepted: those with valid names and values that can be stored. *)
Definition attrs_fine (U : ucd) (a : option hattrs) : Prop :=
  forall k v, In (k, v) (attr_list a) -> valid_name U k = true /\ storable v.
Lemma attrs_fine_iff U a : hasValidNames U a = true /\ attrs_supported a = true <-> attrs_fine U a.
Proof.
  unfold hasValidNames, attrs_supported, attrs_fine. rewrite !forallb_forall. split.
  - intros [A B] k v H. split; [exact (A _ H)|]. apply supported_storable. exact (B _ H).
  - intros H. split; intros [k v] Hx; destruct (H k v Hx) as [A B]; [exact A|].
    apply supported_storable. exact B.
Qed.
Theorem C35_accepted U big pick s o w g G :
  op_writer o = w -> nth_error (st_writers s) w = Some g -> nth_error (st_groups s) g = Some G ->
  (exists x, snd (step U big pick s o) = Ok x) <->
  match o with
  | OAttrs _ a => attrs_fine U a
  | OVar _ n v _ a => valid_name U n = true /\ storable v /\ attrs_fine U a
  | OGroup _ n => valid_name U n = true
  | OClose O => st_closed s = true \/ exists b, render big pick (content s) = Ok b
  | OClose (S _) => True
  end.
Proof.
  intros <- Hw HG. unfold step. rewrite Hw, HG. destruct o as [w a|w n v d a|w n|w].
  - unfold add_attributes. rewrite <- attrs_fine_iff.
    destruct (hasValidNames U a), (attrs_supported a); cbn [negb snd]; split; intros H;
      try (destruct H; congruence); try (eexists; reflexivity); auto.
  - unfold add_var. rewrite <- attrs_fine_iff, <- supported_storable.
    destruct (valid_name U n), (hasValidNames U a), (supported v), (attrs_supported a); cbn [negb snd];
      split; intros H; try (destruct H; congruence); try (destruct H as (? & ? & ? & ?); congruence);
      try (eexists; reflexivity); auto.
  - unfold create_group. destruct (valid_name U n); cbn [negb].
    + split; [reflexivity|]. intros _. destruct (assoc n (hg_groups G)); eexists; reflexivity.
    + split; [|discriminate]. intros [x H]. discriminate.
  - destruct w as [|w].
    + unfold close_root. destruct (st_closed s).
      * split; [auto|]. intros _. eexists. reflexivity.
      * destruct (render big pick (content s)) as [b|e|]; cbn [snd]; split.
        -- intros _. right. exists b. reflexivity.
        -- intros _. eexists. reflexivity.
        -- intros [x H]. discriminate.
        -- intros [H|[b H]]; discriminate.
        -- intros [x H]. discriminate.
        -- intros [H|[b H]]; discriminate.
    + split; [auto|]. intros _. eexists. reflexivity.
Qed.

(** Two writers for the same group, a replaced variable, attributes set twice and a rejected
    name *)
Definition ex_ops : list wop :=
  [ OGroup 0 (bs "g"); OGroup 1 (bs "h"); OVar 1 (bs "x") (HNum I32 7) [] None; OGroup 0 (bs "g");
    OVar 3 (bs "x") (HSlice (TNum I16) [HNum I16 1; HNum I16 2]) [bs "t"] (Some [(bs "units", HStr (bs "m"))]);
    OVar 2 (bs "1/2") (HNum I32 7) [] None; OVar 0 (bs "y") HOther [] None;
    OAttrs 2 (Some [(bs "a", HNum U8 1)]); OAttrs 2 (Some [(bs "b", HStr (bs "z"))]) ].
Example C35_example :
  let (s, outs) := run ucd_example false in_order open_writer ex_ops in
  outs = [Ok (Some 1%nat); Ok (Some 2%nat); Ok None; Ok (Some 3%nat); Ok None; Err EInvalidName;
          Err EUnsupportedType; Ok None; Ok None] /\
  content s =
    WNode (Some []) []
      [(bs "g", WNode None [(bs "x", mkHvar (HSlice (TNum I16) [HNum I16 1; HNum I16 2]) [bs "t"]
                                       (Some [(bs "units", HStr (bs "m"))]) false)]
                  [(bs "h", WNode (Some [(bs "b", HStr (bs "z"))]) [] [])])].
Proof. vm_compute. split; reflexivity. Qed.

(** ** C36 *)

Lemma root_writer gs ws ps es : inv gs ws ps es -> nth_error ps 0 = Some [] ->
  exists g, nth_error ws 0 = Some g /\ exists G, nth_error gs g = Some G.
Proof.
  intros [W F _ _] H. destruct F as [|g p ws ps Hg F]; [discriminate|].
  exists g. split; [reflexivity|]. pose proof (resolve_lt _ _ _ W Hg) as Hl.
  destruct (nth_error gs g) as [G|] eqn:EG; [exists G; reflexivity|].
  apply nth_error_None in EG. lia.
Qed.

(** The first Close writes the tree of that moment; whatever is called afterwards, the file
    stays as it is and every further Close returns nil. *)
Theorem C36_close_once U big pick ops s outs s1 x :
  run U big pick open_writer ops = (s, outs) -> step U big pick s (OClose 0) = (s1, x) ->
  forall ops' s2 outs', run U big pick s1 ops' = (s2, outs') ->
  st_file s2 = st_file s1 /\ step U big pick s2 (OClose 0) = (s2, Ok None).
Proof.
  intros Hr H1 ops' s2 outs' H2.
  assert (W : forall ops s s' xs ps es, inv (st_groups s) (st_writers s) ps es -> covered es ->
            nth_error ps 0 = Some [] -> run U big pick s ops = (s', xs) ->
            exists ps' es', inv (st_groups s') (st_writers s') ps' es' /\ covered es' /\ nth_error ps' 0 = Some []).
  { clear. induction ops as [|o r IH]; intros s s' xs ps es I Hc H0 E; cbn [run] in E.
    - injection E as <- <-. exists ps, es. auto.
    - destruct (step U big pick s o) as [s1 x1] eqn:E1. destruct (run U big pick s1 r) as [s2 ys] eqn:E2.
      injection E as <- <-. destruct (step_inv _ _ _ _ _ _ _ _ _ I Hc E1) as (A & B & _).
      cbv zeta in A, B. eapply IH; [exact A|exact B| |exact E2].
      unfold observe. destruct x1; try exact H0. destruct (nth_error ps (op_writer o)); [|exact H0].
      destruct o; cbn [fst]; try exact H0. destruct ps; [discriminate|exact H0]. }
  destruct (W ops open_writer s outs [[]] [] inv_open ltac:(intros e []) eq_refl Hr) as (ps & es & I & Hc & H0).
  assert (Hs1 : run U big pick s [OClose 0] = (s1, [x])) by (cbn [run]; rewrite H1; reflexivity).
  destruct (W _ _ _ _ _ _ I Hc H0 Hs1) as (ps1 & es1 & I1 & Hc1 & H01).
  destruct (W _ _ _ _ _ _ I1 Hc1 H01 H2) as (ps2 & es2 & I2 & Hc2 & H02).
  assert (C1 : st_closed s1 = true).
  { revert H1. unfold step. cbn [op_writer].
    assert (exists g, nth_error (st_writers s) 0 = Some g /\ exists G, nth_error (st_groups s) g = Some G) as (g & -> & G & ->).
    { exact (root_writer _ _ _ _ I H0). }
    unfold close_root. destruct (st_closed s) eqn:Ec.
    - intros E. injection E as <- _. exact Ec.
    - destruct (render big pick (content s)); intros E; injection E as <- _; reflexivity. }
  destruct (run_closed _ _ _ _ _ _ _ C1 H2) as [C2 F2]. split; [exact F2|].
  unfold step. cbn [op_writer].
  assert (exists g, nth_error (st_writers s2) 0 = Some g /\ exists G, nth_error (st_groups s2) g = Some G) as (g & -> & G & ->).
  { exact (root_writer _ _ _ _ I2 H02). }
  unfold close_root. rewrite C2. reflexivity.
Qed.

(** Closing a group writer returns nil and changes nothing. *)
Theorem C36_group_close U big pick s w g G :
  nth_error (st_writers s) (S w) = Some g -> nth_error (st_groups s) g = Some G ->
  step U big pick s (OClose (S w)) = (s, Ok None).
Proof. intros A B. unfold step. cbn [op_writer]. rewrite A, B. reflexivity. Qed.

Example C36_example :
  let ops := ex_ops ++ [OClose 1; OClose 0; OVar 0 (bs "late") (HNum I8 1) [] None; OClose 0] in
  let (s, outs) := run ucd_example false in_order open_writer ops in
  let (s', _) := run ucd_example false in_order open_writer (ex_ops ++ [OClose 0]) in
  skipn 9 outs = [Ok None; Ok None; Ok None; Ok None] /\
  zlen (st_file s) = 4976 /\ beqb (st_file s) (st_file s') = true.
Proof. vm_compute. split; [|split]; reflexivity. Qed.

(** ** C62 *)

(** The Close that closes the writer, if it returns nil, has written the tree. *)
Theorem C62_first_close_partial U big pick ops s outs s1 x :
  run U big pick open_writer ops = (s, outs) -> st_closed s = false ->
  step U big pick s (OClose 0) = (s1, Ok x) ->
  described (events ops outs) (content s) /\ render big pick (content s) = Ok (st_file s1).
Proof.
  intros Hr Hc H. split; [exact (run_described _ _ _ _ _ _ Hr)|]. revert H. unfold step.
  destruct (nth_error (st_writers s) _) as [g|]; [|discriminate].
  destruct (nth_error (st_groups s) g) as [G|]; [|discriminate].
  unfold close_root. rewrite Hc. destruct (render big pick (content s)); try discriminate.
  intros E. injection E as <- _. reflexivity.
Qed.

(** A Close that fails leaves the writer closed and the file empty; the next Close returns nil. *)
Theorem C62_nil_close_refuted : exists ops,
  forall pick, let (s, outs) := run ucd_example false pick open_writer ops in
  outs = [Ok None; Panic; Ok None] /\ st_file s = [].
Proof.
  exists [OAttrs 0 None; OClose 0; OClose 0]. intros pick. vm_compute. split; reflexivity.
Qed.
Definition ex_bad : hval :=
  HSlice TComp [HComp [(bs "s", HSlice TStr [HStr (bs "a")])]].
Theorem C62_error_then_nil_refuted : exists ops,
  let (s, outs) := run ucd_example false in_order open_writer ops in
  outs = [Ok None; Err EUnsupportedType; Ok None] /\ st_file s = [].
Proof.
  exists [OVar 0 (bs "x") ex_bad [bs "t"] None; OClose 0; OClose 0]. vm_compute. split; reflexivity.
Qed.

Print Assumptions C35_tree_of_maps.
Print Assumptions C35_rejected_no_effect.
Print Assumptions C35_accepted.
Print Assumptions C36_close_once.
Print Assumptions C36_group_close.
Print Assumptions C62_first_close_partial.
Print Assumptions C62_nil_close_refuted.
Print Assumptions C62_error_then_nil_refuted.
