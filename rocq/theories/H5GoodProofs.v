(** Variables and attributes are read back from the places where the
    writer put them. *)
From Verif Require Import Prelude GoVal OrderedMapModel ArraySpec H5Base H5MetaWrite H5MetaRead H5Value H5TypeRead
  H5FileWrite H5PathModel H5LayoutModel H5RecordModel H5FileRead MetaSpec TypeSpec FileSpec BaseLemmas
  H5MetaProofs H5TypeProofs H5DataProofs H5StoreProofs H5VarProofs H5AttrProofs H5ObjectProofs
  H5TreeProofs H5HeapProofs H5AttrSeqProofs.
From Coq Require Import Lia ZifyBool ZifyNat.

(** ** Shapes *)
Lemma dims_told s dims : shape_told dims -> forall v, array_of s dims v ->
  getDimsLimited (List.length dims) v = dims.
Proof.
  unfold shape_told. induction dims as [|n ds IH]; intros Hp v H; cbn [array_of] in H.
  - destruct s as [k| |n|k ns vs|fs|s]; destruct H as (z & -> & H); try reflexivity.
  - destruct H as (l & -> & Hl & H). destruct ds as [|m ds].
    + cbn [List.length getDimsLimited]. destruct l as [|x r]; [change (zlen (@nil hval)) with 0 in Hl; congruence|].
      inversion H as [|x' r' Hx Hr]; subst x' r'. f_equal; [exact Hl|].
      exact (IH (Forall_nil _) x Hx).
    + cbn [removelast] in Hp. inversion Hp as [|? ? P1 P2]; subst x l0. destruct l as [|x r].
      { change (zlen (@nil hval)) with 0 in Hl. lia. }
      inversion H as [|x' r' Hx Hr]; subst x' r'.
      change (getDimsLimited (List.length (n :: m :: ds)) (HSlice (nested (List.length (m :: ds)) (go_type s)) (x :: r)))
        with (zlen (x :: r) :: getDimsLimited (List.length (m :: ds)) x).
      rewrite (IH P2 x Hx). congruence.
Qed.
Lemma removelast_In {A} (x : A) l : In x (removelast l) -> In x l.
Proof.
  induction l as [|y l IH]; [contradiction|]. destruct l as [|z l]; [contradiction|].
  intros [H|H]; [left; exact H|right; apply IH; exact H].
Qed.
Lemma told_pos dims : Forall (fun n => 0 < n) dims -> shape_told dims.
Proof.
  intros H. apply Forall_forall. intros x Hx. rewrite Forall_forall in H. apply H, removelast_In, Hx.
Qed.

Definition plain_type (s : sty) : Prop := s = SStr \/ exists k, s = SNum k.
Lemma plain_novlen s : plain_type s -> novlen s = true.
Proof. intros [->|(k & ->)]; reflexivity. Qed.
Lemma plain_var s : plain_type s -> var_type s.
Proof. intros [->|(k & ->)]; split; try exact I; left; reflexivity. Qed.
Lemma plain_value s dims v : plain_type s -> array_of s dims v -> value_of s dims v.
Proof. intros [->|(k & ->)] H; exact H. Qed.
Lemma plain_shape s dims v : plain_type s -> (s = SStr -> dims <> []) -> shape_ok s dims v.
Proof. intros [->|(k & ->)] H; [apply H; reflexivity|exact I]. Qed.
Lemma plain_size s : plain_type s -> 0 < size_of s <= 16.
Proof. intros [->|(k & ->)]; [cbn; lia|]. destruct k; cbn; lia. Qed.
Lemma plain_message s : plain_type s -> sdt s <> [] /\ zlen (sdt s) <= 40.
Proof. intros [->|(k & ->)]; [|destruct k]; (split; [discriminate|vm_compute; discriminate]). Qed.
Lemma plain_kept s : plain_type s -> kept (describe s) = true.
Proof. intros [->|(k & ->)]; [reflexivity|]. destruct k; reflexivity. Qed.

(** What reflect takes for the length of an element *)
Definition elem_klen (s : sty) : option Z := match s with SComp fs => Some (zlen fs) | SOpaque n => Some n | _ => None end.
Definition cvfFields := fix go (h : heapst) (fs : list (bytes * hval)) : res (heapst * list Z) :=
  match fs with
  | [] => Ok (h, [])
  | (_, x) :: r =>
      let* (h, is) :=
        match x with
        | HSlice _ l => let* (h, i) := serializeVlen false h l in Ok (h, [i])
        | _ => collectVlenFromValue false h x
        end in
      let* (h, js) := go h r in
      Ok (h, is ++ js)
  end.
Lemma elem_no_seq s : novlen s = true -> forall v, conf s v ->
  (match v with HSlice _ _ => False | _ => True end) /\ forall h, collectVlenFromValue false h v = Ok (h, []).
Proof.
  induction s as [k| |n|k ns vs|fs IH|s IH] using sty_ind'; intros Hn v H; try discriminate;
    try (destruct H as (z & -> & _); split; [exact I|reflexivity]).
  apply (proj1 (conf_comp _ _)) in H. destruct H as (l & -> & H). split; [exact I|]. intros h.
  change (collectVlenFromValue false h (HComp l)) with (cvfFields h l). rewrite novlen_comp in Hn.
  revert l H Hn h. induction IH as [|[nm s] fs Hs _ IHf]; intros [|[nm' x] l] H Hn h; cbn [conf_fields] in H; try contradiction; [reflexivity|].
  destruct H as (-> & Hx & H). cbn [novlen_fields] in Hn. apply andb_true_iff in Hn. destruct Hn as [N1 N2]. cbn [snd] in Hs.
  destruct (Hs N1 x Hx) as [A B]. cbn [cvfFields].
  replace (match x with HSlice _ l0 => let* (h1, i) := serializeVlen false h l0 in Ok (h1, [i]) | _ => collectVlenFromValue false h x end)
    with (Ok (h, @nil Z)) by (destruct x; try contradiction; rewrite <- (B h); reflexivity).
  cbn [rbind]. rewrite (IHf l H N2 h). reflexivity.
Qed.
Lemma conf_klen s v : novlen s = true -> conf s v -> klen v = elem_klen s /\ attrDims v = [] /\ attrDimsIn v = [].
Proof.
  intros Hn H. destruct s as [k| |n|k ns vs|fs|s]; try discriminate;
    try (destruct H as (z & -> & H); cbn [klen elem_klen]; repeat split; f_equal; exact H).
  apply (proj1 (conf_comp _ _)) in H. destruct H as (l & -> & H). cbn [klen elem_klen]. split; [|split; reflexivity]. f_equal. clear Hn.
  revert l H. induction fs as [|[nm s] fs IH]; intros [|[nm' x] l] H; cbn [conf_fields] in H; try contradiction; [reflexivity|].
  rewrite !zlen_cons. f_equal. apply IH. apply H.
Qed.

Lemma array_klen s dims : novlen s = true -> forall v, array_of s dims v ->
  klen v = match dims with [] => elem_klen s | n :: _ => Some n end.
Proof.
  intros Hs v H. destruct dims as [|n ds]; cbn [array_of] in H.
  - apply (conf_klen s v Hs H).
  - destruct H as (l & -> & Hl & _). cbn [klen]. congruence.
Qed.
Lemma array_varying s dims l : novlen s = true -> Forall (array_of s dims) l -> varying l = false.
Proof.
  intros Hs H. destruct H as [|x r Hx Hr]; [reflexivity|]. unfold varying.
  rewrite (array_klen s dims Hs x Hx). set (o := match dims with [] => elem_klen s | n :: _ => Some n end).
  assert (E : forall y, In y r -> klen y = o).
  { intros y Hy. rewrite Forall_forall in Hr. exact (array_klen s dims Hs y (Hr y Hy)). }
  destruct o as [n|]; [|reflexivity]. clear - E.
  induction r as [|y r IH]; [reflexivity|]. cbn [existsb]. rewrite (E y (or_introl eq_refl)), Z.eqb_refl.
  apply IH. intros z Hz. apply E. right. exact Hz.
Qed.
Lemma attr_dims s dims : novlen s = true -> Forall (fun n => 0 < n) dims -> forall v, array_of s dims v ->
  attrDimsIn v = dims.
Proof.
  intros Hs. induction dims as [|n ds IH]; intros Hp v H.
  - apply (conf_klen s v Hs H).
  - cbn [array_of] in H. destruct H as (l & -> & Hl & H). inversion Hp as [|? ? P1 P2]; subst x l0.
    destruct l as [|x r]; [change (zlen (@nil hval)) with 0 in Hl; lia|].
    cbn [attrDimsIn]. rewrite (array_varying s ds (x :: r) Hs H). inversion H as [|? ? H1 H2]; subst x0 l.
    rewrite (IH P2 x H1). congruence.
Qed.
Lemma attr_dims' s dims v : novlen s = true -> Forall (fun n => 0 < n) dims -> array_of s dims v -> attrDims v = dims.
Proof.
  intros Hs Hp H. pose proof (attr_dims s dims Hs Hp v H) as E. destruct dims as [|n ds].
  - apply (conf_klen s v Hs H).
  - cbn [array_of] in H. destruct H as (l & -> & _). exact E.
Qed.
Lemma attr_dims_value s dims v : novlen s = true -> Forall (fun n => 0 < n) dims -> value_of s dims v -> attrDims v = dims.
Proof.
  intros Hn Hp H. destruct s as [k| |n|k ns vs|fs|s]; cbn [value_of] in H; try (eapply attr_dims'; eassumption).
  destruct H as (w & -> & H). exact (attr_dims' (SNum k) dims w eq_refl Hp H).
Qed.

Definition cvfList (vlen : bool) := fix go (h : heapst) (l : list hval) : res (heapst * list Z) :=
  match l with
  | [] => Ok (h, [])
  | x :: r =>
      let* (h, is) :=
        (if vlen then let* (h, i) := serializeAny false h x in Ok (h, [i])
         else collectVlenFromValue false h x) in
      let* (h, js) := go h r in
      Ok (h, is ++ js)
  end.
(** Attributes without sequences *)
Definition no_seq_attr (v : hval) : Prop := forall h, collectVlenFromValue false h v = Ok (h, []).
Lemma array_no_seq s dims : novlen s = true -> forall v, array_of s dims v -> no_seq_attr v.
Proof.
  intros Hs. induction dims as [|n ds IH]; intros v H h.
  - apply (elem_no_seq s Hs v H).
  - cbn [array_of] in H. destruct H as (l & -> & _ & H).
    change (collectVlenFromValue false h (HSlice (nested (List.length ds) (go_type s)) l)) with (cvfList (varying l) h l).
    rewrite (array_varying s ds l Hs H). induction H as [|x r Hx _ IHr]; [reflexivity|].
    cbn [cvfList]. rewrite (IH x Hx h). cbn [rbind]. rewrite IHr. reflexivity.
Qed.

Lemma num_or_text_cases dims v : num_or_text dims v ->
  (exists s, plain_type s /\ (s = SStr -> dims <> []) /\ array_of s dims v /\ not_string v) \/
  (dims = [] /\ exists t, v = HStr t /\ text t /\ zlen t < 2 ^ 32 - 1).
Proof.
  intros [(k & H)|[(Hd & H)|H]]; [left|left|right; exact H].
  - exists (SNum k). split; [right; eexists; reflexivity|]. split; [discriminate|]. split; [exact H|].
    destruct dims; cbn [array_of] in H; [destruct H as (z & -> & _)|destruct H as (l & -> & _)]; exact I.
  - exists SStr. split; [left; reflexivity|]. split; [intros _; exact Hd|]. split; [exact H|].
    destruct dims; [congruence|]. cbn [array_of] in H. destruct H as (l & -> & _). exact I.
Qed.

Lemma value_no_seq s dims v : novlen s = true -> value_of s dims v -> no_seq_attr v.
Proof.
  intros Hn H. destruct s as [k| |n|k ns vs|fs|s]; cbn [value_of] in H; try (eapply array_no_seq; eassumption).
  destruct H as (w & -> & H). intros h. exact (array_no_seq (SNum k) dims eq_refl w H h).
Qed.
Lemma text_no_seq_var dims v h : num_or_text dims v -> collectVlenVar false h v (List.length dims) = Ok (h, []).
Proof.
  intros H. destruct (num_or_text_cases dims v H) as [(s & Hs & _ & Ha & _)|(-> & t & -> & _)].
  - eapply novlen_collect; [apply plain_novlen; exact Hs|exact Ha].
  - reflexivity.
Qed.
Lemma value_no_seq_var s dims v h : novlen s = true -> value_of s dims v -> collectVlenVar false h v (List.length dims) = Ok (h, []).
Proof.
  intros Hn Hv. destruct s as [k| |n|k ns vs|fs|s]; cbn [value_of] in Hv; try (eapply novlen_collect; eassumption).
  destruct Hv as (w & -> & Hw). change (collectVlenVar false h (HEnum w ns (map (HNum k) vs)) (List.length dims))
    with (collectVlenVar false h w (List.length dims)). apply (novlen_collect (SNum k)); [reflexivity|exact Hw].
Qed.
Definition sequences_list (m : nat) := fix go (l : list hval) : Z := match l with [] => 0 | x :: r => sequences m x + go r end.
Lemma sequences_slice m t l : sequences (S m) (HSlice t l) = sequences_list m l.
Proof. reflexivity. Qed.
Lemma sequences_nonneg v : forall n, 0 <= sequences n v.
Proof.
  induction v as [k z|t|fs IH|o|w ns vs IH|t l IH|] using hval_ind'; intros n; try (cbn [sequences]; lia).
  destruct n as [|m]; [cbn [sequences]; lia|]. rewrite sequences_slice.
  induction IH as [|x r Hx _ IHr]; cbn [sequences_list]; [lia|]. specialize (Hx m). lia.
Qed.
Lemma seqs_count s dims : forall v h h2 ix, array_of (SVlen s) dims v ->
  collectVlenElements false h (List.length dims) v = Ok (h2, ix) ->
  zlen (hs_objs h2) = zlen (hs_objs h) + sequences (List.length dims) v.
Proof.
  induction dims as [|n ds IH]; intros v h h2 ix H E; cbn [array_of] in H.
  - apply (proj1 (conf_vlen _ _)) in H. destruct H as (l & -> & _). cbn [List.length collectVlenElements sequences] in *.
    unfold serializeVlen in E. destruct (rconcat (map (serializeElem false h) l)) as [b| |]; try discriminate. cbn [rbind] in E.
    unfold add_object in E. cbn [rbind] in E. assert (h2 = {| hs_objs := hs_objs h ++ [b]; hs_map := hs_map h |}) by congruence. subst h2.
    cbn [hs_objs]. rewrite zlen_app. change (zlen [b]) with 1. reflexivity.
  - destruct H as (l & -> & _ & H). cbn [List.length] in *. rewrite sequences_slice.
    revert h h2 ix E. induction H as [|x r Hx _ IHr]; intros h h2 ix E.
    + cbn [collectVlenElements] in E. assert (h2 = h) by congruence. subst h2. cbn [sequences_list]. lia.
    + cbn [collectVlenElements] in E. destruct (collectVlenElements false h (List.length ds) x) as [[h' i1]| |] eqn:E1; try discriminate.
      cbn [rbind] in E. cbn [collectVlenElements] in IHr. cbn [sequences_list].
      match type of E with rbind ?g _ = _ => destruct g as [[h'' i2]| |] eqn:E2; try discriminate end. cbn [rbind] in E.
      assert (h'' = h2) by congruence. subst h''. specialize (IHr _ _ _ E2). specialize (IH x _ _ _ Hx E1). lia.
Qed.
(** Attributes of sequences *)
Definition attr_sequences_list := fix go (l : list hval) : Z := match l with [] => 0 | x :: r => attr_sequences x + go r end.
Lemma attr_sequences_slice t l : attr_sequences (HSlice t l) = if uneven l then zlen l else attr_sequences_list l.
Proof. reflexivity. Qed.
Lemma attr_sequences_nonneg v : 0 <= attr_sequences v.
Proof.
  induction v as [k z|t|fs IH|o|w ns vs IH|t l IH|] using hval_ind'; try (cbn [attr_sequences]; lia).
  - rewrite attr_sequences_comp. induction IH as [|[nm x] r Hx _ IHr]; cbn [members_sequences]; [lia|]. cbn [snd] in Hx.
    assert (0 <= member_sequences x) by (destruct x; cbn [member_sequences]; lia). lia.
  - rewrite attr_sequences_slice. destruct (uneven l); [apply zlen_nonneg|].
    induction IH as [|x r Hx _ IHr]; cbn [attr_sequences_list]; lia.
Qed.
Lemma rows_slices s l : Forall (array_of (SVlen s) []) l -> Forall (fun x => exists t m, x = HSlice t m) l.
Proof.
  intros H. eapply Forall_impl; [|exact H]. intros x Hx. apply (proj1 (conf_vlen _ _)) in Hx. destruct Hx as (m & -> & _). eauto.
Qed.
Lemma slices_varying l : Forall (fun x => exists t m, x = HSlice t m) l -> varying l = uneven l.
Proof.
  intros H. destruct H as [|x r (t & m & ->) Hr]; [reflexivity|]. cbn [varying klen uneven row_length].
  induction Hr as [|y r (t' & m' & ->) _ IH]; [reflexivity|]. cbn [existsb klen row_length]. rewrite IH. reflexivity.
Qed.
Lemma even_rows n l : Forall (fun x => exists t m, x = HSlice t m /\ zlen m = n) l -> uneven l = false.
Proof.
  intros H. destruct H as [|x r (t & m & -> & E) Hr]; [reflexivity|]. cbn [uneven row_length].
  induction Hr as [|y r (t' & m' & -> & E') _ IH]; [reflexivity|]. cbn [existsb row_length]. rewrite IH, E, E', Z.eqb_refl. reflexivity.
Qed.
Lemma array_rows s n ds l : Forall (array_of s (n :: ds)) l -> Forall (fun x => exists t m, x = HSlice t m /\ zlen m = n) l.
Proof. intros H. eapply Forall_impl; [|exact H]. intros x (m & -> & E & _). eauto. Qed.
Lemma even_varying n l : Forall (fun x => exists t m, x = HSlice t m /\ zlen m = n) l -> varying l = false.
Proof.
  intros H. rewrite slices_varying; [eapply even_rows; exact H|]. eapply Forall_impl; [|exact H]. intros x (t & m & E & _). eauto.
Qed.
Lemma ragged_collect s dims : forall v h, array_of (SVlen s) dims v -> ragged dims v ->
  collectVlenFromValue false h v = collectVlenElements false h (List.length dims) v.
Proof.
  induction dims as [|n ds IH]; intros v h H R; [destruct v; contradiction|].
  cbn [array_of] in H. destruct H as (l & -> & _ & H).
  change (cvfList (varying l) h l = cveList (List.length ds) h l).
  destruct ds as [|m ds].
  - cbn [ragged] in R. rewrite slices_varying, R by (eapply rows_slices; exact H). clear R IH.
    revert h. induction H as [|x r Hx _ IHr]; intros h; [reflexivity|].
    apply (proj1 (conf_vlen _ _)) in Hx. destruct Hx as (q & -> & _).
    cbn [cvfList cveList List.length serializeAny collectVlenElements].
    destruct (serializeVlen false h q) as [[h1 i]| |]; [|reflexivity|reflexivity]. cbn [rbind]. rewrite IHr. reflexivity.
  - rewrite (even_varying m l) by (eapply array_rows; exact H). change (Forall (ragged (m :: ds)) l) in R.
    revert h. induction H as [|x r Hx _ IHr]; intros h; [reflexivity|]. inversion R as [|y q R1 R2]; subst y q.
    cbn [cvfList]. change (cveList (List.length (m :: ds)) h (x :: r)) with
      (let* (h, is) := collectVlenElements false h (List.length (m :: ds)) x in
       let* (h, js) := cveList (List.length (m :: ds)) h r in Ok (h, is ++ js)).
    rewrite (IH x h Hx R1). destruct (collectVlenElements false h (List.length (m :: ds)) x) as [[h1 i]| |]; [|reflexivity|reflexivity].
    cbn [rbind]. rewrite (IHr R2). reflexivity.
Qed.
Lemma ragged_count s dims : forall v, array_of (SVlen s) dims v -> ragged dims v -> attr_sequences v = sequences (List.length dims) v.
Proof.
  induction dims as [|n ds IH]; intros v H R; [destruct v; contradiction|].
  cbn [array_of] in H. destruct H as (l & -> & _ & H). rewrite attr_sequences_slice. cbn [List.length]. rewrite sequences_slice.
  destruct ds as [|m ds].
  - cbn [ragged] in R. rewrite R. clear - H. induction H as [|x r Hx _ IHr]; [reflexivity|].
    apply (proj1 (conf_vlen _ _)) in Hx. destruct Hx as (q & -> & _). rewrite zlen_cons. cbn [sequences_list List.length sequences].
    cbn [List.length] in IHr. lia.
  - rewrite (even_rows m l) by (eapply array_rows; exact H). change (Forall (ragged (m :: ds)) l) in R.
    induction H as [|x r Hx _ IHr]; [reflexivity|]. inversion R as [|y q R1 R2]; subst y q.
    cbn [attr_sequences_list]. change (sequences_list (List.length (m :: ds)) (x :: r)) with (sequences (List.length (m :: ds)) x + sequences_list (List.length (m :: ds)) r).
    rewrite (IH x Hx R1), (IHr R2). reflexivity.
Qed.
Lemma ragged_dims s dims : forall v, array_of (SVlen s) dims v -> ragged dims v -> Forall (fun n => 0 < n) dims -> attrDimsIn v = dims.
Proof.
  induction dims as [|n ds IH]; intros v H R P; [destruct v; contradiction|].
  cbn [array_of] in H. destruct H as (l & -> & L & H). inversion P as [|y q P1 P2]; subst y q.
  destruct l as [|x r]; [change (zlen (@nil hval)) with 0 in L; lia|]. cbn [attrDimsIn]. rewrite L. f_equal.
  destruct ds as [|m ds].
  - cbn [ragged] in R. rewrite slices_varying, R by (eapply rows_slices; exact H). reflexivity.
  - rewrite (even_varying m (x :: r)) by (eapply array_rows; exact H). change (Forall (ragged (m :: ds)) (x :: r)) in R.
    inversion R as [|y q R1 R2]; subst y q. inversion H as [|y q H1 H2]; subst y q. exact (IH x H1 R1 P2).
Qed.
Lemma ragged_slice dims v : ragged dims v -> exists t l, v = HSlice t l.
Proof. destruct v; cbn; try (destruct dims; contradiction). eauto. Qed.
Lemma no_seq_aseq v : no_seq_attr v -> aseq_ok v.
Proof.
  intros H h Hi Hc. exists h, []. split; [apply H|]. split; [exact Hi|]. split; [apply grow_refl|]. split; [reflexivity|].
  pose proof (attr_sequences_nonneg v). lia.
Qed.
Lemma fine_aseq room dims v : attr_value room dims v -> aseq_ok v.
Proof.
  intros [(H & _)|[(s & Hw & _ & H & Hs & Hty)|(s & Hw & _ & H & Hs & R)]].
  - apply no_seq_aseq. destruct (num_or_text_cases dims v H) as [(s & Hs & _ & Ha & _)|(_ & t & -> & _)].
    + eapply array_no_seq; [apply plain_novlen|]; eassumption.
    + intros h. reflexivity.
  - destruct s as [| | |k ns vs|fs|]; try contradiction.
    + apply no_seq_aseq. exact (value_no_seq (SEnum k ns vs) dims v eq_refl H).
    + intros h Hi (h0 & C1 & C2). destruct (attr_comp_codec fs dims v Hw H Hs (proj2 Hty)) as [_ B].
      destruct (B h0 h C1 Hi C2) as (h2 & ix & A1 & A2 & A3 & A4 & A5 & _).
      exists h2, ix. split; [exact A1|]. split; [exact A2|]. split; [exact A3|]. split; [exact A4|lia].
  - intros h Hi (h0 & C1 & C2). assert (Ht : var_type (SVlen s)) by (split; [exact Hw|right; eauto]).
    destruct (variable_codec (SVlen s) dims v Ht H Hs) as [_ B].
    destruct (B h0 h C1 Hi C2) as (h2 & ix & A1 & A2 & A3 & A4 & _). destruct Hs as [Hp _].
    unfold collectVlenVar in A1. rewrite (rows_have_vlen s dims Hp _ H) in A1.
    exists h2, ix. rewrite (ragged_collect s dims v h H R). split; [exact A1|]. split; [exact A2|]. split; [exact A3|]. split; [exact A4|].
    rewrite (seqs_count s dims v h h2 ix H A1), (ragged_count s dims v H R). lia.
Qed.
Lemma fine_seq dims v : List.length dims = List.length (hv_dims v) -> var_value dims (hv_val v) -> seq_ok v.
Proof.
  intros Hl Hv h Hi Hc. rewrite <- Hl. pose proof (sequences_nonneg (hv_val v) (List.length dims)) as Z0. destruct Hv as [Hv|Hv].
  - exists h, []. split; [apply text_no_seq_var; exact Hv|]. split; [exact Hi|]. split; [apply grow_refl|]. split; [reflexivity|lia].
  - destruct Hv as (s & Ht & _ & Hv & Hs). destruct (variable_codec s dims (hv_val v) Ht Hv Hs) as [_ B].
    destruct Hc as (h0 & C1 & C2). destruct (B h0 h C1 Hi C2) as (h2 & ix & A1 & A2 & A3 & A4 & _).
    exists h2, ix. split; [exact A1|]. split; [exact A2|]. split; [exact A3|]. split; [exact A4|].
    destruct Ht as [Hw [Hn|(s' & ->)]].
    + rewrite (value_no_seq_var s dims (hv_val v) h Hn Hv) in A1. assert (h2 = h) by congruence. subst h2. lia.
    + destruct Hs as [Hp _]. cbn [value_of] in Hv. unfold collectVlenVar in A1. rewrite (rows_have_vlen s' dims Hp _ Hv) in A1.
      rewrite (seqs_count s' dims _ _ _ _ Hv A1). lia.
Qed.
Lemma value_dims s dims v : value_of s dims v -> shape_told dims -> getDimsLimited (List.length dims) v = dims.
Proof.
  intros Hv Hp. destruct s as [k| |n|k ns vs|fs|s]; cbn [value_of] in Hv; try (eapply dims_told; eassumption).
  destruct Hv as (w & -> & Hw). exact (dims_told (SNum k) dims Hp w Hw).
Qed.
Lemma fine_dims dims v : var_value dims v -> shape_told dims -> getDimsLimited (List.length dims) v = dims.
Proof.
  intros [H|(s & _ & _ & Hv & _)] Hp.
  - destruct (num_or_text_cases dims v H) as [(s & Hs & _ & Ha & _)|(-> & t & -> & _)].
    + eapply dims_told; eassumption.
    + reflexivity.
  - eapply value_dims; eassumption.
Qed.

(** ** Descriptions of types *)
Lemma room_comp fs : type_room (SComp fs) = 8 + fold_right (fun f n => zlen (fst f) + 5 + type_room (snd f) + n) 0 fs.
Proof.
  cbn [type_room]. f_equal. induction fs as [|[nm s] fs IH]; [reflexivity|]. cbn [fold_right fst snd]. rewrite <- IH. reflexivity.
Qed.
Lemma zlen_enc val total : zlen (writeEnc val total) <= 4.
Proof. unfold writeEnc. destruct (total <? 256); [|destruct (total <? 65536)]; rewrite zlen_le; lia. Qed.
Lemma message_room s : writable s -> zlen (sdt s) <= type_room s.
Proof.
  induction s as [k| |n|k names vals|fs IH|s IH] using sty_ind'; intros W.
  - destruct k; vm_compute; discriminate.
  - vm_compute. discriminate.
  - cbn [sdt type_room]. unfold opaqueDt. rewrite zlen_app, zlen_le. change (zlen [21; 0; 0; 0]) with 4. lia.
  - destruct W as (_ & W & _). cbn [sdt type_room]. unfold count3, cstrings. rewrite !zlen_app, !zlen_le. change (zlen [56]) with 1.
    assert (F : zlen (fixedPointDt (ksize k) (ksigned k)) = 12) by (destruct k; reflexivity). rewrite F.
    assert (G : forall vals, List.length names = List.length vals ->
      zlen (flat_map (fun s => s ++ [0]) names) + zlen (flat_map (enc_le k) vals) <= fold_right (fun nm n => zlen nm + 9 + n) 0 names).
    { clear. induction names as [|nm names IH]; intros [|z vals] E; try discriminate E.
      { change (zlen (@nil Z)) with 0. cbn. lia. }
      cbn [flat_map fold_right]. rewrite !zlen_app. change (zlen [0]) with 1. injection E as E. specialize (IH vals E).
      assert (zlen (enc_le k z) <= 8) by (unfold enc_le; rewrite zlen_le; destruct k; cbn; lia). lia. }
    specialize (G vals W). lia.
  - rewrite sdt_comp, room_comp. unfold count3. rewrite !zlen_app, !zlen_le. change (zlen [54]) with 1.
    assert (G : forall total off, zlen (smembers total off fs) <= fold_right (fun f n => zlen (fst f) + 5 + type_room (snd f) + n) 0 fs).
    { intros total. destruct W as (_ & _ & W). induction IH as [|[nm s] fs Hs _ IHf]; intros off; [change (zlen (smembers total off [])) with 0; cbn; lia|].
      change (smembers total off ((nm, s) :: fs)) with (nm ++ [0] ++ writeEnc off total ++ sdt s ++ smembers total (off + size_of s) fs).
      destruct W as (_ & W1 & _ & W2). cbn [fold_right fst snd]. rewrite !zlen_app. change (zlen [0]) with 1.
      specialize (Hs W1). specialize (IHf W2 (off + size_of s)). cbn [snd] in Hs. pose proof (zlen_enc off total). lia. }
    specialize (G (size_fields fs) 0). lia.
  - destruct W as [W _]. cbn [sdt type_room]. rewrite zlen_app. specialize (IH W). unfold vlenHead. rewrite ?zlen_app, ?zlen_le.
    change (zlen [25; 0; 0; 0]) with 4. lia.
Qed.
Lemma sdt_some s : sdt s <> [].
Proof. destruct s as [k| |n|k ns vs|fs|s]; try destruct k; discriminate. Qed.
Lemma writable_pos s : writable s -> 0 < size_of s.
Proof.
  destruct s as [k| |n|k ns vs|fs|s]; intros W; try (cbn; lia).
  - destruct k; cbn; lia.
  - destruct W. assumption.
  - destruct k; cbn; lia.
  - destruct W as (_ & [W|W] & _); lia.
Qed.

Lemma volume_pos dims : Forall (fun n => 0 < n) dims -> 1 <= volume dims.
Proof.
  induction dims as [|n ds IH]; intros H; [cbn; lia|]. inversion H as [|? ? H1 H2]; subst x l. specialize (IH H2).
  change (volume (n :: ds)) with (n * volume ds). nia.
Qed.

(** ** Values *)
Section Values.
Variables (f : bytes) (o : orders) (addrs : list (bytes * Z)) (n : Z) (b : bytes) (c : wctx) (e : henv) (hf : heapst).
Hypothesis H : heap_facts o addrs n b c e hf.
Hypothesis Hg : heap_gives (readGlobalHeap f) (he_addr e) hf.
Hypothesis Hs : forall v s, In v (o_strings o) -> In s (strings_of v) -> no_dimref s.

Definition heap_ok (oe : option henv) : Prop := oe = None \/ oe = Some e.

Lemma value_bytes oe v m ix ix' data : heap_ok oe -> (oe <> None -> ix' = ix) -> valueBytes false oe v m ix' = Ok data ->
  exists rest, writeDataVar false e v m ix = Ok (data, rest).
Proof.
  intros [->| ->] Hx E; unfold valueBytes in E.
  - exists ix. unfold writeDataVar. apply writeDataNil_ok. exact E.
  - rewrite Hx in E by discriminate. destruct (writeDataVar false e v m ix) as [[d r]| |] eqn:Ed; try discriminate. cbn [rbind] in E.
    exists r. congruence.
Qed.

Lemma seq_codec s dims v ix : var_type s -> value_of s dims v -> shape_ok s dims v -> In v (o_strings o) ->
  (exists h1 h2, hinv h1 /\ collected h1 v /\ collectVlenVar false h1 v (List.length dims) = Ok (h2, ix) /\ grow h2 hf) ->
  buildDatatypeMessage false v (List.length dims) = Ok (sdt s) /\
  forall oe data ix', heap_ok oe -> (oe <> None -> ix' = ix) -> valueBytes false oe v (List.length dims) ix' = Ok data ->
    zlen data = volume dims * size_of s /\
    forall r, alloc (readGlobalHeap f) (describe s) dims (data ++ r) = Ok (v, r).
Proof.
  intros Ht Ha Hd Hin (h1 & h2 & I1 & (h0 & C1 & C2) & Hc & G2).
  destruct (variable_codec s dims v Ht Ha Hd) as [A B].
  split; [exact A|]. intros oe data ix' Ho Hx Ed.
  destruct (B h0 h1 C1 I1 C2) as (h2' & ix2 & E1 & _ & _ & _ & E5).
  rewrite Hc in E1. assert (h2' = h2) by congruence. assert (ix2 = ix) by congruence. subst h2' ix2.
  destruct (E5 hf _ _ G2 (hf_inv _ _ _ _ _ _ _ H) Hg) as (d & D1 & D2 & D3).
  destruct (value_bytes oe v _ ix ix' data Ho Hx Ed) as (rest & F).
  unfold writeDataVar in *. rewrite (writeData_ext false e (env_of (he_addr e) hf) eq_refl) in F.
  2:{ intros s' Hs'. cbn [env_of he_idx]. apply (hf_idx _ _ _ _ _ _ _ H). eapply Hs; eassumption. }
  assert (d = data) by congruence. subst d. split; [|exact D3].
  rewrite D2, volume_fold. lia.
Qed.
Lemma comp_codec fs dims v ix : writable (SComp fs) -> array_of (SComp fs) dims v -> shape_ok (SComp fs) dims v ->
  Forall (fun x => seqs_ok (SComp fs) x = true) (items (List.length dims) v) -> In v (o_strings o) -> aseq_kept hf v ix ->
  buildDatatypeMessage false v (List.length dims) = Ok (sdt (SComp fs)) /\
  forall oe data ix', heap_ok oe -> (oe <> None -> ix' = ix) -> valueBytes false oe v (List.length dims) ix' = Ok data ->
    zlen data = volume dims * size_of (SComp fs) /\
    forall r, alloc (readGlobalHeap f) (describe (SComp fs)) dims (data ++ r) = Ok (v, r).
Proof.
  intros Hw Ha Hd Hq Hin (h1 & h2 & I1 & (h0 & C1 & C2) & Hc & G2).
  destruct (attr_comp_codec fs dims v Hw Ha Hd Hq) as [A B].
  split; [exact A|]. intros oe data ix' Ho Hx Ed.
  destruct (B h0 h1 C1 I1 C2) as (h2' & ix2 & E1 & _ & _ & _ & _ & E5).
  rewrite Hc in E1. assert (h2' = h2) by congruence. assert (ix2 = ix) by congruence. subst h2' ix2.
  destruct (E5 hf _ _ G2 (hf_inv _ _ _ _ _ _ _ H) Hg) as (_ & d & D1 & D2 & D3).
  destruct (value_bytes oe v _ ix ix' data Ho Hx Ed) as (rest & F).
  unfold writeDataVar in *. rewrite (writeData_ext false e (env_of (he_addr e) hf) eq_refl) in F.
  2:{ intros s' Hs'. cbn [env_of he_idx]. apply (hf_idx _ _ _ _ _ _ _ H). eapply Hs; eassumption. }
  assert (d = data) by congruence. subst d. split; [|exact D3].
  rewrite D2, volume_fold. lia.
Qed.
Lemma value_codec s dims v : writable s -> novlen s = true -> value_of s dims v -> shape_ok s dims v ->
  (forall h, collectVlenVar false h v (List.length dims) = Ok (h, [])) -> In v (o_strings o) ->
  buildDatatypeMessage false v (List.length dims) = Ok (sdt s) /\
  forall oe data ix', heap_ok oe -> (oe <> None -> ix' = []) -> valueBytes false oe v (List.length dims) ix' = Ok data ->
    zlen data = volume dims * size_of s /\
    forall r, alloc (readGlobalHeap f) (describe s) dims (data ++ r) = Ok (v, r).
Proof.
  intros Hw Hn Ha Hd Hc Hin. apply seq_codec; try assumption; [split; [exact Hw|left; exact Hn]|].
  exists hf, hf. split; [apply (hf_inv _ _ _ _ _ _ _ H)|]. split; [exact (hf_collected _ _ _ _ _ _ _ H v Hin)|].
  split; [apply Hc|apply grow_refl].
Qed.
Lemma plain_codec s dims v : plain_type s -> (s = SStr -> dims <> []) -> array_of s dims v -> In v (o_strings o) ->
  buildDatatypeMessage false v (List.length dims) = Ok (sdt s) /\
  forall oe data ix', heap_ok oe -> (oe <> None -> ix' = []) -> valueBytes false oe v (List.length dims) ix' = Ok data ->
    zlen data = volume dims * size_of s /\
    forall r, alloc (readGlobalHeap f) (describe s) dims (data ++ r) = Ok (v, r).
Proof.
  intros Hp Hd Ha Hin. apply value_codec; [apply (plain_var s Hp)|apply plain_novlen; exact Hp|apply plain_value; assumption| | |exact Hin].
  - apply plain_shape; assumption.
  - intros h. eapply novlen_collect; [apply plain_novlen; exact Hp|exact Ha].
Qed.

Lemma string_codec t : text t -> zlen t < 2 ^ 32 - 1 -> forall oe data ix, heap_ok oe -> valueBytes false oe (HStr t) 0 ix = Ok data ->
  data = t ++ [0].
Proof.
  intros Ht Hl oe data ix Ho Ed. destruct (value_bytes oe _ _ ix ix data Ho (fun _ => eq_refl) Ed) as (rest & F).
  unfold writeDataVar, fixedLenOf, shouldUseVLen, leaf_is_string in F.
  cbn [htype leaf_ty is_hslice andb findMaxLen writeData] in F. pose proof (zlen_nonneg t).
  replace (0 <? zlen t + 1) with true in F by lia. unfold wput in F.
  replace (zlen t + 1 - zlen t) with 1 in F by lia. change (zrep 1 0) with [0] in F. congruence.
Qed.

(** *** Attributes *)
Lemma attr_size_bound name dt dims data : zlen dims <= 255 ->
  zlen name + zlen dt + 8 * zlen dims + zlen data <= 65500 ->
  zlen (attrHead name dt (buildDataspaceMessage dims) ++ data) < 65536 /\
  attrHead name dt (buildDataspaceMessage dims) ++ data <> [].
Proof.
  clear. intros Hd Hl. split.
  - unfold attrHead. rewrite !zlen_app, !zlen_padded, zlen_dataspace, !zlen_app. change (zlen [0]) with 1.
    rewrite !zlen_le. change (zlen [1; 0]) with 2. pose proof (zlen_nonneg name). pose proof (zlen_nonneg dt).
    pose proof (Z.mod_pos_bound (8 - (zlen name + 1) mod 8) 8 ltac:(lia)).
    pose proof (Z.mod_pos_bound (8 - zlen dt mod 8) 8 ltac:(lia)).
    pose proof (Z.mod_pos_bound (8 - (8 + 8 * zlen dims) mod 8) 8 ltac:(lia)). lia.
  - unfold attrHead. discriminate.
Qed.

Lemma attr_good_value x k v s dims ix : heap_ok (c_heap x) -> (c_heap x <> None -> lookup akey_eqb [] k (c_aix x) = ix) ->
  (buildDatatypeMessage false v (List.length dims) = Ok (sdt s) /\
   forall oe data ix', heap_ok oe -> (oe <> None -> ix' = ix) -> valueBytes false oe v (List.length dims) ix' = Ok data ->
     zlen data = volume dims * size_of s /\
     forall r, alloc (readGlobalHeap f) (describe s) dims (data ++ r) = Ok (v, r)) ->
  text (snd k) -> writable s -> attrDims v = dims ->
  Forall (fun n => 0 < n) dims -> zlen dims <= 255 -> zlen (snd k) + zlen (sdt s) + 8 * zlen dims + volume dims * size_of s <= 65500 ->
  kept (describe s) = true -> not_string v -> agood f x k v.
Proof.
  intros Ho Hix [A B] Ht Hw Had Hp Hr Hsz Hk Hns m Em.
  pose proof (volume_pos dims Hp) as Hvol. pose proof (zlen_nonneg dims) as Hd0. pose proof (zlen_nonneg (snd k)) as Hk0.
  pose proof (zlen_nonneg (sdt s)) as Hm0. pose proof (writable_pos s Hw) as Sz.
  unfold buildAttributeMessage in Em. rewrite Had in Em. cbv zeta in Em.
  rewrite A in Em. cbn [rbind] in Em.
  destruct (valueBytes false (c_heap x) v (List.length dims) (lookup akey_eqb [] k (c_aix x))) as [data| |] eqn:Ed; try discriminate. cbn [rbind] in Em.
  destruct (B _ _ _ Ho Hix Ed) as [C D].
  assert (Hm : m = msg 12 (attrHead (snd k) (sdt s) (buildDataspaceMessage dims) ++ data)) by congruence. subst m.
  assert (Hpd : forall n, In n dims -> 0 < n) by (rewrite Forall_forall in Hp; exact Hp).
  destruct (value_bytes _ _ _ ix _ _ Ho Hix Ed) as (rest & W).
  assert (Hvs : volume dims <= volume dims * size_of s) by nia.
  destruct (attr_message f e (snd k) v ix dims (describe s) (sdt s) data) as (a & A1 & A2).
  - exact Ht.
  - lia.
  - split; [exact A|]. split; [apply parse_message; exact Hw|]. split; [apply sdt_some|].
    split; [exists rest; exact W|]. split; [|exact D]. rewrite C, volume_fold, dlen_describe. lia.
  - lia.
  - split; [|exact Hr]. apply Forall_forall. intros q Hq. split; [specialize (Hpd q Hq); lia|].
    assert (q <= volume dims); [|lia]. clear - Hp Hq. induction Hp as [|y l Hy Hl IH]; [contradiction|].
    cbn [volume]. pose proof (volume_pos l Hl). destruct Hq as [<-|Hq]; [nia|]. specialize (IH Hq). nia.
  - lia.
  - exact Hk.
  - exact Hpd.
  - rewrite dlen_describe. lia.
  - exact Hns.
  - exact Had.
  - exists a. split; [|exact A2]. unfold attr_msg. cbn [msg m_type m_data]. split; [reflexivity|].
    destruct (attr_size_bound (snd k) (sdt s) dims data Hr ltac:(lia)) as [S1 S2].
    split; [exact S1|]. split; [exact S2|exact A1].
Qed.
(** The sequences of an attribute are those of a variable of its dimensions. *)
Lemma no_seq_kept v d ix : no_seq_attr v -> (forall h, collectVlenVar false h v d = Ok (h, [])) -> aseq_kept hf v ix ->
  ix = [] /\ exists h1 h2, hinv h1 /\ collected h1 v /\ collectVlenVar false h1 v d = Ok (h2, ix) /\ grow h2 hf.
Proof.
  intros N V (h1 & h2 & A & B & C & D). rewrite N in C. assert (ix = []) by congruence. assert (h2 = h1) by congruence. subst ix h2.
  split; [reflexivity|]. exists h1, h1. split; [exact A|]. split; [exact B|]. split; [apply V|exact D].
Qed.
Lemma attr_good x k v ix : heap_ok (c_heap x) -> aseq_kept hf v ix -> (c_heap x <> None -> lookup akey_eqb [] k (c_aix x) = ix) ->
  In v (o_strings o) -> text (snd k) ->
  (exists dims, attr_value (65000 - zlen (snd k)) dims v /\ Forall (fun n => 0 < n) dims /\ zlen dims <= 255) -> agood f x k v.
Proof.
  intros Ho HK Hix Hin Ht (dims & [(Hv & Hsz & Hst)|[(s & Hw & Hsz & Hv & Hsh & Hty)|(s & Hw & Hsz & Hv & Hsh & Hrg)]] & Hp & Hr);
    pose proof (volume_pos dims Hp) as Hvol; pose proof (zlen_nonneg dims) as Hd0; pose proof (zlen_nonneg (snd k)) as Hk0.
  - destruct (num_or_text_cases dims v Hv) as [(s & Ps & Hd & Ha & Hns)|(-> & t & -> & Htt & Htl)].
    + pose proof (plain_size s Ps) as Sz. destruct (plain_message s Ps) as [M1 M2].
      destruct (no_seq_kept v (List.length dims) ix) as [Eix Kept].
      { eapply array_no_seq; [apply plain_novlen; exact Ps|exact Ha]. }
      { intros h. eapply novlen_collect; [apply plain_novlen; exact Ps|exact Ha]. }
      { exact HK. }
      apply (attr_good_value x k v s dims ix Ho Hix); try assumption.
      * apply seq_codec; [apply plain_var; exact Ps|apply plain_value; assumption|apply plain_shape; assumption|exact Hin|exact Kept].
      * apply (plain_var s Ps).
      * apply (attr_dims_value s dims v (plain_novlen s Ps) Hp). apply plain_value; assumption.
      * assert (volume dims * size_of s <= 16 * volume dims) by nia. lia.
      * apply plain_kept. exact Ps.
    + intros m Em. set (jx := lookup akey_eqb [] k (c_aix x)) in *.
      unfold buildAttributeMessage in Em. cbv zeta in Em. change (attrDims (HStr t)) with (@nil Z) in Em.
      change (buildDatatypeMessage false (HStr t) (List.length (@nil Z))) with (Ok (stringDt (zlen t + 1))) in Em. cbn [rbind] in Em.
      change (List.length (@nil Z)) with 0%nat in Em.
      destruct (valueBytes false (c_heap x) (HStr t) 0 jx) as [data| |] eqn:Ed; try discriminate. cbn [rbind] in Em.
      pose proof (string_codec t Htt Htl _ _ _ Ho Ed) as Edata. specialize (Hst t eq_refl).
      assert (Hm : m = msg 12 (attrHead (snd k) (stringDt (zlen t + 1)) (buildDataspaceMessage []) ++ data)) by congruence. subst m data.
      pose proof (zlen_nonneg t).
      destruct (attr_string_message f (snd k) t Ht ltac:(lia) Htt ltac:(lia)) as (a & A1 & A2).
      exists a. split; [|exact A2]. unfold attr_msg. cbn [msg m_type m_data]. split; [reflexivity|].
      destruct (attr_size_bound (snd k) (stringDt (zlen t + 1)) [] (t ++ [0])) as [S1 S2].
      * change (zlen (@nil Z)) with 0. lia.
      * change (zlen (@nil Z)) with 0. rewrite zlen_app. change (zlen [0]) with 1.
        unfold stringDt. rewrite zlen_app, zlen_le. change (zlen [19; 0; 0; 0]) with 4. lia.
      * split; [exact S1|]. split; [exact S2|exact A1].
  - pose proof (message_room s Hw) as R.
    destruct s as [| | |k' ns vs|fs|]; try contradiction; cbn [value_of] in Hv.
    + destruct (no_seq_kept v (List.length dims) ix (value_no_seq (SEnum k' ns vs) dims v eq_refl Hv)
                  (fun h => value_no_seq_var (SEnum k' ns vs) dims v h eq_refl Hv) HK) as [Eix Kept].
      apply (attr_good_value x k v (SEnum k' ns vs) dims ix Ho Hix); try assumption.
      * apply seq_codec; try assumption. split; [exact Hw|left; reflexivity].
      * exact (attr_dims_value (SEnum k' ns vs) dims v eq_refl Hp Hv).
      * lia.
      * reflexivity.
      * destruct Hv as (w & -> & _). exact I.
    + apply (attr_good_value x k v (SComp fs) dims ix Ho Hix); try assumption.
      * apply comp_codec; try assumption. apply Hty.
      * apply (comps_dims fs dims Hp v Hv).
      * lia.
      * reflexivity.
      * destruct dims as [|d ds]; cbn [array_of] in Hv; [apply (proj1 (conf_comp _ _)) in Hv|]; destruct Hv as (l & -> & _); exact I.
  - pose proof (message_room _ Hw) as R. change (size_of (SVlen s)) with 16 in *.
    destruct HK as (h1 & h2 & K1 & K2 & K3 & K4).
    apply (attr_good_value x k v (SVlen s) dims ix Ho Hix); try assumption.
    + apply seq_codec; try assumption; [split; [exact Hw|right; eauto]|].
      exists h1, h2. split; [exact K1|]. split; [exact K2|]. split; [|exact K4].
      unfold collectVlenVar. rewrite (rows_have_vlen s dims (proj1 Hsh) _ Hv), <- (ragged_collect s dims v h1 Hv Hrg). exact K3.
    + destruct (ragged_slice dims v Hrg) as (t & l & ->). exact (ragged_dims s dims _ Hv Hrg Hp).
    + change (size_of (SVlen s)) with 16. lia.
    + reflexivity.
    + destruct (ragged_slice dims v Hrg) as (t & l & ->). exact I.
Qed.

(** *** The list of dimensions *)
Lemma dimlist_good kv : In kv (o_dims o) -> hv_scale (snd kv) = false -> hv_dims (snd kv) <> [] ->
  zlen (hv_dims (snd kv)) <= 255 ->
  Forall (fun d => d <> [] /\ exists a, assoc d addrs = Some a /\ 0 <= a < 2 ^ 64) (hv_dims (snd kv)) ->
  exists m a, buildDimensionList e (c_dims c) (hv_dims (snd kv)) = Some m /\ attr_msg m a /\
    attr_gives f (DL, refs_value (map (addr_of c) (hv_dims (snd kv)))) a.
Proof.
  intros Hin Hsc Hne Hlen Hd. set (ds := hv_dims (snd kv)) in *. rewrite (hf_dims _ _ _ _ _ _ _ H).
  assert (Hnone : existsb (fun d => beqb d [] || negb (mem d (map fst addrs))) ds = false).
  { clear - Hd. induction Hd as [|d ds (H1 & a & H2 & _) _ IH]; [reflexivity|]. cbn [existsb]. rewrite IH.
    assert (E1 : beqb d [] = false) by (destruct d; [congruence|reflexivity]).
    assert (E2 : mem d (map fst addrs) = true).
    { destruct (mem d (map fst addrs)) eqn:Em; [reflexivity|]. apply mem_nIn in Em. apply assoc_None in Em. congruence. }
    rewrite E1, E2. reflexivity. }
  unfold buildDimensionList. rewrite Hnone.
  set (refs := map (fun d => (he_idx e (dimref d), addr_of c d)) ds).
  assert (Er : flat_map (fun d => descriptor e 1 (he_idx e (dimref d))) ds = flat_map (fun x => descriptor e 1 (fst x)) refs).
  { unfold refs. clear. induction ds as [|d ds IH]; [reflexivity|]. cbn [map flat_map fst]. rewrite IH. reflexivity. }
  assert (Ez : zlen ds = zlen refs) by (unfold refs; rewrite zlen_map; reflexivity).
  assert (Ea : map (addr_of c) ds = map snd refs) by (unfold refs; rewrite map_map; reflexivity).
  rewrite Er, Ez, Ea. destruct Hg as (G1 & G2 & G3).
  destruct (dimlist_message f e refs) as (a & A1 & A2).
  - exact G1.
  - unfold refs. destruct ds; [congruence|discriminate].
  - lia.
  - unfold refs. apply Forall_forall. intros x Hx. apply in_map_iff in Hx. destruct Hx as (d & <- & Hd').
    rewrite Forall_forall in Hd. destruct (Hd d Hd') as (D1 & a & D2 & D3). cbn [fst snd].
    destruct (hf_refs _ _ _ _ _ _ _ H kv d a Hin Hsc Hd' D1 D2) as [R1 R2].
    split; [lia|]. assert (Ea' : addr_of c d = a) by (unfold addr_of; rewrite (hf_dims _ _ _ _ _ _ _ H), D2; reflexivity).
    rewrite Ea'. split; [exact D3|].
    specialize (G3 _ _ R2 ltac:(apply (f_equal zlen) in R2 || idtac; intros EE; apply (f_equal zlen) in EE; rewrite zlen_le in EE; discriminate)).
    rewrite Z2Nat.id in G3 by lia. replace (he_idx e (dimref d) - 1 + 1) with (he_idx e (dimref d)) in G3 by lia. exact G3.
  - exists (msg 12 (attrHead (bs "DIMENSION_LIST") vlenReferenceDt (buildDataspaceMessage [zlen refs]) ++
                     flat_map (fun x => descriptor e 1 (fst x)) refs)), a.
    split; [reflexivity|]. split; [|exact A2]. unfold attr_msg. cbn [msg m_type m_data]. split; [reflexivity|].
    assert (Hz : zlen (flat_map (fun x : Z * Z => descriptor e 1 (fst x)) refs) = 16 * zlen refs).
    { clear. generalize refs. clear. intros refs. induction refs as [|x r IH]; [reflexivity|]. cbn [flat_map].
      rewrite zlen_app, zlen_descriptor, zlen_cons, IH. lia. }
    destruct (attr_size_bound (bs "DIMENSION_LIST") vlenReferenceDt [zlen refs] (flat_map (fun x => descriptor e 1 (fst x)) refs)) as [S1 S2].
    + change (zlen [zlen refs]) with 1. lia.
    + change (zlen vlenReferenceDt) with 16. rewrite Hz. change (zlen (bs "DIMENSION_LIST")) with 14. change (zlen [zlen refs]) with 1. lia.
    + split; [exact S1|]. split; [exact S2|exact A1].
Qed.

(** *** Variables *)
Lemma var_good p nv :
  In (hv_val (snd nv)) (o_strings o) -> In ((p, fst nv), snd nv) (o_dims o) -> In ((p, fst nv), snd nv) (o_vlen o) ->
  Forall (fun kv => In (snd kv) (o_strings o)) (attr_list (hv_attrs (snd nv))) ->
  Forall (fun kv => In ((p, Some (fst nv), fst kv), snd kv) (o_attrs o)) (attr_list (hv_attrs (snd nv))) ->
  (exists dims, List.length dims = List.length (hv_dims (snd nv)) /\ zlen dims <= 255 /\
     Forall (fun n => 0 <= n < 2 ^ 63) dims /\ shape_told dims /\ var_value dims (hv_val (snd nv))) ->
  zlen (attr_list (hv_attrs (snd nv))) <= 64000 ->
  Forall (fun kv => text (fst kv) /\
     exists dims, attr_value (65000 - zlen (fst kv)) dims (snd kv) /\ Forall (fun n => 0 < n) dims /\ zlen dims <= 255) (attr_list (hv_attrs (snd nv))) ->
  (hv_scale (snd nv) = false ->
   Forall (fun d => d <> [] /\ exists a, assoc d addrs = Some a /\ 0 <= a < 2 ^ 64) (hv_dims (snd nv))) ->
  vgood f c p nv.
Proof.
  destruct nv as [name v]. cbn [fst snd].
  intros Hin Hod Hov Hia Hoa (dims & Hl & Hr & Hb & Hst & Hv) Hna Hat Hdims. unfold vgood. cbn [fst snd].
  set (ix' := lookup vkey_eqb [] (p, name) (c_vix (ctx_of c v))).
  set (ix := lookup vkey_eqb [] (p, name) (c_vix c)).
  assert (Hx : heap_ok (c_heap (ctx_of c v)) /\ (c_heap (ctx_of c v) <> None -> ix' = ix) /\
               forall k, c_heap (ctx_of c v) <> None -> lookup akey_eqb [] k (c_aix (ctx_of c v)) = lookup akey_eqb [] k (c_aix c)).
  { unfold ix', ctx_of. destruct (hv_scale v).
    - split; [left; reflexivity|]. split; [|intros k]; intros X; exfalso; apply X; reflexivity.
    - split; [right; apply (hf_heap _ _ _ _ _ _ _ H)|]. split; reflexivity. }
  destruct Hx as (X1 & X2 & X3).
  assert (Kept : exists h1 h2, hinv h1 /\ collected h1 (hv_val v) /\
            collectVlenVar false h1 (hv_val v) (List.length dims) = Ok (h2, ix) /\ grow h2 hf).
  { rewrite Hl. exact (hf_vix _ _ _ _ _ _ _ H (p, name) v Hov). }
  split; [|split; [|split; [exact Hna|split]]].
  - exists dims. rewrite <- Hl.
    destruct Hv as [Hv|Hv]; [destruct (num_or_text_cases dims (hv_val v) Hv) as [(s & Ps & Hd & Ha & _)|(-> & t & Et & Htt & Htl)]|].
    + assert (Ix : ix = []).
      { destruct Kept as (h1 & h2 & _ & _ & K & _). rewrite text_no_seq_var in K by exact Hv. congruence. }
      rewrite Ix in X2. destruct (plain_codec s dims (hv_val v) Ps Hd Ha Hin) as [A B]. destruct (plain_message s Ps) as [M1 M2].
      exists (describe s), (sdt s). split; [reflexivity|]. split; [exact A|].
      split; [apply parse_message; apply (plain_var s Ps)|]. split; [exact M1|]. split; [lia|].
      rewrite dlen_describe. split; [apply plain_size; exact Ps|]. split; [apply fine_dims; [left; exact Hv|exact Hst]|].
      split; [exact Hb|]. split; [exact Hr|]. intros data Ed. destruct (B _ _ _ X1 X2 Ed) as [C D].
      split; [exact C|]. rewrite <- (app_nil_r data). apply D.
    + exists (DString (zlen t + 1)), (stringDt (zlen t + 1)). rewrite Et. pose proof (zlen_nonneg t) as Z0.
      destruct (scalar_string t Htt ltac:(lia)) as (A & B & C).
      split; [reflexivity|]. split; [exact A|]. split; [exact B|]. split; [discriminate|].
      split; [unfold stringDt; rewrite zlen_app, zlen_le; change (zlen [19; 0; 0; 0]) with 4; lia|].
      split; [cbn [dlen]; lia|]. split; [reflexivity|]. split; [exact Hb|]. split; [exact Hr|].
      intros data Ed. rewrite (string_codec t Htt Htl _ _ _ X1 Ed). cbn [volume dlen].
      split; [rewrite zlen_app; change (zlen [0]) with 1; lia|].
      destruct (C (readGlobalHeap f) e [] []) as (data' & D1 & D2).
      assert (data' = t ++ [0]).
      { apply (string_codec t Htt Htl (Some e) data' []); [right; reflexivity|]. unfold valueBytes. rewrite D1. reflexivity. }
      subst data'. rewrite app_nil_r in D2. exact D2.
    + pose proof (fine_dims dims (hv_val v) (or_intror Hv) Hst) as FD.
      destruct Hv as (s & Ts & Rs & Vs & Ss). pose proof (proj1 Ts) as Ws.
      destruct (seq_codec s dims (hv_val v) ix Ts Vs Ss Hin Kept) as [A B].
      exists (describe s), (sdt s). split; [reflexivity|]. split; [exact A|].
      split; [apply parse_message; exact Ws|]. split; [apply sdt_some|]. pose proof (message_room s Ws). split; [lia|].
      rewrite dlen_describe. split; [apply writable_pos; exact Ws|]. split; [exact FD|].
      split; [exact Hb|]. split; [exact Hr|]. intros data Ed. destruct (B _ _ _ X1 X2 Ed) as [C D].
      split; [exact C|]. rewrite <- (app_nil_r data). apply D.
  - apply Forall_forall. intros kv Hk. rewrite Forall_forall in Hia, Hat. destruct (Hat kv Hk) as [T1 T2].
    rewrite Forall_forall in Hoa. apply (attr_good _ _ _ (lookup akey_eqb [] (p, Some name, fst kv) (c_aix c))).
    + exact X1.
    + apply (hf_aix _ _ _ _ _ _ _ H). apply (Hoa kv Hk).
    + apply X3.
    + apply Hia; exact Hk.
    + exact T1.
    + exact T2.
  - intros Hsc Hne. destruct (dimlist_good ((p, name), v) Hod Hsc Hne) as (m & a & A1 & A2 & A3).
    + cbn [snd]. unfold zlen. rewrite <- Hl. exact Hr.
    + apply Hdims. exact Hsc.
    + exists e, m, a. split; [apply (hf_heap _ _ _ _ _ _ _ H)|]. split; [exact A1|]. split; [exact A2|exact A3].
  - intros _. exists e. apply (hf_heap _ _ _ _ _ _ _ H).
Qed.
End Values.
