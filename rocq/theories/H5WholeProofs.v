(** Opening a file that the HDF5 writer wrote: the tree of objects. *)
From Verif Require Import Prelude GoVal OrderedMapModel ArraySpec H5Base H5MetaWrite H5MetaRead H5Value H5TypeRead
  H5FileWrite H5RecordModel H5FileRead TypeSpec WriterSpec MetaSpec FileSpec BaseLemmas H5TypeProofs H5StoreProofs H5VarProofs H5DataProofs P_H5Types
  H5AttrProofs H5ObjectProofs H5TreeProofs H5PlaceProofs H5HeapProofs H5GoodProofs H5PrepareProofs H5SizeProofs.
From Coq Require Import Lia ZifyBool ZifyNat Permutation.

(** ** What is asked of a tree *)
Definition node_fine (m : Z) (g : wtree) : Prop :=
  fine_attrs (w_attrs g) /\
  Forall (fun v => fst v <> [] /\ zlen (fst v) < 256 /\ fine_var (snd v) /\ hv_scale (snd v) = false) (w_vars g) /\
  Forall (fun x => zlen (fst x) < 256) (w_groups g) /\
  NoDup (map fst (w_vars g) ++ map fst (w_groups g)) /\ zlen (w_vars g) + zlen (w_groups g) + m <= 32000.
Definition dim_of (t : wtree) (d : bytes) : Prop := has_dim (all_vars [] t) d.
Record tree_fine (D S : list bytes) (t : wtree) : Prop := {
  tf_nodes : tall (fun _ => node_fine (zlen D)) [] t;
  tf_root : w_attrs t <> None;
  tf_dims : forall d, dim_of t d -> In d D;
  tf_groups : forall d, dim_of t d -> ~ In d (map fst (w_groups t));
  tf_strings : forall v s, In v (all_values t) -> In s (strings_of v) -> no_dimref s;
  tf_dimref : forall d, dim_of t d -> no_dimref d;
  tf_heap : forall v s, In v (all_values t) -> In s (heap_strings v) -> In s S;
  tf_count : zlen S + zlen D + (seq_total (all_vars [] t) + aseq_total (all_attrs [] t)) <= 65535 }.

(** ** Attributes and variables that the writer makes *)
Definition plain_attr (kv : bytes * hval) : Prop :=
  text (fst kv) /\
  exists dims, attr_value (65000 - zlen (fst kv)) dims (snd kv) /\ Forall (fun n => 0 < n) dims /\ zlen dims <= 255.
Lemma fine_plain kv : fine_attr kv -> plain_attr kv.
Proof. intros (A & _ & B). split; assumption. Qed.
Lemma text_check s : forallb (fun b => (0 <? b) && (b <? 256)) s = true -> text s.
Proof. intros H. rewrite forallb_forall in H. apply Forall_forall. intros x Hx. specialize (H x Hx). lia. Qed.
Lemma text_string k s : text k -> text s -> zlen k + zlen s <= 64000 -> plain_attr (k, HStr s).
Proof.
  intros Hk Hs Hl. pose proof (zlen_nonneg k). pose proof (zlen_nonneg s). split; [exact Hk|]. exists []. cbn [fst snd].
  change (zlen (@nil Z)) with 0. split; [left|split; [constructor|lia]].
  split; [right; right; split; [reflexivity|]; exists s; split; [reflexivity|split; [exact Hs|lia]]|].
  change (zlen (@nil Z)) with 0. change (volume []) with 1. split; [lia|].
  intros t E. assert (t = s) by congruence. subst t. lia.
Qed.
Lemma i32_in z : in_range I32 (i32 z) = true.
Proof.
  unfold in_range, i32, signed. change (kmin I32) with (-2147483648). change (kmax I32) with 2147483647.
  change (2 ^ 32) with 4294967296. change (2 ^ (32 - 1)) with 2147483648.
  pose proof (Z.mod_pos_bound z 4294967296 ltac:(lia)) as Hz.
  destruct (z mod 4294967296 <? 2147483648) eqn:E; lia.
Qed.
Lemma scale_attrs_plain n i : text n -> zlen n <= 60000 -> Forall plain_attr (scale_attrs n i).
Proof.
  intros Hn Hl. unfold scale_attrs.
  assert (T1 : text (bs "CLASS")) by (apply text_check; reflexivity).
  assert (T2 : text (bs "DIMENSION_SCALE")) by (apply text_check; reflexivity).
  assert (T3 : text (bs "NAME")) by (apply text_check; reflexivity).
  assert (T4 : text (bs "_Netcdf4Dimid")) by (apply text_check; reflexivity).
  apply Forall_cons; [|apply Forall_cons; [|apply Forall_cons; [|apply Forall_nil]]].
  - apply text_string; [exact T1|exact T2|]. change (zlen (bs "CLASS")) with 5. change (zlen (bs "DIMENSION_SCALE")) with 15. lia.
  - apply text_string; [exact T3|exact Hn|]. change (zlen (bs "NAME")) with 4. lia.
  - split; [exact T4|]. exists []. cbn [fst snd].
    change (zlen (@nil Z)) with 0. split; [left|split; [constructor|lia]].
    split; [left; exists I32; exists (i32 i); split; [reflexivity|apply i32_in]|].
    change (zlen (@nil Z)) with 0. change (volume []) with 1. change (zlen (bs "_Netcdf4Dimid")) with 13.
    split; [lia|]. discriminate.
Qed.
Lemma dec_fuel_digits fuel : forall z, 0 <= z -> text (dec_fuel fuel z) /\ zlen (dec_fuel fuel z) <= Z.of_nat fuel.
Proof.
  induction fuel as [|fu IH]; intros z Hz; cbn [dec_fuel]; [split; [constructor|change (zlen (@nil Z)) with 0; lia]|].
  destruct (IH (z / 10)) as [A B]; [apply Z.div_pos; lia|]. pose proof (Z.mod_pos_bound z 10 ltac:(lia)) as M.
  split.
  - apply Forall_app. split; [destruct (z / 10 =? 0); [constructor|exact A]|]. apply Forall_cons; [lia|constructor].
  - rewrite zlen_app. change (zlen [48 + z mod 10]) with 1. destruct (z / 10 =? 0); [change (zlen (@nil Z)) with 0; lia|lia].
Qed.
Lemma note_ok size : 0 <= size <= 2 ^ 48 -> text (scale_note size) /\ zlen (scale_note size) <= 60000.
Proof.
  intros H. unfold scale_note, dec10, dec. cbv zeta.
  set (fu := S (Z.to_nat (Z.log2 (Z.max size 1)))).
  assert (Hfu : Z.of_nat fu <= 50).
  { unfold fu. assert (L : Z.log2 (Z.max size 1) <= 48).
    { rewrite <- (Z.log2_pow2 48) by lia. apply Z.log2_le_mono. lia. }
    pose proof (Z.log2_nonneg (Z.max size 1)). lia. }
  destruct (dec_fuel_digits fu size ltac:(lia)) as [A B]. pose proof (zlen_nonneg (dec_fuel fu size)) as B0.
  split.
  - apply Forall_app. split; [apply text_check; reflexivity|].
    apply Forall_app. split; [|exact A]. apply Forall_forall. intros x Hx. unfold zrep in Hx. apply repeat_spec in Hx. lia.
  - rewrite !zlen_app. change (zlen (bs "This is a netCDF dimension but not a netCDF variable.")) with 53.
    assert (zlen (zrep (10 - zlen (dec_fuel fu size)) 32) <= 10).
    { unfold zrep, zlen. rewrite repeat_length. unfold zlen in *. lia. }
    lia.
Qed.

Definition var_ok (v : hvar) : Prop :=
  (exists dims, List.length dims = List.length (hv_dims v) /\ zlen dims <= 255 /\
     Forall (fun n => 0 <= n < 2 ^ 63) dims /\ shape_told dims /\ var_value dims (hv_val v)) /\
  zlen (attr_list (hv_attrs v)) <= 30010 /\ Forall plain_attr (attr_list (hv_attrs v)) /\
  Forall (fun d => d <> [] /\ text d /\ zlen d < 256) (hv_dims v) /\ NoDup (map fst (attr_list (hv_attrs v))).
Lemma fine_var_ok v : fine_var v -> var_ok v.
Proof.
  intros (A & (B1 & B2 & B3) & C). split; [exact A|]. split; [lia|]. split; [|split; [exact C|exact B1]].
  eapply Forall_impl; [|exact B2]. intros kv. apply fine_plain.
Qed.
Lemma scale_keys n i : NoDup (map fst (scale_attrs n i)).
Proof.
  cbn [scale_attrs map fst]. repeat constructor; cbn [In]; intros H; repeat (destruct H as [H|H]; [discriminate H|]); exact H.
Qed.
Lemma coordinate_ok i n v : fine_var v -> text n -> zlen n < 256 -> var_ok (coordinate i n v).
Proof.
  intros (A & (B1 & B2 & B3) & C) Ht Hl. split; [exact A|]. unfold coordinate. cbn [hv_attrs attr_list hv_dims].
  split; [rewrite zlen_app; change (zlen (scale_attrs n i)) with 3; lia|]. split; [|split; [exact C|]].
  { apply Forall_app. split; [apply scale_attrs_plain; [exact Ht|lia]|].
    eapply Forall_impl; [|exact B2]. intros kv. apply fine_plain. }
  rewrite map_app. apply NoDup_union; [apply scale_keys|exact B1|]. intros k Hk Hi. apply in_map_iff in Hi. destruct Hi as (kv & <- & Hi).
  rewrite Forall_forall in B2. apply (proj1 (proj2 (B2 kv Hi))). clear - Hk. unfold reserved.
  cbn [scale_attrs map fst In] in Hk. cbn [In]. tauto.
Qed.
Lemma bare_ok i n size : 0 <= size <= 2 ^ 48 -> n <> [] -> text n -> zlen n < 256 -> var_ok (bare i n size).
Proof.
  intros Hs Hn Ht Hl. destruct (note_ok size Hs) as [N1 N2]. unfold bare. split; [|split; [|split; [|split; [|apply scale_keys]]]]; cbn [hv_attrs attr_list hv_dims hv_val].
  - exists [size]. split; [reflexivity|]. change (zlen [size]) with 1. split; [lia|].
    split; [constructor; [lia|constructor]|]. split; [constructor|]. left. left. exists I8. exists (zrep size (HNum I8 0)).
    split; [reflexivity|]. split; [unfold zrep, zlen; rewrite repeat_length; lia|].
    apply Forall_forall. intros x Hx. unfold zrep in Hx. apply repeat_spec in Hx. subst x. exists 0. split; reflexivity.
  - change (zlen (scale_attrs (scale_note size) i)) with 3. lia.
  - apply scale_attrs_plain; assumption.
  - constructor; [split; [exact Hn|split; [exact Ht|exact Hl]]|constructor].
Qed.

(** ** The prepared tree *)
Definition ncp : bytes * hval := (ncpKey, HStr (bs "version=2,github.com/batchatco/go-native-netcdf=1.0")).
Lemma ncp_plain : plain_attr ncp.
Proof.
  apply text_string.
  - apply text_check; reflexivity.
  - apply text_check; reflexivity.
  - vm_compute. discriminate.
Qed.

Section Prepared.
Variables (D S : list bytes) (t : wtree).
Hypothesis TF : tree_fine D S t.

Lemma dims_fine d : dim_of t d -> d <> [] /\ text d /\ zlen d < 256.
Proof.
  intros (x & Hx & _ & Hd & _). destruct (vars_tall _ t [] (tf_nodes _ _ _ TF) x Hx) as (g & (_ & V & _) & Hv).
  rewrite Forall_forall in V. destruct (V _ Hv) as (_ & _ & (_ & _ & F) & _). rewrite Forall_forall in F. apply F. exact Hd.
Qed.

Lemma prepare_spec t1 : prepare t = Ok t1 ->
  exists D1 vs1, t1 = WNode (Some (attr_list (w_attrs t) ++ [ncp])) vs1 (w_groups t) /\
    NoDup (map fst vs1) /\ (forall n, In n (map fst vs1) <-> In n (map fst (w_vars t)) \/ dim_of t n) /\
    (forall n v, assoc n vs1 = Some v -> prepared D1 (w_vars t) n v) /\
    (forall d, In d D1 <-> dim_of t d) /\ zlen D1 <= zlen D /\ zlen vs1 <= zlen (w_vars t) + zlen D1.
Proof.
  intros E. destruct t as [a vs gs] eqn:Et. rewrite <- Et in *. pose proof (tall_here _ _ _ (tf_nodes _ _ _ TF)) as (N1 & N2 & N3 & N4 & N5).
  assert (Wa : w_attrs t = a) by (rewrite Et; reflexivity). assert (Wv : w_vars t = vs) by (rewrite Et; reflexivity).
  assert (Wg : w_groups t = gs) by (rewrite Et; reflexivity).
  unfold prepare in E. rewrite Wa, Wv, Wg in *. destruct a as [l|]; [|exfalso; apply (tf_root _ _ _ TF); exact Wa].
  cbn [addNCProperties] in E. fold ncp in E. destruct N1 as (A1 & A2 & A3). cbn [attr_list] in *.
  rewrite attrs_map_id in E.
  2:{ rewrite map_app. cbn [map]. apply OrderedMapProofs.NoDup_snoc; [exact A1|]. intros Hi. apply in_map_iff in Hi.
      destruct Hi as (kv & Ek & Hk). rewrite Forall_forall in A2. destruct (A2 kv Hk) as (_ & R & _). apply R. rewrite Ek.
      change (In ncpKey reserved). unfold reserved. do 6 right. left. reflexivity. }
  cbn [rbind] in E. destruct (add_scales 0 (collectDims (sort_tree t) []) vs) as [vs1| |] eqn:Es; try discriminate.
  cbn [rbind] in E. assert (E1 : t1 = WNode (Some (l ++ [ncp])) vs1 gs) by (injection E as E; symmetry; exact E). clear E.
  set (ds := collectDims (sort_tree t) []) in *.
  destruct (collectDims_spec (sort_tree t) [] [] (NoDup_nil _)) as [C1 C2]. fold ds in C1, C2.
  assert (C3 : forall d, In d (map fst ds) <-> dim_of t d).
  { intros d. rewrite C2. unfold dim_of, has_dim. split.
    - intros [[]|(x & Hx & H)]. exists x. split; [apply all_vars_sort; exact Hx|exact H].
    - intros (x & Hx & H). right. exists x. split; [apply all_vars_sort; exact Hx|exact H]. }
  assert (Nv : NoDup (map fst vs)) by (exact (proj1 (NoDup_part [] (map fst vs) (map fst gs) N4))).
  destruct (add_scales_spec ds 0 vs vs1 C1 Nv) as (S1 & S2 & S3).
  { eapply Forall_impl; [|exact N2]. intros v (_ & _ & _ & H). left. exact H. }
  { exact Es. }
  exists (map fst ds), vs1. split; [exact E1|]. split; [exact S1|]. split; [|split; [exact S3|split; [exact C3|split]]].
  - intros n. rewrite S2, C3. reflexivity.
  - pose proof (fun l => @NoDup_incl_length _ _ l C1) as L. specialize (L D). unfold zlen. apply inj_le, L. intros d Hd. apply (tf_dims _ _ _ TF), C3, Hd.
  - assert (L : incl (map fst vs1) (map fst vs ++ map fst ds)) by (intros n Hn; apply in_or_app, S2; exact Hn).
    apply (NoDup_incl_length S1) in L. rewrite app_length, !map_length in L. unfold zlen. rewrite map_length. lia.
Qed.

(** Every node of the sorted prepared tree *)
Definition node_ok (g : wtree) : Prop :=
  Forall plain_attr (attr_list (w_attrs g)) /\
  Forall (fun v => fst v <> [] /\ zlen (fst v) < 256 /\ var_ok (snd v)) (w_vars g) /\
  Forall (fun x => zlen (fst x) < 256) (w_groups g) /\
  NoDup (map fst (w_vars g) ++ map fst (w_groups g)) /\
  zlen (attr_list (w_attrs g)) + zlen (w_vars g) + zlen (w_groups g) <= 64000 /\
  NoDup (map fst (attr_list (w_attrs g))) /\ zlen (attr_list (w_attrs g)) <= 30001.

Lemma node_ok_perm a vs gs gs' : node_ok (WNode a vs gs) -> Permutation (map fst gs) (map fst gs') ->
  node_ok (WNode a (nsort vs) gs').
Proof.
  intros (A & B & C & E & F & N) Pm. cbn [w_attrs w_vars w_groups] in *. pose proof (nsort_perm vs) as Pv.
  split; [exact A|]. split; [eapply Permutation_Forall; [exact Pv|exact B]|]. split; [|split; [|split; [|exact N]]].
  - apply (Forall_map fst (fun x => zlen x < 256)) in C. eapply Permutation_Forall in C; [|exact Pm].
    apply (Forall_map fst (fun x => zlen x < 256)) in C. exact C.
  - eapply Permutation_NoDup; [|exact E]. apply Permutation_app; [apply Permutation_map; exact Pv|exact Pm].
  - assert (L1 : zlen gs' = zlen gs) by (apply Permutation_length in Pm; rewrite !map_length in Pm; unfold zlen; lia).
    assert (L2 : zlen (nsort vs) = zlen vs) by (apply Permutation_length in Pv; unfold zlen; lia).
    cbn [w_attrs w_vars w_groups]. rewrite L1, L2. exact F.
Qed.
Lemma node_fine_ok g : node_fine (zlen D) g -> node_ok g.
Proof.
  intros ((A1 & A2 & A3) & B & C & E & F). pose proof (zlen_nonneg D). split; [|split; [|split; [exact C|split; [exact E|split; [lia|split; [exact A1|lia]]]]]].
  - eapply Forall_impl; [|exact A2]. intros kv. apply fine_plain.
  - eapply Forall_impl; [|exact B]. intros v (V1 & V2 & V3 & V4). split; [exact V1|]. split; [exact V2|]. apply fine_var_ok. exact V3.
Qed.
Lemma prepared_ok D1 n v : (forall d, In d D1 <-> dim_of t d) -> prepared D1 (w_vars t) n v ->
  n <> [] /\ zlen n < 256 /\ var_ok v.
Proof.
  intros HD HP. pose proof (tall_here _ _ _ (tf_nodes _ _ _ TF)) as (_ & N2 & _). rewrite Forall_forall in N2.
  destruct HP as [v W1 W2|v i W1 W2 W3|i size W1 W2 W3].
  - apply assoc_Some_In in W1. destruct (N2 _ W1) as (V1 & V2 & V3 & _). cbn [fst snd] in *. split; [exact V1|]. split; [exact V2|].
    apply fine_var_ok. exact V3.
  - apply assoc_Some_In in W1. destruct (N2 _ W1) as (V1 & V2 & V3 & _). cbn [fst snd] in *.
    destruct (dims_fine n (proj1 (HD n) W2)) as (Q1 & Q2 & Q3).
    split; [exact V1|]. split; [exact V2|]. apply coordinate_ok; assumption.
  - destruct (dims_fine n (proj1 (HD n) W2)) as (Q1 & Q2 & Q3). split; [exact Q1|]. split; [exact Q3|]. apply bare_ok; assumption.
Qed.
Lemma prepare_nodes t1 : prepare t = Ok t1 -> tall (fun _ => node_ok) [] t1.
Proof.
  intros E. destruct (prepare_spec t1 E) as (D1 & vs1 & -> & S1 & S2 & S3 & S4 & S5 & S6).
  pose proof (tf_nodes _ _ _ TF) as N. destruct t as [a vs gs] eqn:Et. rewrite <- Et in *.
  assert (Wa : w_attrs t = a) by (rewrite Et; reflexivity). assert (Wv : w_vars t = vs) by (rewrite Et; reflexivity).
  assert (Wg : w_groups t = gs) by (rewrite Et; reflexivity). rewrite Wg.
  assert (N' : tall (fun _ => node_fine (zlen D)) [] (WNode a vs gs)) by (rewrite <- Et; exact N).
  rewrite tall_eq in N'. destruct N' as [N1 N2]. rewrite tall_eq. split.
  - destruct N1 as ((A1 & A2 & A3) & B & C & F & G). cbn [w_attrs w_vars w_groups] in *. pose proof (zlen_nonneg D) as Z0.
    rewrite Wa, Wv in *. split; [|split; [|split; [exact C|split; [|split]]]].
    + cbn [w_attrs attr_list]. apply Forall_app. split; [|constructor; [apply ncp_plain|constructor]].
      eapply Forall_impl; [|exact A2]. intros kv. apply fine_plain.
    + cbn [w_vars]. apply Forall_forall. intros [n v] Hn. apply (prepared_ok D1); [exact S4|]. rewrite Wv. apply S3.
      apply In_assoc; assumption.
    + cbn [w_vars w_groups]. apply NoDup_union; [exact S1| |].
      * clear - F. induction (map fst vs) as [|x l IH]; [exact F|]. inversion F; auto.
      * intros n Hn Hg. apply S2 in Hn. destruct Hn as [Hn|Hn].
        -- clear - F Hn Hg. induction (map fst vs) as [|x l IH]; [contradiction|]. inversion F as [|? ? F1 F2]; subst x0 l0.
           destruct Hn as [<-|Hn]; [apply F1, in_or_app; right; exact Hg|exact (IH F2 Hn)].
        -- apply (tf_groups _ _ _ TF n Hn). rewrite Wg. exact Hg.
    + cbn [w_attrs w_vars w_groups attr_list]. rewrite zlen_app. change (zlen [ncp]) with 1. lia.
    + cbn [w_attrs attr_list]. split; [|rewrite zlen_app; change (zlen [ncp]) with 1; lia].
      rewrite map_app. cbn [map]. apply OrderedMapProofs.NoDup_snoc; [exact A1|]. intros Hi. apply in_map_iff in Hi.
      destruct Hi as (kv & Ek & Hk). rewrite Forall_forall in A2. destruct (A2 kv Hk) as (_ & R & _). apply R. rewrite Ek.
      change (In ncpKey reserved). unfold reserved. do 6 right. left. reflexivity.
  - rewrite talls_iff in *. intros g Hg. eapply tall_mono; [|apply (N2 g Hg)]. intros p g'. apply node_fine_ok.
Qed.

(** The sequences of the prepared tree *)
Definition weight (kv : vkey * hvar) : Z := sequences (List.length (hv_dims (snd kv))) (hv_val (snd kv)).
Lemma bare_weight k i n size : weight (k, bare i n size) = 0.
Proof.
  unfold weight, bare. cbn [snd hv_dims hv_val List.length]. rewrite sequences_slice. unfold zrep.
  induction (Z.to_nat size) as [|m IH]; cbn [repeat sequences_list sequences]; [reflexivity|exact IH].
Qed.
Lemma prepared_total t1 : prepare t = Ok t1 -> seq_total (all_vars [] t1) <= seq_total (all_vars [] t).
Proof.
  intros E. destruct (prepare_spec t1 E) as (D1 & vs1 & -> & S1 & S2 & S3 & S4 & S5 & S6).
  assert (Et : exists a vs gs, t = WNode a vs gs) by (destruct t as [a vs gs]; exists a, vs, gs; reflexivity).
  destruct Et as (a & vs & gs & Et). rewrite Et. cbn [w_groups]. rewrite !all_vars_eq.
  change (sum weight (map (fun v => (([] : path, fst v), snd v)) vs1 ++ all_vars_in [] gs) <=
          sum weight (map (fun v => (([] : path, fst v), snd v)) vs ++ all_vars_in [] gs)).
  rewrite !sum_app. enough (sum weight (map (fun v => (([] : path, fst v), snd v)) vs1) <= sum weight (map (fun v => (([] : path, fst v), snd v)) vs)) by lia.
  rewrite Et in S3. cbn [w_vars] in S3. clear - S1 S3.
  apply (sum_partner (fun x y => fst x = fst y)).
  - intros x. apply sequences_nonneg.
  - apply (NoDup_pairs fst); [intros x y H z H1 H2; apply H; congruence|]. rewrite map_map. cbn [fst].
    rewrite <- (map_map fst (fun n : bytes => ([] : path, n))). apply FinFun.Injective_map_NoDup; [|exact S1]. intros n m X. congruence.
  - apply Forall_forall. intros x Hx. apply in_map_iff in Hx. destruct Hx as ([n v] & <- & Hx). cbn [fst snd].
    destruct (S3 n v (In_assoc n v vs1 S1 Hx)) as [w W1 W2|w i W1 W2 W3|i size W1 W2 W3].
    + right. exists (([], n), w). split; [apply in_map_iff; exists (n, w); split; [reflexivity|apply assoc_Some_In; exact W1]|]. split; [reflexivity|apply Z.le_refl].
    + right. exists (([], n), w). split; [apply in_map_iff; exists (n, w); split; [reflexivity|apply assoc_Some_In; exact W1]|]. split; [reflexivity|].
      unfold weight, coordinate. cbn [snd hv_dims hv_val]. apply Z.le_refl.
    + left. apply bare_weight.
Qed.
Lemma prepared_keys t1 : prepare t = Ok t1 -> NoDup (map fst (all_vars [] t1)).
Proof.
  intros E. apply all_vars_NoDup. eapply tall_mono; [|exact (prepare_nodes t1 E)]. intros q g (_ & _ & _ & N & _).
  split; [exact (proj1 (NoDup_part [] _ _ N))|]. clear - N. induction (map fst (w_vars g)) as [|x l IH]; [exact N|]. inversion N; auto.
Qed.

Lemma prepared_akeys t1 : prepare t = Ok t1 -> NoDup (map fst (all_attrs [] t1)).
Proof.
  intros E. apply all_attrs_NoDup. eapply tall_mono; [|exact (prepare_nodes t1 E)]. intros q g (_ & V & _ & N & _ & A & _).
  split; [exact (proj1 (NoDup_part [] _ _ N))|]. split; [|split; [exact A|]].
  - clear - N. induction (map fst (w_vars g)) as [|x l IH]; [exact N|]. inversion N; auto.
  - eapply Forall_impl; [|exact V]. intros v (_ & _ & (_ & _ & _ & _ & H)). exact H.
Qed.
Definition aweight (kv : akey * hval) : Z := attr_sequences (snd kv).
Lemma scale_attrs_weight n i kv : In kv (scale_attrs n i) -> attr_sequences (snd kv) = 0.
Proof. intros [<-|[<-|[<-|[]]]]; reflexivity. Qed.
Lemma prepared_atotal t1 : prepare t = Ok t1 -> aseq_total (all_attrs [] t1) <= aseq_total (all_attrs [] t).
Proof.
  intros E. pose proof (prepared_akeys t1 E) as K. destruct (prepare_spec t1 E) as (D1 & vs1 & -> & S1 & S2 & S3 & S4 & S5 & S6).
  assert (Et : exists a vs gs, t = WNode a vs gs) by (destruct t as [a vs gs]; exists a, vs, gs; reflexivity).
  destruct Et as (a & vs & gs & Et).
  assert (Wa : w_attrs t = a) by (rewrite Et; reflexivity). assert (Wv : w_vars t = vs) by (rewrite Et; reflexivity).
  assert (Wg : w_groups t = gs) by (rewrite Et; reflexivity). rewrite Wa, Wg in *. rewrite Wv in *.
  assert (Aa : all_attrs [] t = flat_map (fun v => attrs_at [] (Some (fst v)) (hv_attrs (snd v))) vs ++ attrs_at [] None a ++ all_attrs_in [] gs)
    by (rewrite Et; apply all_attrs_eq).
  change (sum aweight (all_attrs [] (WNode (Some (attr_list a ++ [ncp])) vs1 gs)) <= sum aweight (all_attrs [] t)).
  apply (sum_partner eq).
  - intros x. apply attr_sequences_nonneg.
  - apply (NoDup_pairs fst); [|exact K]. intros x y H z H1 H2. apply H. congruence.
  - apply Forall_forall. intros x Hx.
    enough (G : aweight x = 0 \/ In x (all_attrs [] t)) by (destruct G as [G|G]; [left; exact G|right; exists x; split; [exact G|split; [reflexivity|apply Z.le_refl]]]).
    rewrite Aa. rewrite all_attrs_eq in Hx. apply in_app_or in Hx. destruct Hx as [Hx|Hx]; [|apply in_app_or in Hx; destruct Hx as [Hx|Hx]].
    + apply in_flat_map in Hx. destruct Hx as ([n v] & Hn & Hx). cbn [fst snd] in *.
      apply in_map_iff in Hx. destruct Hx as (kv & <- & Hk).
      assert (R : forall w, assoc n vs = Some w -> In kv (attr_list (hv_attrs w)) ->
        In ([] : path, Some n, fst kv, snd kv) (flat_map (fun v => attrs_at [] (Some (fst v)) (hv_attrs (snd v))) vs ++ attrs_at [] None a ++ all_attrs_in [] gs)).
      { intros w Hw Hi. apply in_or_app. left. apply in_flat_map. exists (n, w). split; [apply assoc_Some_In; exact Hw|].
        apply in_map_iff. exists kv. split; [reflexivity|exact Hi]. }
      destruct (S3 n v (In_assoc n v vs1 S1 Hn)) as [w W1 W2|w i W1 W2 W3|i size W1 W2 W3].
      * right. exact (R w W1 Hk).
      * cbn [coordinate hv_attrs attr_list] in Hk. apply in_app_or in Hk. destruct Hk as [Hk|Hk].
        -- left. exact (scale_attrs_weight _ _ _ Hk).
        -- right. exact (R w W1 Hk).
      * left. cbn [bare hv_attrs attr_list] in Hk. exact (scale_attrs_weight _ _ _ Hk).
    + apply in_map_iff in Hx. destruct Hx as (kv & <- & Hk). cbn [attr_list] in Hk. apply in_app_or in Hk. destruct Hk as [Hk|[<-|[]]]; [|left; reflexivity].
      right. apply in_or_app. right. apply in_or_app. left. apply in_map_iff. exists kv. split; [reflexivity|exact Hk].
    + right. apply in_or_app. right. apply in_or_app. right. exact Hx.
Qed.

(** The values that the writer adds *)
Definition fresh (v : hval) : Prop := (exists s, v = HStr s /\ no_dimref s) \/ strings_of v = [].
Lemma no_dimref_first c r : c <> 95 -> no_dimref (c :: r).
Proof. intros H d E. change (bs "__dimref:" ++ d) with (95 :: (tl (bs "__dimref:") ++ d)) in E. congruence. Qed.
Lemma scale_attrs_fresh n i kv : no_dimref n -> In kv (scale_attrs n i) -> fresh (snd kv).
Proof.
  intros Hn [<-|[<-|[<-|[]]]]; cbn [snd].
  - left. eexists. split; [reflexivity|]. apply (no_dimref_first 68). lia.
  - left. eexists. split; [reflexivity|exact Hn].
  - right. reflexivity.
Qed.
Lemma zeros_fresh m : strings_of (HSlice (TNum I8) (zrep m (HNum I8 0))) = [].
Proof.
  change (strings_list (zrep m (HNum I8 0)) = []). unfold zrep. induction (Z.to_nat m) as [|k IH]; [reflexivity|].
  cbn [repeat strings_list strings_of app]. exact IH.
Qed.
Lemma in_values_var p n v : In ((p, n), v) (all_vars [] t) -> In (hv_val v) (all_values t).
Proof. intros H. apply in_or_app. left. apply in_map_iff. exists ((p, n), v). split; [reflexivity|exact H]. Qed.
Lemma in_values_attr k v : In (k, v) (all_attrs [] t) -> In v (all_values t).
Proof. intros H. apply in_or_app. right. apply in_map_iff. exists (k, v). split; [reflexivity|exact H]. Qed.

Lemma prepared_values t1 v : prepare t = Ok t1 -> In v (all_values t1) -> In v (all_values t) \/ fresh v.
Proof.
  intros E Hv. destruct (prepare_spec t1 E) as (D1 & vs1 & -> & S1 & S2 & S3 & S4 & S5 & S6).
  assert (Et : exists a vs gs, t = WNode a vs gs) by (destruct t as [a vs gs]; exists a, vs, gs; reflexivity).
  destruct Et as (a & vs & gs & Et).
  assert (Wa : w_attrs t = a) by (rewrite Et; reflexivity). assert (Wv : w_vars t = vs) by (rewrite Et; reflexivity).
  assert (Wg : w_groups t = gs) by (rewrite Et; reflexivity). rewrite Wa, Wg in Hv.
  assert (Av : all_vars [] t = map (fun v => (([], fst v), snd v)) vs ++ all_vars_in [] gs) by (rewrite Et; apply all_vars_eq).
  assert (Aa : all_attrs [] t = flat_map (fun v => attrs_at [] (Some (fst v)) (hv_attrs (snd v))) vs ++ attrs_at [] None a ++ all_attrs_in [] gs)
    by (rewrite Et; apply all_attrs_eq).
  assert (R : forall n w, assoc n vs = Some w -> In (([], n), w) (all_vars [] t)).
  { intros n w Hw. rewrite Av. apply in_or_app. left. apply in_map_iff. exists (n, w). split; [reflexivity|]. apply assoc_Some_In. exact Hw. }
  assert (R2 : forall n w kv, assoc n vs = Some w -> In kv (attr_list (hv_attrs w)) -> In (snd kv) (all_values t)).
  { intros n w [k x] Hw Hk. apply (in_values_attr ([], Some n, k)). rewrite Aa. apply in_or_app. left. apply in_flat_map.
    exists (n, w). split; [apply assoc_Some_In; exact Hw|]. apply in_map_iff. exists (k, x). split; [reflexivity|exact Hk]. }
  unfold all_values in Hv. rewrite all_vars_eq, all_attrs_eq in Hv. apply in_app_or in Hv. destruct Hv as [Hv|Hv].
  - apply in_map_iff in Hv. destruct Hv as (x & <- & Hx). apply in_app_or in Hx. destruct Hx as [Hx|Hx].
    + apply in_map_iff in Hx. destruct Hx as ([n w] & <- & Hn). cbn [fst snd] in *.
      assert (HP := S3 n w (In_assoc n w vs1 S1 Hn)). rewrite Wv in HP.
      destruct HP as [w W1 W2|w i W1 W2 W3|i size W1 W2 W3].
      * left. apply (in_values_var [] n). apply R. exact W1.
      * left. cbn [coordinate hv_val]. apply (in_values_var [] n). apply R. exact W1.
      * right. right. apply zeros_fresh.
    + left. destruct x as [[p n] w]. cbn [snd]. apply (in_values_var p n). rewrite Av. apply in_or_app. right. exact Hx.
  - apply in_map_iff in Hv. destruct Hv as ([k w] & <- & Hx). cbn [snd].
    apply in_app_or in Hx. destruct Hx as [Hx|Hx]; [|apply in_app_or in Hx; destruct Hx as [Hx|Hx]].
    + apply in_flat_map in Hx. destruct Hx as ([n u] & Hn & Hx). cbn [fst snd] in *.
      apply in_map_iff in Hx. destruct Hx as (kv & Ek & Hk). assert (w = snd kv) by congruence. subst w.
      assert (HP := S3 n u (In_assoc n u vs1 S1 Hn)). rewrite Wv in HP.
      destruct HP as [u W1 W2|u i W1 W2 W3|i size W1 W2 W3].
      * left. exact (R2 n u kv W1 Hk).
      * cbn [coordinate hv_attrs attr_list] in Hk. apply in_app_or in Hk. destruct Hk as [Hk|Hk].
        -- right. eapply scale_attrs_fresh; [|exact Hk]. apply (tf_dimref _ _ _ TF). apply S4. exact W2.
        -- left. exact (R2 n u kv W1 Hk).
      * cbn [bare hv_attrs attr_list] in Hk. right. eapply scale_attrs_fresh; [|exact Hk]. apply (no_dimref_first 84). lia.
    + apply in_map_iff in Hx. destruct Hx as (kv & Ek & Hk). assert (w = snd kv) by congruence. subst w.
      cbn [attr_list] in Hk. apply in_app_or in Hk. destruct Hk as [Hk|[<-|[]]].
      * left. destruct kv as [k' x]. apply (in_values_attr ([], None, k')). rewrite Aa. apply in_or_app. right. apply in_or_app. left.
        apply in_map_iff. exists (k', x). split; [reflexivity|exact Hk].
      * right. left. eexists. split; [reflexivity|]. apply (no_dimref_first 118). lia.
    + left. apply (in_values_attr k). rewrite Aa. apply in_or_app. right. apply in_or_app. right. exact Hx.
Qed.
Lemma prepared_no_dimref t1 v s : prepare t = Ok t1 -> In v (all_values t1) -> In s (strings_of v) -> no_dimref s.
Proof.
  intros E Hv Hs. destruct (prepared_values t1 v E Hv) as [H|[(s' & -> & H)|H]].
  - exact (tf_strings _ _ _ TF v s H Hs).
  - destruct Hs as [<-|[]]. exact H.
  - rewrite H in Hs. contradiction.
Qed.
Lemma prepared_heap t1 v s : prepare t = Ok t1 -> In v (all_values t1) -> In s (heap_strings v) -> In s S.
Proof.
  intros E Hv Hs. destruct (prepared_values t1 v E Hv) as [H|[(s' & -> & H)|H]].
  - exact (tf_heap _ _ _ TF v s H Hs).
  - contradiction.
  - apply heap_strings_incl in Hs. rewrite H in Hs. contradiction.
Qed.
Lemma prepared_dims t1 x d : prepare t = Ok t1 -> In x (all_vars [] t1) -> hv_scale (snd x) = false ->
  In d (hv_dims (snd x)) -> d <> [] -> dim_of t d.
Proof.
  intros E Hx Hs Hd Hne. destruct (prepare_spec t1 E) as (D1 & vs1 & -> & S1 & S2 & S3 & S4 & S5 & S6).
  assert (Et : exists a vs gs, t = WNode a vs gs) by (destruct t as [a vs gs]; exists a, vs, gs; reflexivity).
  destruct Et as (a & vs & gs & Et).
  assert (Wv : w_vars t = vs) by (rewrite Et; reflexivity). assert (Wg : w_groups t = gs) by (rewrite Et; reflexivity).
  assert (Av : all_vars [] t = map (fun v => (([], fst v), snd v)) vs ++ all_vars_in [] gs) by (rewrite Et; apply all_vars_eq).
  rewrite all_vars_eq, Wg in Hx. unfold dim_of. rewrite Av. apply in_app_or in Hx. destruct Hx as [Hx|Hx].
  - apply in_map_iff in Hx. destruct Hx as ([n w] & <- & Hn). cbn [fst snd] in *.
    assert (HP := S3 n w (In_assoc n w vs1 S1 Hn)). rewrite Wv in HP.
    destruct HP as [w W1 W2|w i W1 W2 W3|i size W1 W2 W3]; [|discriminate|discriminate].
    exists (([], n), w). split; [|split; [exact Hs|split; assumption]]. apply in_or_app. left. apply in_map_iff.
    exists (n, w). split; [reflexivity|apply assoc_Some_In; exact W1].
  - exists x. split; [apply in_or_app; right; exact Hx|]. split; [exact Hs|split; assumption].
Qed.
Lemma prepared_noscale t1 : prepare t = Ok t1 ->
  noscales (w_groups (sort_tree t1)) = true /\ distincts (w_groups (sort_tree t1)).
Proof.
  intros E. destruct (prepare_spec t1 E) as (D1 & vs1 & -> & _). rewrite sort_tree_eq. cbn [w_groups].
  pose proof (tf_nodes _ _ _ TF) as N. destruct t as [a vs gs] eqn:Et. rewrite tall_eq in N. destruct N as [_ N].
  cbn [w_groups]. rewrite talls_iff in N.
  assert (G : forall g, In g (nsort (map (fun g : bytes * wtree => (fst g, sort_tree (snd g))) gs)) ->
    noscale (snd g) = true /\ distinct (snd g)).
  { intros g Hg. apply (Permutation_in _ (Permutation_sym (nsort_perm _))) in Hg. apply in_map_iff in Hg.
    destruct Hg as (g' & <- & Hg'). cbn [snd]. split.
    - apply (tall_noscale _ ([] ++ [fst g'])). apply tall_sort.
      + intros p a' vs' gs1 gs2 H _. cbn [w_vars] in *. eapply Permutation_Forall; [apply nsort_perm|exact H].
      + eapply tall_mono; [|apply (N g' Hg')]. intros p g (_ & B & _). eapply Forall_impl; [|exact B]. intros v (_ & _ & _ & H). exact H.
    - apply (tall_distinct _ ([] ++ [fst g'])). apply tall_sort.
      + intros p a' vs' gs1 gs2 H _. cbn [w_vars] in *. eapply Permutation_NoDup; [apply Permutation_map, nsort_perm|exact H].
      + eapply tall_mono; [|apply (N g' Hg')]. intros p g (_ & _ & _ & B & _).
        exact (proj1 (NoDup_part [] _ _ B)). }
  revert G. generalize (nsort (map (fun g : bytes * wtree => (fst g, sort_tree (snd g))) gs)). clear.
  induction l as [|[n g] l IH]; intros G; [split; [reflexivity|exact I]|]. cbn [noscales distincts].
  destruct (G (n, g) (or_introl eq_refl)) as [A B]. destruct IH as [C F]; [intros g' Hg'; apply G; right; exact Hg'|].
  cbn [snd] in *. rewrite A, C. split; [reflexivity|]. split; assumption.
Qed.
End Prepared.

(** ** Opening the file *)
Lemma app_len_inj {A} (a b c d : list A) : a ++ b = c ++ d -> List.length a = List.length c -> a = c /\ b = d.
Proof.
  revert c. induction a as [|x a IH]; intros [|y c] E L; try discriminate; [split; [reflexivity|exact E]|].
  cbn [app] in E. injection E as Ex E. destruct (IH c E ltac:(cbn in L; lia)) as [-> ->]. subst y. split; reflexivity.
Qed.
Lemma Forall2_len {A B} (R : A -> B -> Prop) l m : Forall2 R l m -> List.length l = List.length m.
Proof. induction 1; cbn; congruence. Qed.
Lemma Forall2_In_r {A B} (R : A -> B -> Prop) l m : Forall2 R l m -> forall y, In y m -> exists x, In x l /\ R x y.
Proof.
  induction 1 as [|x y l m H _ IH]; intros z Hz; [contradiction|]. destruct Hz as [<-|Hz].
  - exists x. split; [left; reflexivity|exact H].
  - destruct (IH z Hz) as (w & W1 & W2). exists w. split; [right; exact W1|exact W2].
Qed.
Lemma zassoc_In {V} (m : list (Z * V)) k v : NoDup (map fst m) -> In (k, v) m -> zassoc k m = Some v.
Proof.
  induction m as [|[k' v'] m IH]; intros Hn Hi; [contradiction|]. cbn [map fst zassoc] in *.
  inversion Hn as [|? ? H1 H2]; subst x l. destruct Hi as [Hi|Hi].
  - assert (k' = k) by congruence. assert (v' = v) by congruence. subst k' v'. rewrite Z.eqb_refl. reflexivity.
  - destruct (k =? k') eqn:Ek; [|apply IH; assumption]. assert (k = k') by lia. subst k'. exfalso. apply H1.
    apply (in_map fst) in Hi. exact Hi.
Qed.
Lemma has_at_bound f a b : has_at f a b -> 0 <= a <= zlen f.
Proof.
  intros (pre & post & -> & <-). rewrite !zlen_app. pose proof (zlen_nonneg pre). pose proof (zlen_nonneg b).
  pose proof (zlen_nonneg post). lia.
Qed.

(** What is known of a group in the prepared tree *)
Definition node_in (o : orders) (addrs : list (bytes * Z)) (p : path) (g : wtree) : Prop :=
  node_ok g /\
  (forall k w, In (k, w) (attr_list (w_attrs g)) -> In w (o_strings o) /\ In (p, None, k, w) (o_attrs o)) /\
  forall v, In v (w_vars g) ->
    In (hv_val (snd v)) (o_strings o) /\ In ((p, fst v), snd v) (o_dims o) /\ In ((p, fst v), snd v) (o_vlen o) /\
    Forall (fun kv => In (snd kv) (o_strings o)) (attr_list (hv_attrs (snd v))) /\
    Forall (fun kv => In ((p, Some (fst v), fst kv), snd kv) (o_attrs o)) (attr_list (hv_attrs (snd v))) /\
    (hv_scale (snd v) = false ->
     Forall (fun d => d <> [] /\ exists a, assoc d addrs = Some a /\ 0 <= a < 2 ^ 64) (hv_dims (snd v))).
(** The parts of a file and where they are *)
Record placed (t : wtree) (f : bytes) (o : orders) (t1 : wtree) (addrs : list (bytes * Z)) (n : Z) (b : bytes) (c : wctx)
  (e : henv) (hf : heapst) (vas gas : list (bytes * Z)) (L : list Z) (root : Z) : Prop := {
  pl_prepared : prepare t = Ok t1;
  pl_facts : heap_facts o addrs n b c e hf;
  pl_heap : (hs_objs hf = [] /\ he_addr e = 0) \/ exists n b, globalHeap n (hs_objs hf) = (he_addr e, b) /\ has_at f n b;
  pl_count : zlen (hs_objs hf) <= 65535;
  pl_strings : forall v s, In v (o_strings o) -> In s (strings_of v) -> no_dimref s;
  pl_nodes : tall (node_in o addrs) [] (sort_tree t1);
  pl_contents : contents_at f c [] (sort_tree t1) vas gas L;
  pl_header : header_at f c [] (w_attrs (sort_tree t1)) vas gas root;
  pl_apart : NoDup L /\ Forall (fun a => 48 <= a < root) L;
  pl_length : (List.length L < Datatypes.S (Datatypes.S (List.length f)))%nat;
  pl_root : root <= zlen f;
  pl_super : forall ext, readSuperblock ext f = Ok root;
  pl_dims : forall d, dim_of t d -> exists v ad, In (d, v) (w_vars (sort_tree t1)) /\ hv_scale v = true /\
    In (d, ad) vas /\ addr_of c d = ad /\ assoc d addrs = Some ad /\ 0 <= ad < 2 ^ 63 }.

Theorem whole_facts D S pick t f : render false pick t = Ok f -> zlen f < 2 ^ 63 -> tree_fine D S t ->
  (forall t1, prepare t = Ok t1 -> orders_ok t1 (pick t1)) ->
  exists t1 addrs n b c e hf vas gas L root, placed t f (pick t1) t1 addrs n b c e hf vas gas L root.
Proof.
  intros E Hf TF Ho.
  destruct (render_parts pick t f E Hf) as (t1 & b1 & dimAddrs & b2 & c & b3 & va & ga & ms & oh & E1 & E2 & E3 & E4 & E5 & E6 & At1 & At2 & At3 & At4 & Sb).
  specialize (Ho t1 E1). destruct Ho as (O1 & O2 & O3 & O4). set (o := pick t1) in *.
  destruct (prepare_spec D S t TF t1 E1) as (D1 & vs1 & Et1 & S1 & S2 & S3 & S4 & S5 & S6).
  pose proof (prepare_nodes D S t TF t1 E1) as Nodes.
  destruct (prepared_noscale D S t TF t1 E1) as [Ns Nd].
  assert (Or : forall v, In v (o_strings o) <-> In v (all_values t1)).
  { intros v. split; intros H; [eapply Permutation_in; [exact O1|exact H]|eapply Permutation_in; [apply Permutation_sym; exact O1|exact H]]. }
  assert (Ov : forall v, In v (o_dims o) <-> In v (all_vars [] t1)).
  { intros v. split; intros H; [eapply Permutation_in; [exact O4|exact H]|eapply Permutation_in; [apply Permutation_sym; exact O4|exact H]]. }
  assert (Hs : forall v s, In v (o_strings o) -> In s (strings_of v) -> no_dimref s).
  { intros v s Hv. apply (prepared_no_dimref D S t TF t1 v s E1). apply Or. exact Hv. }
  (* the heap *)
  destruct (build_heap o dimAddrs (48 + zlen b1) b2 c E3) as (e & hf & HF).
  { eapply Permutation_Forall; [apply Permutation_sym; exact O2|]. apply Forall_forall. intros x Hx.
    destruct (vars_tall _ _ _ Nodes x Hx) as (g & (_ & V & _) & Hv). rewrite Forall_forall in V.
    destruct (V _ Hv) as (_ & _ & ((dims & L & _ & _ & _ & H) & _)). exact (fine_seq dims (snd x) L H). }
  { eapply Permutation_Forall; [apply Permutation_sym; exact O2|]. apply Forall_forall. intros x Hx. apply Or.
    apply in_or_app. left. apply in_map_iff. exists x. split; [reflexivity|exact Hx]. }
  { eapply Permutation_NoDup; [apply Permutation_map, Permutation_sym; exact O2|]. exact (prepared_keys D S t TF t1 E1). }
  { eapply Permutation_Forall; [apply Permutation_sym; exact O3|]. apply Forall_forall. intros x Hx.
    destruct (attrs_tall _ _ _ Nodes x Hx) as (q & g & (A & V & _) & [Hk|(v & Hv & Hk)]).
    - rewrite Forall_forall in A. destruct (A _ Hk) as (_ & dims & H & _). cbn [snd] in H. eapply fine_aseq. exact H.
    - rewrite Forall_forall in V. destruct (V _ Hv) as (_ & _ & (_ & _ & B & _)). rewrite Forall_forall in B.
      destruct (B _ Hk) as (_ & dims & H & _). cbn [snd] in H. eapply fine_aseq. exact H. }
  { eapply Permutation_Forall; [apply Permutation_sym; exact O3|]. apply Forall_forall. intros x Hx. apply Or.
    apply in_or_app. right. apply in_map_iff. exists x. split; [reflexivity|exact Hx]. }
  { eapply Permutation_NoDup; [apply Permutation_map, Permutation_sym; exact O3|]. exact (prepared_akeys D S t TF t1 E1). }
  { exact Hs. }
  assert (Hcount : zlen (hs_objs hf) <= 65535).
  { pose proof (tf_count _ _ _ TF) as Hc. pose proof (prepared_total D S t TF t1 E1) as Ht.
    assert (Ho : seq_total (o_vlen o) = seq_total (all_vars [] t1)) by (apply (sum_perm weight); exact O2).
    pose proof (prepared_atotal D S t TF t1 E1) as Hta.
    assert (Hoa : aseq_total (o_attrs o) = aseq_total (all_attrs [] t1)) by (apply (sum_perm aweight); exact O3).
    enough (zlen (hs_objs hf) <= zlen S + zlen D + (seq_total (o_vlen o) + aseq_total (o_attrs o))) by lia.
    apply (heap_count o dimAddrs (48 + zlen b1) b2 c e hf S D HF).
    - intros v s Hv. apply (prepared_heap D S t TF t1 v s E1). apply Or. exact Hv.
    - intros kv d Hk Hsc Hd. apply Ov in Hk. apply (tf_dims _ _ _ TF). apply (prepared_dims D S t TF t1 kv d E1 Hk Hsc Hd).
      destruct (vars_tall _ _ _ Nodes kv Hk) as (g & (_ & V & _) & Hv). rewrite Forall_forall in V.
      destruct (V _ Hv) as (_ & _ & (_ & _ & _ & F & _)). cbn [snd] in F. rewrite Forall_forall in F. apply F. exact Hd. }
  (* the places *)
  assert (Es : sort_tree t1 = WNode (Some (attr_list (w_attrs t) ++ [ncp])) (nsort vs1)
                 (nsort (map (fun g => (fst g, sort_tree (snd g))) (w_groups t)))) by (rewrite Et1; apply sort_tree_eq).
  set (al := Some (attr_list (w_attrs t) ++ [ncp])) in *. set (vs := nsort vs1) in *.
  set (gs := nsort (map (fun g => (fst g, sort_tree (snd g))) (w_groups t))) in *.
  assert (Nsort : tall (fun _ => node_ok) [] (sort_tree t1)).
  { apply tall_sort; [|exact Nodes]. intros p a' vs' gs1 gs2. apply node_ok_perm. }
  assert (Tv : tall (fun q g => forall v, In v (w_vars g) -> In ((q, fst v), snd v) (all_vars [] t1)) [] (sort_tree t1)).
  { apply tall_vars. intros x. apply all_vars_sort. }
  assert (Ta : tall (fun q g => (forall k, In k (attrs_at q None (w_attrs g)) -> In k (all_attrs [] t1)) /\
                   forall v k, In v (w_vars g) -> In k (attrs_at q (Some (fst v)) (hv_attrs (snd v))) -> In k (all_attrs [] t1)) [] (sort_tree t1)).
  { apply tall_attrs. intros x. apply all_attrs_sort. }
  rewrite Es in E2, E4, E5, Ns, Nd. cbn [w_vars w_groups w_attrs] in E2, E4, E5, Ns, Nd.
  assert (Nvs : NoDup (map fst vs)) by (unfold vs; eapply Permutation_NoDup; [apply Permutation_map, nsort_perm|exact S1]).
  pose proof (zlen_nonneg b1) as Zb1. pose proof (zlen_nonneg b2) as Zb2. pose proof (zlen_nonneg b3) as Zb3.
  destruct (place_root f c 48 (48 + zlen b1 + zlen b2) (48 + zlen b1 + zlen b2 + zlen b3) al vs gs b1 dimAddrs b3 va ga) as
    (L & Hc & Hsp & Hda & Hvs & Hsc); try assumption; try lia.
  set (root := 48 + zlen b1 + zlen b2 + zlen b3) in *.
  (* dimension scales *)
  assert (Dim : forall d, dim_of t d -> exists x ad, In x vs /\ fst x = d /\ assoc d dimAddrs = Some ad /\
            assoc d (dimAddrs ++ va) = Some ad /\ 0 <= ad < 2 ^ 63 /\ hv_scale (snd x) = true).
  { intros d Hd. assert (In d (map fst vs1)) as Hin by (apply S2; right; exact Hd).
    apply in_map_iff in Hin. destruct Hin as ([n v] & En & Hin). cbn [fst] in En. subst n.
    pose proof (S3 d v (In_assoc d v vs1 S1 Hin)) as HP.
    assert (Hsv : hv_scale v = true).
    { destruct HP as [w W1 W2|w i W1 W2 W3|i size W1 W2 W3]; [|reflexivity|reflexivity]. exfalso. apply W2, S4, Hd. }
    assert (Hin' : In (d, v) vs) by (unfold vs; eapply Permutation_in; [apply nsort_perm|exact Hin]).
    destruct (Hsc (d, v)) as (ad & A1 & A2). { apply filter_In. split; [exact Hin'|exact Hsv]. }
    destruct (Hvs (d, v) Hin') as (ad' & B1 & B2). cbn [fst] in *. assert (ad' = ad) by congruence. subst ad'.
    exists (d, v), ad. split; [exact Hin'|]. split; [reflexivity|]. split; [exact A1|]. split; [exact A2|].
    destruct B2 as (_ & _ & dn & data & ms' & oh' & _ & _ & _ & _ & Hat). apply has_at_bound in Hat. cbn [snd] in Hat. split; [lia|exact Hsv]. }
  assert (Nds : tall (node_in o dimAddrs) [] (sort_tree t1)).
  { pose proof (tall_and _ _ _ _ Nsort (tall_and _ _ _ _ Tv Ta)) as T. eapply tall_mono; [|exact T].
    cbv beta. intros p g (N & TV & TA1 & TA2). split; [exact N|]. split.
    - intros k w Hk. assert (Hall : In (p, None, k, w) (all_attrs [] t1)).
      { apply TA1. apply in_map_iff. exists (k, w). split; [reflexivity|exact Hk]. }
      split; [|eapply Permutation_in; [apply Permutation_sym; exact O3|exact Hall]].
      apply Or. apply in_or_app. right. apply in_map_iff. exists (p, None, k, w). split; [reflexivity|exact Hall].
    - intros v Hv. destruct N as (_ & V & _). rewrite Forall_forall in V. destruct (V v Hv) as (V1 & V2 & (W1 & W2 & W3 & W4 & _)).
      pose proof (TV v Hv) as Hall. split; [|split; [|split; [|split; [|split]]]].
      + apply Or. apply in_or_app. left. apply in_map_iff. exists (p, fst v, snd v). split; [reflexivity|exact Hall].
      + apply Ov. exact Hall.
      + eapply Permutation_in; [apply Permutation_sym; exact O2|exact Hall].
      + apply Forall_forall. intros kv Hk. apply Or. apply in_or_app. right. apply in_map_iff.
        exists (p, Some (fst v), fst kv, snd kv). split; [reflexivity|]. apply (TA2 v); [exact Hv|]. apply in_map_iff.
        exists kv. split; [reflexivity|exact Hk].
      + apply Forall_forall. intros kv Hk. eapply Permutation_in; [apply Permutation_sym; exact O3|]. apply (TA2 v); [exact Hv|].
        apply in_map_iff. exists kv. split; [reflexivity|exact Hk].
      + intros Hsv. apply Forall_forall. intros d Hd. rewrite Forall_forall in W4. destruct (W4 d Hd) as (X1 & X2 & X3).
        split; [exact X1|]. destruct (Dim d) as (x & ad & _ & _ & B1 & _ & B2).
        { apply (prepared_dims D S t TF t1 _ d E1 Hall Hsv Hd X1). }
        exists ad. split; [exact B1|]. lia. }
  assert (Hh : header_at f c [] (w_attrs (sort_tree t1)) (addrs_in vs (dimAddrs ++ va)) ga root).
  { split; [lia|]. exists ms, oh. rewrite Es. cbn [w_attrs]. split; [exact E5|]. split; [exact E6|exact At4]. }
  pose proof (has_at_bound _ _ _ At4) as Hrb. fold root in Hrb.
  pose proof (spread_length _ _ _ Hsp ltac:(lia)) as HL.
  assert (HLn : (List.length L < Datatypes.S (Datatypes.S (List.length f)))%nat) by (unfold zlen in *; lia).
  assert (Hc' : contents_at f c [] (sort_tree t1) (addrs_in vs (dimAddrs ++ va)) ga L) by (rewrite Es; exact Hc).
  destruct Hsp as [Hnd Hrange].
  exists t1, dimAddrs, (48 + zlen b1), b2, c, e, hf, (addrs_in vs (dimAddrs ++ va)), ga, L, root. constructor.
  - exact E1.
  - exact HF.
  - destruct (hf_stored _ _ _ _ _ _ _ HF) as [[A B]|A]; [left; split; assumption|].
    right. exists (48 + zlen b1), b2. split; [exact A|exact At2].
  - exact Hcount.
  - exact Hs.
  - exact Nds.
  - exact Hc'.
  - exact Hh.
  - split; [exact Hnd|]. eapply Forall_impl; [|exact Hrange]. cbv beta. intros a Ha. unfold root; lia.
  - exact HLn.
  - apply Hrb.
  - exact Sb.
  - intros d Hd. destruct (Dim d Hd) as ([n v] & ad & Hin & En & B1 & B2 & B3 & B4). cbn [fst] in En. subst n.
    exists v, ad. split; [rewrite Es; exact Hin|]. split; [exact B4|]. split; [|split; [|split; [exact B1|exact B3]]].
    + unfold addrs_in. apply in_map_iff. exists (d, v). cbn [fst]. rewrite B2. split; [reflexivity|exact Hin].
    + unfold addr_of. rewrite (hf_dims _ _ _ _ _ _ _ HF), B1. reflexivity.
Qed.

Theorem whole_read D S pick t f : render false pick t = Ok f -> zlen f < 2 ^ 63 -> tree_fine D S t ->
  (forall t1, prepare t = Ok t1 -> orders_ok t1 (pick t1)) ->
  exists t1 c root, prepare t = Ok t1 /\ openFile f = Ok root /\ group_obj f c (sort_tree t1) root /\
    NoDup (map fst (addrIndex root)) /\
    (forall d, dim_of t d -> zassoc (addr_of c d) (addrIndex root) = Some d).
Proof.
  intros E Hf TF Ho.
  destruct (whole_facts D S pick t f E Hf TF Ho) as (t1 & addrs & n & b & c & e & hf & vas & ga & L & root & PL).
  set (o := pick t1) in *. destruct PL as [E1 HF Hst Hcount Hs Nds Hc' Hh [Hnd Hrange] HLn Hrb Sb Dim].
  assert (Hg : heap_gives (readGlobalHeap f) (he_addr e) hf) by (apply heap_stored_gives; assumption).
  assert (Good : tgood f c [] (sort_tree t1)).
  { apply tall_tgood. eapply tall_mono; [|exact Nds].
    cbv beta. intros p g ((A & V & G & N & C & _) & TA & TV). split; [|split; [|split; [|split; [exact N|exact C]]]].
    - apply Forall_forall. intros [k w] Hk. rewrite Forall_forall in A. destruct (A _ Hk) as [P1 P2]. cbn [fst snd] in *.
      destruct (TA k w Hk) as [T1 T2].
      eapply (attr_good f o addrs n b c e hf HF Hg Hs); cbn [snd].
      + right. apply (hf_heap _ _ _ _ _ _ _ HF).
      + apply (hf_aix _ _ _ _ _ _ _ HF). exact T2.
      + reflexivity.
      + exact T1.
      + exact P1.
      + exact P2.
    - apply Forall_forall. intros v Hv. rewrite Forall_forall in V. destruct (V v Hv) as (V1 & V2 & (W1 & W2 & W3 & W4 & _)).
      destruct (TV v Hv) as (T1 & T2 & T3 & T4 & T5 & T6).
      apply (var_good f o addrs n b c e hf HF Hg Hs); [exact T1|exact T2|exact T3|exact T4|exact T5|exact W1|eapply Z.le_trans; [exact W2|discriminate]|exact W3|exact T6].
    - apply Forall_app. split; apply Forall_forall; intros m Hm; apply in_map_iff in Hm; destruct Hm as (x & <- & Hx).
      + rewrite Forall_forall in V. apply (V x Hx).
      + rewrite Forall_forall in G. apply (G x Hx). }
  destruct (tree_read f c Hf (sort_tree t1) [] _ _ _ [] 0 [] _ root Good Hc' Hh Hnd HLn) as
    (ro & R1 & R2 & R3 & R4 & R5 & (ral & R7) & (vos & gos & R8 & R9)).
  cbn [app] in R1.
  exists t1, c, ro. split; [exact E1|]. split; [|split; [exact R2|]].
  - unfold openFile. rewrite Sb. cbn [rbind].
    assert (Einv : root =? invalidAddress = false) by (unfold invalidAddress; lia). rewrite Einv. rewrite R1. cbn [rbind].
    unfold with_info. cbn [rs_info rs_children rs_addrs].
    rewrite R7. change (set_group true (group_info [] 0 ral)) with (group_info [] 0 ral). rewrite dump_group. cbn [rbind rs_info rs_children].
    destruct ro as [ri rc]. cbn [r_info r_children] in *. rewrite R7. reflexivity.
  - assert (Nix : NoDup (map fst (addrIndex ro))).
    { destruct ro as [ri rc]. rewrite addrIndex_eq. cbn [map fst r_info r_children] in *. rewrite R3, R5. constructor; [|exact Hnd].
      intros Hi. rewrite Forall_forall in Hrange. specialize (Hrange 0 Hi). cbv beta in Hrange. lia. }
    split; [exact Nix|]. intros d Hd. destruct (Dim d Hd) as (v & ad & Hin & _ & Hva & Ead & B1 & B3).
    rewrite Ead. apply zassoc_In; [exact Nix|].
    destruct (sort_tree t1) as [a2 vs2 gs2] eqn:Es.
    destruct (proj1 (group_obj_eq _ _ _ _ _ _) R2) as (name' & addr' & al' & vos' & gos' & F1 & F2 & F3 & F4).
    destruct (proj1 (contents_at_eq _ _ _ _ _ _ _ _ _) Hc') as (Hv2 & _).
    assert (Hl : List.length vos = List.length vos').
    { rewrite <- (Forall2_len _ _ _ F3). rewrite <- (map_length (fun no => (fst no, ri_addr (r_info (snd no))))), R9.
      symmetry. apply (Forall2_len _ _ _ Hv2). }
    rewrite F1 in R8. cbn [r_children] in R8. destruct (app_len_inj _ _ _ _ (eq_sym R8) Hl) as [-> ->].
    rewrite <- R9 in Hva. apply in_map_iff in Hva. destruct Hva as ([n' o'] & En & Hno). cbn [fst snd] in En.
    assert (n' = d) by congruence. subst n'. assert (Ea : ri_addr (r_info o') = ad) by congruence.
    destruct (Forall2_In_r _ _ _ F3 _ Hno) as (nv & Hnv & Enm & Hvo). cbn [fst snd] in *.
    destruct Hvo as (addr2 & dims & dd & dn & size & al2 & dal & Eo & _).
    rewrite F1, addrIndex_eq. right. unfold indices. apply in_flat_map. exists (d, o'). split; [apply in_or_app; left; exact Hno|].
    cbn [snd]. rewrite Eo, addrIndex_eq. left. rewrite Eo in Ea. cbn [r_info var_info ri_addr ri_name] in *. congruence.
Qed.
