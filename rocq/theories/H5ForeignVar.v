(** Lemmas: a variable of a file of another writer has the value that is stored. *)
From Coq Require Import Lia ZifyBool ZifyNat Permutation.
From Verif Require Import Prelude BaseLemmas GoVal ArraySpec H5Base H5MetaRead H5Value H5TypeRead H5RecordModel ChunkSpec
  MetaSpec RecordSpec DenseSpec ForeignSpec ForeignTypeSpec ForeignMsgSpec ForeignDataSpec ForeignValueSpec ForeignFilterSpec
  IndexProofs  H5PathModel H5FileRead H5PipeModel H5MetaProofs H5DenseProofs H5ObjectProofs H5ForeignProofs H5ForeignTree H5ForeignType P_H5ForeignType H5ForeignValue H5ForeignData.

(** ** Messages *)

Lemma of_type_app t l1 l2 : of_type t (l1 ++ l2) = of_type t l1 ++ of_type t l2.
Proof. unfold of_type. rewrite filter_app, map_app. reflexivity. Qed.
Lemma of_type_cons t m l : of_type t (m :: l) = (if fm_type m =? t then [fm_data m] else []) ++ of_type t l.
Proof. unfold of_type. cbn [filter]. destruct (fm_type m =? t); reflexivity. Qed.
Lemma of_type_one t l b : of_type t l = [b] -> exists l1 m l2, l = l1 ++ m :: l2 /\ fm_type m = t /\ fm_data m = b /\
  of_type t l1 = [] /\ of_type t l2 = [].
Proof.
  induction l as [|m l IH]; intros H; [discriminate|]. rewrite of_type_cons in H. destruct (fm_type m =? t) eqn:E.
  - injection H as H1 H2. exists [], m, l. repeat split; [lia|assumption|assumption].
  - destruct (IH H) as (l1 & m' & l2 & -> & A & B & C & D). exists (m :: l1), m', l2. repeat split; try assumption.
    rewrite of_type_cons, E. exact C.
Qed.
Lemma own_all_app l1 l2 i : own_all (l1 ++ l2) i = own_all l2 (own_all l1 i).
Proof. unfold own_all. apply fold_left_app. Qed.
Lemma own_all_cons m l i : own_all (m :: l) i = own_all l (own (fm_type m) (fm_data m) i).
Proof. reflexivity. Qed.

(** What messages of other types leave alone *)
Section Untouched.
  Context {A : Type} (pr : rinfo -> A) (types : list Z).
  Hypothesis H : forall t b i, ~ In t types -> pr (own t b i) = pr i.
  Lemma untouched l i : (forall t, In t types -> of_type t l = []) -> pr (own_all l i) = pr i.
  Proof.
    revert i. induction l as [|m l IH]; intros i Hl; [reflexivity|]. rewrite own_all_cons, IH.
    - apply H. intros Hi. specialize (Hl _ Hi). rewrite of_type_cons, Z.eqb_refl in Hl. discriminate.
    - intros t Hi. specialize (Hl _ Hi). rewrite of_type_cons in Hl. apply app_eq_nil in Hl. apply Hl.
  Qed.
End Untouched.

Ltac touch := intros t b i Hn; cbn [In] in Hn; unfold own;
  repeat match goal with |- context [if t =? ?c then _ else _] => destruct (Z.eqb_spec t c); [try (exfalso; lia)|] end;
  repeat match goal with |- context [match ?c with Some _ => _ | None => _ end] =>
           lazymatch type of c with option layout => destruct c as [[?|? ?| |[?|] ? ?]|] | _ => destruct c end
         | |- context [match ?c with Ok _ => _ | _ => _ end] => destruct c end; reflexivity.
Definition where_ (i : rinfo) := (ri_layout i, ri_blocks i, (ri_btree i, ri_elem i, ri_number i, ri_rank i)).
Lemma ty_untouched t b i : ~ In t [3] -> ri_ty (own t b i) = ri_ty i. Proof. revert t b i. touch. Qed.
Lemma where_untouched t b i : ~ In t [3; 8] -> where_ (own t b i) = where_ i. Proof. revert t b i. touch. Qed.
Lemma chunks_untouched t b i : ~ In t [8] ->
  (ri_blocks (own t b i), (ri_btree (own t b i), ri_elem (own t b i), ri_number (own t b i), ri_rank (own t b i))) =
  (ri_blocks i, (ri_btree i, ri_elem i, ri_number i, ri_rank i)). Proof. revert t b i. touch. Qed.
Lemma fill_untouched t b i : ~ In t [5] -> ri_fill (own t b i) = ri_fill i. Proof. revert t b i. touch. Qed.
Lemma fillOld_untouched t b i : ~ In t [4] -> ri_fillOld (own t b i) = ri_fillOld i. Proof. revert t b i. touch. Qed.
Lemma filters_untouched t b i : ~ In t [11] -> ri_filters (own t b i) = ri_filters i. Proof. revert t b i. touch. Qed.

Lemma only {t : Z} {l} : of_type t l = [] -> forall t', In t' [t] -> of_type t' l = [].
Proof. intros H t' [<-|[]]. exact H. Qed.
Lemma both {t u : Z} {l} : of_type t l = [] -> of_type u l = [] -> forall t', In t' [t; u] -> of_type t' l = [].
Proof. intros H1 H2 t' [<-|[<-|[]]]; assumption. Qed.

Lemma rd_exact (v r : bytes) : zlen v < 2 ^ 32 -> (do* sz := read32 in rd sz) ((le 4 (zlen v) ++ v) ++ r) = Ok (v, r).
Proof.
  intros H. pose proof (zlen_nonneg v). rewrite <- app_assoc.
  rewrite (pbind_step _ _ _ (zlen v) (v ++ r)) by (apply read32_le'; lia). apply rd_app. reflexivity.
Qed.

Lemma undefined_divides t : fsize t mod zlen (undefinedFill (H5ForeignType.told t)) = 0.
Proof.
  assert (ONE : forall (n x : Z), n mod zlen [x] = 0) by (intros n x; apply Z.mod_1_r).
  destruct t; cbn [H5ForeignType.told undefinedFill fsize]; try apply ONE.
  - destruct n as [|p|p]; try apply ONE. do 4 (try destruct p as [p|p|]); try apply ONE; destruct sg, big; reflexivity.
  - destruct n as [|p|p]; try apply ONE. do 4 (try destruct p as [p|p|]); try apply ONE; destruct big; reflexivity.
Qed.
Lemma repeats_self (v : bytes) : v <> [] -> repeats (zlen v) v (Some v).
Proof.
  intros Hv. split; [|apply Z_mod_same_full]. intros w [= <-] _. split; [apply Z_mod_same_full|].
  intros p Hp. rewrite Z.mod_small by lia. reflexivity.
Qed.
Lemma repeats_zeros n : repeats n [0] (Some (ForeignDataSpec.zeros n)).
Proof.
  split; [|apply Z.mod_1_r]. intros w [= <-] _. split; [apply Z.mod_1_r|]. intros p Hp. change (zlen [0]) with 1. rewrite Z.mod_1_r.
  unfold znth, ForeignDataSpec.zeros, zrep. rewrite nth_repeat. reflexivity.
Qed.
Lemma undefined_repeats t : repeats (fsize t) (undefinedFill (H5ForeignType.told t)) (netcdf_fill t).
Proof.
  pose proof (undefined_divides t) as D.
  assert (NO : forall pat, fsize t mod zlen pat = 0 -> repeats (fsize t) pat None) by (intros pat H; split; [intros v [=]|exact H]).
  assert (SELF : forall v, fsize t = zlen v -> v <> [] -> repeats (fsize t) v (Some v)) by (intros v -> Hv; apply repeats_self, Hv).
  destruct t; cbn [H5ForeignType.told undefinedFill netcdf_fill fsize] in *; try (apply NO; exact D); try apply repeats_zeros.
  - destruct n as [|p|p]; try (apply NO; exact D).
    do 4 (try destruct p as [p|p|]); try (apply NO; exact D); destruct sg, big; (apply SELF; [reflexivity|discriminate]).
  - destruct n as [|p|p]; try (apply NO; exact D).
    do 4 (try destruct p as [p|p|]); try (apply NO; exact D); destruct big; (apply SELF; [reflexivity|discriminate]).
Qed.
Lemma fill_kept l t fill i : fill_told l t fill -> 0 < fsize t -> ri_fill i = None -> ri_fillOld i = None ->
  let j := own_all l i in
  repeats (fsize t) (fillOf j (H5ForeignType.told t)) fill /\ fill_usable j = true.
Proof.
  intros HF Hs H1 H2 j.
  assert (RV : forall v, v <> [] -> zlen v = fsize t -> repeats (fsize t) v (Some v)) by (intros v Hv <-; apply repeats_self, Hv).
  pose proof (repeats_zeros (fsize t)) as RZ.
  inversion HF as [l' n E4 E5|l' n b pad v E5 Hf Hv|l' n b pad E4 E5 Hf|l' n b pad E5 Hf|l' n b pad v E4 E5 Hf Hv Nv]; subst l' n.
  - assert (J1 : ri_fill j = None) by (unfold j; rewrite (untouched _ _ fill_untouched _ _ (only E5)); exact H1).
    assert (J2 : ri_fillOld j = None) by (unfold j; rewrite (untouched _ _ fillOld_untouched _ _ (only E4)); exact H2).
    unfold fillOf, fill_usable. rewrite J1, J2. split; [exact RZ|reflexivity].
  - destruct (of_type_one _ _ _ E5) as (l1 & m & l2 & El & M1 & M2 & A1 & A2).
    assert (J1 : ri_fill j = Some (Some v)).
    { unfold j. rewrite El, own_all_app, own_all_cons, (untouched _ _ fill_untouched _ _ (only A2)). rewrite M1, M2.
      unfold own. cbn [Z.eqb Pos.eqb]. unfold got. rewrite (C76_fill _ _ _ Hf). reflexivity. }
    assert (Nv : v <> []) by (intros ->; cbn in Hv; lia).
    unfold fillOf, fill_usable. rewrite J1. destruct v as [|c v]; [congruence|]. split; [apply RV; assumption|].
    destruct (ri_fillOld j) as [[|]|]; reflexivity.
  - destruct (of_type_one _ _ _ E5) as (l1 & m & l2 & El & M1 & M2 & A1 & A2).
    assert (J1 : ri_fill j = None).
    { unfold j. rewrite El, own_all_app, own_all_cons, (untouched _ _ fill_untouched _ _ (only A2)). rewrite M1, M2.
      unfold own. cbn [Z.eqb Pos.eqb]. unfold got. rewrite (C76_fill _ _ _ Hf). rewrite (untouched _ _ fill_untouched _ _ (only A1)). exact H1. }
    assert (J2 : ri_fillOld j = None) by (unfold j; rewrite (untouched _ _ fillOld_untouched _ _ (only E4)); exact H2).
    unfold fillOf, fill_usable. rewrite J1, J2. split; [exact RZ|reflexivity].
  - destruct (of_type_one _ _ _ E5) as (l1 & m & l2 & El & M1 & M2 & A1 & A2).
    assert (J1 : ri_fill j = Some None).
    { unfold j. rewrite El, own_all_app, own_all_cons, (untouched _ _ fill_untouched _ _ (only A2)). rewrite M1, M2.
      unfold own. cbn [Z.eqb Pos.eqb]. unfold got. rewrite (C76_fill _ _ _ Hf). reflexivity. }
    unfold fill_usable. rewrite J1. split; [|destruct (ri_fillOld j) as [[|]|]; reflexivity].
    unfold fillOf. rewrite J1. destruct (ri_fillOld j) as [[|]|]; apply undefined_repeats.
  - destruct (of_type_one _ _ _ E4) as (l1 & m & l2 & El & M1 & M2 & A1 & A2).
    assert (J1 : ri_fill j = None) by (unfold j; rewrite (untouched _ _ fill_untouched _ _ (only E5)); exact H1).
    assert (J2 : ri_fillOld j = Some v).
    { unfold j. rewrite El, own_all_app, own_all_cons, (untouched _ _ fillOld_untouched _ _ (only A2)). rewrite M1, M2.
      unfold own. cbn [Z.eqb Pos.eqb]. unfold got. destruct Hf as [Hl ->]. rewrite (rd_exact v _ Hl). reflexivity. }
    unfold fillOf, fill_usable. rewrite J1, J2. destruct v as [|c v]; [congruence|]. split; [apply RV; assumption|reflexivity].
Qed.

Lemma modelled j : ri_filters j = [] -> fill_usable j = true -> data_modelled j = true.
Proof.
  unfold data_modelled, fill_usable. intros ->. destruct (ri_fill j); [reflexivity|]. destruct (ri_fillOld j) as [[|]|]; [discriminate| |]; reflexivity.
Qed.
Lemma place_kept l1 l2 tb tpad pb ppad t p i :
  of_type 3 l1 = [tb ++ zrep tpad 0] -> of_type 3 l2 = [] -> of_type 8 l1 = [] -> of_type 8 l2 = [pb ++ zrep ppad 0] ->
  type_is known_version t tb -> few_members t -> opaque_last t -> place_is pb p ->
  stuff i = stuff (newObject [] 0) ->
  let j := own_all (l1 ++ l2) i in
  ri_ty j = Some (H5ForeignType.told t) /\ keeps p j.
Proof.
  intros T1 T2 P1 P2 Ht Hfm Hop Hpl Hst j.
  unfold stuff in Hst. injection Hst as S1 S2 S3 S4 S5 S6 S7 S8 S9 S10.
  set (j1 := own_all l1 i). assert (Ej : j = own_all l2 j1) by apply own_all_app.
  assert (J1 : ri_ty j1 = Some (H5ForeignType.told t) /\ ri_layout j1 = []).
  { destruct (of_type_one _ _ _ T1) as (la & m & lb & El & M1 & M2 & A1 & A2). unfold j1. rewrite El, own_all_app, own_all_cons.
    rewrite El, of_type_app, of_type_cons in P1. apply app_eq_nil in P1. destruct P1 as [_ P1]. apply app_eq_nil in P1. destruct P1 as [_ P1].
    rewrite (untouched _ _ ty_untouched _ _ (only A2)).
    assert (W : forall k, ri_layout (own_all lb k) = ri_layout k).
    { intros k. pose proof (untouched _ _ where_untouched lb k (both A2 P1)) as W. unfold where_ in W. congruence. }
    rewrite W, M1, M2. unfold own. cbn [Z.eqb Pos.eqb]. unfold got.
    rewrite (C76_type_partial _ _ _ Ht Hfm Hop). split; reflexivity. }
  destruct J1 as [J1 J2].
  pose proof (untouched _ _ chunks_untouched l1 i (only P1)) as W. fold j1 in W. cbv beta in W.
  injection W as W1 W2 W3 W4 W5. rewrite S3 in W1. rewrite S4 in W2.
  split; [rewrite Ej, (untouched _ _ ty_untouched _ _ (only T2)); exact J1|].
  destruct (of_type_one _ _ _ P2) as (la & m & lb & El & M1 & M2 & A1 & A2).
  rewrite El, of_type_app, of_type_cons in T2. apply app_eq_nil in T2. destruct T2 as [T2 T3]. apply app_eq_nil in T3. destruct T3 as [_ T3].
  assert (K : where_ j = where_ (set_layout (match p with
        | Compact data => LCompact data
        | Contiguous (Some a) size => LContiguous a size
        | Contiguous None _ => LNone
        | Chunked a shape elem => LChunked a shape elem end) (own_all la j1))).
  { rewrite Ej, El, own_all_app, own_all_cons, (untouched _ _ where_untouched _ _ (both T3 A2)), M1, M2.
    unfold own. cbn [Z.eqb Pos.eqb]. unfold got. rewrite (C76_place _ _ _ Hpl). reflexivity. }
  pose proof (untouched _ _ where_untouched la j1 (both T2 A1)) as U. unfold where_ in U. injection U as U1 U2 U3 U4 U5 U6.
  rewrite J2 in U1. rewrite W1 in U2. rewrite W2 in U3.
  destruct p as [data|[a|] size|[a|] shape elem]; unfold where_ in K; cbn [set_layout add_block set_chunks ri_layout ri_blocks ri_btree ri_elem ri_number ri_rank] in K;
    injection K as K1 K2 K3 K4 K5 K6; cbn [keeps]; rewrite ?U1, ?U2, ?U3 in *; repeat split; assumption.
Qed.

Lemma parts_kept l1 l2 tb tpad pb ppad t p fill i :
  of_type 3 l1 = [tb ++ zrep tpad 0] -> of_type 3 l2 = [] -> of_type 8 l1 = [] -> of_type 8 l2 = [pb ++ zrep ppad 0] ->
  type_is known_version t tb -> few_members t -> opaque_last t -> place_is pb p -> fill_told (l1 ++ l2) t fill ->
  0 < fsize t -> stuff i = stuff (newObject [] 0) ->
  let j := own_all (l1 ++ l2) i in
  ri_ty j = Some (H5ForeignType.told t) /\ keeps p j /\ repeats (fsize t) (fillOf j (H5ForeignType.told t)) fill /\ fill_usable j = true.
Proof.
  intros T1 T2 P1 P2 Ht Hfm Hop Hpl Hfill Hs Hst j.
  destruct (place_kept l1 l2 tb tpad pb ppad t p i T1 T2 P1 P2 Ht Hfm Hop Hpl Hst) as [K1 K2].
  unfold stuff in Hst. injection Hst as S1 S2 S3 S4 S5 S6 S7 S8 S9 S10.
  destruct (fill_kept (l1 ++ l2) t fill i Hfill Hs S8 S9) as [F1 F2].
  split; [exact K1|]. split; [exact K2|]. split; assumption.
Qed.

Lemma dataset_kept l t p fill i : dataset_told l t p fill -> 0 < fsize t -> stuff i = stuff (newObject [] 0) ->
  let j := own_all l i in
  ri_ty j = Some (H5ForeignType.told t) /\ keeps p j /\ repeats (fsize t) (fillOf j (H5ForeignType.told t)) fill /\ data_modelled j = true.
Proof.
  intros (l1 & l2 & tb & tpad & pb & ppad & -> & T1 & T2 & P1 & P2 & H11 & Ht & Hfm & Hop & Hpl & Hfill) Hs Hst j.
  destruct (parts_kept l1 l2 tb tpad pb ppad t p fill i T1 T2 P1 P2 Ht Hfm Hop Hpl Hfill Hs Hst) as (K1 & K2 & K3 & K4).
  split; [exact K1|]. split; [exact K2|]. split; [exact K3|]. apply modelled; [|exact K4].
  unfold j. rewrite (untouched _ _ filters_untouched _ _ (only H11)). unfold stuff in Hst. injection Hst as S1 S2 S3 S4 S5 S6 S7 S8 S9 S10. exact S10.
Qed.
Lemma filtered_kept l fs t p fill i : filtered_told l fs t p fill -> 0 < fsize t -> stuff i = stuff (newObject [] 0) ->
  let j := own_all l i in
  ri_ty j = Some (H5ForeignType.told t) /\ keeps p j /\ repeats (fsize t) (fillOf j (H5ForeignType.told t)) fill /\ fill_usable j = true /\
  ri_filters j = map (fun d => (fd_id d, fd_vals d)) fs.
Proof.
  intros (l1 & l2 & tb & tpad & pb & ppad & fb & fpad & -> & T1 & T2 & P1 & P2 & H11 & Hfs & Hkn & Ht & Hfm & Hop & Hpl & Hfill) Hs Hst j.
  destruct (parts_kept l1 l2 tb tpad pb ppad t p fill i T1 T2 P1 P2 Ht Hfm Hop Hpl Hfill Hs Hst) as (K1 & K2 & K3 & K4).
  split; [exact K1|]. split; [exact K2|]. split; [exact K3|]. split; [exact K4|].
  destruct (of_type_one _ _ _ H11) as (la & m & lb & El & M1 & M2 & A1 & A2).
  unfold j. rewrite El, own_all_app, own_all_cons, (untouched _ _ filters_untouched _ _ (only A2)), M1, M2.
  unfold own. cbn [Z.eqb Pos.eqb]. unfold got. rewrite (C76_filters_partial _ _ _ Hfs Hkn). cbn [add_filters ri_filters].
  rewrite (untouched _ _ filters_untouched _ _ (only A1)).
  unfold stuff in Hst. injection Hst as S1 S2 S3 S4 S5 S6 S7 S8 S9 S10. rewrite S10. reflexivity.
Qed.

(** ** Datasets in the tree *)

Lemma type_size uses t b : type_is uses t b -> 0 < fsize t < 2 ^ 32.
Proof.
  intros H. induction H; cbn [fsize] in *; try lia.
  all: match goal with H : int_size _ |- _ => destruct H as [->|[->|[->| ->]]]; lia end.
Qed.

Definition blanked (i : rinfo) : Prop := stuff i = stuff (newObject [] 0).
Lemma stuff_parts i j : stuff i = stuff j -> ri_ty i = ri_ty j /\ (forall p, keeps p j -> keeps p i) /\
  (forall t, fillOf i t = fillOf j t) /\ data_modelled i = data_modelled j /\ fill_usable i = fill_usable j /\ ri_filters i = ri_filters j.
Proof.
  intros H. unfold stuff in H. injection H as S1 S2 S3 S4 S5 S6 S7 S8 S9 S10. split; [exact S1|]. split.
  - intros p. destruct p as [data|[a|] size|[a|] shape elem]; cbn [keeps]; rewrite S2, S3, ?S4, ?S5, ?S6, ?S7; auto.
  - unfold fillOf, data_modelled, fill_usable. rewrite S8, S9, S10. repeat split; reflexivity.
Qed.

Lemma came_parts f name a o dims c l b : zlen f < 2 ^ 63 -> came f name a (FData dims) o -> messages_are f c a l ->
  Forall (fun m => fm_type m = 1 \/ fm_type m = 21 \/ plain alone [0; 3; 4; 5; 8; 11; 12; 13; 14; 18; 22] m) l ->
  of_type 1 l = [b] -> dataspace b dims -> stored_attrs f alone l ->
  ri_dims (r_info o) = Some dims /\ exists i, stuff i = stuff (newObject [] 0) /\ stuff (r_info o) = stuff (own_all l i).
Proof.
  intros Hf (i & ad & n & st & (g & ->) & _ & _ & Hrd & ->) Hm Hl H1 Hb Ha. cbn [r_info].
  destruct (foreign_dataspace _ _ Hb) as (pad & Eb).
  assert (HA : forall b', In b' (of_type 21 l) -> accepted readAttributeInfo b') by (apply (@stored_attrs_single f (Z * Z) l Ha)).
  destruct (attrs_listed f _ l Ha) as [xs Hx]. destruct (leaf_parts f Hf c a l xs (set_group g (newObject name a)) ad Hm) as (i' & E1 & E2 & E3 & E4 & _ & E6).
  { repeat split. }
  { exact Hx. }
  { rewrite Forall_forall in *. intros m Hi. destruct (Hl m Hi) as [Ht|[Ht|Ht]].
    - left. split; [exact Ht|]. assert (Ei : In (fm_data m) (of_type 1 l)) by (apply in_map, filter_In; split; [exact Hi|lia]).
      rewrite H1 in Ei. destruct Ei as [<-|[]]. exists dims, (zrep pad 0). split; [exact Eb|apply H5ForeignTree.zeros_zrep].
    - right. left. split; [exact Ht|]. apply HA. apply in_map, filter_In. split; [exact Hi|lia].
    - right. right. exact Ht. }
  { right. split; [reflexivity|exists b; exact H1]. }
  { rewrite H1. discriminate. }
  specialize (Hrd (Nat.max n (S c)) ltac:(lia)). rewrite (E6 (Nat.max n (S c)) ltac:(lia)) in Hrd. injection Hrd as <-. cbn [rs_info].
  split; [rewrite E1; unfold after; rewrite H1; unfold got; rewrite Eb; reflexivity|].
  exists (set_group g (newObject name a)). split; [reflexivity|exact E4].
Qed.

Lemma came_data f name a o dims t p fill : zlen f < 2 ^ 63 -> came f name a (FData dims) o -> dataset_at f alone a dims t p fill ->
  let i := r_info o in
  ri_dims i = Some dims /\ ri_ty i = Some (H5ForeignType.told t) /\ keeps p i /\
  repeats (fsize t) (fillOf i (H5ForeignType.told t)) fill /\ data_modelled i = true.
Proof.
  intros Hf Hc (c & l & b & Hm & Hl & H1 & Hb & Ha & Hd) i. destruct (came_parts f name a o dims c l b Hf Hc Hm Hl H1 Hb Ha) as (E1 & i0 & S0 & E4).
  assert (Ts : 0 < fsize t) by (destruct Hd as (? & ? & ? & ? & ? & ? & _ & _ & _ & _ & _ & _ & Ht & _); apply (type_size _ _ _ Ht)).
  destruct (dataset_kept l t p fill i0 Hd Ts S0) as (K1 & K2 & K3 & K4).
  destruct (stuff_parts _ _ E4) as (P1 & P2 & P3 & P4 & _). fold i in P1, P2, P3, P4.
  split; [exact E1|]. split; [rewrite P1; exact K1|]. split; [apply P2, K2|]. split; [rewrite P3; exact K3|rewrite P4; exact K4].
Qed.
Lemma came_filtered f name a o fs dims t p fill : zlen f < 2 ^ 63 -> came f name a (FData dims) o -> filtered_at f alone a fs dims t p fill ->
  let i := r_info o in
  ri_dims i = Some dims /\ ri_ty i = Some (H5ForeignType.told t) /\ keeps p i /\
  repeats (fsize t) (fillOf i (H5ForeignType.told t)) fill /\ fill_usable i = true /\
  ri_filters i = map (fun d => (fd_id d, fd_vals d)) fs.
Proof.
  intros Hf Hc (c & l & b & Hm & Hl & H1 & Hb & Ha & Hd) i. destruct (came_parts f name a o dims c l b Hf Hc Hm Hl H1 Hb Ha) as (E1 & i0 & S0 & E4).
  assert (Ts : 0 < fsize t) by (destruct Hd as (? & ? & ? & ? & ? & ? & ? & ? & _ & _ & _ & _ & _ & _ & _ & _ & Ht & _); apply (type_size _ _ _ Ht)).
  destruct (filtered_kept l fs t p fill i0 Hd Ts S0) as (K1 & K2 & K3 & K4 & K5).
  destruct (stuff_parts _ _ E4) as (P1 & P2 & P3 & _ & P4 & P5). fold i in P1, P2, P3, P4, P5.
  split; [exact E1|]. split; [rewrite P1; exact K1|]. split; [apply P2, K2|]. split; [rewrite P3; exact K3|]. split; [rewrite P4; exact K4|rewrite P5; exact K5].
Qed.

Lemma fold_right_volume dims : fold_right Z.mul 1 dims = volume dims.
Proof. induction dims as [|d dims IH]; cbn [fold_right volume]; [reflexivity|]. rewrite IH. reflexivity. Qed.

(** The data of a dataset, got from an object that says the same *)
Theorem data_value f i dims t p fill b v : zlen f < 2 ^ 63 -> Forall (fun n => 0 <= n < 2 ^ 63) dims -> 0 < fsize t < 2 ^ 32 ->
  keeps p i -> repeats (fsize t) (fillOf i (H5ForeignType.told t)) fill ->
  stored_as f dims (fsize t) fill p b -> array_is (in_global_heap f) t dims b v -> zlen b < 2 ^ 63 ->
  let d := dset_of i dims (H5ForeignType.told t) in
  fst (getData f (readGlobalHeap f) d true (opened d (ri_blocks i))) = Ok v.
Proof.
  intros Hf Hd Hs Hk Hr Hst Hv Hb d. pose proof (dlen_told t) as DT.
  assert (Hheap : forall addr idx data, in_global_heap f addr idx data -> readGlobalHeap f addr idx = Ok (Some data))
    by (intros addr idx data H; apply global_heap_read; assumption).
  pose proof (value_size (readGlobalHeap f) (in_global_heap f) Hheap _ _ _ _ Hv) as Hz.
  rewrite fold_right_volume in Hz. rewrite <- DT in *.
  destruct (stored_bytes f i dims (H5ForeignType.told t) fill Hf Hd Hs Hr p b Hst Hk Hz Hb) as (rest & bl & E). fold d in E.
  unfold getData, opened. cbn [v_blocks v_slice v_ty]. rewrite E. cbn [fst sliceDims].
  change (d_ty d) with (H5ForeignType.told t). change (d_dims d) with dims.
  rewrite (value_read (readGlobalHeap f) (in_global_heap f) Hheap _ _ _ _ rest Hv). reflexivity.
Qed.

(** A variable in the tree *)
Definition with_attrs (f : bytes) (root : robj) (l : list rattr) (v : hval) : res rvar :=
  let* l := sortAttrList f l in
  let* ds := getDimensions f root l in
  let* a := getAttributes f l in
  Ok (mkRvar v ds a).
Theorem variable_value f root h name o a dims t p fill b v : zlen f < 2 ^ 63 -> findVariable h name = Some o -> came f name a (FData dims) o ->
  dataset_at f alone a dims t p fill -> Forall (fun n => n < 2 ^ 63) dims ->
  stored_as f dims (fsize t) fill p b -> array_is (in_global_heap f) t dims b v -> zlen b < 2 ^ 63 ->
  getVariable f root h name = with_attrs f root (r_attrs o) v.
Proof.
  intros Hf Hfind Hc Hda Hdm Hst Hv Hb. destruct (came_data f name a o dims t p fill Hf Hc Hda) as (E1 & E2 & E3 & E4 & E5).
  assert (Hs : 0 < fsize t < 2 ^ 32).
  { destruct Hda as (c & l & sb & _ & _ & _ & _ & _ & ? & ? & ? & ? & ? & ? & _ & _ & _ & _ & _ & _ & Ht & _). exact (type_size _ _ _ Ht). }
  assert (Hd : Forall (fun n => 0 <= n < 2 ^ 63) dims).
  { destruct Hda as (c & l & sb & _ & _ & _ & (flags & most & pad & _ & W & _) & _).
    rewrite Forall_forall in *. intros n Hn. specialize (W n Hn). specialize (Hdm n Hn). unfold word in W. lia. }
  unfold getVariable. rewrite Hfind, E1, E2, E5. cbn [negb]. cbv zeta.
  rewrite (data_value f (r_info o) dims t p fill b v Hf Hd Hs E3 E4 Hst Hv Hb). reflexivity.
Qed.
