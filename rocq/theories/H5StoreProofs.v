(** Proofs about arrays of values and about the heap that the writer builds for them. *)
From Verif Require Import Prelude GoVal H5Base H5MetaWrite H5MetaRead H5Value H5TypeRead
  TypeSpec BaseLemmas H5ChecksumProofs H5MetaProofs H5TypeProofs H5DataProofs.
From Coq Require Import ZifyBool ZifyNat.

Lemma nested_nest n t : nested n t = nest n t.
Proof. induction n as [|n IH]; [reflexivity|]. cbn [nested nest]. rewrite IH. reflexivity. Qed.

(** ** Reading arrays, given how elements are read *)
Section Arr.
  Variable t : hty.
  Variable R : hval -> bytes -> Prop.
  Fixpoint rdarr (dims : list Z) (v : hval) (b : bytes) : Prop :=
    match dims with
    | [] => R v b
    | n :: ds => exists l bs, v = HSlice (nested (List.length ds) t) l /\ zlen l = n /\
                              b = List.concat bs /\ Forall2 (rdarr ds) l bs
    end.
End Arr.

Lemma repeat_read2 {A} (p : P A) l bs r :
  Forall2 (fun x b => forall r, p (b ++ r) = Ok (x, r)) l bs ->
  repeatP p (List.length l) (List.concat bs ++ r) = Ok (l, r).
Proof.
  induction 1 as [|x b l bs Hx _ IH]; [reflexivity|]. cbn [List.length repeatP List.concat].
  rewrite <- app_assoc. rewrite (pbind_ok _ _ _ _ _ (Hx _)). rewrite (pbind_ok _ _ _ _ _ IH). reflexivity.
Qed.

Lemma Forall2_imp {A B} (P Q : A -> B -> Prop) l m :
  (forall a b, P a b -> Q a b) -> Forall2 P l m -> Forall2 Q l m.
Proof. intros H. induction 1; constructor; auto. Qed.
Lemma Forall2_Forall {A B} (P : A -> B -> Prop) (Q : A -> Prop) l m :
  (forall a b, P a b -> Q a) -> Forall2 P l m -> Forall Q l.
Proof. intros H. induction 1; constructor; eauto. Qed.

Lemma allocDims_read t elem dims : forall v b,
  rdarr t (fun v b => forall r, elem (b ++ r) = Ok (v, r)) dims v b ->
  forall r, allocDims t elem dims (b ++ r) = Ok (v, r).
Proof.
  induction dims as [|n ds IH]; intros v b H r; [apply H|].
  cbn [rdarr] in H. destruct H as (l & bs & -> & Hn & -> & HF). cbn [allocDims].
  replace (Z.to_nat n) with (List.length l) by (unfold zlen in Hn; lia).
  rewrite (pbind_ok _ _ _ l r).
  - reflexivity.
  - apply repeat_read2. eapply Forall2_imp; [|exact HF]. intros x b' Hx r'. apply IH. exact Hx.
Qed.

Lemma rdarr_type t (R : hval -> bytes -> Prop) dims : (forall v b, R v b -> htype v = t) ->
  forall v b, rdarr t R dims v b -> htype v = nested (List.length dims) t.
Proof.
  intros H. destruct dims as [|n ds]; intros v b Hv; cbn [rdarr] in Hv.
  - eapply H, Hv.
  - destruct Hv as (l & bs & -> & _). reflexivity.
Qed.

Lemma allocVariable_read t one dims :
  (forall n, In n dims -> 0 < n) -> forall v b,
  rdarr t (fun v b => htype v = t /\ forall r, one (b ++ r) = Ok (v, r)) dims v b ->
  forall r, allocVariable one dims (b ++ r) = Ok (v, r).
Proof.
  induction dims as [|n ds IH]; intros Hp v b H r; [apply H|].
  cbn [rdarr] in H. destruct H as (l & bs & -> & Hn & -> & HF). cbn [allocVariable].
  replace (Z.to_nat n) with (List.length l) by (unfold zlen in Hn; lia).
  rewrite (pbind_ok _ _ _ l r).
  - rewrite (make_slice_ok (nested (List.length ds) t)); [reflexivity| |].
    + intros ->. specialize (Hp n (or_introl eq_refl)). change (zlen (@nil hval)) with 0 in Hn. lia.
    + eapply Forall2_Forall; [|exact HF]. intros x b'. apply rdarr_type.
      intros v b'' [Hv _]. exact Hv.
  - apply repeat_read2. eapply Forall2_imp; [|exact HF]. intros x b' Hx r'. apply IH.
    + intros m Hm. apply Hp. right. exact Hm.
    + exact Hx.
Qed.

(** ** undoInterfaces leaves well-typed arrays alone *)
Fixpoint welltyped (v : hval) : Prop :=
  match v with
  | HSlice t l => (fix all (l : list hval) : Prop :=
                     match l with [] => True | x :: r => htype x = t /\ welltyped x /\ all r end) l
  | _ => True
  end.
Lemma welltyped_slice t l :
  welltyped (HSlice t l) <-> Forall (fun x => htype x = t /\ welltyped x) l.
Proof.
  cbn [welltyped]. induction l as [|x r IH]; [split; [constructor|trivial]|]. split.
  - intros (A & B & C). constructor; [split; assumption|]. apply IH. exact C.
  - intros H. inversion H as [|x' r' [A B] C]; subst x' r'. split; [exact A|]. split; [exact B|].
    apply IH. exact C.
Qed.

Section HInd.
  Variable P : hval -> Prop.
  Hypothesis Hnum : forall k z, P (HNum k z).
  Hypothesis Hstr : forall s, P (HStr s).
  Hypothesis Hco : forall fs, Forall (fun f => P (snd f)) fs -> P (HComp fs).
  Hypothesis Hop : forall b, P (HOpaque b).
  Hypothesis Hen : forall v ns vs, P v -> P (HEnum v ns vs).
  Hypothesis Hsl : forall t l, Forall P l -> P (HSlice t l).
  Hypothesis Hot : P HOther.
  Fixpoint hval_ind' (v : hval) : P v :=
    match v with
    | HNum k z => Hnum k z
    | HStr s => Hstr s
    | HComp fs =>
        Hco fs ((fix go (fs : list (bytes * hval)) : Forall (fun f => P (snd f)) fs :=
                   match fs with
                   | [] => Forall_nil _
                   | f :: r => Forall_cons f (hval_ind' (snd f)) (go r)
                   end) fs)
    | HOpaque b => Hop b
    | HEnum v ns vs => Hen v ns vs (hval_ind' v)
    | HSlice t l =>
        Hsl t l ((fix go (l : list hval) : Forall P l :=
                    match l with
                    | [] => Forall_nil _
                    | x :: r => Forall_cons x (hval_ind' x) (go r)
                    end) l)
    | HOther => Hot
    end.
End HInd.

Lemma undo_same v : welltyped v -> htype (undoInterfaces v) = htype v -> undoInterfaces v = v.
Proof.
  induction v as [k z|s|fs _|b|v ns vs _|t l IH|] using hval_ind'; intros Hw Ht; try reflexivity.
  apply (proj1 (welltyped_slice _ _)) in Hw. destruct l as [|x r].
  - cbn [undoInterfaces] in *. unfold emptySlice in *. destruct (slice_base t) as [n b].
    cbn [htype] in Ht. congruence.
  - cbn [undoInterfaces] in *.
    destruct (forallb (fun y => hty_eqb (htype y) (htype (undoInterfaces x))) (map undoInterfaces r))
      eqn:E; [|reflexivity].
    cbn [htype] in Ht. assert (Hx : htype (undoInterfaces x) = t) by congruence. clear Ht.
    inversion IH as [|x' r' IHx IHr]; subst x' r'. inversion Hw as [|x' r' [Wx1 Wx2] Wr]; subst x' r'.
    rewrite Hx in *. rewrite IHx by congruence. f_equal. f_equal.
    clear IHx Hx Wx1 Wx2 IH Hw. revert E.
    induction r as [|y r IH]; intros E; [reflexivity|]. cbn [map forallb] in *.
    apply andb_true_iff in E. destruct E as [E1 E2]. apply hty_eqb_eq in E1.
    inversion IHr as [|x' r' IHy IHr']; subst x' r'. inversion Wr as [|x' r' [Wy1 Wy2] Wr']; subst x' r'.
    rewrite IHy by congruence. f_equal. apply IH; assumption.
Qed.

Lemma conf_flat_welltyped s v : closed s = true -> conf s v -> welltyped v.
Proof.
  intros Hc H. destruct s as [k| |n|k ns vs|fs|s]; try discriminate.
  - destruct H as (z & -> & _). exact I.
  - destruct H as (z & -> & _). exact I.
  - destruct H as (z & -> & _). exact I.
  - apply (proj1 (conf_comp _ _)) in H. destruct H as (l & -> & _). exact I.
Qed.

Lemma array_type s dims v : array_of s dims v -> htype v = nested (List.length dims) (go_type s).
Proof.
  destruct dims as [|n ds]; cbn [array_of].
  - apply conf_type.
  - intros (l & -> & _). reflexivity.
Qed.

Lemma rows_welltyped s dims : closed s = true -> forall v,
  array_of (SVlen s) dims v -> welltyped v.
Proof.
  intros Hc. induction dims as [|n ds IH]; intros v H; cbn [array_of] in H.
  - apply (proj1 (conf_vlen _ _)) in H. destruct H as (l & -> & _ & H). apply welltyped_slice.
    eapply Forall_impl; [|exact H]. intros x Hx. split; [apply conf_type; exact Hx|].
    eapply conf_flat_welltyped; eassumption.
  - destruct H as (l & -> & _ & H). apply welltyped_slice.
    eapply Forall_impl; [|exact H]. intros x Hx. split; [|apply IH; exact Hx].
    apply (array_type (SVlen s)). exact Hx.
Qed.

(** ** The first element *)
Lemma undo_type s dims : closed s = true -> forall v,
  array_of (SVlen s) dims v -> first_ok (SVlen s) dims v = true ->
  htype (undoInterfaces v) = htype v.
Proof.
  intros Hc. induction dims as [|n ds IH]; intros v H Hf; cbn [array_of] in H.
  - apply (proj1 (conf_vlen _ _)) in H. destruct H as (l & -> & _ & H). rewrite undo_row; auto.
    intros ->. exact Hf.
  - destruct H as (l & -> & _ & H). destruct l as [|x r]; [discriminate|].
    cbn [first_ok] in Hf. inversion H as [|x' r' Hx Hr]; subst x' r'.
    specialize (IH _ Hx Hf). pose proof (array_type _ _ _ Hx) as Ht. cbn [undoInterfaces].
    destruct (forallb _ _); [|reflexivity]. cbn [htype]. rewrite IH, Ht. reflexivity.
Qed.

(** ** Writing arrays *)
Section Stored2.
  Variable heap : Z -> Z -> res (option bytes).
  Variable e : henv.
  Fixpoint stored_arr (s : sty) (dims : list Z) (v : hval) (ix ix' : list Z) : Prop :=
    match dims with
    | [] => stored heap e s v ix ix'
    | _ :: ds =>
        match v with
        | HSlice _ l =>
            (fix go (l : list hval) (ix : list Z) : Prop :=
               match l with
               | [] => ix' = ix
               | x :: r => exists jx, stored_arr s ds x ix jx /\ go r jx
               end) l ix
        | _ => False
        end
    end.
  Fixpoint stored_list (s : sty) (ds : list Z) (ix' : list Z) (l : list hval) (ix : list Z) : Prop :=
    match l with
    | [] => ix' = ix
    | x :: r => exists jx, stored_arr s ds x ix jx /\ stored_list s ds ix' r jx
    end.
  Lemma stored_arr_slice s n ds t l ix ix' :
    stored_arr s (n :: ds) (HSlice t l) ix ix' <-> stored_list s ds ix' l ix.
  Proof.
    cbn [stored_arr]. revert ix. induction l as [|x r IH]; intros ix; [reflexivity|].
    cbn [stored_list]. split; intros (jx & A & B); exists jx; (split; [exact A|]); apply IH; exact B.
  Qed.
End Stored2.

Definition writeList (big : bool) (e : henv) (fl : Z) (m : nat) : list hval -> W :=
  fix go (l : list hval) : W :=
    match l with [] => wput [] | x :: r => wseq (writeData big e fl m x) (go r) end.
Lemma writeData_slice big e fl m t l :
  writeData big e fl (S m) (HSlice t l) = writeList big e fl m l.
Proof. reflexivity. Qed.

Lemma writeData_elem s big e fl v : conf s v -> (s = SStr -> fl = 0) ->
  writeData big e fl 0 v = writeField big e v.
Proof.
  intros H Hf. destruct s as [k| |n|k ns vs|fs|s].
  - destruct H as (z & -> & _). reflexivity.
  - destruct H as (z & -> & _). rewrite Hf by reflexivity. reflexivity.
  - destruct H as (z & -> & _). reflexivity.
  - destruct H as (z & -> & _). reflexivity.
  - apply (proj1 (conf_comp _ _)) in H. destruct H as (l & -> & _). reflexivity.
  - apply (proj1 (conf_vlen _ _)) in H. destruct H as (l & -> & _). reflexivity.
Qed.

(** every element of an array satisfies [Q] *)
Fixpoint every (Q : hval -> Prop) (n : nat) (v : hval) {struct n} : Prop :=
  match n, v with
  | O, _ => Q v
  | S m, HSlice _ l => Forall (every Q m) l
  | S _, _ => True
  end.

Section Write.
  Variable heap : Z -> Z -> res (option bytes).
  Variable e : henv.
  Hypothesis Haddr : 0 <= he_addr e < 2 ^ 64.
  Variable s : sty.
  Hypothesis Hw : writable s.
  Variable fl : Z.
  Hypothesis Hfl : s = SStr -> fl = 0.
  (** how one element is read *)
  Variable R : hval -> bytes -> Prop.
  Variable Q : hval -> Prop.
  Hypothesis HR : forall v ix ix', conf s v -> Q v -> stored heap e s v ix ix' ->
    exists b, writeField false e v ix = Ok (b, ix') /\ zlen b = size_of s /\ R v b.

  Lemma array_write dims : forall v ix ix',
    array_of s dims v -> every Q (List.length dims) v -> stored_arr heap e s dims v ix ix' ->
    exists b, writeData false e fl (List.length dims) v ix = Ok (b, ix') /\
              zlen b = fold_left Z.mul dims (size_of s) /\
              rdarr (go_type s) R dims v b.
  Proof.
    induction dims as [|n ds IH]; intros v ix ix' H HQ Hs; cbn [array_of] in H.
    - cbn [List.length every] in *. rewrite (writeData_elem s) by assumption.
      cbn [stored_arr] in Hs. destruct (HR _ _ _ H HQ Hs) as (b & A & B & C). exists b. auto.
    - destruct H as (l & -> & Hn & H). cbn [List.length]. cbn [every List.length] in HQ.
      rewrite writeData_slice. apply (proj1 (stored_arr_slice _ _ _ _ _ _ _ _ _)) in Hs.
      assert (E : exists bs, writeList false e fl (List.length ds) l ix = Ok (List.concat bs, ix') /\
                zlen (List.concat bs) = zlen l * fold_left Z.mul ds (size_of s) /\
                Forall2 (rdarr (go_type s) R ds) l bs).
      { clear Hn. revert ix Hs. induction l as [|x r IHl]; intros ix Hs.
        - cbn [stored_list] in Hs. subst ix'. exists []. split; [reflexivity|]. split; [reflexivity|constructor].
        - cbn [stored_list] in Hs. destruct Hs as (jx & Hs1 & Hs2).
          inversion H as [|x' r' Hx Hr]; subst x' r'. inversion HQ as [|x' r' Qx Qr]; subst x' r'.
          destruct (IH _ _ _ Hx Qx Hs1) as (b & A1 & A2 & A3).
          destruct (IHl Hr Qr _ Hs2) as (bs & B1 & B2 & B3).
          exists (b :: bs). split; [|split].
          + change (writeList false e fl (List.length ds) (x :: r))
              with (wseq (writeData false e fl (List.length ds) x) (writeList false e fl (List.length ds) r)).
            unfold wseq. rewrite A1. cbn [rbind]. rewrite B1. reflexivity.
          + cbn [List.concat]. rewrite zlen_app, zlen_cons, A2, B2. lia.
          + constructor; assumption. }
      destruct E as (bs & E1 & E2 & E3). exists (List.concat bs). split; [exact E1|]. split.
      + rewrite E2, Hn. cbn [fold_left]. clear. generalize (size_of s).
        assert (G : forall ds a c, c * fold_left Z.mul ds a = fold_left Z.mul ds (a * c)).
        { induction ds0 as [|d ds0 IH]; intros a c; cbn [fold_left]; [lia|]. rewrite IH. f_equal. lia. }
        intros z. apply G.
      + cbn [rdarr]. exists l, bs. auto.
  Qed.
End Write.

(** ** Element types of variables *)
Fixpoint novlen_fields (fs : list (bytes * sty)) : bool :=
  match fs with [] => true | (_, s) :: r => novlen s && novlen_fields r end.
Lemma novlen_comp fs : novlen (SComp fs) = novlen_fields fs.
Proof. reflexivity. Qed.

Lemma novlen_seqs s : novlen s = true -> forall v, seqs_ok s v = true.
Proof.
  induction s as [k| |n|k ns vs|fs IH|s IH] using sty_ind'; intros Hn v; try reflexivity; try discriminate.
  destruct v as [| |l| | | |]; try reflexivity. rewrite seqs_ok_comp. rewrite novlen_comp in Hn.
  revert l Hn. induction IH as [|[nm s] fs Hs _ IHf]; intros [|[nm' x] l] Hn; try reflexivity.
  cbn [novlen_fields] in Hn. apply andb_true_iff in Hn. destruct Hn as [H1 H2].
  cbn [seqs_fields]. cbn [snd] in Hs. rewrite (Hs H1), (IHf _ H2). reflexivity.
Qed.

(** ** The datatype message of arrays *)
Lemma buildDt_first s dims : writable s -> forall v,
  array_of s dims v -> (s = SStr -> dims <> []) -> (forall n, In n dims -> 0 < n) ->
  first_ok s dims v = true ->
  buildDatatypeMessage false v (List.length dims) = Ok (sdt s).
Proof.
  intros Hw v H Hs Hp Hf. unfold buildDatatypeMessage.
  assert (Ho : s = SStr -> is_hslice v = true).
  { intros E. specialize (Hs E). destruct dims as [|n ds]; [congruence|]. cbn [array_of] in H.
    destruct H as (l & -> & _). reflexivity. }
  clear Hs. revert Ho. generalize (is_hslice v) as o. revert v H Hp Hf.
  induction dims as [|n ds IH]; intros v H Hp Hf o Ho; cbn [array_of] in H.
  - cbn [List.length]. apply build_sdt; auto.
  - destruct H as (l & -> & Hn & H). destruct l as [|x r].
    { specialize (Hp n (or_introl eq_refl)). change (zlen (@nil hval)) with 0 in Hn. lia. }
    cbn [List.length buildDt]. cbn [first_ok] in Hf. inversion H as [|x' r' Hx Hr]; subst x' r'.
    apply IH; auto. intros m Hm. apply Hp. right. exact Hm.
Qed.

Lemma zeroDt_nested o m t : zeroDt o m (nested m t) = zeroDt o 0 t.
Proof. induction m as [|m IH]; [reflexivity|]. cbn [nested zeroDt]. exact IH. Qed.

(** numbers and strings are described also by arrays without elements *)
Lemma buildDt_plain s dims : (exists k, s = SNum k) \/ (s = SStr /\ dims <> []) -> forall v,
  array_of s dims v -> buildDatatypeMessage false v (List.length dims) = Ok (sdt s).
Proof.
  intros Hs v H. unfold buildDatatypeMessage.
  assert (Ho : s = SStr -> is_hslice v = true).
  { intros E. destruct Hs as [(k & Hk)|[_ Hd]]; [congruence|]. destruct dims as [|n ds]; [congruence|].
    cbn [array_of] in H. destruct H as (l & -> & _). reflexivity. }
  assert (Hs' : (exists k, s = SNum k) \/ s = SStr) by tauto. clear Hs.
  revert Ho. generalize (is_hslice v) as o. revert v H.
  induction dims as [|n ds IH]; intros v H o Ho; cbn [array_of] in H.
  - cbn [List.length]. destruct Hs' as [(k & ->)| ->]; apply build_sdt; auto; exact I.
  - destruct H as (l & -> & Hn & H). destruct l as [|x r].
    + cbn [List.length buildDt]. rewrite zeroDt_nested. destruct Hs' as [(k & ->)| ->]; [reflexivity|].
      rewrite Ho by reflexivity. reflexivity.
    + cbn [List.length buildDt]. inversion H as [|x' r' Hx Hr]; subst x' r'. apply IH; auto.
Qed.

Lemma enum_leaf_array k dims : forall w, array_of (SNum k) dims w -> enum_leaf w = TNum k.
Proof.
  induction dims as [|n ds IH]; intros w H; cbn [array_of] in H.
  - destruct H as (z & -> & _). reflexivity.
  - destruct H as (l & -> & _ & H). destruct l as [|x r]; cbn [enum_leaf].
    + cbn [go_type]. clear. induction (List.length ds) as [|m IH]; [reflexivity|exact IH].
    + inversion H as [|x' r' Hx Hr]; subst x' r'. apply IH. exact Hx.
Qed.

Lemma buildDt_enum k names vals dims w n : writable (SEnum k names vals) ->
  array_of (SNum k) dims w ->
  buildDatatypeMessage false (HEnum w names (map (HNum k) vals)) n = Ok (sdt (SEnum k names vals)).
Proof.
  intros Hw H. unfold buildDatatypeMessage. cbn [buildDt is_hslice].
  pose proof (build_sdt (SEnum k names vals) Hw false (HEnum (HNum k 0) names (map (HNum k) vals))) as B.
  cbn [buildDt] in B. unfold enumDt in *. rewrite (enum_leaf_array k dims w H).
  apply B; try discriminate; [|reflexivity].
  exists 0. split; [reflexivity|]. destruct k; reflexivity.
Qed.

(** ** The heap under construction *)
Definition hinv (h : heapst) : Prop :=
  forall s i, bassoc s (hs_map h) = Some i ->
    1 <= i <= zlen (hs_objs h) /\ nth_error (hs_objs h) (Z.to_nat (i - 1)) = Some s.
Definition grow (h h' : heapst) : Prop :=
  (exists tl, hs_objs h' = hs_objs h ++ tl) /\
  (forall s i, bassoc s (hs_map h) = Some i -> bassoc s (hs_map h') = Some i).
Definition has (h : heapst) (s : bytes) : Prop := exists i, bassoc s (hs_map h) = Some i.

Lemma grow_refl h : grow h h.
Proof. split; [exists []; rewrite app_nil_r; reflexivity|auto]. Qed.
Lemma grow_trans a b c : grow a b -> grow b c -> grow a c.
Proof.
  intros [(t1 & A1) B1] [(t2 & A2) B2]. split; [|auto].
  exists (t1 ++ t2). rewrite A2, A1. symmetry. apply app_assoc.
Qed.
Lemma grow_has a b s : grow a b -> has a s -> has b s.
Proof. intros [_ H] (i & Hi). exists i. apply H. exact Hi. Qed.

Lemma hinv_empty : hinv {| hs_objs := []; hs_map := [] |}.
Proof. intros s i H. discriminate. Qed.

Lemma beqb_iff a b : beqb a b = true <-> a = b.
Proof. apply beqb_eq. Qed.

Lemma nth_error_last {A} (l : list A) x : nth_error (l ++ [x]) (List.length l) = Some x.
Proof. rewrite nth_error_app2 by lia. rewrite Nat.sub_diag. reflexivity. Qed.

Lemma add_string h s : hinv h ->
  hinv (addStringToHeap h s) /\ grow h (addStringToHeap h s) /\ has (addStringToHeap h s) s.
Proof.
  intros Hi. unfold addStringToHeap. destruct (bassoc s (hs_map h)) as [i|] eqn:E.
  - split; [exact Hi|]. split; [apply grow_refl|]. exists i. exact E.
  - split; [|split].
    + intros s' i H. cbn [hs_objs hs_map bassoc] in *. rewrite zlen_app. change (zlen [s]) with 1.
      pose proof (zlen_nonneg (hs_objs h)). destruct (beqb s' s) eqn:Eb.
      * apply beqb_iff in Eb. subst s'. assert (i = zlen (hs_objs h) + 1) as -> by congruence.
        split; [lia|]. replace (Z.to_nat (zlen (hs_objs h) + 1 - 1)) with (List.length (hs_objs h))
          by (unfold zlen; lia). apply nth_error_last.
      * destruct (Hi _ _ H) as [A B]. split; [lia|]. rewrite nth_error_app1; [exact B|].
        apply nth_error_Some. congruence.
    + split; [exists [s]; reflexivity|]. intros s' i H. cbn [hs_map bassoc].
      destruct (beqb s' s) eqn:Eb; [|exact H]. apply beqb_iff in Eb. congruence.
    + exists (zlen (hs_objs h) + 1). cbn [hs_map bassoc].
      replace (beqb s s) with true by (symmetry; apply beqb_iff; reflexivity). reflexivity.
Qed.

Lemma add_obj h b : hinv h -> hinv (fst (add_object h b)) /\ grow h (fst (add_object h b)).
Proof.
  intros Hi. unfold add_object. cbn [fst]. split.
  - intros s i H. cbn [hs_objs hs_map] in *. destruct (Hi _ _ H) as [A B]. rewrite zlen_app.
    change (zlen [b]) with 1. split; [lia|]. rewrite nth_error_app1; [exact B|].
    apply nth_error_Some. congruence.
  - split; [exists [b]; reflexivity|auto].
Qed.

Definition csaList : heapst -> list hval -> heapst :=
  fix go (h : heapst) (l : list hval) : heapst :=
    match l with [] => h | x :: r => go (collectStringsActual h x) r end.
Definition csList : heapst -> list hval -> heapst :=
  fix go (h : heapst) (l : list hval) : heapst :=
    match l with [] => h | x :: r => go (collectStrings h x) r end.
Definition csFields : heapst -> list (bytes * hval) -> heapst :=
  fix go (h : heapst) (fs : list (bytes * hval)) : heapst :=
    match fs with
    | [] => h
    | (_, x) :: r =>
        go (match x with HStr s => addStringToHeap h s | _ => collectStrings h x end) r
    end.
Lemma cs_comp h fs : collectStrings h (HComp fs) = csFields h fs.
Proof. reflexivity. Qed.
Lemma csa_slice h t l : collectStringsActual h (HSlice t l) = csaList h l.
Proof. reflexivity. Qed.
Lemma cs_slice h t l : collectStrings h (HSlice t l) =
  if shouldUseVLen (HSlice t l) then csaList h l else csList h l.
Proof. reflexivity. Qed.

Definition good (h h' : heapst) : Prop := hinv h' /\ grow h h'.
Lemma good_trans a b c : good a b -> good b c -> good a c.
Proof. intros [A B] [C D]. split; [exact C|eapply grow_trans; eassumption]. Qed.

Lemma csa_good v : forall h, hinv h -> good h (collectStringsActual h v).
Proof.
  induction v as [k z|s|fs _|b|v ns vs _|t l IH|] using hval_ind'; intros h Hi;
    try (split; [exact Hi|apply grow_refl]).
  - destruct (add_string h s Hi) as (A & B & _). split; assumption.
  - rewrite csa_slice. revert h Hi. induction IH as [|x r Hx _ IHr]; intros h Hi.
    + split; [exact Hi|apply grow_refl].
    + change (csaList h (x :: r)) with (csaList (collectStringsActual h x) r).
      eapply good_trans; [apply Hx, Hi|]. apply IHr. apply Hx, Hi.
Qed.

Lemma cs_good v : forall h, hinv h -> good h (collectStrings h v).
Proof.
  induction v as [k z|s|fs IH|b|v ns vs IH|t l IH|] using hval_ind'; intros h Hi;
    try (split; [exact Hi|apply grow_refl]).
  - rewrite cs_comp. revert h Hi. induction IH as [|[nm x] r Hx _ IHr]; intros h Hi.
    + split; [exact Hi|apply grow_refl].
    + cbn [snd] in Hx.
      change (csFields h ((nm, x) :: r))
        with (csFields (match x with HStr s => addStringToHeap h s | _ => collectStrings h x end) r).
      assert (G : good h (match x with HStr s => addStringToHeap h s | _ => collectStrings h x end)).
      { destruct x; try (apply Hx, Hi). destruct (add_string h s Hi) as (A & B & _). split; assumption. }
      eapply good_trans; [exact G|]. apply IHr. apply G.
  - cbn [collectStrings]. apply IH. exact Hi.
  - rewrite cs_slice. destruct (shouldUseVLen (HSlice t l)).
    + pose proof (csa_good (HSlice t l) h Hi) as G. exact G.
    + revert h Hi. induction IH as [|x r Hx _ IHr]; intros h Hi.
      * split; [exact Hi|apply grow_refl].
      * change (csList h (x :: r)) with (csList (collectStrings h x) r).
        eapply good_trans; [apply Hx, Hi|]. apply IHr. apply Hx, Hi.
Qed.

(** the strings of an element are in the heap *)
Fixpoint strs (h : heapst) (s : sty) (v : hval) {struct s} : Prop :=
  match s, v with
  | SStr, HStr t => has h t
  | SComp fs, HComp l =>
      (fix go (fs : list (bytes * sty)) (l : list (bytes * hval)) : Prop :=
         match fs, l with
         | (_, s) :: fs', (_, x) :: l' => strs h s x /\ go fs' l'
         | _, _ => True
         end) fs l
  | _, _ => True
  end.
Fixpoint strs_fields (h : heapst) (fs : list (bytes * sty)) (l : list (bytes * hval)) : Prop :=
  match fs, l with
  | (_, s) :: fs', (_, x) :: l' => strs h s x /\ strs_fields h fs' l'
  | _, _ => True
  end.
Lemma strs_comp h fs l : strs h (SComp fs) (HComp l) <-> strs_fields h fs l.
Proof.
  cbn [strs]. revert l. induction fs as [|[nm s] fs IH]; intros [|[nm' x] l]; try reflexivity.
  cbn [strs_fields]. split; intros [A B]; (split; [exact A|]); apply IH; exact B.
Qed.

Lemma strs_grow h h' : grow h h' -> forall s v, strs h s v -> strs h' s v.
Proof.
  intros G. induction s as [k| |n|k ns vs|fs IH|s IH] using sty_ind'; intros v H; try exact I.
  - destruct v; try exact I. eapply grow_has; eassumption.
  - destruct v as [| |l| | | |]; try exact I. apply strs_comp. apply (proj1 (strs_comp _ _ _)) in H.
    revert l H. induction IH as [|[nm s] fs Hs _ IHf]; intros [|[nm' x] l] H; try exact I.
    cbn [strs_fields] in *. destruct H as [A B]. split; [apply Hs; exact A|apply IHf; exact B].
Qed.

(** an element: a string directly, anything else through collectStrings *)
Definition csElem (h : heapst) (x : hval) : heapst :=
  match x with HStr s => addStringToHeap h s | _ => collectStrings h x end.
Lemma csElem_good h x : hinv h -> good h (csElem h x).
Proof.
  intros Hi. unfold csElem. destruct x; try (apply cs_good; exact Hi).
  destruct (add_string h s Hi) as (A & B & _). split; assumption.
Qed.
Lemma csElem_strs s : novlen s = true -> forall h v, hinv h -> conf s v -> strs (csElem h v) s v.
Proof.
  induction s as [k| |n|k ns vs|fs IH|s IH] using sty_ind'; intros Hn h v Hi H; try exact I; try discriminate.
  - destruct H as (t & -> & _). cbn [strs csElem]. apply add_string. exact Hi.
  - apply (proj1 (conf_comp _ _)) in H. destruct H as (l & -> & H). apply strs_comp.
    unfold csElem. rewrite cs_comp. rewrite novlen_comp in Hn.
    revert l h Hi H Hn. induction IH as [|[nm s] fs Hs _ IHf]; intros [|[nm' x] l] h Hi H Hn;
      cbn [conf_fields] in H; try contradiction; try exact I.
    destruct H as (-> & Hx & H). cbn [novlen_fields] in Hn. apply andb_true_iff in Hn.
    destruct Hn as [Hn1 Hn2]. cbn [snd] in Hs.
    change (csFields h ((nm, x) :: l)) with (csFields (csElem h x) l).
    destruct (csElem_good h x Hi) as [G1 G2]. split.
    + assert (G : forall l h, hinv h -> grow h (csFields h l)).
      { intros l' h' Hi'. apply (cs_good (HComp l') h' Hi'). }
      eapply strs_grow; [apply G; exact G1|]. apply Hs; assumption.
    + apply IHf; assumption.
Qed.

Lemma leaf_nested n t : leaf_ty (nested n t) = leaf_ty t.
Proof. induction n as [|n IH]; [reflexivity|exact IH]. Qed.

Lemma uses_vlen s n ds l : novlen s = true ->
  shouldUseVLen (HSlice (nested n (go_type s)) l) = match s with SStr => true | _ => false end
  /\ ds = ds :> list Z.
Proof.
  intros Hn. split; [|reflexivity]. unfold shouldUseVLen, leaf_is_string. cbn [htype is_hslice].
  cbn [leaf_ty]. rewrite leaf_nested, andb_true_r. destruct s; try reflexivity. discriminate.
Qed.

Lemma every_grow h h' s n : grow h h' -> forall v, every (strs h s) n v -> every (strs h' s) n v.
Proof.
  intros G. induction n as [|n IH]; intros v H; cbn [every] in *.
  - eapply strs_grow; eassumption.
  - destruct v; try exact I. eapply Forall_impl; [|exact H]. exact IH.
Qed.

Lemma csa_array h ds : forall v, hinv h -> array_of SStr ds v ->
  every (strs (collectStringsActual h v) SStr) (List.length ds) v.
Proof.
  revert h. induction ds as [|n ds IH]; intros h v Hi H; cbn [array_of] in H.
  - destruct H as (t & -> & _). cbn [List.length every strs collectStringsActual]. apply add_string. exact Hi.
  - destruct H as (l & -> & _ & H). cbn [List.length every]. rewrite csa_slice.
    revert h Hi. induction H as [|x r Hx _ IHr]; intros h Hi; [constructor|].
    change (csaList h (x :: r)) with (csaList (collectStringsActual h x) r).
    destruct (csa_good x h Hi) as [G1 G2]. constructor; [|apply IHr; exact G1].
    eapply every_grow; [|apply IH; [exact Hi|exact Hx]].
    apply (csa_good (HSlice TOther r) _ G1).
Qed.

Lemma csList_good l : forall h, hinv h -> good h (csList h l).
Proof.
  induction l as [|x r IH]; intros h Hi; [split; [exact Hi|apply grow_refl]|].
  change (csList h (x :: r)) with (csList (collectStrings h x) r).
  eapply good_trans; [apply cs_good, Hi|]. apply IH. apply cs_good, Hi.
Qed.

Lemma cs_array s ds : novlen s = true -> s <> SStr \/ ds <> [] -> forall h v, hinv h -> array_of s ds v ->
  every (strs (collectStrings h v) s) (List.length ds) v.
Proof.
  intros Hn Hs.
  assert (D : s = SStr \/ s <> SStr) by (destruct s; [right|left|right..]; congruence).
  destruct D as [->|D].
  - intros h v Hi H. destruct ds as [|n ds]; [destruct Hs; congruence|].
    pose proof (csa_array h (n :: ds) v Hi H) as E. cbn [array_of] in H. destruct H as (l & -> & _ & H).
    rewrite cs_slice. rewrite (proj1 (uses_vlen SStr _ [] l eq_refl)). exact E.
  - clear Hs. induction ds as [|m ds IH]; intros h v Hi H; cbn [array_of] in H.
    + cbn [List.length every]. pose proof (csElem_strs s Hn h v Hi H) as E.
      assert (E' : csElem h v = collectStrings h v).
      { destruct v; try reflexivity. apply conf_type in H. destruct s; try discriminate. congruence. }
      rewrite E' in E. exact E.
    + destruct H as (l & -> & _ & H). cbn [List.length every]. rewrite cs_slice.
      rewrite (proj1 (uses_vlen s _ [] l Hn)).
      assert (E : forall h, hinv h -> Forall (every (strs (csList h l) s) (List.length ds)) l).
      { clear h Hi. induction H as [|x r Hx _ IHr]; intros h Hi; [constructor|].
        change (csList h (x :: r)) with (csList (collectStrings h x) r).
        destruct (cs_good x h Hi) as [G1 G2]. constructor; [|apply IHr; exact G1].
        eapply every_grow; [apply csList_good, G1|]. apply IH; assumption. }
      destruct s; try (apply E; exact Hi). congruence.
Qed.

(** ** From the heap under construction to [stored] *)
Section Final.
  Variable heap : Z -> Z -> res (option bytes).
  Variable addr : Z.
  Variable hf : heapst.      (* the finished heap *)
  Hypothesis Hinv : hinv hf.
  Hypothesis Hcount : zlen (hs_objs hf) < 2 ^ 32.
  Hypothesis Hheap : forall i b, nth_error (hs_objs hf) i = Some b -> b <> [] ->
    heap addr (Z.of_nat i + 1) = Ok (Some b).
  Let e := {| he_addr := addr; he_idx := map_idx (hs_map hf) |}.

  Lemma strs_stored s : novlen s = true -> forall v ix, conf s v -> strs hf s v -> stored heap e s v ix ix.
  Proof.
    induction s as [k| |n|k ns vs|fs IH|s IH] using sty_ind'; intros Hn v ix H Hs; try discriminate.
    - destruct H as (z & -> & _). reflexivity.
    - destruct H as (t & -> & _). cbn [strs] in Hs. destruct Hs as (i & Hi). cbn [stored].
      unfold e. cbn [he_idx he_addr]. unfold map_idx. rewrite Hi. destruct (Hinv _ _ Hi) as [A B].
      split; [reflexivity|]. split; [|lia]. destruct t as [|c t]; [left; reflexivity|right].
      replace i with (Z.of_nat (Z.to_nat (i - 1)) + 1) by lia. apply Hheap; [exact B|discriminate].
    - destruct H as (z & -> & _). reflexivity.
    - destruct H as (z & -> & _). reflexivity.
    - apply (proj1 (conf_comp _ _)) in H. destruct H as (l & -> & H). apply stored_comp.
      apply (proj1 (strs_comp _ _ _)) in Hs. rewrite novlen_comp in Hn.
      revert l H Hs Hn. induction IH as [|[nm s] fs IHs _ IHf]; intros [|[nm' x] l] H Hs Hn;
        cbn [conf_fields] in H; try contradiction; try reflexivity.
      destruct H as (-> & Hx & H). cbn [strs_fields] in Hs. destruct Hs as [S1 S2].
      cbn [novlen_fields] in Hn. apply andb_true_iff in Hn. destruct Hn as [N1 N2].
      cbn [stored_fields]. exists ix. split; [apply IHs; assumption|apply IHf; assumption].
  Qed.

  Lemma strs_stored_arr s dims : novlen s = true -> forall v ix, array_of s dims v ->
    every (strs hf s) (List.length dims) v -> stored_arr heap e s dims v ix ix.
  Proof.
    intros Hn. induction dims as [|n ds IH]; intros v ix H Hs; cbn [array_of] in H.
    - cbn [stored_arr]. apply strs_stored; assumption.
    - destruct H as (l & -> & _ & H). apply stored_arr_slice. cbn [List.length every] in Hs.
      induction H as [|x r Hx _ IHr]; [reflexivity|]. inversion Hs as [|x' r' Sx Sr]; subst x' r'.
      cbn [stored_list]. exists ix. split; [apply IH; assumption|apply IHr; exact Sr].
  Qed.

  Definition cveList (m : nat) : heapst -> list hval -> res (heapst * list Z) :=
    fix go (h : heapst) (l : list hval) : res (heapst * list Z) :=
      match l with
      | [] => Ok (h, [])
      | x :: r =>
          let* (h, is) := collectVlenElements false h m x in
          let* (h, js) := go h r in
          Ok (h, is ++ js)
      end.

  (** sequences: each becomes an object; the finished heap extends every stage *)
  Lemma seqs_stored s dims : writable s -> closed s = true -> forall v h,
    hinv h -> array_of (SVlen s) dims v ->
    exists h' ix, collectVlenElements false h (List.length dims) v = Ok (h', ix) /\ hinv h' /\ grow h h' /\
      hs_map h' = hs_map h /\
      (grow h' hf -> forall jx, stored_arr heap e (SVlen s) dims v (ix ++ jx) jx).
  Proof.
    intros Hw Hc. induction dims as [|n ds IH]; intros v h Hi H; cbn [array_of] in H.
    - apply (proj1 (conf_vlen _ _)) in H. destruct H as (l & -> & Hl & H).
      cbn [List.length collectVlenElements]. unfold serializeVlen.
      rewrite (closed_sers s h l Hc H). cbn [rbind].
      destruct (add_obj h (flat_map cbytes l) Hi) as [A B].
      exists (fst (add_object h (flat_map cbytes l))), [zlen (hs_objs h) + 1].
      split; [reflexivity|]. split; [exact A|]. split; [exact B|]. split; [reflexivity|].
      intros [(tl & Ht) _] jx. cbn [stored_arr stored]. exists (zlen (hs_objs h) + 1).
      split; [reflexivity|]. unfold add_object in Ht. cbn [fst hs_objs] in Ht.
      pose proof (zlen_nonneg (hs_objs h)) as H0. split.
      { rewrite Ht in Hcount. rewrite !zlen_app in Hcount. change (zlen [flat_map cbytes l]) with 1 in Hcount.
        pose proof (zlen_nonneg tl). lia. }
      destruct l as [|x r]; [left; reflexivity|right]. unfold e. cbn [he_addr].
      replace (zlen (hs_objs h)) with (Z.of_nat (List.length (hs_objs h))) by reflexivity.
      apply Hheap.
      + rewrite Ht, <- app_assoc. rewrite nth_error_app2 by lia. rewrite Nat.sub_diag. reflexivity.
      + inversion H as [|x' r' Hx Hr]; subst x' r'.
        destruct (closed_reads (fun _ _ => Err EInternal) s Hw Hc _ Hx) as [Hz _].
        pose proof (size_pos s Hw) as Hp. cbn [flat_map]. intros E. apply app_eq_nil in E.
        destruct E as [E _]. rewrite E in Hz. change (zlen (@nil Z)) with 0 in Hz. lia.
    - destruct H as (l & -> & _ & H). cbn [List.length].
      change (collectVlenElements false h (S (List.length ds)) (HSlice (nested (List.length ds) (go_type (SVlen s))) l))
        with (cveList (List.length ds) h l).
      assert (E : exists h' ix, cveList (List.length ds) h l = Ok (h', ix) /\ hinv h' /\ grow h h' /\
                hs_map h' = hs_map h /\
                (grow h' hf -> forall jx, stored_list heap e (SVlen s) ds jx l (ix ++ jx))).
      { revert h Hi. induction H as [|x r Hx _ IHr]; intros h Hi.
        - exists h, []. split; [reflexivity|]. split; [exact Hi|]. split; [apply grow_refl|].
          split; [reflexivity|]. intros _ jx. reflexivity.
        - destruct (IH _ _ Hi Hx) as (h1 & ix1 & A1 & A2 & A3 & A4 & A5).
          destruct (IHr _ A2) as (h2 & ix2 & B1 & B2 & B3 & B4 & B5).
          exists h2, (ix1 ++ ix2). split.
          { change (cveList (List.length ds) h (x :: r))
              with (let* (h, is) := collectVlenElements false h (List.length ds) x in
                    let* (h, js) := cveList (List.length ds) h r in Ok (h, is ++ js)).
            rewrite A1. cbn [rbind]. rewrite B1. reflexivity. }
          split; [exact B2|]. split; [eapply grow_trans; eassumption|]. split; [congruence|].
          intros G jx. cbn [stored_list]. exists (ix2 ++ jx). split.
          + rewrite <- app_assoc. apply A5. eapply grow_trans; eassumption.
          + apply B5. exact G. }
      destruct E as (h' & ix & E1 & E2 & E3 & E4 & E5). exists h', ix.
      split; [exact E1|]. split; [exact E2|]. split; [exact E3|]. split; [exact E4|].
      intros G jx. apply stored_arr_slice. apply E5. exact G.
  Qed.
End Final.
