(** The texts of types that the HDF5 reader gives are those of the languages. *)
From Coq Require Import Lia ZifyBool ZifyNat Permutation.
From Verif Require Import Prelude GoVal BaseLemmas H5Base H5Value H5TypeRead H5FileRead H5TypeText TypeTextSpec
  H5ShapeSpec TypeTextProofs TypeTextGo.

Section DtyInd.
  Variable Q : dty -> Prop.
  Hypothesis HFixed : forall n sg b, Q (DFixed n sg b).
  Hypothesis HFloat : forall n b, Q (DFloat n b).
  Hypothesis HString : forall n, Q (DString n).
  Hypothesis HOpaque : forall n, Q (DOpaque n).
  Hypothesis HComp : forall n ms, Forall (fun m => Q (snd m)) ms -> Q (DComp n ms).
  Hypothesis HRef : forall n, Q (DRef n).
  Hypothesis HEnum : forall n bl sg b names vals, Q (DEnum n bl sg b names vals).
  Hypothesis HVlen : forall n b t, Q t -> Q (DVlen n b t).
  Hypothesis HArray : forall n dims t, Q t -> Q (DArray n dims t).
  Fixpoint dty_ind' (d : dty) : Q d :=
    match d with
    | DFixed n sg b => HFixed n sg b
    | DFloat n b => HFloat n b
    | DString n => HString n
    | DOpaque n => HOpaque n
    | DComp n ms =>
        HComp n ms ((fix go (l : list (bytes * Z * list Z * dty)) : Forall (fun m => Q (snd m)) l :=
                       match l with
                       | [] => Forall_nil _
                       | m :: r => Forall_cons m (dty_ind' (snd m)) (go r)
                       end) ms)
    | DRef n => HRef n
    | DEnum n bl sg b names vals => HEnum n bl sg b names vals
    | DVlen n b t => HVlen n b t (dty_ind' t)
    | DArray n d t => HArray n d t (dty_ind' t)
    end.
End DtyInd.

(** ** Decimal numbers *)
Lemma value_snoc s : forall acc c, value acc (s ++ [c]) = 10 * value acc s + (c - 48).
Proof. induction s as [|x s IH]; intros acc c; cbn [app value]; [reflexivity|apply IH]. Qed.
Lemma digits_ok : forall fuel n, 0 <= n < 2 ^ Z.of_nat fuel -> (0 < fuel)%nat -> natural_text n (digits fuel n).
Proof.
  induction fuel as [|k IH]; intros n Hn Hk; [lia|]. cbn [digits]. destruct (n <? 10) eqn:E.
  - cbn [app]. split; [constructor; [unfold is_digit; Z.div_mod_to_equations; lia|constructor]|].
    assert (n mod 10 = n) as -> by (apply Z.mod_small; lia). cbn [value]. split; [lia|].
    destruct (Z.eq_dec n 0) as [->|]; [left; reflexivity|right]. exists (48 + n), []. split; [reflexivity|lia].
  - assert (H : natural_text (n / 10) (digits k (n / 10))).
    { destruct k as [|k']; [exfalso; change (2 ^ Z.of_nat 1) with 2 in Hn; lia|]. apply IH; [|lia].
      rewrite Nat2Z.inj_succ, Z.pow_succ_r in Hn by lia. split; [apply Z.div_pos; lia|]. apply Z.div_lt_upper_bound; lia. }
    destruct H as (Hd & Hv & Hz). split; [|split].
    + apply Forall_app. split; [exact Hd|]. constructor; [unfold is_digit; Z.div_mod_to_equations; lia|constructor].
    + rewrite value_snoc, Hv. Z.div_mod_to_equations; lia.
    + right. destruct Hz as [Hz|(c & r & Hz & Hc)].
      * exfalso. rewrite Hz in Hv. cbn [value] in Hv. assert (1 <= n / 10) by (apply Z.div_le_lower_bound; lia). lia.
      * rewrite Hz. exists c, (r ++ [48 + n mod 10]). split; [reflexivity|exact Hc].
Qed.
Lemma decimal_ok n : number_text n (decimal n).
Proof.
  assert (B : forall m, 0 <= m -> 0 <= m < 2 ^ Z.of_nat (Z.to_nat (Z.log2 m) + 1)).
  { intros m Hm. split; [exact Hm|]. pose proof (Z.log2_nonneg m). rewrite Nat2Z.inj_add, Z2Nat.id by lia.
    destruct (Z.eq_dec m 0) as [->|]; [reflexivity|]. pose proof (Z.log2_spec m ltac:(lia)).
    replace (Z.log2 m + Z.of_nat 1) with (Z.succ (Z.log2 m)) by lia. lia. }
  unfold decimal, number_text. destruct (n <? 0) eqn:E.
  - right. split; [lia|]. eexists. split; [reflexivity|]. apply digits_ok; [apply B; lia|lia].
  - left. split; [lia|]. apply digits_ok; [apply B; lia|lia].
Qed.

(** ** Outcomes *)
Lemma mbind_is {A B} (m : M A) (f : A -> M B) a : (forall r, m r <-> r = Ok a) -> forall r, mbind m f r <-> f a r.
Proof.
  intros H r. unfold mbind. split.
  - intros [(b & Hb & Hf)|[(e & He & _)|[He _]]]; apply H in Hb || apply H in He; [|discriminate|discriminate].
    injection Hb as ->. exact Hf.
  - intros Hf. left. exists a. split; [apply H; reflexivity|exact Hf].
Qed.
Lemma mret_is {A} (a : A) r : mret a r <-> r = Ok a.
Proof. reflexivity. Qed.

(** ** Excluding names *)
Fixpoint ssize (s : shape) : nat :=
  S (match s with
     | SStruct ms => (fix go l := match l with [] => O | (_, t) :: r => (ssize t + go r)%nat end) ms
     | SSeq t => ssize t
     | SArray _ t => ssize t
     | _ => O
     end).
Lemma ssize_member ms m : In m ms -> (ssize (snd m) < ssize (SStruct ms))%nat.
Proof.
  cbn [ssize]. induction ms as [|[n t] r IH]; [contradiction|]. intros [<-|H]; cbn [snd]; [lia|]. apply IH in H. lia.
Qed.

Lemma find_filter {A} (p q : A -> bool) l : (forall x, In x l -> q x = false -> p x = false) -> find p (filter q l) = find p l.
Proof.
  induction l as [|x l IH]; intros H; [reflexivity|]. cbn [filter find].
  assert (I : find p (filter q l) = find p l) by (apply IH; intros y Hy; apply H; right; exact Hy).
  destruct (q x) eqn:Eq; cbn [find]; rewrite I; [reflexivity|]. rewrite (H x (or_introl eq_refl) Eq). reflexivity.
Qed.
Lemma without_cons n X F : without (n :: X) F = without [n] (without X F).
Proof.
  unfold without. induction F as [|[m s] F IH]; [reflexivity|]. cbn [filter fst]. rewrite IH. unfold mem. cbn [existsb].
  destruct (existsb (beqb m) X); cbn [negb filter fst]; [rewrite orb_true_r; reflexivity|]. cbn [existsb]. reflexivity.
Qed.

Section Texts.
  Variable L : language.

  (** a name counts only where its type occurs *)
  Lemma text_smaller F n c : NoDup (map fst F) -> In (n, c) F -> forall s, (ssize s < ssize c)%nat ->
    text L (without [n] F) s = text L F s.
  Proof.
    intros Hn Hi. induction s using shape_ind'; intros Hs;
      match goal with |- text _ _ ?s = _ =>
        assert (En : name_of (without [n] F) s = name_of F s)
          by (unfold name_of; destruct (nameable s); [|reflexivity]; unfold without; rewrite find_filter; [reflexivity|];
              intros [m t] Hm Hq; cbn [fst snd] in *; apply negb_false_iff, mem_In in Hq; destruct Hq as [->|[]];
              rewrite (NoDup_fst_inj F m t c Hn Hm Hi); destruct (shape_eqb c s) eqn:Ec; [|reflexivity];
              apply shape_eqb_eq in Ec; subst c; lia)
      end; rewrite !text_body, En; (destruct (name_of F _); [reflexivity|]); cbn [body]; try reflexivity.
    - f_equal. apply map_ext_in. intros [m t] Hm. rewrite Forall_forall in H. f_equal. apply (H (m, t) Hm).
      pose proof (ssize_member ms (m, t) Hm). cbn [snd] in *. lia.
    - f_equal. apply IHs. cbn [ssize] in Hs. lia.
    - f_equal. apply IHs. cbn [ssize] in Hs. lia.
  Qed.
  Lemma body_own F n c : NoDup (map fst F) -> In (n, c) F -> body L (without [n] F) c = body L F c.
  Proof.
    intros Hn Hi. destruct c; cbn [body]; try reflexivity.
    - f_equal. apply map_ext_in. intros [m t] Hm. f_equal. apply (text_smaller F n (SStruct ms)); auto. exact (ssize_member ms (m, t) Hm).
    - f_equal. apply (text_smaller F n (SSeq c)); auto.
    - f_equal. apply (text_smaller F n (SArray dims c)); auto.
  Qed.

  Variable st : style.
  Definition int_size (n : Z) : Prop := n = 1 \/ n = 2 \/ n = 4 \/ n = 8.
  Hypothesis A_fixed : forall n sg, int_size n -> s_fixed st n sg = Some (l_int L n sg).
  Hypothesis A_ref : l_int L 8 false = bs "uint64".
  Hypothesis A_float : forall n, n = 4 \/ n = 8 -> s_float st n = Some (l_float L n).
  Hypothesis A_opaque : forall n, s_opaque st n = l_opaque L n.
  Hypothesis A_struct : forall l, s_comp st l = l_struct L l.
  Hypothesis A_enum : forall n sg vals, int_size n ->
    s_enum st (l_int L n sg) (map (fun v => (fst v, decimal (snd v))) vals) = l_enum L n sg vals.
  Hypothesis A_seq : forall t, s_vlen st t = l_seq L t.
  Hypothesis A_array : forall d t, s_array st d t = l_array L d t.

  (** the types that are looked at, closed under parts *)
  Variable ok : shape -> Prop.
  Hypothesis ok_proper : forall s, ok s -> proper_shape s.
  Hypothesis ok_struct : forall ms, ok (SStruct ms) -> Forall (fun m => ok (snd m)) ms.
  Hypothesis ok_seq : forall s, ok (SSeq s) -> ok s.
  Hypothesis ok_array : forall d s, ok (SArray d s) -> ok s.

  Variable env : list tdef.
  (** the types by their names *)
  Variable T : list (bytes * shape).
  Hypothesis HT : Forall2 (fun (e : tdef) (x : bytes * shape) => fst e = fst x /\ fst (snd e) = fst x /\ fst x <> [] /\
    exists d, snd (snd e) = Some d /\ no_member_dims d /\ ok (shape_of d) /\ snd x = shape_of d) env T.
  Hypothesis Hnd : NoDup (map fst T).
  Hypothesis Hdist : forall n n' s, In (n, s) T -> In (n', s) T -> nameable s = true -> n = n'.
  Hypothesis Harr : forall n d s, ~ In (n, SArray d s) T.
  Hypothesis Hinj : forall X s s', ok s -> ok s' -> body L (without X T) s = body L (without X T) s' -> s = s'.
  Hypothesis Hne : forall X s, ok s -> body L (without X T) s <> [].

  Definition free (X : list bytes) : nat := List.length (filter (fun e : tdef => negb (mem (fst e) X)) env).

  Lemma mem_cons (a k : bytes) X : mem a (k :: X) = beqb a k || mem a X.
  Proof. reflexivity. Qed.
  Lemma free_le (key : bytes) X (l : list tdef) :
    (List.length (filter (fun e : tdef => negb (mem (fst e) (key :: X))) l) <= List.length (filter (fun e : tdef => negb (mem (fst e) X)) l))%nat.
  Proof.
    induction l as [|[k e] l IH]; [constructor|]. cbn [filter fst]. rewrite mem_cons.
    destruct (beqb k key), (mem k X); cbn [orb negb List.length]; lia.
  Qed.
  Lemma free_less X (key : bytes) : In key (map fst env) -> mem key X = false -> (free (key :: X) < free X)%nat.
  Proof.
    unfold free. clear HT. intros Hi Hm. induction env as [|[k e] l IH]; [contradiction|]. cbn [map fst In filter] in *.
    rewrite mem_cons. destruct Hi as [->|Hi].
    - rewrite Hm, beqb_refl. cbn [orb negb List.length]. pose proof (free_le key X l). lia.
    - apply IH in Hi. destruct (beqb k key), (mem k X); cbn [orb negb List.length]; lia.
  Qed.
  Lemma free_without X : free X = 0%nat -> without X T = [].
  Proof.
    unfold free, without. intros H. pose proof HT as G0. clear -G0 H. induction G0 as [|e x l l' (E1 & _) _ IH]; [reflexivity|]. cbn [filter] in *. rewrite <- E1.
    destruct (mem (fst e) X); cbn [negb] in *; [apply IH; exact H|discriminate H].
  Qed.
  Lemma In_without X n s : In (n, s) (without X T) <-> In (n, s) T /\ mem n X = false.
  Proof. unfold without. rewrite filter_In. cbn [fst]. rewrite negb_true_iff. reflexivity. Qed.
  Lemma without_nodup X : NoDup (map fst (without X T)).
  Proof.
    unfold without. clear -Hnd. induction T as [|[n s] l IH]; [constructor|]. cbn [map filter fst] in *. inversion Hnd as [|? ? H1 H2]; subst.
    destruct (negb (mem n X)); [|apply IH; exact H2]. cbn [map fst]. constructor; [|apply IH; exact H2].
    intros H. apply H1. apply in_map_iff in H. destruct H as ([m t] & E & Hm). apply filter_In in Hm. apply in_map_iff. exists (m, t). tauto.
  Qed.

  (** an entry of the map of children and what it stands for *)
  Definition stands (e : tdef) (n : bytes) (s : shape) : Prop :=
    fst e = n /\ fst (snd e) = n /\ n <> [] /\ In (n, s) T /\
    exists d, snd (snd e) = Some d /\ no_member_dims d /\ ok (shape_of d) /\ s = shape_of d.
  Lemma entries_stand e : In e env -> exists n s, stands e n s.
  Proof.
    intros H. unfold stands. pose proof HT as G0. clear -G0 H. induction G0 as [|e' x l l' (E1 & E2 & E3 & d & E4 & E5 & E6 & E7) _ IH]; [contradiction|].
    destruct H as [->|H].
    - exists (fst x), (snd x). repeat split; auto; [left; destruct x; reflexivity|]. exists d. auto.
    - destruct (IH H) as (n & s & H1 & H2 & H3 & H4 & H5). exists n, s. repeat split; auto. right. exact H4.
  Qed.
  Lemma stand_entries n s : In (n, s) T -> exists e, In e env /\ stands e n s.
  Proof.
    intros H. assert (exists e, In e env /\ fst e = n) as (e & He & En).
    { pose proof HT as G0. clear -G0 H. induction G0 as [|e' x l l' (E1 & _) _ IH]; [contradiction|]. destruct H as [->|H].
      - exists e'. split; [left; reflexivity|exact E1].
      - destruct (IH H) as (e & He & En). exists e. split; [right; exact He|exact En]. }
    exists e. split; [exact He|]. destruct (entries_stand e He) as (m & t & Hst). pose proof Hst as (E1 & _ & _ & E4 & _).
    assert (m = n) as -> by congruence. rewrite (NoDup_fst_inj T n s t Hnd H E4). exact Hst.
  Qed.

  Definition prints (k : nat) : Prop := forall X d, (free X <= k)%nat -> no_member_dims d -> ok (shape_of d) ->
    forall r, typeString st env k X d r <-> r = Ok (text L (without X T) (shape_of d)).

  Definition printer (k : nat) : list bytes -> option dty -> M bytes :=
    fun X' t => match t with Some d => typeString st env k X' d | None => mpanic end.

  (** one entry is printed as the type without its own name *)
  Lemma entry_printed k X e n s : prints k -> (free X <= S k)%nat -> In e env -> stands e n s -> mem n X = false ->
    forall r, printer k (n :: X) (snd (snd e)) r <-> r = Ok (body L (without X T) s).
  Proof.
    intros IH Hk He (E1 & E2 & E3 & E4 & d & E5 & E6 & E7 & E8) Hm r. rewrite E5. unfold printer. unfold prints in IH. rewrite IH; auto.
    - rewrite <- E8, without_cons, text_body.
      assert (Hi : In (n, s) (without X T)) by (apply In_without; auto).
      rewrite body_own; [|apply without_nodup|exact Hi].
      assert (name_of (without [n] (without X T)) s = None) as ->; [|reflexivity].
      destruct (name_of _ s) as [m|] eqn:En; [|reflexivity]. exfalso. apply name_of_In in En. destruct En as [Hi' Hna].
      unfold without in Hi' at 1. apply filter_In in Hi'. destruct Hi' as [Hi' Hq]. cbn [fst] in Hq. apply In_without in Hi'. destruct Hi' as [Hi' _].
      assert (n = m) as -> by (exact (Hdist n m s E4 Hi' Hna)). unfold mem in Hq. cbn [existsb] in Hq. rewrite beqb_refl in Hq. discriminate Hq.
    - assert (In n (map fst env)) by (rewrite <- E1; apply in_map; exact He).
      pose proof (free_less X n H Hm). lia.
  Qed.

  Lemma loop_found k X c (Hc : ok c) : prints k -> (free X <= S k)%nat -> forall l, incl l env -> forall r,
    signatureLoop (printer k) X (body L (without X T) c) l r ->
    (exists n, r = Ok n /\ n <> [] /\ In (n, c) (without X T)) \/
    (r = Ok [] /\ forall e, In e l -> forall n, stands e n c -> mem n X = true).
  Proof.
    intros IH Hk. induction l as [|[key [name t]] l IHl]; intros Hl r H.
    - right. cbn [signatureLoop] in H. split; [exact H|contradiction].
    - assert (He : In (key, (name, t)) env) by (apply Hl; left; reflexivity).
      assert (Hl' : incl l env) by (intros x Hx; apply Hl; right; exact Hx).
      destruct (entries_stand _ He) as (n & s & Hst). pose proof Hst as (E1 & E2 & E3 & E4 & d & E5 & E6 & E7 & E8).
      cbn [fst snd] in *. subst key. subst name. cbn [signatureLoop] in H.
      assert (U : forall m, stands (n, (n, t)) m c -> m = n /\ c = s).
      { intros m (F1 & _ & _ & F4 & d' & F5 & _ & _ & F8). cbn [fst snd] in *. subst m. split; [reflexivity|]. congruence. }
      destruct (mem n X) eqn:Em.
      + destruct (IHl Hl' r H) as [G|[G1 G2]]; [left; exact G|right]. split; [exact G1|]. intros e [<-|Hi] m Hm; [|exact (G2 e Hi m Hm)].
        apply U in Hm. destruct Hm as [-> _]. exact Em.
      + apply (proj1 (mbind_is _ _ _ (entry_printed k X (n, (n, t)) n s IH Hk He Hst Em) r)) in H.
        cbv beta in H. destruct (negb (beqb (body L (without X T) s) []) && beqb (body L (without X T) s) (body L (without X T) c)) eqn:Eq.
        * left. exists n. split; [exact H|]. split; [exact E3|]. apply andb_true_iff in Eq. destruct Eq as [_ Eq]. apply beqb_eq in Eq.
          apply Hinj in Eq; [|rewrite E8; exact E7|exact Hc]. apply In_without. split; [rewrite <- Eq; exact E4|exact Em].
        * destruct (IHl Hl' r H) as [G|[G1 G2]]; [left; exact G|right]. split; [exact G1|]. intros e [<-|Hi] m Hm; [|exact (G2 e Hi m Hm)].
          exfalso. apply U in Hm. destruct Hm as [-> Ec]. subst s. rewrite Ec, beqb_refl, andb_true_r in Eq.
          apply negb_false_iff, beqb_eq in Eq. apply (Hne X (shape_of d) E7). exact Eq.
  Qed.
  Lemma loop_some k X c (Hc : ok c) : prints k -> (free X <= S k)%nat -> forall l, incl l env -> exists n,
    signatureLoop (printer k) X (body L (without X T) c) l (Ok n).
  Proof.
    intros IH Hk. induction l as [|[key [name t]] l IHl]; intros Hl; [exists []; reflexivity|].
    assert (He : In (key, (name, t)) env) by (apply Hl; left; reflexivity).
    assert (Hl' : incl l env) by (intros x Hx; apply Hl; right; exact Hx).
    destruct (entries_stand _ He) as (n & s & Hst). pose proof Hst as (E1 & E2 & _). cbn [fst snd] in *. subst key. subst name.
    cbn [signatureLoop]. destruct (IHl Hl') as (m & Hm). destruct (mem n X) eqn:Em; [exists m; exact Hm|].
    destruct (negb (beqb (body L (without X T) s) []) && beqb (body L (without X T) s) (body L (without X T) c)) eqn:Eq.
    - exists n. apply (mbind_is _ _ _ (entry_printed k X (n, (n, t)) n s IH Hk He Hst Em)). rewrite Eq. reflexivity.
    - exists m. apply (mbind_is _ _ _ (entry_printed k X (n, (n, t)) n s IH Hk He Hst Em)). rewrite Eq. exact Hm.
  Qed.

  (** findSignature, as the text of a type calls it *)
  Definition finds (k : nat) (X : list bytes) (sig : bytes) : M bytes :=
    match k with
    | O => mret []
    | S k => fun r => exists l, Permutation env l /\ signatureLoop (printer k) X sig l r
    end.
  Lemma finds_is k X c : (match k with O => True | S k => prints k end) -> (free X <= k)%nat -> ok c ->
    (nameable c = true \/ exists d s, c = SArray d s) -> forall r,
    finds k X (body L (without X T) c) r <-> r = Ok (match name_of (without X T) c with Some n => n | None => [] end).
  Proof.
    intros IH Hk Hc Hna r. destruct k as [|k]; cbn [finds].
    { rewrite free_without by lia. unfold name_of. cbn [find]. destruct (nameable c); reflexivity. }
    assert (Q : forall l r, Permutation env l -> signatureLoop (printer k) X (body L (without X T) c) l r ->
              r = Ok (match name_of (without X T) c with Some n => n | None => [] end)).
    { intros l q Hp H. apply (loop_found k X c Hc IH Hk) in H; [|intros x Hx; apply (Permutation_in x (Permutation_sym Hp)); exact Hx].
      destruct Hna as [Hna|(d & s & ->)].
      - destruct H as [(n & -> & Hn & Hi)|[-> Hno]].
        + destruct (name_of (without X T) c) as [m|] eqn:En.
          * apply name_of_In in En. destruct En as [Hi' _]. apply In_without in Hi. apply In_without in Hi'. f_equal. apply (Hdist n m c); tauto.
          * exfalso. exact (name_of_None _ _ En Hna n Hi).
        + destruct (name_of (without X T) c) as [m|] eqn:En; [|reflexivity]. exfalso. apply name_of_In in En. destruct En as [Hi' _].
          apply In_without in Hi'. destruct Hi' as [Hi' Hx]. destruct (stand_entries m c Hi') as (e & He & Hst).
          rewrite (Hno e (Permutation_in _ Hp He) m Hst) in Hx. discriminate Hx.
      - rewrite name_of_unnamed by reflexivity. destruct H as [(n & -> & Hn & Hi)|[-> _]]; [|reflexivity]. exfalso. apply In_without in Hi. apply (Harr n d s). tauto. }
    split.
    - intros (l & Hp & H). exact (Q l r Hp H).
    - intros ->. exists env. split; [apply Permutation_refl|]. destruct (loop_some k X c Hc IH Hk env (incl_refl _)) as (n & Hn).
      pose proof (Q env (Ok n) (Permutation_refl _) Hn) as E. injection E as <-. exact Hn.
  Qed.

  Lemma int_size_of n sg : ok (SInt n sg) -> int_size n.
  Proof. intros H. apply ok_proper in H. exact H. Qed.

  Lemma combine_decimals (names : list bytes) : forall vals, Forall (fun v => exists k z, v = HNum k z) vals ->
    combine names (map value_text vals) = map (fun v => (fst v, decimal (snd v))) (combine names (map integer_of vals)).
  Proof.
    induction names as [|n names IH]; intros vals H; [reflexivity|]. destruct H as [|v vals (k & z & ->) H]; [reflexivity|].
    cbn [map combine fst snd]. rewrite IH by exact H. reflexivity.
  Qed.

  Definition named (k : nat) (X : list bytes) (sig : bytes) : M bytes :=
    mbind (finds k X sig) (fun n => mret (match n with [] => sig | _ => n end)).
  Definition memberTexts (go : dty -> M bytes) :=
    fix members (ms : list (bytes * Z * list Z * dty)) : M (list (bytes * bytes)) :=
      match ms with
      | [] => mret []
      | (n, _, _, t) :: r => mbind (go t) (fun s => mbind (members r) (fun l => mret ((n, s) :: l)))
      end.
  Lemma ts_fixed k X n sg b : typeString st env k X (DFixed n sg b) = mopt (s_fixed st n sg).
  Proof. destruct k; reflexivity. Qed.
  Lemma ts_float k X n b : typeString st env k X (DFloat n b) = mopt (s_float st n).
  Proof. destruct k; reflexivity. Qed.
  Lemma ts_string k X n : typeString st env k X (DString n) = mret (bs "string").
  Proof. destruct k; reflexivity. Qed.
  Lemma ts_ref k X n : typeString st env k X (DRef n) = mret (bs "uint64").
  Proof. destruct k; reflexivity. Qed.
  Lemma ts_opaque k X n : typeString st env k X (DOpaque n) = named k X (s_opaque st n).
  Proof. destruct k; reflexivity. Qed.
  Lemma ts_comp k X n ms : typeString st env k X (DComp n ms) =
    mbind (memberTexts (typeString st env k X) ms) (fun l => named k X (s_comp st l)).
  Proof. destruct k; reflexivity. Qed.
  Lemma ts_enum k X n bl sg b names vals : typeString st env k X (DEnum n bl sg b names vals) =
    mbind (mopt (s_fixed st bl sg)) (fun ty => named k X (s_enum st ty (combine names (map value_text vals)))).
  Proof. destruct k; reflexivity. Qed.
  Lemma ts_vlen k X n b t : typeString st env k X (DVlen n b t) =
    if b then mret (bs "string") else mbind (typeString st env k X t) (fun ty => named k X (s_vlen st ty)).
  Proof. destruct k, b; reflexivity. Qed.
  Lemma ts_array k X n dims t : typeString st env k X (DArray n dims t) =
    mbind (typeString st env k X t) (fun ty => mbind (finds k X (s_array st dims ty)) (fun n =>
      match n with [] => mret (s_array st dims ty) | _ => mfail EInternal end)).
  Proof. destruct k; reflexivity. Qed.

  Lemma mopt_is {A} (o : option A) a : o = Some a -> forall r, mopt o r <-> r = Ok a.
  Proof. intros ->. reflexivity. Qed.

  Lemma named_is k X c : (match k with O => True | S k => prints k end) -> (free X <= k)%nat -> ok c ->
    nameable c = true -> forall r, named k X (body L (without X T) c) r <-> r = Ok (text L (without X T) c).
  Proof.
    intros IH Hk Hc Hna r. unfold named. rewrite (mbind_is _ _ _ (finds_is k X c IH Hk Hc (or_introl Hna))). rewrite text_body.
    destruct (name_of (without X T) c) as [n|] eqn:En; [|reflexivity].
    apply name_of_In in En. destruct En as [Hi _]. apply In_without in Hi. destruct Hi as [Hi _].
    destruct (stand_entries _ _ Hi) as (e & _ & _ & _ & Hz & _). destruct n; [congruence|reflexivity].
  Qed.

  Lemma prints_step k : (match k with O => True | S k => prints k end) -> prints k.
  Proof.
    intros IH X d Hk. pose proof (named_is k X) as Hn. pose proof (finds_is k X) as Hf.
    induction d using dty_ind'; intros Hd Hok r; cbn [shape_of no_member_dims] in *.
    - rewrite ts_fixed, text_body. cbn [body]. apply mopt_is. apply A_fixed. exact (int_size_of _ _ Hok).
    - rewrite ts_float, text_body. cbn [body]. apply mopt_is. apply A_float. exact (ok_proper _ Hok).
    - rewrite ts_string, text_body. reflexivity.
    - rewrite ts_opaque, A_opaque. exact (Hn (SOpaque n) IH Hk Hok eq_refl r).
    - rewrite ts_comp.
      set (sm := fun m : bytes * Z * list Z * dty => match m with (n0, _, dims, t) => (n0, match dims with [] => shape_of t | _ => SArray dims (shape_of t) end) end) in *.
      assert (G : forall q, memberTexts (typeString st env k X) ms q <-> q = Ok (map (fun m => (fst m, text L (without X T) (snd m))) (map sm ms))).
      { pose proof (ok_struct _ Hok) as Ho. clear Hok. induction ms as [|[[[m off] dims] t] ms IHms]; intros q; [reflexivity|].
        inversion H as [|? ? H1 H2]; subst. destruct Hd as (Ed & Hd1 & Hd2). subst dims. cbn [map] in Ho. inversion Ho as [|? ? O1 O2]; subst.
        cbn [memberTexts snd] in *. rewrite (mbind_is _ _ _ (H1 Hd1 O1)). rewrite (mbind_is _ _ _ (IHms H2 Hd2 O2)). reflexivity. }
      rewrite (mbind_is _ _ _ G), A_struct.
      assert (Em : map (fun m => (fst m, text L (without X T) (snd m))) (map sm ms) = map (fun m => match m with (n, t) => (n, text L (without X T) t) end) (map sm ms)) by (apply map_ext; intros [? ?]; reflexivity).
      rewrite Em. exact (Hn (SStruct (map sm ms)) IH Hk Hok eq_refl r).
    - rewrite ts_ref, text_body. cbn [name_of nameable body]. rewrite A_ref. reflexivity.
    - assert (Hi : int_size bl) by exact (proj1 (ok_proper _ Hok)). rewrite ts_enum, (mbind_is _ _ _ (mopt_is _ _ (A_fixed bl sg Hi))).
      rewrite (combine_decimals names vals Hd), (A_enum _ _ _ Hi). exact (Hn _ IH Hk Hok eq_refl r).
    - rewrite ts_vlen. destruct b; [rewrite text_body; reflexivity|]. rewrite (mbind_is _ _ _ (IHd Hd (ok_seq _ Hok))), A_seq.
      exact (Hn (SSeq (shape_of d)) IH Hk Hok eq_refl r).
    - rewrite ts_array, (mbind_is _ _ _ (IHd Hd (ok_array _ _ Hok))), A_array.
      rewrite (mbind_is _ _ _ (Hf (SArray dims (shape_of d)) IH Hk Hok (or_intror (ex_intro _ _ (ex_intro _ _ eq_refl))))).
      rewrite (text_body L _ (SArray dims (shape_of d))), name_of_unnamed by reflexivity. reflexivity.
  Qed.
  Theorem prints_all k : prints k.
  Proof. induction k as [|k IH]; apply prints_step; [exact I|exact IH]. Qed.
  Theorem typeString_text X d : no_member_dims d -> ok (shape_of d) -> forall r,
    typeString st env (List.length env) X d r <-> r = Ok (text L (without X T) (shape_of d)).
  Proof.
    apply prints_all. unfold free. clear. induction env as [|e l IH]; [constructor|]. cbn [filter]. destruct (negb _); cbn [List.length]; lia.
  Qed.
End Texts.

(** ** The two languages *)
Lemma join_separated sep l : join sep l = separated sep l.
Proof.
  induction l as [|x [|y r] IH]; [reflexivity|cbn; rewrite app_nil_r; reflexivity|].
  change (join sep (x :: y :: r)) with (x ++ sep ++ join sep (y :: r)). rewrite IH. unfold separated. cbn [flat_map].
  rewrite <- !app_assoc. reflexivity.
Qed.
Lemma join_nil (l : list bytes) : join [] l = List.concat l.
Proof. induction l as [|x [|y r] IH]; [reflexivity|cbn; rewrite app_nil_r; reflexivity|]. cbn [join List.concat app] in *. rewrite IH. reflexivity. Qed.

Lemma cdl_fixed n sg : int_size n -> s_fixed cdlStyle n sg = Some (l_int (CDL decimal) n sg).
Proof. intros [->|[->|[->| ->]]]; destruct sg; reflexivity. Qed.
Lemma cdl_floats n : n = 4 \/ n = 8 -> s_float cdlStyle n = Some (l_float (CDL decimal) n).
Proof. intros [->| ->]; reflexivity. Qed.
Lemma go_fixed v n sg : int_size n -> s_fixed (goStyle v) n sg = Some (l_int (Golang decimal v) n sg).
Proof. intros [->|[->|[->| ->]]]; destruct sg; reflexivity. Qed.
Lemma go_floats v n : n = 4 \/ n = 8 -> s_float (goStyle v) n = Some (l_float (Golang decimal v) n).
Proof. intros [->| ->]; reflexivity. Qed.
Lemma cdl_structs l : s_comp cdlStyle l = l_struct (CDL decimal) l.
Proof.
  cbn [s_comp cdlStyle l_struct CDL]. unfold cdlCompound. rewrite join_nil, <- flat_map_concat_map. unfold line, nl, newline, tab.
  rewrite <- !app_assoc. do 3 f_equal. apply flat_map_ext. intros m. rewrite <- !app_assoc. reflexivity.
Qed.
Lemma cdl_enums n sg vals : int_size n ->
  s_enum cdlStyle (l_int (CDL decimal) n sg) (map (fun v => (fst v, decimal (snd v))) vals) = l_enum (CDL decimal) n sg vals.
Proof.
  intros _. cbn [s_enum cdlStyle l_int l_enum CDL]. unfold cdlEnum. rewrite join_separated, map_map. unfold line, nl, newline, tab.
  rewrite <- !app_assoc. reflexivity.
Qed.
Lemma cdl_arrays d t : s_array cdlStyle d t = l_array (CDL decimal) d t.
Proof. cbn [s_array cdlStyle l_array CDL]. unfold cdlArray. rewrite join_separated. reflexivity. Qed.
Lemma go_structs v l : s_comp (goStyle v) l = l_struct (Golang decimal v) l.
Proof.
  cbn [s_comp goStyle l_struct Golang]. unfold goCompound. rewrite join_separated. unfold line, nl, newline, tab. rewrite <- !app_assoc. reflexivity.
Qed.
Lemma go_enums v n sg vals : int_size n ->
  s_enum (goStyle v) (l_int (Golang decimal v) n sg) (map (fun v => (fst v, decimal (snd v))) vals) = l_enum (Golang decimal v) n sg vals.
Proof.
  intros _. cbn [s_enum goStyle l_int l_enum Golang]. unfold goEnum. rewrite join_separated. unfold line, nl, newline.
  assert (goEnumItems v (map (fun v => (fst v, decimal (snd v))) vals) = go_constants decimal v vals) as ->.
  { destruct vals as [|x r]; [reflexivity|]. cbn [map goEnumItems go_constants fst snd]. rewrite map_map. reflexivity. }
  rewrite <- !app_assoc. reflexivity.
Qed.
Lemma go_arrays v d t : s_array (goStyle v) d t = l_array (Golang decimal v) d t.
Proof. cbn [s_array goStyle l_array Golang]. unfold goArray. rewrite join_nil, <- flat_map_concat_map. reflexivity. Qed.

(** ** The types of a group *)

(** [env]: the types among the children of a group; [T]: the same with their shapes *)
Definition type_table (env : list tdef) (T : list (bytes * shape)) : Prop :=
  Forall2 (fun (e : tdef) (x : bytes * shape) => fst e = fst x /\ fst (snd e) = fst x /\
    exists d, snd (snd e) = Some d /\ no_member_dims d /\ snd x = shape_of d) env T.

Lemma proper_struct ms : proper_shape (SStruct ms) -> Forall (fun m : bytes * shape => proper_shape (snd m)) ms.
Proof. cbn [proper_shape]. induction ms as [|[n t] r IH]; intros H; constructor; [apply H|apply IH; apply H]. Qed.
Lemma go_struct ms : go_shape (SStruct ms) -> Forall (fun m : bytes * shape => go_shape (snd m)) ms.
Proof. cbn [go_shape]. induction ms as [|[n t] r IH]; intros H; constructor; [apply H|apply IH; apply H]. Qed.

Lemma decimal_ne n : decimal n <> [].
Proof.
  destruct (decimal_ok n) as [[_ (_ & Hv & [E|(c & r & E & _)])]|[_ (s & E & _)]]; rewrite E; discriminate.
Qed.
Lemma app_ne (a b : bytes) : b <> [] -> a ++ b <> [].
Proof. destruct a; [auto|discriminate]. Qed.

Lemma without_names (P : bytes -> shape -> Prop) X (T : list (bytes * shape)) : (forall n s, In (n, s) T -> P n s) ->
  forall n s, In (n, s) (without X T) -> P n s.
Proof. intros H n s Hi. apply filter_In in Hi. apply H. tauto. Qed.
Lemma nodup_without X (T : list (bytes * shape)) : NoDup (map fst T) -> NoDup (map fst (without X T)).
Proof.
  intros Hnd. unfold without. induction T as [|[n s] l IH]; [constructor|]. cbn [map filter fst] in *. inversion Hnd as [|? ? H1 H2]; subst.
  destruct (negb (mem n X)); [|apply IH; exact H2]. cbn [map fst]. constructor; [|apply IH; exact H2].
  intros H. apply H1. apply in_map_iff in H. destruct H as ([m t] & E & Hm). apply filter_In in Hm. apply in_map_iff. exists (m, t). tauto.
Qed.

Lemma table_ok (P : shape -> Prop) env T : type_table env T -> (forall n s, In (n, s) T -> n <> [] /\ P s) ->
  Forall2 (fun (e : tdef) (x : bytes * shape) => fst e = fst x /\ fst (snd e) = fst x /\ fst x <> [] /\
    exists d, snd (snd e) = Some d /\ no_member_dims d /\ P (shape_of d) /\ snd x = shape_of d) env T.
Proof.
  induction 1 as [|e [n s] l l' (E1 & E2 & d & E3 & E4 & E5) _ IH]; intros Hp; [constructor|].
  constructor; [|apply IH; intros m t Hi; apply Hp; right; exact Hi].
  destruct (Hp n s (or_introl eq_refl)) as (H1 & H2). cbn [fst snd] in *. repeat split; auto. exists d. rewrite <- E5. auto.
Qed.

Theorem cdl_type_text env T : type_table env T -> proper_types cdl_words T -> forall X d, no_member_dims d -> proper_shape (shape_of d) ->
  forall r, typeString cdlStyle env (List.length env) X d r <-> r = Ok (text (CDL decimal) (without X T) (shape_of d)).
Proof.
  intros HT (Hnd & Hdist & Hp) X d Hd Hs. apply (typeString_text (CDL decimal) cdlStyle) with (ok := proper_shape); auto.
  - exact cdl_fixed.
  - exact cdl_floats.
  - exact cdl_structs.
  - exact cdl_enums.
  - exact cdl_arrays.
  - exact proper_struct.
  - intros dims s [_ H]. exact H.
  - apply table_ok; [exact HT|]. intros n s Hi. destruct (Hp n s Hi) as ((H1 & _) & H2 & _). auto.
  - intros n dims s Hi. destruct (Hp _ _ Hi) as (_ & _ & H). exact (H dims s eq_refl).
  - intros X' s s' H1 H2. apply (cdl_body_inj decimal decimal_ok); auto.
    + apply nodup_without. exact Hnd.
    + apply (without_names (fun n _ => type_name cdl_words n)). intros n u Hi. exact (proj1 (Hp _ _ Hi)).
  - intros X' s Hs'. destruct s; cbn [body l_int l_float l_opaque l_struct l_enum l_seq l_array CDL]; try discriminate.
    + destruct Hs' as [->|[->|[->| ->]]]; destruct sg; discriminate.
    + destruct Hs' as [->| ->]; discriminate.
    + unfold line. rewrite <- app_assoc. apply app_ne. discriminate.
    + apply app_ne. discriminate.
    + apply app_ne. discriminate.
Qed.

Theorem go_type_text v env T : type_table env T -> proper_types go_words T -> (forall n s, In (n, s) T -> go_shape s) ->
  forall X d, no_member_dims d -> proper_shape (shape_of d) -> go_shape (shape_of d) ->
  forall r, typeString (goStyle v) env (List.length env) X d r <-> r = Ok (text (Golang decimal v) (without X T) (shape_of d)).
Proof.
  intros HT (Hnd & Hdist & Hp) Hg X d Hd Hs Hgd.
  apply (typeString_text (Golang decimal v) (goStyle v)) with (ok := fun s => proper_shape s /\ go_shape s); auto.
  - exact (go_fixed v).
  - exact (go_floats v).
  - exact (go_structs v).
  - exact (go_enums v).
  - exact (go_arrays v).
  - intros s H. apply H.
  - intros ms [H1 H2]. apply proper_struct in H1. apply go_struct in H2. rewrite Forall_forall in *. auto.
  - intros dims s [[_ H] (_ & _ & _ & H')]. auto.
  - apply (table_ok (fun s => proper_shape s /\ go_shape s)); [exact HT|]. intros n s Hi. destruct (Hp n s Hi) as ((H1 & _) & H2 & _). specialize (Hg n s Hi). auto.
  - intros n dims s Hi. destruct (Hp _ _ Hi) as (_ & _ & H). exact (H dims s eq_refl).
  - intros X' s s' [H1 H2] [H3 H4]. apply (go_body_inj decimal decimal_ok v); auto.
    + apply nodup_without. exact Hnd.
    + apply (without_names (fun n _ => type_name go_words n)). intros n u Hi. exact (proj1 (Hp _ _ Hi)).
  - intros X' s [Hs' Hg']. destruct s; cbn [body l_int l_float l_opaque l_struct l_enum l_seq l_array Golang]; try discriminate.
    + destruct Hs' as [->|[->|[->| ->]]]; destruct sg; discriminate.
    + destruct Hs' as [->| ->]; discriminate.
    + unfold line. rewrite <- app_assoc. apply app_ne. discriminate.
    + destruct Hg' as (H & _). destruct dims; [congruence|discriminate].
Qed.
