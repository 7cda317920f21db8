(** Handles and the lists of variables and subgroups of a group, for trees of objects read from
    a file in which no name contains a slash. *)
From Verif Require Import Prelude GoVal ValidNameModel OrderedMapModel H5Base H5MetaRead H5Value H5TypeRead H5FileWrite H5PathModel
  H5RecordModel H5FileRead PathSpec WriterSpec BaseLemmas ValidNameProofs H5PathProofs H5ObjectProofs H5TreeProofs
  H5SizeProofs H5PrepareProofs.
From Coq Require Import Lia ZifyBool ZifyNat Permutation.

(** ** Valid names *)
Lemma decode1_slash s c r : decode1 s = Some (c, r) -> In 47 s -> c = 47 \/ In 47 r.
Proof.
  intros H Hin. destruct s as [|b0 s]; [contradiction|]. cbn [decode1] in H.
  assert (Hb : b0 = 47 \/ b0 <> 47) by lia. destruct Hb as [->|Hb].
  { cbn in H. left. congruence. }
  destruct Hin as [E|Hin]; [congruence|].
  destruct (b0 <? 128); [right; congruence|].
  destruct s as [|b1 s1]; [contradiction|].
  destruct ((194 <=? b0) && (b0 <=? 223) && cont b1) eqn:E1.
  { inversion H; subst. unfold cont in E1. right. destruct Hin as [->|?]; [lia|assumption]. }
  destruct s1 as [|b2 s2]; [right; inversion H; subst; assumption|].
  match type of H with (if ?b then _ else _) = _ => destruct b eqn:E2 end.
  { inversion H; subst. unfold cont in E2. right.
    destruct Hin as [->|[->|?]]; [lia|lia|assumption]. }
  destruct s2 as [|b3 s3]; [right; inversion H; subst; assumption|].
  match type of H with (if ?b then _ else _) = _ => destruct b eqn:E3 end.
  { inversion H; subst. unfold cont in E3. right.
    destruct Hin as [->|[->|[->|?]]]; [lia|lia|lia|assumption]. }
  right; inversion H; subst; assumption.
Qed.
Lemma runes_fuel_slash fuel s : (List.length s <= fuel)%nat -> In 47 s -> In 47 (runes_fuel fuel s).
Proof.
  revert s; induction fuel as [|f IH]; intros s Hf Hin.
  - destruct s; [contradiction|cbn in Hf; lia].
  - cbn [runes_fuel]. destruct s as [|b s]; [contradiction|].
    destruct (decode1_cons b s) as (c & r & E). rewrite E.
    pose proof (decode1_shorter _ _ _ E). destruct (decode1_slash _ _ _ E Hin) as [->|H1].
    + left. reflexivity.
    + right. apply IH; [|exact H1]. cbn [List.length] in *. lia.
Qed.
Lemma valid_name_clean U s : ucd_ascii U -> ucd_disjoint U -> valid_name U s = true -> clean s.
Proof.
  intros HA HD HV. split; [eapply valid_name_nonempty; exact HV|]. intros Hin.
  apply (valid_name_any U s HA HD) in HV. destruct HV as (_ & HF & _). rewrite Forall_forall in HF.
  destruct (HF 47) as [_ H]; [|congruence]. apply runes_fuel_slash; [apply Nat.le_refl|exact Hin].
Qed.

(** ** Paths as strings *)
Definition str (p : path) : bytes := slash :: flat p.
Lemma str_snoc p n : str (p ++ [n]) = str p ++ n ++ [slash].
Proof. unfold str. rewrite flat_app. unfold flat at 2. cbn [map List.concat]. rewrite app_nil_r. reflexivity. Qed.
Lemma flat_cons n p : flat (n :: p) = n ++ slash :: flat p.
Proof. unfold flat. cbn [map List.concat]. rewrite <- app_assoc. reflexivity. Qed.
Lemma slash_split a b x y : ~ In 47 a -> ~ In 47 b -> a ++ slash :: x = b ++ slash :: y -> a = b /\ x = y.
Proof.
  revert b. induction a as [|c a IH]; intros [|d b] Ha Hb E; cbn [app] in E.
  - injection E as E. auto.
  - injection E as E _. exfalso. apply Hb. left. symmetry. exact E.
  - injection E as E _. exfalso. apply Ha. left. exact E.
  - injection E as E1 E2. subst d. destruct (IH b) as [-> ->]; auto.
    + intros H. apply Ha. right. exact H.
    + intros H. apply Hb. right. exact H.
Qed.
Lemma flat_inj p : forall q, Forall clean p -> Forall clean q -> flat p = flat q -> p = q.
Proof.
  induction p as [|n p IH]; intros [|m q] Hp Hq E.
  - reflexivity.
  - rewrite flat_cons in E. unfold flat in E at 1. cbn in E. destruct m; discriminate.
  - rewrite flat_cons in E. unfold flat in E at 2. cbn in E. destruct n; discriminate.
  - rewrite !flat_cons in E. inversion Hp as [|? ? [_ P1] P2]; subst x l. inversion Hq as [|? ? [_ Q1] Q2]; subst x l.
    destruct (slash_split _ _ _ _ P1 Q1 E) as [-> E2]. f_equal. apply IH; assumption.
Qed.
Lemma str_eqb p q : Forall clean p -> Forall clean q -> beqb (str p) (str q) = true <-> p = q.
Proof.
  intros Hp Hq. split; [|intros ->; apply beqb_refl]. intros H. apply beqb_eq in H. unfold str in H.
  apply (f_equal (@tl Z)) in H. cbn [tl] in H. apply flat_inj; assumption.
Qed.
Lemma hasPrefix_iff p : forall s, hasPrefix s p = true <-> exists r, s = p ++ r.
Proof.
  induction p as [|y p IH]; intros s.
  - split; [intros _; exists s; reflexivity|intros _; destruct s; reflexivity].
  - destruct s as [|x s].
    + split; [discriminate|]. intros (r & E). discriminate.
    + cbn [hasPrefix]. split.
      * intros H. apply andb_true_iff in H. destruct H as [E H]. apply IH in H. destruct H as (r & ->).
        exists r. apply Z.eqb_eq in E. subst x. reflexivity.
      * intros (r & E). cbn [app] in E. injection E as -> ->. rewrite Z.eqb_refl. cbn [andb].
        apply IH. exists r. reflexivity.
Qed.
Lemma str_prefix p q : Forall clean p -> Forall clean q -> hasPrefix (str q) (str p) = true <-> exists r, q = p ++ r.
Proof.
  intros Hp Hq. rewrite hasPrefix_iff. unfold str. split.
  - intros (r & E). cbn [app] in E. apply (f_equal (@tl Z)) in E. cbn [tl] in E. revert q Hq r E.
    induction Hp as [|n p [_ Hn] _ IH]; intros q Hq r E.
    + exists q. reflexivity.
    + destruct q as [|m q].
      * rewrite flat_cons in E. unfold flat in E at 1. cbn in E. destruct n; discriminate.
      * rewrite !flat_cons in E. inversion Hq as [|? ? [_ Q1] Q2]; subst x l. rewrite <- app_assoc in E. cbn [app] in E.
        destruct (slash_split _ _ _ _ Q1 Hn E) as [-> E2]. destruct (IH q Q2 r E2) as (r' & ->). exists r'. reflexivity.
  - intros (r & ->). exists (flat r). rewrite flat_app. reflexivity.
Qed.

(** ** GetGroup *)
Fixpoint rfollow (o : robj) (p : path) : option robj :=
  match o with
  | RObj i cs =>
      if ri_group i then
        match p with
        | [] => Some o
        | n :: r => match assoc n cs with Some o' => rfollow o' r | None => None end
        end
      else None
  end.
Lemma rdepth_child k ch o i : assoc k ch = Some o -> (rdepth o < rdepth (RObj i ch))%nat.
Proof.
  intros H. cbn [rdepth]. apply le_n_S. induction ch as [|[n x] ch IH]; [discriminate|].
  cbn [assoc fold_right fst snd] in *. destruct (beqb k n); [assert (x = o) by congruence; subst x; lia|]. specialize (IH H). lia.
Qed.
Lemma rdescend_follow cs : forall fuel o g, Forall clean cs -> (rdepth o <= fuel)%nat ->
  rdescend fuel (g ++ flat cs) o g = rfollow o cs.
Proof.
  induction cs as [|c cs IH]; intros fuel o g Hc Hf.
  - destruct o as [i ch]. destruct fuel as [|f]; [cbn [rdepth] in Hf; lia|].
    unfold flat. cbn [map List.concat rdescend r_info rfollow]. rewrite app_nil_r, beqb_refl.
    destruct (ri_group i); reflexivity.
  - destruct o as [i ch]. destruct fuel as [|f]; [cbn [rdepth] in Hf; lia|].
    inversion Hc as [|? ? [Hne Hin] Hr]; subst x l.
    cbn [rdescend r_info rfollow]. destruct (ri_group i); [|reflexivity]. cbn [negb].
    assert (EF : flat (c :: cs) = c ++ slash :: flat cs) by apply flat_cons.
    replace (beqb g (g ++ flat (c :: cs))) with false.
    2:{ symmetry. apply beqb_neq. intros E. apply (f_equal (@List.length Z)) in E.
        rewrite EF, !app_length in E. cbn [List.length] in E. lia. }
    rewrite zdrop_app_exact by reflexivity. rewrite EF. destruct (split_head c (flat cs) Hin) as [xs ->].
    cbn [r_children]. destruct (assoc c ch) as [o'|] eqn:Ea; [|reflexivity].
    pose proof (rdepth_child _ _ _ i Ea) as Hd.
    rewrite <- (IH f o' (g ++ c ++ [slash]) Hr) by lia.
    rewrite <- !app_assoc. reflexivity.
Qed.
Lemma rgetGroup_follow root h s : (absolute s = true \/ components s <> []) ->
  rgetGroup root h s =
  match rfollow (if absolute s then root else rh_obj h) (components s) with
  | Some o => Ok (mkRh ((if absolute s then [slash] else rh_name h) ++ flat (components s)) o)
  | None => Err ENotFound
  end.
Proof.
  intros Hp. unfold rgetGroup. rewrite canon_eq. change (has_slash s) with (absolute s).
  pose proof (components_clean s) as Hc. set (cs := components s) in *.
  destruct (absolute s) eqn:Ea.
  - cbn [app has_slash]. rewrite Z.eqb_refl.
    assert (EN : (if beqb (slash :: join cs) [slash] then [slash] else slash :: (join cs ++ [slash]))
                 = [slash] ++ flat cs).
    { destruct cs as [|c cs'] eqn:Ecs; [reflexivity|].
      replace (beqb (slash :: join (c :: cs')) [slash]) with false.
      - cbn [app]. rewrite join_flat by discriminate. reflexivity.
      - symmetry. apply beqb_neq. intros E. apply (f_equal (@tl Z)) in E. cbn [tl] in E. apply join_nil in E; [discriminate|exact Hc]. }
    rewrite EN, (rdescend_follow cs) by (exact Hc || lia). destruct (rfollow root cs); reflexivity.
  - cbn [app]. rewrite (join_no_slash cs Hc).
    destruct Hp as [Hp|Hp]; [discriminate|]. rewrite join_flat by exact Hp.
    rewrite (rdescend_follow cs) by (exact Hc || lia). destruct (rfollow (rh_obj h) cs); reflexivity.
Qed.
Lemma components_str p : Forall clean p -> components (str p) = p.
Proof.
  intros H. unfold components, str. cbn [pieces]. change (slash =? 47) with true. cbn iota.
  assert (G : forall n acc rest, ~ In 47 n -> pieces acc (n ++ slash :: rest) =
            match acc ++ n with [] => pieces [] rest | _ => (acc ++ n) :: pieces [] rest end).
  { induction n as [|c n IH]; intros acc rest Hn.
    - cbn [app pieces]. change (slash =? 47) with true. cbn iota. rewrite app_nil_r. reflexivity.
    - cbn [app pieces]. replace (c =? 47) with false.
      + rewrite IH; [rewrite <- app_assoc; reflexivity|]. intros Hi. apply Hn. right. exact Hi.
      + symmetry. apply Z.eqb_neq. intros E. apply Hn. left. exact E. }
  induction H as [|n p [H1 H2] _ IH]; [reflexivity|]. rewrite flat_cons, G by exact H2. cbn [app].
  destruct n as [|c n]; [congruence|]. rewrite IH. reflexivity.
Qed.
