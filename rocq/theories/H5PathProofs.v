(** Proofs about group paths. *)
From Coq Require Import ZifyBool ZifyNat.
From Verif Require Import Prelude BaseLemmas H5PathModel PathSpec.

Definition clean (c : bytes) : Prop := c <> [] /\ ~ In 47 c.
Definition flat (cs : list bytes) : bytes := List.concat (map (fun c => c ++ [slash]) cs).

Lemma child_assoc k l : child k l = assoc k l.
Proof.
  induction l as [|[n o] l IH]; [reflexivity|]. cbn [child assoc].
  destruct (list_eq_dec Z.eq_dec k n) as [->|H]; [now rewrite beqb_refl|].
  rewrite (proj2 (beqb_neq k n) H). exact IH.
Qed.

Lemma split_ne s : split s <> [].
Proof. destruct s as [|c r]; [discriminate|]. cbn [split]. destruct (c =? slash); [discriminate|]. destruct (split r); discriminate. Qed.

Lemma pieces_split s : forall piece,
  pieces piece s = filter (fun x => negb (beqb x []))
    (match split s with x :: xs => (piece ++ x) :: xs | [] => [] end).
Proof.
  induction s as [|c r IH]; intros piece; cbn [pieces split].
  - cbn [filter]. rewrite app_nil_r. destruct piece; reflexivity.
  - change (c =? 47) with (c =? slash). destruct (c =? slash) eqn:E.
    + cbn [filter]. rewrite app_nil_r. rewrite (IH []). pose proof (split_ne r).
      destruct (split r) as [|x xs]; [contradiction|]. cbn [app]. destruct piece; reflexivity.
    + rewrite IH. pose proof (split_ne r). destruct (split r) as [|x xs]; [contradiction|].
      now rewrite <- app_assoc.
Qed.

Lemma components_split s : components s = filter (fun x => negb (beqb x [])) (split s).
Proof.
  unfold components. rewrite pieces_split. pose proof (split_ne s). destruct (split s); [contradiction|reflexivity].
Qed.

Lemma split_clean s : Forall (fun x => ~ In 47 x) (split s).
Proof.
  induction s as [|c r IH]; cbn [split]; [constructor; [easy|constructor]|].
  destruct (c =? slash) eqn:E; [constructor; [easy|exact IH]|].
  unfold slash in E. destruct (split r) as [|x xs].
  - constructor; [|constructor]. intros [H|[]]. lia.
  - inversion IH as [|? ? H1 H2]; subst. constructor; [|exact H2]. intros [H|H]; [lia|contradiction].
Qed.

Lemma components_clean s : Forall clean (components s).
Proof.
  rewrite components_split. pose proof (split_clean s) as H. rewrite Forall_forall in *.
  intros x Hx. apply filter_In in Hx as [Hx Hn]. split; [|now apply H].
  intros ->. rewrite beqb_refl in Hn. discriminate.
Qed.

Lemma canon_eq s : canonicalizePath s = (if has_slash s then [slash] else []) ++ join (components s).
Proof. unfold canonicalizePath. now rewrite components_split. Qed.

Lemma join_flat cs : cs <> [] -> join cs ++ [slash] = flat cs.
Proof.
  unfold flat. induction cs as [|c cs IH]; intros H; [contradiction|].
  destruct cs as [|d cs]; [cbn [join map List.concat]; now rewrite app_nil_r|].
  change (join (c :: d :: cs)) with (c ++ slash :: join (d :: cs)).
  rewrite <- app_assoc. rewrite <- app_comm_cons. rewrite IH by discriminate.
  cbn [map List.concat]. rewrite <- !app_assoc. reflexivity.
Qed.

Lemma join_no_slash cs : Forall clean cs -> has_slash (join cs) = false.
Proof.
  intros H. destruct cs as [|c cs]; [reflexivity|]. inversion H as [|? ? [Hne Hin] Hr]; subst.
  destruct c as [|x c]; [contradiction|].
  assert (E : has_slash ((x :: c) ++ match cs with [] => [] | _ => slash :: join cs end) = false).
  { cbn [app has_slash]. unfold slash. destruct (x =? 47) eqn:E; [|reflexivity].
    elim Hin. left. lia. }
  destruct cs; [rewrite app_nil_r in E|]; exact E.
Qed.

Lemma join_nil cs : Forall clean cs -> join cs = [] -> cs = [].
Proof.
  intros H E. destruct cs as [|c cs]; [reflexivity|]. inversion H as [|? ? [Hne _] _]; subst.
  destruct cs; cbn [join] in E; [contradiction|]. destruct c; [contradiction|discriminate].
Qed.

Lemma split_head c rest : ~ In 47 c -> exists xs, split (c ++ slash :: rest) = c :: xs.
Proof.
  induction c as [|x c IH]; intros H; cbn [app split].
  - unfold slash. cbn [Z.eqb Pos.eqb]. eexists. reflexivity.
  - unfold slash in *. destruct (x =? 47) eqn:E; [elim H; left; lia|].
    destruct IH as [xs ->]; [intros Hi; apply H; now right|]. eexists. reflexivity.
Qed.

Lemma depth_child k ch o g : assoc k ch = Some o -> (depth o < depth (ONode g ch))%nat.
Proof.
  intros H. cbn [depth]. apply le_n_S. induction ch as [|[n x] ch IH]; [discriminate|].
  cbn [assoc fold_right fst snd] in *. destruct (beqb k n); [injection H as ->; lia|]. specialize (IH H). lia.
Qed.

Lemma descend cs : forall fuel o g, Forall clean cs -> (depth o <= fuel)%nat ->
  sgDescend fuel (g ++ flat cs) o g = follow o cs.
Proof.
  induction cs as [|c cs IH]; intros fuel o g Hc Hf.
  - destruct o as [b ch]. destruct fuel as [|f]; [cbn [depth] in Hf; lia|].
    unfold flat. cbn [map List.concat sgDescend o_group]. rewrite app_nil_r, beqb_refl.
    destruct b; reflexivity.
  - destruct o as [b ch]. destruct fuel as [|f]; [cbn [depth] in Hf; lia|].
    inversion Hc as [|? ? [Hne Hin] Hr]; subst.
    cbn [sgDescend o_group follow]. destruct b; [|reflexivity]. cbn [negb].
    assert (EF : flat (c :: cs) = c ++ slash :: flat cs).
    { unfold flat. cbn [map List.concat]. now rewrite <- app_assoc. }
    replace (beqb g (g ++ flat (c :: cs))) with false.
    2:{ symmetry. apply beqb_neq. intros E. apply (f_equal (@List.length Z)) in E.
        rewrite EF, !app_length in E. cbn [List.length] in E. lia. }
    rewrite zdrop_app_exact by reflexivity. rewrite EF. destruct (split_head c (flat cs) Hin) as [xs ->].
    cbn [o_children]. rewrite child_assoc. destruct (assoc c ch) as [o'|] eqn:Ea; [|reflexivity].
    pose proof (depth_child _ _ _ true Ea) as Hd.
    rewrite <- (IH f o' (g ++ c ++ [slash]) Hr) by lia.
    rewrite <- !app_assoc. reflexivity.
Qed.

(** The result of GetGroup unless the path is relative and has no components *)
Lemma getGroup_follow root h path : (absolute path = true \/ components path <> []) ->
  getGroup root h path =
  match follow (if absolute path then root else h_obj h) (components path) with
  | Some o => Ok (mkHandle ((if absolute path then [slash] else h_name h) ++ flat (components path)) o)
  | None => Err ENotFound
  end.
Proof.
  intros Hp. unfold getGroup. rewrite canon_eq. change (has_slash path) with (absolute path).
  pose proof (components_clean path) as Hc. set (cs := components path) in *.
  destruct (absolute path) eqn:Ea.
  - cbn [app has_slash]. rewrite Z.eqb_refl.
    assert (EN : (if beqb (slash :: join cs) [slash] then [slash] else slash :: (join cs ++ [slash]))
                 = [slash] ++ flat cs).
    { destruct cs as [|c cs'] eqn:Ecs; [reflexivity|].
      replace (beqb (slash :: join (c :: cs')) [slash]) with false.
      - cbn [app]. rewrite join_flat by discriminate. reflexivity.
      - symmetry. apply beqb_neq. intros E. apply (f_equal (@tl Z)) in E. cbn [tl] in E. apply join_nil in E; [discriminate|exact Hc]. }
    rewrite EN, (descend cs) by (exact Hc || lia). destruct (follow root cs); reflexivity.
  - cbn [app]. rewrite (join_no_slash cs Hc).
    destruct Hp as [Hp|Hp]; [discriminate|]. rewrite join_flat by exact Hp.
    rewrite (descend cs) by (exact Hc || lia). destruct (follow (h_obj h) cs); reflexivity.
Qed.

Lemma follow_app a : forall o b,
  follow o (a ++ b) = match follow o a with Some o' => follow o' b | None => None end.
Proof.
  induction a as [|c a IH]; intros o b; destruct o as [g ch]; cbn [app follow].
  - destruct g; destruct b; reflexivity.
  - destruct g; [|reflexivity]. destruct (child c ch); [apply IH|reflexivity].
Qed.

Lemma flat_app a b : flat (a ++ b) = flat a ++ flat b.
Proof. unfold flat. now rewrite map_app, concat_app. Qed.
