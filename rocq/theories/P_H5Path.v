(** C49: group paths. *)
From Coq Require Import ZifyBool ZifyNat.
From Verif Require Import Prelude BaseLemmas H5PathModel PathSpec H5PathProofs.

(** The handle for the group reached by [cs] from the root; New returns the one for []. *)
Definition handle_at (root : otree) (cs : list bytes) (h : handle) : Prop :=
  follow root cs = Some (h_obj h) /\ h_name h = full_name cs.

(** C49.  Full statement: for every tree, every handle for a group [at cs] of it and every path, GetGroup yields
    the handle of the group reached by following the path's components from the root (absolute
    paths) or from there (relative ones), and ErrNotFound if that is no group.  Missing:
    relative paths without any component, for which GetGroup always fails, see C49_refuted. *)
Theorem C49_resolve_partial : forall root cs h path,
  handle_at root cs h ->
  absolute path = true \/ components path <> [] ->
  let target := (if absolute path then [] else cs) ++ components path in
  match follow root target with
  | Some o => exists g, getGroup root h path = Ok g /\ handle_at root target g /\ h_obj g = o
  | None => getGroup root h path = Err ENotFound
  end.
Proof.
  intros root cs h path [Ho Hn] Hp target.
  rewrite (getGroup_follow root h path Hp). unfold target.
  assert (EN : (if absolute path then [slash] else h_name h) ++ flat (components path) =
               full_name ((if absolute path then [] else cs) ++ components path)).
  { assert (FN : forall l, full_name l = [slash] ++ flat l) by reflexivity.
    rewrite FN, flat_app, Hn. destruct (absolute path); [reflexivity|].
    rewrite FN, <- app_assoc. reflexivity. }
  rewrite EN.
  assert (EF : follow root ((if absolute path then [] else cs) ++ components path) =
               follow (if absolute path then root else h_obj h) (components path)).
  { destruct (absolute path); [reflexivity|]. rewrite follow_app, Ho. reflexivity. }
  rewrite EF. destruct (follow (if absolute path then root else h_obj h) (components path)) as [o|] eqn:E; [|reflexivity].
  eexists. split; [reflexivity|]. split; [split|]; cbn [h_obj h_name]; [|reflexivity|reflexivity].
  exact EF.
Qed.

(** Only the components and the leading slash matter, for every path. *)
Theorem C49_components_only : forall root h p q,
  absolute p = absolute q -> components p = components q -> getGroup root h p = getGroup root h q.
Proof.
  intros root h p q Ha Hc. unfold getGroup. rewrite !canon_eq.
  change (has_slash p) with (absolute p). change (has_slash q) with (absolute q). now rewrite Ha, Hc.
Qed.

(** Every handle obtained from New by GetGroup calls that succeed is the handle of some group. *)
Theorem C49_handles : forall root paths h,
  o_group root = true ->
  fold_left (fun r p => let* h := r in getGroup root h p) paths (Ok (mkHandle [47] root)) = Ok h ->
  Forall (fun p => absolute p = true \/ components p <> []) paths ->
  exists cs, handle_at root cs h.
Proof.
  intros root paths h Hg. revert h. induction paths as [|p paths IH] using rev_ind; intros h H Hp.
  - cbn [fold_left] in H. injection H as <-. exists []. split; [|reflexivity].
    destruct root as [[|] ch]; [reflexivity|discriminate].
  - rewrite fold_left_app in H. cbn [fold_left] in H. apply Forall_app in Hp as [Hp1 Hp2].
    inversion Hp2 as [|? ? Hp3 _]; subst.
    destruct (fold_left _ paths _) as [h0|e|] eqn:E0; try discriminate. cbn [rbind] in H.
    destruct (IH h0 eq_refl Hp1) as [cs Hcs].
    pose proof (C49_resolve_partial root cs h0 p Hcs Hp3) as R. cbv zeta in R.
    destruct (follow root ((if absolute p then [] else cs) ++ components p)) as [o|].
    + destruct R as (g & Eg & Hat & _). rewrite H in Eg. injection Eg as ->. eexists. exact Hat.
    + congruence.
Qed.

Definition C49_leaf : otree := ONode true [].
Definition C49_data : otree := ONode false [].
(* root / a / (b, x), where x is a variable *)
Definition C49_root : otree := ONode true [([97], ONode true [([98], C49_leaf); ([120], C49_data)])].

Example C49_example :
  components [47; 47; 97; 47; 98; 47] = [[97]; [98]] /\
  handle_at C49_root [[97]] (mkHandle [47; 97; 47] (ONode true [([98], C49_leaf); ([120], C49_data)])) /\
  getGroup C49_root (mkHandle [47; 97; 47] (ONode true [([98], C49_leaf); ([120], C49_data)])) [98; 47; 47]
    = Ok (mkHandle [47; 97; 47; 98; 47] C49_leaf) /\
  getGroup C49_root (mkHandle [47] C49_root) [97; 47; 120] = Err ENotFound.
Proof.
  split; [vm_compute; reflexivity|]. split; [split; vm_compute; reflexivity|].
  split; vm_compute; reflexivity.
Qed.

Theorem C49_refuted : exists root h path, handle_at root [] h /\ components path = [] /\
  follow root ([] ++ components path) = Some (h_obj h) /\ getGroup root h path = Err ENotFound.
Proof.
  exists C49_root, (mkHandle [47] C49_root), [].
  split; [split; vm_compute; reflexivity|]. split; [reflexivity|]. split; vm_compute; reflexivity.
Qed.

Print Assumptions C49_resolve_partial.
Print Assumptions C49_components_only.
Print Assumptions C49_handles.
Print Assumptions C49_refuted.
