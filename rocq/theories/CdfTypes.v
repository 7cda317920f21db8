(** Types of the attributes of an opened file. *)
From Coq Require Import ZifyBool ZifyNat.
From Verif Require Import Prelude GoVal BaseLemmas OrderedMapModel OrderedMapProofs CdfWriterModel CdfReaderModel CdfBounds.

(** The value is a string, a number or a slice of numbers of a type of the classic format *)
Definition classic_num (k : nk) : Prop := k = I8 \/ k = I16 \/ k = I32 \/ k = F32 \/ k = F64.
Definition classic_value (v : gval) : Prop :=
  match v with
  | VStr _ => True
  | VNum k _ => classic_num k
  | VSlice (GNum k) l => classic_num k /\ Forall (fun x => exists z, x = VNum k z) l
  | _ => False
  end.

Lemma check_classic ver k : check_version ver k = Ok tt -> ver < 5 -> classic_num k.
Proof.
  unfold check_version, classic_num. intros E H. destruct (v5kind k && (ver <? 5)) eqn:B; [discriminate|].
  assert (v5kind k = false) as V by (destruct (v5kind k); [cbn in B; lia|reflexivity]).
  destruct k; try discriminate V; tauto.
Qed.
Lemma scalar_classic k zs : classic_num k -> classic_value (attr_scalar (VSlice (GNum k) (map (VNum k) zs))).
Proof.
  intros H. assert (G : classic_value (VSlice (GNum k) (map (VNum k) zs))).
  { split; [exact H|]. induction zs; constructor; [now eexists|exact IHzs]. }
  destruct zs as [|z [|w zs]]; [exact G|exact H|exact G].
Qed.
Lemma get_attr_classic ver s k v r : get_attr ver s = Ok ((k, v), r) -> ver < 5 -> classic_value v.
Proof.
  unfold get_attr. intros E H.
  destruct (read_name ver s) as [[nm s1]| |] eqn:E1; cbn [rbind] in E; try discriminate.
  destruct (read32 s1) as [[vt s2]| |] eqn:E2; cbn [rbind] in E; try discriminate.
  destruct (read_number ver s2) as [[n s3]| |] eqn:E3; cbn [rbind] in E; try discriminate.
  destruct (ty_of_code vt) as [[|kd]|]; [| |discriminate].
  - destruct (read_bytes n s3) as [[b s4]| |]; cbn [rbind] in E; try discriminate.
    destruct (read_pad _ _) as [[? ?]| |]; cbn [rbind] in E; try discriminate.
    assert (EV : v = VStr b) by congruence. rewrite EV. exact I.
  - destruct (check_version ver kd) as [[]| |] eqn:EC; cbn [rbind] in E; try discriminate.
    destruct (read_nums kd n s3) as [[zs s4]| |]; cbn [rbind] in E; try discriminate.
    destruct (read_pad _ _) as [[? ?]| |]; cbn [rbind] in E; try discriminate.
    assert (EV : v = attr_scalar (VSlice (GNum kd) (map (VNum kd) zs))) by congruence.
    rewrite EV. apply scalar_classic. exact (check_classic _ _ EC H).
Qed.
Lemma attrs_loop_classic ver fuel : ver < 5 -> forall n s l r, get_attrs_loop ver fuel n s = Ok (l, r) ->
  Forall (fun kv => classic_value (snd kv)) l.
Proof.
  intros H. induction fuel as [|fuel IH]; intros n s l r E; cbn [get_attrs_loop] in E.
  - destruct (n <=? 0); [|discriminate]. injection E as <- _. constructor.
  - destruct (n <=? 0); [injection E as <- _; constructor|].
    destruct (get_attr ver s) as [[[k v] s1]| |] eqn:E1; cbn [rbind] in E; try discriminate.
    destruct (get_attrs_loop ver fuel (n - 1) s1) as [[l' s2]| |] eqn:E2; cbn [rbind] in E; try discriminate.
    injection E as <- _. constructor; [exact (get_attr_classic _ _ _ _ _ E1 H)|exact (IH _ _ _ _ E2)].
Qed.
Definition attrs_classic (m : omap gval) : Prop := forall k v, om_get m k = Some v -> classic_value v.
Lemma attr_list_classic ver s m r : get_attr_list ver s = Ok (m, r) -> ver < 5 -> attrs_classic m.
Proof.
  unfold get_attr_list. intros E H. destruct (get_nelems _ _ _) as [[n s1]| |] eqn:E1; cbn [rbind] in E; try discriminate.
  destruct (get_attrs_loop _ _ _ _) as [[l s2]| |] eqn:E2; cbn [rbind] in E; try discriminate.
  destruct (new_ordered_map _ _) as [om| |] eqn:E3; cbn [rbind] in E; try discriminate.
  injection E as <- _. apply new_ordered_map_result in E3. subst om. intros k v. unfold om_get. cbn [om_vals].
  intros G. apply assoc_Some_In in G. pose proof (attrs_loop_classic _ _ H _ _ _ _ E2) as F.
  apply (build_map_forall classic_value) in F. rewrite Forall_forall in F. exact (F _ G).
Qed.
Lemma get_var_classic ver dims rs s v rs' r : get_var ver dims rs s = Ok ((v, rs'), r) -> ver < 5 -> attrs_classic (v_attrs v).
Proof.
  unfold get_var. intros E H.
  destruct (read_name ver s) as [[nm s1]| |]; cbn [rbind] in E; try discriminate.
  destruct (read_number ver s1) as [[nd s2]| |]; cbn [rbind] in E; try discriminate.
  destruct (_ <? nd); [discriminate|].
  destruct (read_numbers ver _ s2) as [[ids s3]| |]; cbn [rbind] in E; try discriminate.
  destruct (get_attr_list ver s3) as [[at_ s4]| |] eqn:E4; cbn [rbind] in E; try discriminate.
  destruct (read32 s4) as [[vt s5]| |]; cbn [rbind] in E; try discriminate.
  destruct (read_number ver s5) as [[vs s6]| |]; cbn [rbind] in E; try discriminate.
  destruct (has_unlimited dims ids) as [u| |]; cbn [rbind] in E; try discriminate.
  match type of E with (let* _ := ?x in _) = _ => destruct x as [[used rs1]| |]; cbn [rbind] in E; try discriminate end.
  match type of E with (let* _ := ?x in _) = _ => destruct x as [[off s7]| |]; cbn [rbind] in E; try discriminate end.
  injection E as <- _ _. exact (attr_list_classic _ _ _ _ E4 H).
Qed.
Lemma vars_loop_classic ver dims fuel : ver < 5 -> forall n st s st' r,
  get_vars_loop ver dims fuel n st s = Ok (st', r) ->
  (forall k v, om_get (vl_vars st) k = Some v -> attrs_classic (v_attrs v)) ->
  forall k v, om_get (vl_vars st') k = Some v -> attrs_classic (v_attrs v).
Proof.
  intros HV. induction fuel as [|fuel IH]; intros n st s st' r E H; cbn [get_vars_loop] in E.
  - destruct (n <=? 0); [|discriminate]. injection E as <- _. exact H.
  - destruct (n <=? 0); [injection E as <- _; exact H|].
    destruct (get_var _ _ _ _) as [[[v rs] s1]| |] eqn:EG; cbn [rbind] in E; try discriminate.
    destruct (om_get (vl_vars st) (v_name v)) eqn:EO; [discriminate|].
    destruct (has_unlimited _ _) as [u| |]; cbn [rbind] in E; try discriminate.
    refine (IH _ _ _ _ _ E _).
    cbn [vl_vars]. intros k w. unfold om_get, om_add. destruct (mem _ _); cbn [om_vals];
      (intros X; destruct (bytes_dec k (v_name v)) as [->|N];
       [rewrite assoc_set_same in X; injection X as <-; exact (get_var_classic _ _ _ _ _ _ _ EG HV)
       |rewrite assoc_set_other in X by exact N; exact (H k w X)]).
Qed.

Lemma om_get_hide {V} (m : omap V) k n v : om_get (om_hide m n) k = Some v -> om_get m k = Some v.
Proof. unfold om_get, om_hide. repeat match goal with |- context [if ?b then _ else _] => destruct b end; exact (fun x => x). Qed.

Lemma opened_classic f c : cdf_open f = Ok c -> c_ver c <> 5 ->
  attrs_classic (c_gattrs c) /\ forall k v, om_get (c_vars c) k = Some v -> attrs_classic (v_attrs v).
Proof.
  unfold cdf_open, read_header. intros E HV.
  destruct (read_bytes 4 f) as [[m s0]| |] eqn:E0; cbn [rbind] in E; try discriminate.
  destruct (negb (beqb _ _)); [discriminate|]. cbv zeta in E. destruct (negb _) eqn:EV; [discriminate|].
  destruct (read_number _ _) as [[nr s1]| |]; cbn [rbind] in E; try discriminate.
  destruct (nr =? _); [discriminate|].
  destruct (get_nelems _ fieldDimension _) as [[nd s2]| |]; cbn [rbind] in E; try discriminate.
  destruct (_ <? nd); [discriminate|].
  destruct (get_dims _ _ _) as [[ds s3]| |]; cbn [rbind] in E; try discriminate.
  destruct (get_attr_list _ _) as [[ga s4]| |] eqn:E4; cbn [rbind] in E; try discriminate.
  destruct (get_nelems _ fieldVariable _) as [[nv s5]| |]; cbn [rbind] in E; try discriminate.
  destruct (get_vars_loop _ _ _ _ _ _) as [[vl s6]| |] eqn:EL; cbn [rbind] in E; try discriminate.
  destruct (finish_rec vl) as [rs sp]. injection E as <-. cbn [c_ver c_gattrs c_vars] in *.
  assert (HV' : nth 3 m 0 < 5) by lia.
  split.
  - intros k v G. apply om_get_hide in G. exact (attr_list_classic _ _ _ _ E4 HV' k v G).
  - apply (vars_loop_classic _ _ _ HV' _ _ _ _ _ EL). cbn [vl_vars]. intros k v G. discriminate.
Qed.
