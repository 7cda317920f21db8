(** Parsers consume a prefix of their input, whatever follows, and fail with end of file on every
    strict prefix of what they consume. *)
From Coq Require Import ZifyBool ZifyNat.
From Verif Require Import Prelude GoVal BaseLemmas OrderedMapModel OrderedMapProofs CdfWriterModel CdfReaderModel.
Ltac Zify.zify_post_hook ::= Z.div_mod_to_equations.

(** [c] is what the parser eats to deliver [a] *)
Record eats {A} (p : P A) (c : bytes) (a : A) : Prop := mkEats {
  eat_any : forall r, p (c ++ r) = Ok (a, r);
  eat_cut : forall c1 c2, c = c1 ++ c2 -> c2 <> [] -> p c1 = Err EEOF
}.
Definition local {A} (p : P A) : Prop :=
  forall s a r, p s = Ok (a, r) -> exists c, s = c ++ r /\ eats p c a.

(** Splitting a prefix of a concatenation *)
Lemma app_split (a b c d : bytes) : a ++ b = c ++ d ->
  (exists m, c = a ++ m /\ b = m ++ d) \/ (exists m, m <> [] /\ a = c ++ m /\ d = m ++ b).
Proof.
  revert c; induction a as [|x a IH]; intros c H.
  - left. exists c. split; [reflexivity|exact H].
  - destruct c as [|y c]; cbn [app] in H.
    + right. exists (x :: a). split; [discriminate|]. split; [reflexivity|now symmetry].
    + injection H as -> H. destruct (IH c H) as [(m & -> & ->)|(m & Hm & -> & ->)].
      * left. exists m. split; reflexivity.
      * right. exists m. split; [exact Hm|]. split; reflexivity.
Qed.

Lemma eats_bind {A B} (p : P A) (q : A -> P B) c1 a c2 b : eats p c1 a -> eats (q a) c2 b ->
  eats (fun s => let* (x, r) := p s in q x r) (c1 ++ c2) b.
Proof.
  intros [P1 P2] [Q1 Q2]. split.
  - intros r. rewrite <- app_assoc, P1. cbn [rbind]. apply Q1.
  - intros d1 d2 E N. destruct (app_split _ _ _ _ E) as [(m & -> & ->)|(m & Hm & E1 & ->)].
    + rewrite P1. cbn [rbind]. exact (Q2 m d2 eq_refl N).
    + rewrite (P2 d1 m E1 Hm). reflexivity.
Qed.

Lemma local_bind {A B} (p : P A) (q : A -> P B) : local p -> (forall a, local (q a)) ->
  local (fun s => let* (x, r) := p s in q x r).
Proof.
  intros LP LQ s b r E. destruct (p s) as [[a r1]| |] eqn:Ep; cbn [rbind] in E; try discriminate.
  destruct (LP s a r1 Ep) as (c1 & -> & E1). destruct (LQ a r1 b r E) as (c2 & -> & E2).
  exists (c1 ++ c2). split; [now rewrite app_assoc|]. now apply (eats_bind p q c1 a).
Qed.
Lemma eats_ret {A} (a : A) : eats (fun s => Ok (a, s)) [] a.
Proof.
  split; [reflexivity|]. intros c1 c2 H N. symmetry in H. apply app_eq_nil in H. destruct H. contradiction.
Qed.
Lemma local_ret {A} (a : A) : local (fun s => Ok (a, s)).
Proof. intros s b r E. injection E as <- <-. exists []. split; [reflexivity|apply eats_ret]. Qed.
Lemma local_err {A} e : local (fun _ => @Err (A * bytes) e).
Proof. intros s a r E. discriminate. Qed.
Lemma local_panic {A} : local (fun _ => @Panic (A * bytes)).
Proof. intros s a r E. discriminate. Qed.
(** Steps that look at no input *)
Lemma local_pure {A B} (x : res A) (q : A -> P B) : (forall a, local (q a)) ->
  local (fun s => let* y := x in q y s).
Proof. intros L. destruct x; cbn [rbind]; [apply L|apply local_err|apply local_panic]. Qed.
Lemma local_ext {A} (p q : P A) : (forall s, p s = q s) -> local p -> local q.
Proof.
  intros E L s a r H. rewrite <- E in H. destruct (L s a r H) as (c & -> & [E1 E2]). exists c.
  split; [reflexivity|]. split; [intros; rewrite <- E; apply E1|]. intros. rewrite <- E. eapply E2; eauto.
Qed.

(** Fixed amounts *)
Lemma local_fixed {A} (n : Z) (f : bytes -> A) : 0 <= n ->
  local (fun s => if zlen s <? n then Err EEOF else Ok (f (ztake n s), zdrop n s)).
Proof.
  intros Hn s a r E. destruct (Z.ltb_spec (zlen s) n); [discriminate|]. injection E as <- <-.
  assert (L : zlen (ztake n s) = n) by (unfold ztake, zlen in *; rewrite firstn_length; lia).
  exists (ztake n s). split; [symmetry; apply firstn_skipn|]. split.
  - intros r. rewrite zlen_app, L. pose proof (zlen_nonneg r). replace (n + zlen r <? n) with false by lia.
    now rewrite ztake_app_exact, zdrop_app_exact by lia.
  - intros c1 c2 E2 N. rewrite E2, zlen_app in L. pose proof (zlen_nonneg c2).
    assert (zlen c2 <> 0) by (destruct c2; [contradiction|rewrite zlen_cons; pose proof (zlen_nonneg c2); lia]).
    replace (zlen c1 <? n) with true by lia. reflexivity.
Qed.

Lemma local_read_uint n : 0 <= n -> local (read_uint n).
Proof. intros. unfold read_uint. apply (local_fixed n of_be). assumption. Qed.
Lemma local_read32 : local read32.
Proof. apply local_read_uint. lia. Qed.
Lemma local_read64 : local read64.
Proof. apply local_read_uint. lia. Qed.
Lemma local_read_number ver : local (read_number ver).
Proof.
  unfold read_number. destruct (ver <? 5).
  - apply (local_bind read32 (fun n s1 => Ok (u64 (i32 n), s1))); [apply local_read32|].
    intros. apply local_ret.
  - apply local_read64.
Qed.
Lemma local_read_bytes n : local (read_bytes n).
Proof.
  unfold read_bytes. destruct (go_make n 1) eqn:E; cbn [rbind]; [|apply local_err|apply local_panic].
  apply (local_fixed n (fun x => x)). unfold go_make in E. destruct (Z.ltb_spec n 0); [discriminate|lia].
Qed.
Lemma local_read_name ver : local (read_name ver).
Proof.
  unfold read_name. apply (local_bind (read_number ver) (fun n s1 =>
    let* (b, s2) := read_bytes (round32 n) s1 in let* nm := name_scan b n in Ok (nm, s2))); [apply local_read_number|].
  intros n. apply (local_bind (read_bytes (round32 n)) (fun b s2 => let* nm := name_scan b n in Ok (nm, s2)));
    [apply local_read_bytes|].
  intros b. apply (local_pure (name_scan b n) (fun nm s2 => Ok (nm, s2))). intros. apply local_ret.
Qed.
Lemma ksize_pos k : 0 < ksize k.
Proof. destruct k; cbn; lia. Qed.
Lemma dec_list_take k n b : dec_list k n (ztake (Z.of_nat n * ksize k) b) = dec_list k n b.
Proof.
  revert b; induction n as [|n IH]; intros b; [reflexivity|]. cbn [dec_list]. pose proof (ksize_pos k).
  f_equal.
  - f_equal. unfold ztake. rewrite firstn_firstn. f_equal. lia.
  - rewrite <- (IH (zdrop (ksize k) b)). f_equal. unfold ztake, zdrop. rewrite skipn_firstn_comm. f_equal. lia.
Qed.
Lemma local_read_nums k n : local (read_nums k n).
Proof.
  unfold read_nums. destruct (go_make n (ksize k)) eqn:E; cbn [rbind]; [|apply local_err|apply local_panic].
  assert (0 <= n) by (unfold go_make in E; destruct (Z.ltb_spec n 0); [discriminate|lia]).
  pose proof (ksize_pos k).
  apply (local_ext (fun s => if zlen s <? n * ksize k then Err EEOF
    else Ok (dec_list k (Z.to_nat n) (ztake (n * ksize k) s), zdrop (n * ksize k) s))).
  - intros s. destruct (zlen s <? n * ksize k); [reflexivity|]. do 2 f_equal.
    rewrite <- (dec_list_take k (Z.to_nat n) s). do 2 f_equal. lia.
  - apply (local_fixed (n * ksize k) (dec_list k (Z.to_nat n))). lia.
Qed.
Lemma local_read_pad n : local (read_pad n).
Proof.
  unfold read_pad. apply (local_fixed (round4 n - n) (fun _ => tt)). unfold round4. lia.
Qed.

Lemma local_get_attr ver : local (get_attr ver).
Proof.
  unfold get_attr.
  apply (local_bind (read_name ver) (fun name s1 => let* (vt, s2) := read32 s1 in
    let* (n, s3) := read_number ver s2 in _)); [apply local_read_name|]. intros name.
  apply (local_bind read32 (fun vt s2 => let* (n, s3) := read_number ver s2 in _)); [apply local_read32|]. intros vt.
  apply (local_bind (read_number ver) (fun n s3 => _)); [apply local_read_number|]. intros n.
  destruct (ty_of_code vt) as [[|k]|]; [| |apply local_err].
  - apply (local_bind (read_bytes n) (fun b s4 => let* (_, s5) := read_pad n s4 in Ok ((name, VStr b), s5)));
      [apply local_read_bytes|]. intros b.
    apply (local_bind (read_pad n) (fun _ s5 => Ok ((name, VStr b), s5))); [apply local_read_pad|].
    intros; apply local_ret.
  - apply (local_pure (check_version ver k) (fun _ s => let* (zs, s4) := read_nums k n s in _)). intros _.
    apply (local_bind (read_nums k n) (fun zs s4 => let* (_, s5) := read_pad (n * ksize k) s4 in _));
      [apply local_read_nums|]. intros zs.
    apply (local_bind (read_pad (n * ksize k)) (fun _ s5 => Ok (_, s5))); [apply local_read_pad|].
    intros; apply local_ret.
Qed.

Lemma local_get_nelems ver e : local (get_nelems ver e).
Proof.
  unfold get_nelems. apply (local_bind read32 (fun ft s1 => let* (n, s2) := read_number ver s1 in _)); [apply local_read32|].
  intros ft. apply (local_bind (read_number ver) (fun n s2 => _)); [apply local_read_number|]. intros n.
  destruct (ft =? 0); [destruct (n =? 0)|destruct (ft =? e)]; try apply local_err; apply local_ret.
Qed.

(** Loops with fuel *)
Lemma eats_nonempty {A} (p : P A) c a : eats p c a -> (forall r, p [] <> Ok (a, r)) -> (0 < List.length c)%nat.
Proof.
  intros [E _] N. destruct c; [|cbn; lia]. exfalso. specialize (E []). cbn in E. exact (N _ E).
Qed.

Lemma read_name_nil ver : read_name ver [] = Err EEOF.
Proof.
  unfold read_name, read_number. destruct (ver <? 5); reflexivity.
Qed.
Lemma get_attr_nil ver : get_attr ver [] = Err EEOF.
Proof. unfold get_attr. now rewrite read_name_nil. Qed.
Lemma strict_app {A} (c1 c2 : list A) : c2 <> [] -> (List.length c1 < List.length (c1 ++ c2))%nat.
Proof. intros N. rewrite app_length. destruct c2; [contradiction|cbn; lia]. Qed.

Lemma attrs_loop_eats ver : forall fuel n s l r, get_attrs_loop ver fuel n s = Ok (l, r) ->
  exists c, s = c ++ r /\
    (forall fuel' r', (List.length c <= fuel')%nat -> get_attrs_loop ver fuel' n (c ++ r') = Ok (l, r')) /\
    (forall fuel' c1 c2, c = c1 ++ c2 -> c2 <> [] -> get_attrs_loop ver fuel' n c1 = Err EEOF).
Proof.
  induction fuel as [|fuel IH]; intros n s l r E; cbn [get_attrs_loop] in E.
  - destruct (Z.leb_spec n 0); [|discriminate]. injection E as <- <-. exists []. split; [reflexivity|]. split.
    + intros fuel' r' _. cbn [app]. destruct fuel'; cbn [get_attrs_loop]; destruct (Z.leb_spec n 0); try lia; reflexivity.
    + intros fuel' c1 c2 X N. symmetry in X. apply app_eq_nil in X. destruct X; contradiction.
  - destruct (Z.leb_spec n 0).
    + injection E as <- <-. exists []. split; [reflexivity|]. split.
      * intros fuel' r' _. cbn [app]. destruct fuel'; cbn [get_attrs_loop]; destruct (Z.leb_spec n 0); try lia; reflexivity.
      * intros fuel' c1 c2 X N. symmetry in X. apply app_eq_nil in X. destruct X; contradiction.
    + destruct (get_attr ver s) as [[a s1]| |] eqn:Ea; cbn [rbind] in E; try discriminate.
      destruct (get_attrs_loop ver fuel (n - 1) s1) as [[l2 s2]| |] eqn:El; cbn [rbind] in E; try discriminate.
      injection E as <- <-.
      destruct (local_get_attr ver s a s1 Ea) as (c1 & -> & EA).
      destruct (IH _ _ _ _ El) as (c2 & -> & I1 & I2).
      assert (Hc : (0 < List.length c1)%nat) by (apply (eats_nonempty _ _ _ EA); intros; rewrite get_attr_nil; discriminate).
      exists (c1 ++ c2). split; [now rewrite app_assoc|]. split.
      * intros fuel' r' Hf. rewrite app_length in Hf. destruct fuel' as [|f']; [lia|]. cbn [get_attrs_loop].
        destruct (Z.leb_spec n 0); [lia|]. rewrite <- app_assoc, (eat_any _ _ _ EA). cbn [rbind].
        rewrite I1 by lia. reflexivity.
      * intros fuel' d1 d2 X N. destruct fuel' as [|f']; cbn [get_attrs_loop]; destruct (Z.leb_spec n 0); try lia; [reflexivity|].
        destruct (app_split _ _ _ _ X) as [(m & -> & ->)|(m & Hm & E1 & ->)].
        -- rewrite (eat_any _ _ _ EA). cbn [rbind]. rewrite (I2 f' m d2 eq_refl N). reflexivity.
        -- rewrite (eat_cut _ _ _ EA d1 m E1 Hm). reflexivity.
Qed.

Lemma local_get_attr_list ver : local (get_attr_list ver).
Proof.
  unfold get_attr_list.
  apply (local_bind (get_nelems ver fieldAttribute) (fun n s1 =>
    let* (l, s2) := get_attrs_loop ver (S (List.length s1)) n s1 in
    let* om := new_ordered_map (map fst l) (build_map l) in Ok (om, s2))); [apply local_get_nelems|].
  intros n. apply (local_bind (fun s1 => get_attrs_loop ver (S (List.length s1)) n s1) (fun l s2 =>
    let* om := new_ordered_map (map fst l) (build_map l) in Ok (om, s2))).
  - intros s l r E. destruct (attrs_loop_eats _ _ _ _ _ _ E) as (c & -> & I1 & I2). exists c. split; [reflexivity|]. split.
    + intros r'. apply I1. rewrite app_length. lia.
    + intros c1 c2 X N. eapply I2; eauto.
  - intros l. apply (local_pure (new_ordered_map (map fst l) (build_map l)) (fun om s2 => Ok (om, s2))).
    intros; apply local_ret.
Qed.

Lemma local_get_dims ver n : local (get_dims ver n).
Proof.
  induction n as [|n IH]; cbn [get_dims]; [apply local_ret|].
  apply (local_bind (read_name ver) (fun nm s1 => let* (len, s2) := read_number ver s1 in
    let* (r, s3) := get_dims ver n s2 in Ok (mkDim nm len :: r, s3))); [apply local_read_name|]. intros nm.
  apply (local_bind (read_number ver) (fun len s2 => let* (r, s3) := get_dims ver n s2 in Ok (mkDim nm len :: r, s3)));
    [apply local_read_number|]. intros len.
  apply (local_bind (get_dims ver n) (fun r s3 => Ok (mkDim nm len :: r, s3))); [exact IH|]. intros; apply local_ret.
Qed.
Lemma local_read_numbers ver n : local (read_numbers ver n).
Proof.
  induction n as [|n IH]; cbn [read_numbers]; [apply local_ret|].
  apply (local_bind (read_number ver) (fun x s1 => let* (r, s2) := read_numbers ver n s1 in Ok (x :: r, s2)));
    [apply local_read_number|]. intros x.
  apply (local_bind (read_numbers ver n) (fun r s2 => Ok (x :: r, s2))); [exact IH|]. intros; apply local_ret.
Qed.

Lemma local_get_var ver dims recsz : local (get_var ver dims recsz).
Proof.
  unfold get_var.
  apply (local_bind (read_name ver) (fun name s1 => let* (nd, s2) := read_number ver s1 in _)); [apply local_read_name|].
  intros name. apply (local_bind (read_number ver) (fun nd s2 => _)); [apply local_read_number|]. intros nd.
  destruct (maxDimensions <? nd); [apply local_err|].
  apply (local_bind (read_numbers ver (Z.to_nat nd)) (fun ids s3 => let* (at_, s4) := get_attr_list ver s3 in _));
    [apply local_read_numbers|]. intros ids.
  apply (local_bind (get_attr_list ver) (fun at_ s4 => let* (vt, s5) := read32 s4 in _)); [apply local_get_attr_list|].
  intros at_. apply (local_bind read32 (fun vt s5 => let* (vsize, s6) := read_number ver s5 in _)); [apply local_read32|].
  intros vt. apply (local_bind (read_number ver) (fun vsize s6 => _)); [apply local_read_number|]. intros vsize.
  apply (local_pure (has_unlimited dims ids) (fun unl s6 => _)). intros unl.
  match goal with |- local (fun s => let* (used, recsz') := ?x in _) =>
    apply (local_pure x (fun ur s6 => let '(used, recsz') := ur in
      let* (off, s7) := if ver =? 1 then read32 s6 else read64 s6 in
      Ok (mkRvar name ids at_ vt (i64 used) off, recsz', s7))) end.
  intros [used recsz'].
  apply (local_bind (fun s6 => if ver =? 1 then read32 s6 else read64 s6)
    (fun off s7 => Ok (mkRvar name ids at_ vt (i64 used) off, recsz', s7))).
  - destruct (ver =? 1); [apply local_read32|apply local_read64].
  - intros; apply local_ret.
Qed.
Lemma get_var_nil ver dims recsz : get_var ver dims recsz [] = Err EEOF.
Proof. unfold get_var. now rewrite read_name_nil. Qed.

(** One step of the variable loop *)
Definition vstep (dims : list rdim) (st : vloop) (x : rvar * Z) : res vloop :=
  let '(v, rs) := x in
  match om_get (vl_vars st) (v_name v) with
  | Some _ => Err EDuplicateVariable
  | None =>
      let* unl := has_unlimited dims (v_ids v) in
      Ok (mkVl rs (om_add (vl_vars st) (v_name v) v)
            (if unl then vl_nrec st + 1 else vl_nrec st)
            (if unl then match vl_first st with None => Some v | Some w => Some w end else vl_first st))
  end.
Lemma vars_loop_unfold ver dims fuel n st s : get_vars_loop ver dims fuel n st s =
  if n <=? 0 then Ok (st, s)
  else match fuel with
       | O => Err EEOF
       | S f => let* (x, s1) := get_var ver dims (vl_rec st) s in
                let* st' := vstep dims st x in get_vars_loop ver dims f (n - 1) st' s1
       end.
Proof.
  destruct fuel; cbn [get_vars_loop]; destruct (n <=? 0); try reflexivity.
  destruct (get_var ver dims (vl_rec st) s) as [[[v rs] s1]| |]; cbn [rbind]; try reflexivity.
  unfold vstep. destruct (om_get (vl_vars st) (v_name v)); [reflexivity|].
  destruct (has_unlimited dims (v_ids v)); reflexivity.
Qed.

Lemma vars_loop_eats ver dims : forall fuel n st s o r, get_vars_loop ver dims fuel n st s = Ok (o, r) ->
  exists c, s = c ++ r /\
    (forall fuel' r', (List.length c <= fuel')%nat -> get_vars_loop ver dims fuel' n st (c ++ r') = Ok (o, r')) /\
    (forall fuel' c1 c2, c = c1 ++ c2 -> c2 <> [] -> get_vars_loop ver dims fuel' n st c1 = Err EEOF).
Proof.
  assert (Z0 : forall n st r, n <= 0 -> exists c, r = c ++ r /\
    (forall fuel' r', (List.length c <= fuel')%nat -> get_vars_loop ver dims fuel' n st (c ++ r') = Ok (st, r')) /\
    (forall fuel' c1 c2, c = c1 ++ c2 -> c2 <> [] -> get_vars_loop ver dims fuel' n st c1 = Err EEOF)).
  { intros n st r Hn. exists []. split; [reflexivity|]. split.
    - intros fuel' r' _. cbn [app]. rewrite vars_loop_unfold. destruct (Z.leb_spec n 0); [reflexivity|lia].
    - intros fuel' c1 c2 X N. symmetry in X. apply app_eq_nil in X. destruct X; contradiction. }
  induction fuel as [|fuel IH]; intros n st s o r E; rewrite vars_loop_unfold in E;
    (destruct (Z.leb_spec n 0); [injection E as <- <-; now apply Z0|]); [discriminate|].
  destruct (get_var ver dims (vl_rec st) s) as [[x s1]| |] eqn:Ea; cbn [rbind] in E; try discriminate.
  destruct (vstep dims st x) as [st'| |] eqn:Es; cbn [rbind] in E; try discriminate.
  destruct (local_get_var ver dims _ s x s1 Ea) as (c1 & -> & EA).
  destruct (IH _ _ _ _ _ E) as (c2 & -> & I1 & I2).
  assert (Hc : (0 < List.length c1)%nat) by (apply (eats_nonempty _ _ _ EA); intros; rewrite get_var_nil; discriminate).
  exists (c1 ++ c2). split; [now rewrite app_assoc|]. split.
  - intros fuel' r' Hf. rewrite app_length in Hf. destruct fuel' as [|f']; [lia|]. rewrite vars_loop_unfold.
    destruct (Z.leb_spec n 0); [lia|]. rewrite <- app_assoc, (eat_any _ _ _ EA). cbn [rbind]. rewrite Es. cbn [rbind].
    apply I1. lia.
  - intros fuel' d1 d2 X N. rewrite vars_loop_unfold. destruct (Z.leb_spec n 0); [lia|]. destruct fuel' as [|f']; [reflexivity|].
    destruct (app_split _ _ _ _ X) as [(m & -> & ->)|(m & Hm & E1 & ->)].
    + rewrite (eat_any _ _ _ EA). cbn [rbind]. rewrite Es. cbn [rbind]. exact (I2 f' m d2 eq_refl N).
    + rewrite (eat_cut _ _ _ EA d1 m E1 Hm). reflexivity.
Qed.

(** The whole header; everything but the file itself *)
Record hdr : Type := mkHdr { h_ver : Z; h_numrecs : Z; h_dims : list rdim; h_gattrs : omap gval; h_loop : vloop }.
Definition parse_header : P hdr := fun f =>
  let* (m, s0) := read_bytes 4 f in
  if negb (beqb (ztake 3 m) (bs "CDF")) then Err ENotCDF else
  let ver := nth 3 m 0 in
  if negb ((ver =? 1) || (ver =? 2) || (ver =? 5)) then Err EUnknownVersion else
  let* (numrecs, s1) := read_number ver s0 in
  if numrecs =? 2 ^ 64 - 1 then Err ENoStreaming else
  let* (nd, s2) := get_nelems ver fieldDimension s1 in
  if maxDimensions <? nd then Err ETooManyDimensions else
  let* (dims, s3) := get_dims ver (Z.to_nat nd) s2 in
  let* (ga, s4) := get_attr_list ver s3 in
  let* (nv, s5) := get_nelems ver fieldVariable s4 in
  let* (vl, s6) := get_vars_loop ver dims (S (List.length s5)) nv (mkVl 0 empty_om 0 None) s5 in
  Ok (mkHdr ver numrecs dims ga vl, s6).
Definition cdf_of_hdr (f : bytes) (h : hdr) : cdf :=
  mkCdf f (h_ver h) (h_numrecs h) (fst (finish_rec (h_loop h))) (h_dims h) (om_hide (h_gattrs h) ncpKey)
    (vl_vars (h_loop h)) (snd (finish_rec (h_loop h))).

Lemma open_parse f : cdf_open f = rmap (fun x => cdf_of_hdr f (fst x)) (parse_header f).
Proof.
  unfold cdf_open, read_header, parse_header.
  repeat match goal with
  | |- (let* (_, _) := ?x in _) = _ => destruct x as [[? ?]| |]; cbn [rbind rmap]; try reflexivity
  | |- (if ?b then _ else _) = _ => destruct b; cbn [rmap]; try reflexivity
  end.
  unfold cdf_of_hdr. cbn [fst h_ver h_numrecs h_dims h_gattrs h_loop]. now destruct (finish_rec _).
Qed.

Lemma local_parse_header : local parse_header.
Proof.
  unfold parse_header.
  apply (local_bind (read_bytes 4) (fun m s0 => _)); [apply local_read_bytes|]. intros m.
  destruct (negb (beqb (ztake 3 m) (bs "CDF"))); [apply local_err|]. cbv zeta. set (ver := nth 3 m 0).
  destruct (negb _); [apply local_err|].
  apply (local_bind (read_number ver) (fun numrecs s1 => _)); [apply local_read_number|]. intros nr.
  destruct (nr =? 2 ^ 64 - 1); [apply local_err|].
  apply (local_bind (get_nelems ver fieldDimension) (fun nd s2 => _)); [apply local_get_nelems|]. intros nd.
  destruct (maxDimensions <? nd); [apply local_err|].
  apply (local_bind (get_dims ver (Z.to_nat nd)) (fun dims s3 => let* (ga, s4) := get_attr_list ver s3 in _)); [apply local_get_dims|].
  intros dims. apply (local_bind (get_attr_list ver) (fun ga s4 => let* (nv, s5) := get_nelems ver fieldVariable s4 in _));
    [apply local_get_attr_list|]. intros ga.
  apply (local_bind (get_nelems ver fieldVariable) (fun nv s5 => _)); [apply local_get_nelems|]. intros nv.
  apply (local_bind (fun s5 => get_vars_loop ver dims (S (List.length s5)) nv (mkVl 0 empty_om 0 None) s5)
    (fun vl s6 => Ok (mkHdr ver nr dims ga vl, s6))); [|intros; apply local_ret].
  intros s l r E. destruct (vars_loop_eats _ _ _ _ _ _ _ _ E) as (c & -> & I1 & I2). exists c. split; [reflexivity|]. split.
  - intros r'. apply I1. rewrite app_length. lia.
  - intros c1 c2 X N. eapply I2; eauto.
Qed.

(** Every file that opens has a header part on which alone the group depends, and every cut
    inside it is an unexpected end of file. *)
Lemma open_header f c : cdf_open f = Ok c ->
  exists head data, f = head ++ data /\
    (forall data', cdf_open (head ++ data') = Ok (mkCdf (head ++ data') (c_ver c) (c_numrecs c) (c_recsize c)
        (c_dims c) (c_gattrs c) (c_vars c) (c_special c))) /\
    (forall h1 h2, head = h1 ++ h2 -> h2 <> [] -> cdf_open h1 = Err EEOF).
Proof.
  rewrite open_parse. destruct (parse_header f) as [[h data]| |] eqn:E; try discriminate. intros X. injection X as <-.
  destruct (local_parse_header f h data E) as (head & -> & [H1 H2]). exists head, data. split; [reflexivity|]. split.
  - intros data'. rewrite open_parse, H1. reflexivity.
  - intros h1 h2 -> N. rewrite open_parse, (H2 h1 h2 eq_refl N). reflexivity.
Qed.
