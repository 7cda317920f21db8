(** The tree of objects the reader builds from a file in which the parts of a tree of groups
    are placed as the writer does it. *)
From Verif Require Import Prelude GoVal OrderedMapModel ArraySpec H5Base H5MetaWrite H5MetaRead H5Value H5TypeRead
  H5FileWrite H5PathModel H5LayoutModel H5RecordModel H5FileRead MetaSpec TypeSpec RecordSpec BaseLemmas
  H5ChecksumProofs H5MetaProofs H5TypeProofs H5DataProofs H5StoreProofs H5VarProofs H5RecordProofs H5AttrProofs
  H5ObjectProofs.
From Coq Require Import Lia ZifyBool ZifyNat.

Section TreeInd.
  Variable P : wtree -> Prop.
  Hypothesis H : forall a vs gs, Forall (fun g => P (snd g)) gs -> P (WNode a vs gs).
  Fixpoint wtree_ind' (t : wtree) : P t :=
    match t with
    | WNode a vs gs =>
        H a vs gs ((fix go (gs : list (bytes * wtree)) : Forall (fun g => P (snd g)) gs :=
                      match gs with
                      | [] => Forall_nil _
                      | g :: r => Forall_cons g (wtree_ind' (snd g)) (go r)
                      end) gs)
    end.
End TreeInd.

Lemma rmapM_inv {A B} (g : A -> res B) l : forall r, rmapM g l = Ok r -> Forall2 (fun x y => g x = Ok y) l r.
Proof.
  induction l as [|x l IH]; intros r E; cbn [rmapM] in E.
  - assert (r = []) by congruence. subst r. constructor.
  - destruct (g x) as [y| |] eqn:Ex; try discriminate. cbn [rbind] in E.
    destruct (rmapM g l) as [ys| |] eqn:El; try discriminate. cbn [rbind] in E.
    assert (r = y :: ys) by congruence. subst r. constructor; [exact Ex|]. apply IH. reflexivity.
Qed.

Definition c0 : wctx := mkCtx None [] [] [].

Section Placed.
Variable f : bytes.
Variable c : wctx.
Hypothesis Hf : zlen f < 2 ^ 63.

Definition ctx_of (v : hvar) : wctx := if hv_scale v then c0 else c.
Definition addr_of (d : bytes) : Z := match assoc d (c_dims c) with Some a => a | None => 0 end.

(** ** Where things are *)
Definition var_at (p : path) (nv : bytes * hvar) (na : bytes * Z) : Prop :=
  let v := snd nv in let x := ctx_of v in
  fst na = fst nv /\ 0 < snd na /\
  exists dn data ms oh,
    valueBytes false (c_heap x) (hv_val v) (List.length (hv_dims v)) (lookup vkey_eqb [] (p, fst nv) (c_vix x)) = Ok data /\
    has_at f dn data /\ varMessages false x p (fst nv) v dn (zlen data) = Ok ms /\
    objectHeaderV2 ms = Ok oh /\ has_at f (snd na) oh.

Definition header_at (p : path) (a : option hattrs) (vas gas : list (bytes * Z)) (addr : Z) : Prop :=
  0 < addr /\ exists ms oh, groupMessages false c p a vas gas = Ok ms /\ objectHeaderV2 ms = Ok oh /\ has_at f addr oh.

(** [L] are the addresses of all objects in the group, in the order in which they are met *)
Fixpoint contents_at (p : path) (t : wtree) (vas gas : list (bytes * Z)) (L : list Z) {struct t} : Prop :=
  match t with
  | WNode _ vs gs =>
      Forall2 (var_at p) vs vas /\
      exists Ls, L = map snd vas ++ List.concat Ls /\
      (fix go (gs : list (bytes * wtree)) (gas : list (bytes * Z)) (Ls : list (list Z)) : Prop :=
         match gs, gas, Ls with
         | [], [], [] => True
         | (n, g) :: gs', (n', a) :: gas', l :: Ls' =>
             n' = n /\
             (exists vas' gas' l', l = a :: l' /\ contents_at (p ++ [n]) g vas' gas' l' /\
                header_at (p ++ [n]) (w_attrs g) vas' gas' a) /\
             go gs' gas' Ls'
         | _, _, _ => False
         end) gs gas Ls
  end.
Definition groups_at (p : path) := fix groups_at (gs : list (bytes * wtree)) (gas : list (bytes * Z)) (Ls : list (list Z)) : Prop :=
  match gs, gas, Ls with
  | [], [], [] => True
  | (n, g) :: gs', (n', a) :: gas', l :: Ls' =>
      n' = n /\
      (exists vas' gas' l', l = a :: l' /\ contents_at (p ++ [n]) g vas' gas' l' /\
         header_at (p ++ [n]) (w_attrs g) vas' gas' a) /\
      groups_at gs' gas' Ls'
  | _, _, _ => False
  end.
Lemma contents_at_eq p a vs gs vas gas L : contents_at p (WNode a vs gs) vas gas L <->
  Forall2 (var_at p) vs vas /\ exists Ls, L = map snd vas ++ List.concat Ls /\ groups_at p gs gas Ls.
Proof. reflexivity. Qed.

(** ** What makes them readable *)
Definition agood (x : wctx) (k : akey) (v : hval) : Prop :=
  forall m, buildAttributeMessage false (c_heap x) (snd k) v (lookup akey_eqb [] k (c_aix x)) = Ok m ->
  exists a, attr_msg m a /\ attr_gives f (snd k, v) a.

Definition vgood (p : path) (nv : bytes * hvar) : Prop :=
  let v := snd nv in let x := ctx_of v in
  (exists dims d dt,
     List.length dims = List.length (hv_dims v) /\
     buildDatatypeMessage false (hv_val v) (List.length (hv_dims v)) = Ok dt /\
     parseDatatype dt = Ok (d, []) /\ dt <> [] /\ zlen dt < 65536 /\ 0 < dlen d /\
     getDimsLimited (List.length (hv_dims v)) (hv_val v) = dims /\
     Forall (fun n => 0 <= n < 2 ^ 63) dims /\ zlen dims <= 255 /\
     forall data,
       valueBytes false (c_heap x) (hv_val v) (List.length (hv_dims v)) (lookup vkey_eqb [] (p, fst nv) (c_vix x)) = Ok data ->
       zlen data = volume dims * dlen d /\ alloc (readGlobalHeap f) d dims data = Ok (hv_val v, [])) /\
  Forall (fun kv => agood x (p, Some (fst nv), fst kv) (snd kv)) (attr_list (hv_attrs v)) /\
  zlen (attr_list (hv_attrs v)) <= 64000 /\
  (hv_scale v = false -> hv_dims v <> [] ->
     exists e m a, c_heap c = Some e /\ buildDimensionList e (c_dims c) (hv_dims v) = Some m /\
       attr_msg m a /\ attr_gives f (DL, refs_value (map addr_of (hv_dims v))) a) /\
  (hv_scale v = false -> exists e, c_heap c = Some e).

Fixpoint tgood (p : path) (t : wtree) : Prop :=
  match t with
  | WNode a vs gs =>
      Forall (fun kv => agood c (p, None, fst kv) (snd kv)) (attr_list a) /\
      Forall (vgood p) vs /\ Forall (fun n => zlen n < 256) (map fst vs ++ map fst gs) /\
      NoDup (map fst vs ++ map fst gs) /\
      zlen (attr_list a) + zlen vs + zlen gs <= 64000 /\
      (fix go (gs : list (bytes * wtree)) : Prop :=
         match gs with [] => True | (n, g) :: r => tgood (p ++ [n]) g /\ go r end) gs
  end.
Definition tgoods (p : path) := fix tgoods (gs : list (bytes * wtree)) : Prop :=
  match gs with [] => True | (n, g) :: r => tgood (p ++ [n]) g /\ tgoods r end.
Lemma tgood_eq p a vs gs : tgood p (WNode a vs gs) <->
  Forall (fun kv => agood c (p, None, fst kv) (snd kv)) (attr_list a) /\
  Forall (vgood p) vs /\ Forall (fun n => zlen n < 256) (map fst vs ++ map fst gs) /\
  NoDup (map fst vs ++ map fst gs) /\
  zlen (attr_list a) + zlen vs + zlen gs <= 64000 /\ tgoods p gs.
Proof. reflexivity. Qed.

(** ** What is read *)
Definition var_obj (nv : bytes * hvar) (o : robj) : Prop :=
  let v := snd nv in
  exists addr dims d dn size al dal,
    o = RObj (var_info (fst nv) addr dims d dn size (al ++ dal)) [] /\
    List.length dims = List.length (hv_dims v) /\ getDimsLimited (List.length (hv_dims v)) (hv_val v) = dims /\
    Forall2 (attr_gives f) (attr_list (hv_attrs v)) al /\
    (if negb (hv_scale v) && (0 <? zlen (hv_dims v))
     then exists a, dal = [a] /\ attr_gives f (DL, refs_value (map addr_of (hv_dims v))) a
     else dal = []) /\
    (let x := dset_of (r_info o) dims d in
     fst (getData f (readGlobalHeap f) x true (opened x (ri_blocks (r_info o)))) = Ok (hv_val v)) /\
    exists dt, buildDatatypeMessage false (hv_val v) (List.length (hv_dims v)) = Ok dt /\ parseDatatype dt = Ok (d, []).

Fixpoint group_obj (t : wtree) (o : robj) {struct t} : Prop :=
  match t with
  | WNode a vs gs =>
      exists name addr al vos gos,
        o = RObj (group_info name addr al) (vos ++ gos) /\
        Forall2 (attr_gives f) (attr_list a) al /\
        Forall2 (fun nv no => fst no = fst nv /\ var_obj nv (snd no)) vs vos /\
        (fix go (gs : list (bytes * wtree)) (gos : list (bytes * robj)) : Prop :=
           match gs, gos with
           | [], [] => True
           | (n, g) :: gs', (n', o') :: gos' => n' = n /\ group_obj g o' /\ go gs' gos'
           | _, _ => False
           end) gs gos
  end.
Fixpoint group_objs (gs : list (bytes * wtree)) (gos : list (bytes * robj)) : Prop :=
  match gs, gos with
  | [], [] => True
  | (n, g) :: gs', (n', o') :: gos' => n' = n /\ group_obj g o' /\ group_objs gs' gos'
  | _, _ => False
  end.
Lemma group_obj_eq a vs gs o : group_obj (WNode a vs gs) o <->
  exists name addr al vos gos,
    o = RObj (group_info name addr al) (vos ++ gos) /\
    Forall2 (attr_gives f) (attr_list a) al /\
    Forall2 (fun nv no => fst no = fst nv /\ var_obj nv (snd no)) vs vos /\ group_objs gs gos.
Proof. reflexivity. Qed.

(** ** Reading *)
Lemma attrs_good x p o a ms : Forall (fun kv => agood x (p, o, fst kv) (snd kv)) (attr_list a) ->
  attrMessages false x p o a = Ok ms ->
  exists al, Forall2 attr_msg ms al /\ Forall2 (attr_gives f) (attr_list a) al /\ zlen ms = zlen (attr_list a).
Proof.
  unfold attrMessages. intros H E. apply rmapM_inv in E. revert H. induction E as [|kv m l ms Em _ IH]; intros H.
  - exists []. split; [constructor|]. split; [constructor|reflexivity].
  - inversion H as [|? ? H1 H2]; subst x0 l0. destruct (IH H2) as (al & A1 & A2 & A3).
    destruct (H1 m Em) as (ra & B1 & B2). exists (ra :: al). split; [constructor; assumption|].
    split; [constructor; [|exact A2]|rewrite !zlen_cons; lia]. destruct kv as [k v]. exact B2.
Qed.

Lemma var_read p nv na x ad : var_at p nv na -> vgood p nv ->
  exists o, readObjectHeader (handle x) f (snd na) (mkRst (newObject (fst nv) (snd na)) [] ad) =
      Ok (mkRst (r_info o) [] ad) /\ var_obj nv o /\ r_children o = [] /\ ri_addr (r_info o) = snd na /\
      dumpObject x (mkRst (r_info o) [] ad) = Ok (mkRst (r_info o) [] ad).
Proof.
  destruct nv as [name v]. intros (En & Hpos & dn & data & ms & oh & Ev & Hd & Em & Eo & Ho)
    ((dims & d & dt & Hl & Edt & Hp & Hne & Hdt & Hdl & Edims & Hdims & Hrank & Hdata) & Ha & Hna & Hdim & Hheap).
  cbn [fst snd] in *. destruct (Hdata data Ev) as [Hz Halloc].
  destruct (has_at_bound _ _ _ Hd) as [B1 B2]. pose proof (zlen_nonneg data) as B3.
  unfold varMessages in Em. rewrite Edt in Em. cbn [rbind] in Em.
  destruct (attrMessages false (ctx_of v) p (Some name) (hv_attrs v)) as [atts| |] eqn:Ea; try discriminate.
  cbn [rbind] in Em. destruct (attrs_good _ _ _ _ _ Ha Ea) as (al & A1 & A2 & A3).
  rewrite Edims in Em. apply (f_equal (fun r => match r with Ok x => x | _ => [] end)) in Em.
  match type of Em with ?x = _ => set (ms' := x) in Em end. subst ms.
  set (dl := match c_heap (ctx_of v) with
             | Some e => if negb (hv_scale v) && (0 <? zlen (hv_dims v))
                         then match buildDimensionList e (c_dims (ctx_of v)) (hv_dims v) with
                              | Some m => [m] | None => [] end else []
             | None => [] end) in ms'.
  assert (D : exists dal, Forall2 attr_msg dl dal /\ zlen dl <= 1 /\
     (if negb (hv_scale v) && (0 <? zlen (hv_dims v))
      then exists a, dal = [a] /\ attr_gives f (DL, refs_value (map addr_of (hv_dims v))) a
      else dal = [])).
  { unfold dl, ctx_of. destruct (hv_scale v) eqn:Es.
    - exists []. split; [constructor|]. split; [cbn; lia|reflexivity].
    - destruct (hv_dims v) as [|d0 dr] eqn:Edv.
      + exists []. destruct (Hheap eq_refl) as (e & ->). split; [constructor|]. split; [cbn; lia|reflexivity].
      + destruct (Hdim eq_refl ltac:(discriminate)) as (e & m & a & E1 & E2 & E3 & E4).
        assert (Hlt : (0 <? zlen (d0 :: dr)) = true) by (rewrite zlen_cons; pose proof (zlen_nonneg dr); lia).
        rewrite E1, Hlt. cbn [negb andb]. rewrite E2. exists [a].
        split; [constructor; [exact E3|constructor]|]. split; [reflexivity|]. exists a. split; [reflexivity|exact E4]. }
  destruct D as (dal & D1 & D2 & D3).
  set (i := var_info name (snd na) dims d dn (zlen data) (al ++ dal)).
  exists (RObj i []). cbn [r_info r_children].
  assert (Hh := var_header x f (snd na) ms' oh name (snd na) ad dims d dt dn (zlen data) atts dl al dal eq_refl).
  split.
  { apply Hh; try assumption.
    - split; [eapply Forall_impl; [|exact Hdims]; cbv beta; intros n Hn; lia|exact Hrank].
    - lia.
    - lia.
    - unfold ms'. rewrite !zlen_app, A3. change (zlen [_; _; _]) with 3. lia. }
  split; [|split; [reflexivity|split; [reflexivity|apply dump_var]]].
  exists (snd na), dims, d, dn, (zlen data), al, dal. cbn [snd fst].
  split; [reflexivity|]. split; [exact Hl|]. split; [exact Edims|]. split; [exact A2|]. split; [exact D3|].
  split; [|exists dt; split; [exact Edt|exact Hp]].
  cbv zeta. cbn [r_info]. unfold i. cbn [ri_blocks var_info].
  apply contiguous_value; try assumption. reflexivity.
Qed.

Lemma NoDup_mid {A} (l m : list A) x : NoDup (l ++ x :: m) -> ~ In x l /\ NoDup ((l ++ [x]) ++ m).
Proof.
  intros H. split.
  - intros Hi. apply NoDup_remove_2 in H. apply H, in_or_app. left. exact Hi.
  - rewrite <- app_assoc. exact H.
Qed.

Lemma addr_range a oh : has_at f a oh -> 0 <= a < 2 ^ 64.
Proof. intros H. destruct (has_at_bound _ _ _ H) as [A B]. pose proof (zlen_nonneg oh). lia. Qed.

Definition indices (cs : list (bytes * robj)) : list (Z * bytes) := flat_map (fun x => addrIndex (snd x)) cs.
Lemma addrIndex_eq i cs : addrIndex (RObj i cs) = (ri_addr i, ri_name i) :: indices cs.
Proof.
  cbn [addrIndex]. f_equal. induction cs as [|[n o] r IH]; [reflexivity|]. cbn [indices flat_map snd].
  f_equal. exact IH.
Qed.

Lemma object_read fu a st :
  readAny (S fu) f (JObject a) st =
  (let* st := readAny (S fu) f (JHeader a) st in dumpObject (envAt fu f (headerKind f a)) st).
Proof. reflexivity. Qed.

Lemma var_links p fu k i vs vas : Forall2 (var_at p) vs vas -> forall cs ad,
  Forall (vgood p) vs -> Forall (fun n => zlen n < 256) (map fst vs) ->
  NoDup (map fst cs ++ map fst vs) -> NoDup (ad ++ map snd vas) ->
  exists vos,
    deliver (handle (envAt (S fu) f k)) (contents (map (fun x => buildLinkMessage (fst x) (snd x)) vas)) (mkRst i cs ad) =
      Ok (mkRst i (cs ++ vos) (ad ++ map snd vas)) /\
    Forall2 (fun nv no => fst no = fst nv /\ var_obj nv (snd no)) vs vos /\
    map (fun no => (fst no, ri_addr (r_info (snd no)))) vos = vas /\
    map fst (indices vos) = map snd vas.
Proof.
  induction 1 as [|nv na vs vas Hv _ IH]; intros cs ad Hg Hn Hd Ha.
  - exists []. rewrite !app_nil_r. split; [reflexivity|]. split; [constructor|]. split; reflexivity.
  - inversion Hg as [|? ? G1 G2]; subst x l. cbn [map] in *. inversion Hn as [|? ? N1 N2]; subst x l.
    destruct (NoDup_mid _ _ _ Hd) as [D1 D2]. destruct (NoDup_mid _ _ _ Ha) as [A1 A2].
    destruct (var_read p nv na (envAt fu f (headerKind f (snd na))) (ad ++ [snd na]) Hv G1) as (o & E1 & E2 & E3 & E4 & E5).
    pose proof Hv as (En & _ & _ & _ & _ & oh & _ & _ & _ & _ & Ho).
    destruct o as [oi oc]. cbn [r_info r_children] in *. subst oc.
    destruct (IH (cs ++ [(fst nv, RObj oi [])]) (ad ++ [snd na]) G2 N2) as (vos & F1 & F2 & F3 & F4).
    { rewrite map_app. cbn [map fst]. exact D2. }
    { exact A2. }
    exists ((fst nv, RObj oi []) :: vos). rewrite link_content.
    split.
    + erewrite deliver_cons.
      2:{ apply (link_step (envAt (S fu) f k) (fst na) (snd na) (mkRst i cs ad) (mkRst oi [] (ad ++ [snd na]))).
          - rewrite En. exact N1.
          - eapply addr_range. exact Ho.
          - apply mem_nIn. rewrite En. exact D1.
          - exact A1.
          - rewrite En. cbn [rs_addrs e_object envAt]. rewrite object_read.
            etransitivity; [apply (f_equal (fun r => rbind r _)); exact E1|]. exact E5. }
      cbn [rs_info rs_children rs_addrs]. rewrite En. etransitivity; [exact F1|]. rewrite <- !app_assoc. reflexivity.
    + split; [constructor; [split; [reflexivity|exact E2]|exact F2]|]. split.
      * cbn [map fst snd r_info]. rewrite E4, F3. rewrite <- En. destruct na. reflexivity.
      * cbn [indices flat_map snd map]. rewrite addrIndex_eq. cbn [indices flat_map app map fst]. rewrite E4.
        f_equal. exact F4.
Qed.

Lemma NoDup_part {A} (l m n : list A) : NoDup (l ++ m ++ n) -> NoDup (l ++ m) /\ NoDup ((l ++ m) ++ n).
Proof.
  intros H. rewrite app_assoc in H. split; [|exact H].
  revert H. generalize (l ++ m). clear. intros l. induction n as [|x n IH]; [rewrite app_nil_r; auto|].
  intros H. apply IH. apply NoDup_remove_1 in H. exact H.
Qed.

Lemma tree_read t : forall p vas gas L name addr ad fu a,
  tgood p t -> contents_at p t vas gas L -> header_at p (w_attrs t) vas gas a ->
  NoDup (ad ++ L) -> (List.length L < fu)%nat ->
  exists o, readAny fu f (JHeader a) (mkRst (newObject name addr) [] ad) = Ok (mkRst (r_info o) (r_children o) (ad ++ L)) /\
    group_obj t o /\ ri_addr (r_info o) = addr /\ ri_name (r_info o) = name /\
    map fst (indices (r_children o)) = L /\
    (exists al, r_info o = group_info name addr al) /\
    (exists vos gos, r_children o = vos ++ gos /\ map (fun no => (fst no, ri_addr (r_info (snd no)))) vos = vas).
Proof.
  induction t as [at_ vs gs IHt] using wtree_ind'. intros p vas gas L name addr ad fu a Hg Hc Hh Hnd Hfu.
  destruct (proj1 (tgood_eq _ _ _ _) Hg) as (G1 & G2 & G3 & G4 & G5 & G6).
  destruct (proj1 (contents_at_eq _ _ _ _ _ _ _) Hc) as (Hv & Ls & EL & Hgs).
  destruct Hh as (Hpos & ms & oh & Em & Eo & Ho). cbn [w_attrs] in Em.
  unfold groupMessages in Em. destruct (attrMessages false c p None at_) as [atts| |] eqn:Ea; try discriminate.
  cbn [rbind] in Em. destruct (attrs_good _ _ _ _ _ G1 Ea) as (al & A1 & A2 & A3).
  apply Forall_app in G3. destruct G3 as [G3a G3b]. rewrite EL in Hnd.
  destruct fu as [|fu]; [lia|].
  destruct (NoDup_part ad _ _ Hnd) as [Hnd1 Hnd2].
  (* the variables *)
  set (k := headerKind f a).
  assert (V : exists vos,
    deliver (handle (envAt fu f k)) (contents (map (fun x => buildLinkMessage (fst x) (snd x)) vas))
      (mkRst (group_info name addr []) [] ad) = Ok (mkRst (group_info name addr []) vos (ad ++ map snd vas)) /\
    Forall2 (fun nv no => fst no = fst nv /\ var_obj nv (snd no)) vs vos /\
    map (fun no => (fst no, ri_addr (r_info (snd no)))) vos = vas /\
    map fst (indices vos) = map snd vas).
  { destruct vas as [|na0 vas0] eqn:Ev.
    - inversion Hv; subst. exists []. cbn [map]. rewrite app_nil_r. split; [reflexivity|]. split; [constructor|split; reflexivity].
    - assert (Hlen : (1 <= List.length L)%nat) by (rewrite EL; cbn [map app List.length]; lia).
      destruct fu as [|fu']; [lia|].
      destruct (var_links p fu' k (group_info name addr []) vs (na0 :: vas0) Hv [] ad G2 G3a) as (vos & F1 & F2 & F3 & F4).
      + cbn [map app]. eapply NoDup_part with (l := []) in G4. exact (proj1 G4).
      + exact Hnd1.
      + exists vos. split; [exact F1|]. split; [exact F2|]. split; [exact F3|exact F4]. }
  destruct V as (vos & V1 & V2 & V3 & V4).
  (* the groups *)
  assert (Gs : forall gs gas Ls, Forall (fun g => forall p vas gas L name addr ad fu a,
      tgood p (snd g) -> contents_at p (snd g) vas gas L -> header_at p (w_attrs (snd g)) vas gas a ->
      NoDup (ad ++ L) -> (List.length L < fu)%nat ->
      exists o, readAny fu f (JHeader a) (mkRst (newObject name addr) [] ad) = Ok (mkRst (r_info o) (r_children o) (ad ++ L)) /\
        group_obj (snd g) o /\ ri_addr (r_info o) = addr /\ ri_name (r_info o) = name /\
        map fst (indices (r_children o)) = L /\
        (exists al, r_info o = group_info name addr al) /\
        (exists vos gos, r_children o = vos ++ gos /\ map (fun no => (fst no, ri_addr (r_info (snd no)))) vos = vas)) gs ->
    tgoods p gs -> groups_at p gs gas Ls -> forall i cs ad',
    Forall (fun n => zlen n < 256) (map fst gs) -> NoDup (map fst cs ++ map fst gs) -> NoDup (ad' ++ List.concat Ls) ->
    (List.length (List.concat Ls) <= fu)%nat ->
    exists gos,
      deliver (handle (envAt fu f k)) (contents (map (fun x => buildLinkMessage (fst x) (snd x)) gas)) (mkRst i cs ad') =
        Ok (mkRst i (cs ++ gos) (ad' ++ List.concat Ls)) /\
      group_objs gs gos /\ map fst (indices gos) = List.concat Ls /\ map fst gas = map fst gs).
  { clear - Hf. induction gs as [|[n g] gs IH]; intros [|[n' ga] gas] [|l Ls] HI HT HG i cs ad' Hn Hd Hnd Hl; cbn [groups_at] in HG; try contradiction.
    - exists []. cbn [map List.concat]. rewrite !app_nil_r. split; [reflexivity|]. split; [exact I|split; reflexivity].
    - destruct HG as (-> & (vas' & gas' & l' & -> & Hc & Hh) & HG). cbn [tgoods] in HT. destruct HT as [HT1 HT2].
      inversion HI as [|? ? I1 I2]; subst x l. cbn [map fst snd] in *. inversion Hn as [|? ? N1 N2]; subst x l.
      cbn [List.concat app List.length] in *. rewrite app_length in Hl.
      destruct (NoDup_mid _ _ _ Hd) as [D1 D2]. destruct (NoDup_mid _ _ _ Hnd) as [A1 A2].
      destruct (NoDup_part _ _ _ A2) as [A3 A4].
      destruct (I1 (p ++ [n]) vas' gas' l' n ga (ad' ++ [ga]) fu ga HT1 Hc Hh A3 ltac:(lia)) as (o & E1 & E2 & E3 & E4 & E5 & (al' & E6) & _).
      destruct (IH gas Ls I2 HT2 HG i (cs ++ [(n, o)]) ((ad' ++ [ga]) ++ l') N2) as (gos & F1 & F2 & F3 & F4).
      { rewrite map_app. exact D2. }
      { exact A4. }
      { lia. }
      exists ((n, o) :: gos). rewrite link_content. pose proof Hh as (_ & ms' & oh' & _ & _ & Ho').
      split; [|split; [cbn [group_objs]; auto|]].
      + erewrite deliver_cons.
        2:{ apply (link_step (envAt fu f k) n ga (mkRst i cs ad') (mkRst (r_info o) (r_children o) ((ad' ++ [ga]) ++ l'))).
            - exact N1.
            - eapply addr_range; exact Ho'.
            - apply mem_nIn. exact D1.
            - exact A1.
            - cbn [rs_addrs e_object envAt]. destruct fu as [|fu']; [lia|]. rewrite object_read, E1. cbn [rbind].
              rewrite E6. apply dump_group. }
        cbn [rs_info rs_children rs_addrs]. destruct o as [oi oc]. cbn [r_info r_children].
        etransitivity; [exact F1|]. rewrite <- !app_assoc. reflexivity.
      + split; [|f_equal; exact F4].
        cbn [indices flat_map snd]. destruct o as [oi oc]. rewrite addrIndex_eq. cbn [map app fst r_info r_children] in *.
        rewrite E3. f_equal. change (flat_map (fun x => addrIndex (snd x)) gos) with (indices gos).
        rewrite map_app, E5, F3. reflexivity. }
  destruct (Gs gs gas Ls IHt G6 Hgs (group_info name addr []) vos (ad ++ map snd vas) G3b) as (gos & W1 & W2 & W3 & W4).
  { assert (Ef : map fst vos = map fst vs).
    { clear - V2. induction V2 as [|x y l m [A _] _ IH]; [reflexivity|]. cbn [map]. f_equal; assumption. }
    rewrite Ef. exact G4. }
  { exact Hnd2. }
  { rewrite EL, app_length in Hfu. lia. }
  set (o := RObj (group_info name addr al) (vos ++ gos)). exists o. cbn [r_info r_children o].
  assert (Enames : map fst vas = map fst vs).
  { clear - Hv. induction Hv as [|x y l m [A _] _ IH]; [reflexivity|]. cbn [map]. f_equal; assumption. }
  assert (Hlens : zlen vas = zlen vs).
  { rewrite <- (zlen_map fst vas), Enames, zlen_map. reflexivity. }
  assert (Hleng : zlen gas = zlen gs) by (rewrite <- (zlen_map fst gas), W4, zlen_map; reflexivity).
  split.
  { cbn [readAny]. rewrite EL, app_assoc.
    eapply (group_header (envAt fu f k) f a ms oh name addr ad (vas ++ gas) atts al); try eassumption.
    - rewrite map_app, <- app_assoc. congruence.
    - apply Forall_app. split.
      + apply Forall_forall. intros x Hx. rewrite Forall_forall in G3a. apply G3a. rewrite <- Enames.
        apply in_map. exact Hx.
      + apply Forall_forall. intros x Hx. rewrite Forall_forall in G3b. apply G3b. rewrite <- W4. apply in_map. exact Hx.
    - assert (Ems : ms = [buildLinkInfoMessage; groupInfoMessage] ++ map (fun x => buildLinkMessage (fst x) (snd x)) (vas ++ gas) ++ atts)
        by (rewrite map_app, <- app_assoc; congruence).
      rewrite Ems, !zlen_app, zlen_map, zlen_app, A3. change (zlen [_; _]) with 2. lia.
    - rewrite map_app, contents_app. erewrite deliver_join by exact V1. exact W1. }
  split; [apply group_obj_eq; exists name, addr, al, vos, gos; auto|].
  split; [reflexivity|]. split; [reflexivity|].
  split; [unfold indices; rewrite flat_map_app, map_app; fold (indices vos) (indices gos); rewrite V4, W3; symmetry; exact EL|].
  split; [exists al; reflexivity|]. exists vos, gos. split; [reflexivity|exact V3].
Qed.
End Placed.
