(** Facts about texts of types: decimal numbers, names, and that a CDL text says what the type is. *)
From Coq Require Import Lia ZifyBool ZifyNat.
From Verif Require Import Prelude GoVal BaseLemmas TypeTextSpec.

(** ** Splitting a text *)
Definition stops (p : Z -> Prop) (x : bytes) : Prop :=
  match x with [] => True | c :: _ => ~ p c end.

Lemma span_unique (p : Z -> Prop) (w w' x x' : bytes) :
  Forall p w -> Forall p w' -> stops p x -> stops p x' -> w ++ x = w' ++ x' -> w = w' /\ x = x'.
Proof.
  revert w'. induction w as [|c w IH]; intros [|c' w'] Hw Hw' Hx Hx' E; cbn [app] in E.
  - split; [reflexivity|exact E].
  - subst x. inversion Hw'; subst. cbn [stops] in Hx. contradiction.
  - subst x'. inversion Hw; subst. cbn [stops] in Hx'. contradiction.
  - injection E as -> E. inversion Hw; subst. inversion Hw'; subst.
    destruct (IH w') as [-> ->]; auto.
Qed.

Lemma NoDup_fst_inj {A B} (l : list (A * B)) n s t : NoDup (map fst l) -> In (n, s) l -> In (n, t) l -> s = t.
Proof.
  induction l as [|[m u] l IH]; [contradiction|]. cbn [map fst In]. intros Hn H H'. inversion Hn as [|? ? H1 H2]; subst.
  destruct H as [H|H], H' as [H'|H'].
  - congruence.
  - injection H as -> ->. exfalso. apply H1. exact (in_map fst _ _ H').
  - injection H' as -> ->. exfalso. apply H1. exact (in_map fst _ _ H).
  - exact (IH H2 H H').
Qed.

(** ** Induction over shapes *)
Section ShapeInd.
  Variable Q : shape -> Prop.
  Hypothesis HInt : forall n sg, Q (SInt n sg).
  Hypothesis HFloat : forall n, Q (SFloat n).
  Hypothesis HText : Q SText.
  Hypothesis HOpaque : forall n, Q (SOpaque n).
  Hypothesis HStruct : forall ms, Forall (fun m => Q (snd m)) ms -> Q (SStruct ms).
  Hypothesis HEnum : forall n sg vals, Q (SEnum n sg vals).
  Hypothesis HSeq : forall s, Q s -> Q (SSeq s).
  Hypothesis HArray : forall d s, Q s -> Q (SArray d s).
  Fixpoint shape_ind' (s : shape) : Q s :=
    match s with
    | SInt n sg => HInt n sg
    | SFloat n => HFloat n
    | SText => HText
    | SOpaque n => HOpaque n
    | SStruct ms =>
        HStruct ms ((fix go (l : list (bytes * shape)) : Forall (fun m => Q (snd m)) l :=
                       match l with
                       | [] => Forall_nil _
                       | m :: r => Forall_cons m (shape_ind' (snd m)) (go r)
                       end) ms)
    | SEnum n sg vals => HEnum n sg vals
    | SSeq s => HSeq s (shape_ind' s)
    | SArray d s => HArray d s (shape_ind' s)
    end.
End ShapeInd.

Lemma shape_eqb_eq : forall a b, shape_eqb a b = true <-> a = b.
Proof.
  induction a using shape_ind'; intros [| | | | | | |]; cbn [shape_eqb]; try (split; [discriminate|discriminate]).
  - rewrite andb_true_iff, Z.eqb_eq, Bool.eqb_true_iff. split; [intros [-> ->]; reflexivity|intros E; injection E as -> ->; auto].
  - rewrite Z.eqb_eq. split; [intros ->; reflexivity|intros E; injection E as ->; auto].
  - tauto.
  - rewrite Z.eqb_eq. split; [intros ->; reflexivity|intros E; injection E as ->; auto].
  - rename ms into l, ms0 into l'.
    set (go := fix go (l l' : list (bytes * shape)) {struct l} : bool := match l, l' with
                      | [], [] => true
                      | (n, s) :: r, (n', s') :: r' => beqb n n' && shape_eqb s s' && go r r'
                      | _, _ => false
                      end).
    assert (G : go l l' = true <-> l = l').
    { revert l'. induction H as [|[n s] r Hs _ IH]; intros [|[n' s'] r']; cbn [go]; try (split; [discriminate|discriminate]); [tauto|].
      fold go. cbn [snd] in Hs. rewrite !andb_true_iff, beqb_eq, Hs, IH.
      split; [intros [[-> ->] ->]; reflexivity|intros E; injection E as -> -> ->; auto]. }
    rewrite G. split; [intros ->; reflexivity|intros E; injection E as ->; auto].
  - set (go := fix go (l l' : list (bytes * Z)) {struct l} : bool := match l, l' with
                      | [], [] => true
                      | a :: r, b :: r' => beqb (fst a) (fst b) && go r r'
                      | _, _ => false
                      end).
    assert (G : beqb (map snd vals) (map snd vals0) && go vals vals0 = true <-> vals = vals0).
    { rewrite andb_true_iff. revert vals0. induction vals as [|[a z] r IH]; intros [|[a' z'] r']; cbn [go map fst snd beqb];
        try (split; [intros [? ?]; discriminate|discriminate]); [tauto|].
      fold go. specialize (IH r'). split.
      - rewrite !andb_true_iff, Z.eqb_eq. intros [[-> Hm] [Ha Hg]]. apply beqb_eq in Ha. subst a'. f_equal. apply IH. auto.
      - intros E. injection E as -> -> ->. destruct IH as [_ IH]. destruct (IH eq_refl) as [I1 I2]. rewrite I1, I2, Z.eqb_refl, beqb_refl. auto. }
    rewrite <- !andb_assoc, andb_true_iff, andb_true_iff, Z.eqb_eq, Bool.eqb_true_iff, G.
    split; [intros (-> & -> & ->); reflexivity|intros E; injection E as -> -> ->; auto].
  - rewrite IHa. split; [intros ->; reflexivity|intros E; injection E as ->; auto].
  - rewrite andb_true_iff, beqb_eq, IHa. split; [intros [-> ->]; reflexivity|intros E; injection E as -> ->; auto].
Qed.

(** ** Names *)
Lemma name_of_In F s n : name_of F s = Some n -> In (n, s) F /\ nameable s = true.
Proof.
  unfold name_of. destruct (nameable s); [|discriminate]. destruct (find _ F) as [[m t]|] eqn:E; [|discriminate].
  intros H. injection H as <-. apply find_some in E. destruct E as [Hi E]. cbn [snd] in E. apply shape_eqb_eq in E. subst t. auto.
Qed.
Lemma name_of_None F s : name_of F s = None -> nameable s = true -> forall n, ~ In (n, s) F.
Proof.
  unfold name_of. intros E Hn. rewrite Hn in E. destruct (find _ F) as [[m t]|] eqn:Ef; [discriminate|]. intros n Hi.
  apply (find_none _ _ Ef) in Hi. cbn [snd] in Hi. assert (shape_eqb s s = true) by (apply shape_eqb_eq; reflexivity). congruence.
Qed.
Lemma name_of_unnamed F s : nameable s = false -> name_of F s = None.
Proof. unfold name_of. intros ->. reflexivity. Qed.

(** the text of a type that is not written by its name *)
Definition body (L : language) (F : list (bytes * shape)) (s : shape) : bytes :=
  match s with
  | SInt n sg => l_int L n sg
  | SFloat n => l_float L n
  | SText => bs "string"
  | SOpaque n => l_opaque L n
  | SStruct ms => l_struct L (map (fun m => match m with (n, t) => (n, text L F t) end) ms)
  | SEnum n sg vals => l_enum L n sg vals
  | SSeq t => l_seq L (text L F t)
  | SArray dims t => l_array L dims (text L F t)
  end.
Lemma text_body L F s : text L F s = match name_of F s with Some n => n | None => body L F s end.
Proof. destruct s; reflexivity. Qed.

(** ** Numbers *)
Definition num_char (c : Z) : Prop := is_digit c \/ c = 45.
Lemma natural_inj a b s : natural_text a s -> natural_text b s -> a = b.
Proof. intros (_ & <- & _) (_ & <- & _). reflexivity. Qed.
Lemma number_inj a b s : number_text a s -> number_text b s -> a = b.
Proof.
  intros [[_ Ha]|[_ (t & -> & Ha)]] [[_ Hb]|[_ (t' & E & Hb)]].
  - exact (natural_inj _ _ _ Ha Hb).
  - subst s. destruct Ha as (Hd & _). inversion Hd; subst. unfold is_digit in *. lia.
  - destruct Hb as (Hd & _). inversion Hd; subst. unfold is_digit in *. lia.
  - injection E as <-. pose proof (natural_inj _ _ _ Ha Hb). lia.
Qed.
Lemma number_chars a s : number_text a s -> Forall num_char s.
Proof.
  intros [[_ (H & _)]|[_ (t & -> & H & _)]]; [|constructor; [right; reflexivity|]];
  (apply (Forall_impl num_char) in H; [exact H|]; intros c Hc; left; exact Hc).
Qed.

Section Cdl.
  Variable num : Z -> bytes.
  Hypothesis Hnum : forall n, number_text n (num n).

  Lemma num_unique a b x x' : stops num_char x -> stops num_char x' -> num a ++ x = num b ++ x' -> a = b /\ x = x'.
  Proof.
    intros Hx Hx' E. apply (span_unique num_char) in E; try assumption; try (eapply number_chars; apply Hnum).
    destruct E as [E Ex]. split; [|exact Ex]. apply (number_inj a b (num a)); [apply Hnum|rewrite E; apply Hnum].
  Qed.

  (** lists of items, each after a separator, up to a terminator *)
  Lemma flat_unique {B} (it : B -> bytes) (good : B -> Prop) (okx : bytes -> Prop) s0 sep t0 :
    s0 <> t0 -> (forall y, okx (s0 :: y)) -> (forall y, okx (t0 :: y)) ->
    (forall a a' x x', good a -> good a' -> okx x -> okx x' -> it a ++ x = it a' ++ x' -> a = a' /\ x = x') ->
    forall l l' r r', Forall good l -> Forall good l' ->
      flat_map (fun a => (s0 :: sep) ++ it a) l ++ t0 :: r = flat_map (fun a => (s0 :: sep) ++ it a) l' ++ t0 :: r' ->
      l = l' /\ r = r'.
  Proof.
    intros Hst Hs Ht Hit. induction l as [|a l IH]; intros [|a' l'] r r' Hg Hg' E; cbn [flat_map app] in E.
    - injection E as ->. auto.
    - injection E as E _. congruence.
    - injection E as E _. congruence.
    - injection E as E. rewrite <- !app_assoc in E. apply app_inv_head in E.
      inversion Hg; subst. inversion Hg'; subst.
      assert (G : forall k z, okx (flat_map (fun a => (s0 :: sep) ++ it a) k ++ t0 :: z)).
      { intros [|b k] z; cbn [flat_map app]; [apply Ht|apply Hs]. }
      apply Hit in E; auto. destruct E as [-> E]. apply IH in E; auto. destruct E as [-> ->]. auto.
  Qed.
  Lemma separated_unique {B} (it : B -> bytes) (good : B -> Prop) (okx : bytes -> Prop) s0 sep t0 :
    s0 <> t0 -> (forall y, okx (s0 :: y)) -> (forall y, okx (t0 :: y)) ->
    (forall a a' x x', good a -> good a' -> okx x -> okx x' -> it a ++ x = it a' ++ x' -> a = a' /\ x = x') ->
    (forall a x y, good a -> it a ++ x <> t0 :: y) ->
    forall l l' r r', Forall good l -> Forall good l' ->
      separated (s0 :: sep) (map it l) ++ t0 :: r = separated (s0 :: sep) (map it l') ++ t0 :: r' ->
      l = l' /\ r = r'.
  Proof.
    intros Hst Hs Ht Hit Hne l l' r r' Hg Hg' E.
    assert (Em : forall k : list B, flat_map (fun y => (s0 :: sep) ++ y) (map it k) = flat_map (fun a => (s0 :: sep) ++ it a) k).
    { induction k as [|b k IHk]; [reflexivity|]. cbn [map flat_map]. rewrite IHk. reflexivity. }
    destruct l as [|a l], l' as [|a' l']; cbn [map separated] in E; rewrite ?Em, <- ?app_assoc in E.
    - injection E as ->. auto.
    - inversion Hg'; subst. symmetry in E. exfalso. exact (Hne _ _ _ H1 E).
    - inversion Hg; subst. exfalso. exact (Hne _ _ _ H1 E).
    - inversion Hg; subst. inversion Hg'; subst.
      assert (G : forall k z, okx (flat_map (fun a => (s0 :: sep) ++ it a) k ++ t0 :: z)).
      { intros [|b k] z; cbn [flat_map app]; [apply Ht|apply Hs]. }
      apply Hit in E; auto. destruct E as [-> E].
      apply (flat_unique it good okx s0 sep t0) in E; auto. destruct E as [-> ->]. auto.
  Qed.

  (** ** What can follow a type in CDL *)
  Definition stop (r : bytes) : Prop := r = [] \/ exists n y, plain_name n /\ r = 32 :: n ++ 59 :: y.
  Definition stop2 (x : bytes) : Prop := stop x \/ exists y, x = 40 :: y.
  Lemma stop2_plain x : stop2 x -> stops plain_char x.
  Proof. intros [[->|(n & y & _ & ->)]|(y & ->)]; cbn [stops]; unfold plain_char; tauto. Qed.
  Lemma stop2_not_enum x y : stop2 x -> x = bs " enum " ++ y -> False.
  Proof.
    intros [[->|(n & z & Hn & ->)]|(z & ->)] E; [discriminate| |discriminate].
    change (bs " enum " ++ y) with (32 :: bs "enum" ++ 32 :: y) in E.
    assert (E' : n ++ 59 :: z = bs "enum" ++ 32 :: y) by (injection E as E; exact E). clear E. rename E' into E.
    apply (span_unique plain_char) in E; [destruct E; discriminate|exact Hn| |cbn [stops]; unfold plain_char; tauto|cbn [stops]; unfold plain_char; tauto].
    vm_compute. repeat constructor; discriminate.
  Qed.

  (** ** Suffixes: sequences and arrays *)
  Inductive suffix : Type := XSeq | XArr (dims : list Z).
  Definition stext (u : suffix) : bytes :=
    match u with
    | XSeq => bs "(*)"
    | XArr dims => bs "(" ++ separated (bs ",") (map num dims) ++ bs ")"
    end.
  Definition apply_suffix (s : shape) (u : suffix) : shape :=
    match u with XSeq => SSeq s | XArr d => SArray d s end.

  Lemma num_start a x : exists c y, num a ++ x = c :: y /\ num_char c.
  Proof.
    pose proof (Hnum a) as H. pose proof (number_chars _ _ H) as Hc. destruct (num a) as [|c y].
    - destruct H as [[_ (_ & _ & [H|(c & r & H & _)])]|[_ (t & H & _)]]; discriminate.
    - inversion Hc; subst. exists c, (y ++ x). auto.
  Qed.
  Lemma dims_unique l l' r r' :
    separated (bs ",") (map num l) ++ 41 :: r = separated (bs ",") (map num l') ++ 41 :: r' -> l = l' /\ r = r'.
  Proof.
    intros E.
    apply (separated_unique num (fun _ => True) (stops num_char) 44 [] 41) in E; auto;
      try (intros; cbn [stops]; unfold num_char, is_digit; lia); try (apply Forall_forall; auto).
    - intros a a' x x' _ _ Hx Hx'. apply num_unique; assumption.
    - intros a x y _ En. destruct (num_start a x) as (c & z & Ec & Hc). rewrite Ec in En. injection En as -> _.
      destruct Hc as [Hc|Hc]; unfold is_digit in *; lia.
  Qed.
  Lemma suffix_unique u u' r r' : stext u ++ r = stext u' ++ r' -> u = u' /\ r = r'.
  Proof.
    destruct u as [|d], u' as [|d']; cbn [stext]; rewrite <- ?app_assoc; intros E.
    - apply app_inv_head in E. auto.
    - exfalso. change (bs "(*)" ++ r) with (40 :: 42 :: 41 :: r) in E. change (bs "(" ++ ?x) with (40 :: x) in E.
      injection E as E. destruct d' as [|z d']; cbn [map separated] in E; [discriminate|].
      rewrite <- app_assoc in E.
      match type of E with context [num z ++ ?x] => destruct (num_start z x) as (c & y & Ec & Hc) end.
      rewrite Ec in E. injection E as <- _. destruct Hc as [Hc|Hc]; unfold is_digit in *; lia.
    - exfalso. change (bs "(*)" ++ r') with (40 :: 42 :: 41 :: r') in E. change (bs "(" ++ ?x) with (40 :: x) in E.
      injection E as E. destruct d as [|z d']; cbn [map separated] in E; [discriminate|].
      rewrite <- app_assoc in E.
      match type of E with context [num z ++ ?x] => destruct (num_start z x) as (c & y & Ec & Hc) end.
      rewrite Ec in E. injection E as -> _. destruct Hc as [Hc|Hc]; unfold is_digit in *; lia.
    - apply app_inv_head in E. change (bs ")" ++ ?x) with (41 :: x) in E. apply dims_unique in E. destruct E as [-> ->]. auto.
  Qed.
  Lemma stext_start u r : exists y, stext u ++ r = 40 :: y.
  Proof. destruct u; cbn [stext]; eexists; reflexivity. Qed.
  Lemma suffixes_unique : forall l l' r r', stop r -> stop r' ->
    flat_map stext l ++ r = flat_map stext l' ++ r' -> l = l' /\ r = r'.
  Proof.
    assert (N : forall u x r, stop r -> stext u ++ x = r -> False).
    { intros u x r Hr E. destruct (stext_start u x) as (y & Ey). rewrite Ey in E. subst r.
      destruct Hr as [Hr|(n & z & _ & Hr)]; discriminate. }
    induction l as [|u l IH]; intros [|u' l'] r r' Hr Hr' E; cbn [flat_map app] in E; rewrite <- ?app_assoc in E.
    - auto.
    - exfalso. exact (N _ _ _ Hr (eq_sym E)).
    - exfalso. exact (N _ _ _ Hr' E).
    - apply suffix_unique in E. destruct E as [-> E]. apply IH in E; auto. destruct E as [-> ->]. auto.
  Qed.

  Variable F : list (bytes * shape).
  Hypothesis HF : NoDup (map fst F).
  Hypothesis HFn : forall n s, In (n, s) F -> type_name cdl_words n.

  (** ** What a type begins with *)
  Inductive atom : Type := AName (n : bytes) (s : shape) | ARaw (s : shape).
  Definition atext (a : atom) : bytes := match a with AName n _ => n | ARaw s => body (CDL num) F s end.
  Definition ashape (a : atom) : shape := match a with AName _ s | ARaw s => s end.
  Definition simple (s : shape) : bool := match s with SSeq _ | SArray _ _ => false | _ => true end.
  Definition good_atom (a : atom) : Prop :=
    match a with
    | AName n s => In (n, s) F
    | ARaw s => simple s = true /\ proper_shape s
    end.

  Fixpoint peel (s : shape) : atom * list suffix :=
    match name_of F s with
    | Some n => (AName n s, [])
    | None => match s with
              | SSeq t => let (a, l) := peel t in (a, l ++ [XSeq])
              | SArray d t => let (a, l) := peel t in (a, l ++ [XArr d])
              | _ => (ARaw s, [])
              end
    end.
  Definition peel_body (s : shape) : atom * list suffix :=
    match s with
    | SSeq t => let (a, l) := peel t in (a, l ++ [XSeq])
    | SArray d t => let (a, l) := peel t in (a, l ++ [XArr d])
    | _ => (ARaw s, [])
    end.
  Lemma peel_eq s : peel s = match name_of F s with Some n => (AName n s, []) | None => peel_body s end.
  Proof. destruct s; reflexivity. Qed.

  Definition peeled (p : atom * list suffix) (s : shape) (t : bytes) : Prop :=
    t = atext (fst p) ++ flat_map stext (snd p) /\ s = fold_left apply_suffix (snd p) (ashape (fst p)) /\ good_atom (fst p).

  Lemma peel_ok : forall s, proper_shape s -> peeled (peel s) s (text (CDL num) F s) /\ peeled (peel_body s) s (body (CDL num) F s).
  Proof.
    assert (N : forall s, proper_shape s -> peeled (peel_body s) s (body (CDL num) F s) -> peeled (peel s) s (text (CDL num) F s)).
    { intros s Hp H. rewrite peel_eq, text_body. destruct (name_of F s) as [n|] eqn:En; [|exact H].
      apply name_of_In in En. destruct En as [Hi _]. repeat split; [cbn [fst snd flat_map atext]; rewrite app_nil_r; reflexivity|exact Hi]. }
    assert (B : forall s, simple s = true -> proper_shape s -> peeled (peel_body s) s (body (CDL num) F s)).
    { intros s Hs Hp. assert (peel_body s = (ARaw s, [])) as -> by (destruct s; [..|discriminate|discriminate]; reflexivity).
      repeat split; [cbn [fst snd flat_map atext]; rewrite app_nil_r; reflexivity|exact Hs|exact Hp]. }
    induction s using shape_ind'; intros Hp;
      try (split; [apply N; [exact Hp|]|]; apply B; [reflexivity|exact Hp|reflexivity|exact Hp]).
    - cbn [proper_shape] in Hp. destruct (IHs Hp) as [I _].
      assert (G : peeled (peel_body (SSeq s)) (SSeq s) (body (CDL num) F (SSeq s))).
      { cbn [peel_body body CDL l_seq]. destruct I as (I1 & I2 & I3). destruct (peel s) as [a l]. cbn [fst snd] in *.
        unfold peeled. cbn [fst snd]. rewrite flat_map_app, fold_left_app, I1, <- I2, <- app_assoc. repeat split. exact I3. }
      split; [apply N; [exact Hp|exact G]|exact G].
    - cbn [proper_shape] in Hp. destruct Hp as [Hd Hp]. destruct (IHs Hp) as [I _].
      assert (G : peeled (peel_body (SArray d s)) (SArray d s) (body (CDL num) F (SArray d s))).
      { cbn [peel_body body CDL l_array]. destruct I as (I1 & I2 & I3). destruct (peel s) as [a l]. cbn [fst snd] in *.
        unfold peeled. cbn [fst snd]. rewrite flat_map_app, fold_left_app, I1, <- I2, <- app_assoc. repeat split; [|exact I3].
        cbn [flat_map stext]. rewrite app_nil_r. reflexivity. }
      split; [apply N; [split; assumption|exact G]|exact G].
  Qed.

  (** the first word, and what comes after it *)
  Definition word (a : atom) : bytes :=
    match a with
    | AName n _ => n
    | ARaw s => match s with
                | SInt n sg | SEnum n sg _ => cdl_int n sg
                | SFloat n => cdl_float n
                | SText => bs "string"
                | SOpaque _ => bs "opaque"
                | SStruct _ => bs "compound"
                | _ => []
                end
    end.
  Definition members (ms : list (bytes * shape)) : bytes :=
    flat_map (fun m => line ([9] ++ text (CDL num) F (snd m) ++ bs " " ++ fst m ++ bs ";")) ms.
  Definition enumerators (vals : list (bytes * Z)) : bytes :=
    separated (line (bs ",")) (map (fun v => [9] ++ fst v ++ bs " = " ++ num (snd v)) vals).
  Definition rest (a : atom) : bytes :=
    match a with
    | AName _ _ => []
    | ARaw s => match s with
                | SOpaque n => bs "(" ++ num n ++ bs ")"
                | SStruct ms => bs " {" ++ newline :: members ms ++ bs "}"
                | SEnum _ _ vals => bs " enum {" ++ newline :: enumerators vals ++ newline :: bs "}"
                | _ => []
                end
    end.
  Lemma atext_split a : good_atom a -> atext a = word a ++ rest a.
  Proof.
    destruct a as [n s|s]; intros H; cbn [atext word rest]; [rewrite app_nil_r; reflexivity|].
    destruct H as [Hs _]. destruct s; cbn [simple] in Hs; try discriminate;
      cbn [body CDL l_int l_float l_opaque l_struct l_enum]; rewrite ?app_nil_r; try reflexivity.
    - unfold line. rewrite <- !app_assoc. change (bs "compound {") with (bs "compound" ++ bs " {"). rewrite <- app_assoc.
      do 2 f_equal. change ([newline] ++ ?x) with (newline :: x). f_equal. f_equal. unfold members.
      induction ms as [|[m t] r IH]; [reflexivity|]. cbn [map flat_map fst snd]. rewrite IH. reflexivity.
    - unfold line. rewrite <- !app_assoc. reflexivity.
  Qed.

  Lemma int_word n sg : n = 1 \/ n = 2 \/ n = 4 \/ n = 8 -> In (cdl_int n sg) cdl_words /\ plain_name (cdl_int n sg).
  Proof.
    intros [-> | [-> | [-> | ->]]]; destruct sg; (split; [vm_compute; tauto|vm_compute; repeat constructor; discriminate]).
  Qed.
  Lemma word_plain a : good_atom a -> plain_name (word a).
  Proof.
    destruct a as [n s|s]; cbn [good_atom word].
    - intros H. exact (proj1 (proj2 (HFn _ _ H))).
    - intros [Hs Hp]. destruct s; cbn [simple proper_shape] in *; try discriminate.
      + apply int_word. exact Hp.
      + unfold cdl_float. destruct (n =? 4); vm_compute; repeat constructor; discriminate.
      + vm_compute; repeat constructor; discriminate.
      + vm_compute; repeat constructor; discriminate.
      + vm_compute; repeat constructor; discriminate.
      + apply int_word. tauto.
  Qed.
  Lemma raw_word s : good_atom (ARaw s) -> In (word (ARaw s)) cdl_words.
  Proof.
    cbn [good_atom word]. intros [Hs Hp]. destruct s; cbn [simple proper_shape] in *; try discriminate.
    - apply int_word. exact Hp.
    - unfold cdl_float. destruct (n =? 4); vm_compute; tauto.
    - vm_compute; tauto.
    - vm_compute; tauto.
    - vm_compute; tauto.
    - apply int_word. tauto.
  Qed.
  Lemma rest_stops a x : stop2 x -> stops plain_char (rest a ++ x).
  Proof.
    intros H. destruct a as [n s|s]; cbn [rest app]; [apply stop2_plain; exact H|].
    destruct s; cbn [rest app]; try (apply stop2_plain; exact H); rewrite <- ?app_assoc;
      match goal with |- stops _ (bs ?w ++ _) => let v := eval vm_compute in (bs w) in change (bs w) with v end;
      cbn [app stops]; unfold plain_char; tauto.
  Qed.

  Lemma enumerators_unique l l' r r' :
    Forall (fun v => plain_name (fst v)) l -> Forall (fun v => plain_name (fst v)) l' ->
    enumerators l ++ newline :: r = enumerators l' ++ newline :: r' -> l = l' /\ r = r'.
  Proof.
    intros Hl Hl' E. unfold enumerators in E.
    apply (separated_unique (fun v : bytes * Z => [9] ++ fst v ++ bs " = " ++ num (snd v)) (fun v => plain_name (fst v)) (stops num_char) 44 [10] newline) in E;
      auto; try (intros; cbn [stops]; unfold num_char, is_digit, newline; lia).
    - intros [m z] [m' z'] x x' Hg Hg' Hx Hx' E'. cbn [fst snd app] in *. injection E' as E'.
      rewrite <- !app_assoc in E'. cbn [app] in E'.
      match type of E' with _ ++ ?a = _ ++ ?b => apply (span_unique plain_char m m' a b) in E' end; auto; try (cbn [stops]; unfold plain_char; tauto).
      destruct E' as [-> E']. injection E' as E'. apply num_unique in E'; auto. destruct E' as [-> ->]. auto.
    - intros a x y _ E'. cbn [app] in E'. unfold newline in E'. discriminate.
  Qed.

  Lemma good_raw_proper s : good_atom (ARaw s) -> proper_shape s.
  Proof. intros [_ H]. exact H. Qed.

  Definition unique_text (s : shape) : Prop := forall s' r r', proper_shape s' -> stop r -> stop r' ->
    text (CDL num) F s ++ r = text (CDL num) F s' ++ r' -> s = s' /\ r = r'.
  Definition unique_atom (a : atom) : Prop := forall a' x x', good_atom a' -> stop2 x -> stop2 x' ->
    atext a ++ x = atext a' ++ x' -> ashape a = ashape a' /\ x = x'.

  Lemma members_unique : forall l l' r r',
    Forall (fun m => unique_text (snd m)) l -> Forall (fun m => plain_name (fst m)) l ->
    Forall (fun m => plain_name (fst m) /\ proper_shape (snd m)) l' ->
    members l ++ 125 :: r = members l' ++ 125 :: r' -> l = l' /\ r = r'.
  Proof.
    induction l as [|[m t] l IH]; intros [|[m' t'] l'] r r' Hu Hn Hp E; unfold members in E; cbn [flat_map fst snd] in E;
      unfold line in E; cbn [app] in E; try discriminate.
    - injection E as ->. auto.
    - change (bs ";") with [59] in E. injection E as E. repeat (rewrite <- !app_assoc in E; cbn [app] in E).
      inversion Hu; subst. inversion Hn; subst. inversion Hp as [|? ? [Hp1 Hp2] Hp3]; subst.
      cbn [fst snd] in *.
      match type of E with _ ++ ?a = _ ++ ?b => specialize (H1 t' a b Hp2) end.
      destruct H1 as [-> E'].
      + right. exists m. eexists. split; [assumption|]. reflexivity.
      + right. exists m'. eexists. split; [assumption|]. reflexivity.
      + exact E.
      + clear E. injection E' as E'.
        match type of E' with _ ++ ?a = _ ++ ?b => apply (span_unique plain_char m m' a b) in E' end; auto; try (cbn [stops]; unfold plain_char; tauto).
        destruct E' as [-> E']. injection E' as E'. apply IH in E'; auto. destruct E' as [-> ->]. auto.
  Qed.
  Lemma proper_members ms : proper_shape (SStruct ms) <-> Forall (fun m => plain_name (fst m) /\ proper_shape (snd m)) ms.
  Proof.
    cbn [proper_shape]. induction ms as [|[n t] r IH]; [split; constructor|]. rewrite Forall_cons_iff, <- IH. cbn [fst snd]. tauto.
  Qed.

  Lemma raw_unique s : good_atom (ARaw s) ->
    (forall ms, s = SStruct ms -> Forall (fun m => unique_text (snd m)) ms) -> unique_atom (ARaw s).
  Proof.
    intros Hg Hms a x x' Ha Hx Hx' E. rewrite (atext_split _ Hg), (atext_split _ Ha), <- !app_assoc in E.
    apply (span_unique plain_char) in E; [|apply word_plain; exact Hg|apply word_plain; exact Ha|apply rest_stops; exact Hx|apply rest_stops; exact Hx'].
    destruct E as [Ew Er]. destruct a as [n t|t].
    { exfalso. pose proof (raw_word _ Hg) as Hw. rewrite Ew in Hw. exact (proj2 (proj2 (HFn _ _ Ha)) Hw). }
    cbn [ashape]. pose proof (good_raw_proper _ Hg) as Hp. pose proof (good_raw_proper _ Ha) as Hp'.
    destruct Hg as [Hs _]. destruct Ha as [Hs' _].
    assert (W : forall n n' sg sg', (n = 1 \/ n = 2 \/ n = 4 \/ n = 8) -> (n' = 1 \/ n' = 2 \/ n' = 4 \/ n' = 8) ->
              cdl_int n sg = cdl_int n' sg' -> n = n' /\ sg = sg').
    { intros n n' sg sg' [-> | [-> | [-> | ->]]] [-> | [-> | [-> | ->]]] H; destruct sg, sg'; try discriminate H; auto. }
    assert (V : forall n sg w, (n = 1 \/ n = 2 \/ n = 4 \/ n = 8) -> In w [cdl_float 4; cdl_float 8; bs "string"; bs "opaque"; bs "compound"] -> cdl_int n sg = w -> False).
    { intros n sg w Hn Hw <-. destruct Hn as [-> | [-> | [-> | ->]]], sg; cbn [In] in Hw;
        repeat (destruct Hw as [Hw|Hw]; [discriminate Hw|]); exact Hw. }
    assert (Fl : forall n, In (cdl_float n) [cdl_float 4; cdl_float 8; bs "string"; bs "opaque"; bs "compound"]).
    { intros n. unfold cdl_float at 1. destruct (n =? 4); [left; reflexivity|right; left; reflexivity]. }
    destruct s, t; cbn [simple] in Hs, Hs'; try discriminate Hs; try discriminate Hs'; cbn [word] in Ew; cbn [rest app] in Er; cbn [proper_shape] in Hp, Hp';
      try (exfalso; refine (V _ _ _ _ _ Ew); [tauto|first [apply Fl|cbn [In]; solve [auto 10]]]);
      try (exfalso; refine (V _ _ _ _ _ (eq_sym Ew)); [tauto|first [apply Fl|cbn [In]; solve [auto 10]]]);
      try discriminate Ew;
      try (exfalso; unfold cdl_float in Ew; match type of Ew with context [?n =? 4] => destruct (n =? 4) end; discriminate Ew).
    - destruct (W _ _ _ _ Hp Hp' Ew) as [-> ->]. split; [reflexivity|exact Er].
    - exfalso. apply (stop2_not_enum x ((bs "{" ++ newline :: enumerators vals ++ newline :: bs "}") ++ x') Hx). exact Er.
    - assert (n = n0) as ->. { unfold cdl_float in Ew. destruct Hp as [-> | ->], Hp' as [-> | ->]; auto; discriminate Ew. } split; [reflexivity|exact Er].
    - split; [reflexivity|exact Er].
    - rewrite <- !app_assoc in Er. apply app_inv_head in Er. apply num_unique in Er; [|cbn [bs stops app]; vm_compute; intros [[? ?]|?]; congruence..].
      destruct Er as [-> Er]. apply app_inv_head in Er. split; [reflexivity|exact Er].
    - rewrite <- !app_assoc in Er. apply app_inv_head in Er. cbn [app] in Er. injection Er as Er. rewrite <- !app_assoc in Er.
      change (bs "}" ++ ?y) with (125 :: y) in Er. apply members_unique in Er.
      + destruct Er as [-> ->]. auto.
      + apply Hms. reflexivity.
      + apply (proj1 (proper_members ms)) in Hp. apply (Forall_impl _ (fun m H => proj1 H) Hp).
      + apply proper_members. exact Hp'.
    - exfalso. symmetry in Er. apply (stop2_not_enum x' ((bs "{" ++ newline :: enumerators vals ++ newline :: bs "}") ++ x) Hx'). exact Er.
    - destruct Hp as [Hp Hq], Hp' as [Hp' Hq']. destruct (W _ _ _ _ Hp Hp' Ew) as [-> ->].
      rewrite <- !app_assoc in Er. apply app_inv_head in Er. cbn [app] in Er. injection Er as Er. rewrite <- !app_assoc in Er. cbn [app] in Er.
      apply enumerators_unique in Er; auto. destruct Er as [-> Er]. injection Er as ->. auto.
  Qed.
  Lemma name_unique n s : In (n, s) F -> unique_atom (AName n s).
  Proof.
    intros Hi a x x' Ha Hx Hx' E. assert (Hg : good_atom (AName n s)) by exact Hi.
    rewrite (atext_split _ Hg), (atext_split _ Ha), <- !app_assoc in E.
    apply (span_unique plain_char) in E; [|apply word_plain; exact Hg|apply word_plain; exact Ha|apply rest_stops; exact Hx|apply rest_stops; exact Hx'].
    destruct E as [Ew Er]. destruct a as [n' t|t].
    - cbn [word] in Ew. subst n'. cbn [rest app ashape] in *. split; [|exact Er].
      apply (NoDup_fst_inj F n s t); assumption.
    - exfalso. pose proof (raw_word _ Ha) as Hw. rewrite <- Ew in Hw. exact (proj2 (proj2 (HFn _ _ Hi)) Hw).
  Qed.

  Lemma stop_sufs l r : stop r -> stop2 (flat_map stext l ++ r).
  Proof.
    intros Hr. destruct l as [|u l]; [left; exact Hr|]. right. cbn [flat_map]. rewrite <- app_assoc. apply stext_start.
  Qed.
  Lemma peeled_unique p s t : peeled p s t -> unique_atom (fst p) -> forall p' s' t' r r', peeled p' s' t' -> stop r -> stop r' ->
    t ++ r = t' ++ r' -> s = s' /\ r = r'.
  Proof.
    intros (E1 & E2 & _) Hu p' s' t' r r' (E1' & E2' & Hg) Hr Hr' E. rewrite E1, E1', <- !app_assoc in E.
    apply Hu in E; [|exact Hg|apply stop_sufs; exact Hr|apply stop_sufs; exact Hr'].
    destruct E as [Ea E]. apply suffixes_unique in E; auto. destruct E as [El ->]. rewrite E2, E2', Ea, El. auto.
  Qed.

  Lemma texts_unique : forall s, proper_shape s -> unique_atom (fst (peel s)) /\ unique_atom (fst (peel_body s)).
  Proof.
    assert (T : forall s, proper_shape s -> unique_atom (fst (peel s)) -> unique_text s).
    { intros s Hp Hu s' r r' Hp' Hr Hr' E.
      exact (peeled_unique _ _ _ (proj1 (peel_ok s Hp)) Hu _ _ _ _ _ (proj1 (peel_ok s' Hp')) Hr Hr' E). }
    assert (N : forall s, unique_atom (fst (peel_body s)) -> unique_atom (fst (peel s))).
    { intros s H. rewrite peel_eq. destruct (name_of F s) as [n|] eqn:En; [|exact H]. cbn [fst].
      apply name_unique. apply name_of_In in En. tauto. }
    assert (B : forall s, simple s = true -> proper_shape s -> (forall ms, s = SStruct ms -> Forall (fun m => unique_text (snd m)) ms) -> unique_atom (fst (peel_body s))).
    { intros s Hs Hp Hm. assert (peel_body s = (ARaw s, [])) as -> by (destruct s; [..|discriminate|discriminate]; reflexivity).
      cbn [fst]. apply raw_unique; [split; assumption|exact Hm]. }
    induction s using shape_ind'; intros Hp.
    1-4,6: (match goal with |- unique_atom (fst (peel ?s)) /\ _ =>
        assert (G : unique_atom (fst (peel_body s))) by (apply B; [reflexivity|exact Hp|intros ? ?; discriminate]);
        split; [apply N; exact G|exact G] end).
    - assert (G : unique_atom (fst (peel_body (SStruct ms)))).
      { apply B; [reflexivity|exact Hp|]. intros ms' E. injection E as <-.
        apply proper_members in Hp. revert H Hp. rewrite !Forall_forall. intros H Hp m Hm. apply T; [exact (proj2 (Hp m Hm))|].
        apply (H m Hm). exact (proj2 (Hp m Hm)). }
      split; [apply N; exact G|exact G].
    - cbn [proper_shape] in Hp. destruct (IHs Hp) as [I _].
      assert (G : unique_atom (fst (peel_body (SSeq s)))) by (cbn [peel_body]; destruct (peel s) as [a l]; exact I).
      split; [apply N; exact G|exact G].
    - cbn [proper_shape] in Hp. destruct Hp as [_ Hp]. destruct (IHs Hp) as [I _].
      assert (G : unique_atom (fst (peel_body (SArray d s)))) by (cbn [peel_body]; destruct (peel s) as [a l]; exact I).
      split; [apply N; exact G|exact G].
  Qed.

  (** the texts of two types are the same only if the types are *)
  Lemma cdl_text_inj s s' : proper_shape s -> proper_shape s' -> text (CDL num) F s = text (CDL num) F s' -> s = s'.
  Proof.
    intros Hp Hp' E.
    apply (peeled_unique _ _ _ (proj1 (peel_ok s Hp)) (proj1 (texts_unique s Hp)) _ _ _ [] [] (proj1 (peel_ok s' Hp')));
      [left; reflexivity|left; reflexivity|rewrite E; reflexivity].
  Qed.
  Lemma cdl_body_inj s s' : proper_shape s -> proper_shape s' -> body (CDL num) F s = body (CDL num) F s' -> s = s'.
  Proof.
    intros Hp Hp' E.
    apply (peeled_unique _ _ _ (proj2 (peel_ok s Hp)) (proj2 (texts_unique s Hp)) _ _ _ [] [] (proj2 (peel_ok s' Hp')));
      [left; reflexivity|left; reflexivity|rewrite E; reflexivity].
  Qed.
End Cdl.
