(** That a Go text says what the type is. *)
From Coq Require Import Lia ZifyBool ZifyNat.
From Verif Require Import Prelude GoVal BaseLemmas TypeTextSpec TypeTextProofs.

Section Go.
  Variable num : Z -> bytes.
  Hypothesis Hnum : forall n, number_text n (num n).
  (** the name that the constants of an enumeration belong to *)
  Variable vname : bytes.

  (** ** What can follow a type *)
  Definition gstop (r : bytes) : Prop := r = [] \/ (exists y, r = 10 :: 9 :: y) \/ (exists y, r = 10 :: 125 :: y).
  Lemma gstop_plain x : gstop x -> stops plain_char x.
  Proof. intros [->|[(y & ->)|(y & ->)]]; cbn [stops]; unfold plain_char; tauto. Qed.

  (** ** Prefixes: sequences and arrays *)
  Inductive prefix : Type := PSeq | PDim (d : Z).
  Definition ptext (u : prefix) : bytes :=
    match u with
    | PSeq => bs "[]"
    | PDim d => bs "[" ++ num d ++ bs "]"
    end.
  Lemma prefix_unique u u' r r' : ptext u ++ r = ptext u' ++ r' -> u = u' /\ r = r'.
  Proof.
    destruct u as [|d], u' as [|d']; cbn [ptext]; rewrite <- ?app_assoc; intros E.
    - apply app_inv_head in E. auto.
    - exfalso. change (bs "[]" ++ r) with (91 :: 93 :: r) in E. change (bs "[" ++ ?x) with (91 :: x) in E. injection E as E.
      match type of E with context [num ?z ++ ?x] => destruct (num_start num Hnum z x) as (c & y & Ec & Hc) end.
      rewrite Ec in E. injection E as <- _. destruct Hc as [Hc|Hc]; unfold is_digit in *; lia.
    - exfalso. change (bs "[]" ++ r') with (91 :: 93 :: r') in E. change (bs "[" ++ ?x) with (91 :: x) in E. injection E as E.
      match type of E with context [num ?z ++ ?x] => destruct (num_start num Hnum z x) as (c & y & Ec & Hc) end.
      rewrite Ec in E. injection E as -> _. destruct Hc as [Hc|Hc]; unfold is_digit in *; lia.
    - apply app_inv_head in E. apply (num_unique num Hnum) in E; try (change (bs "]" ++ ?x) with (93 :: x); cbn [stops]; unfold num_char, is_digit; lia).
      destruct E as [-> E]. apply app_inv_head in E. auto.
  Qed.
  Lemma ptext_start u r : exists y, ptext u ++ r = 91 :: y.
  Proof. destruct u; cbn [ptext]; eexists; reflexivity. Qed.
  Lemma prefixes_unique : forall l l' (r r' : bytes), (forall y, r <> 91 :: y) -> (forall y, r' <> 91 :: y) ->
    flat_map ptext l ++ r = flat_map ptext l' ++ r' -> l = l' /\ r = r'.
  Proof.
    induction l as [|u l IH]; intros [|u' l'] r r' Hr Hr' E; cbn [flat_map app] in E; rewrite <- ?app_assoc in E.
    - auto.
    - exfalso. destruct (ptext_start u' (flat_map ptext l' ++ r')) as (y & Ey). apply (Hr y). rewrite <- Ey. exact E.
    - exfalso. destruct (ptext_start u (flat_map ptext l ++ r)) as (y & Ey). apply (Hr' y). rewrite <- Ey. symmetry. exact E.
    - apply prefix_unique in E. destruct E as [-> E]. apply IH in E; auto. destruct E as [-> ->]. auto.
  Qed.

  Variable F : list (bytes * shape).
  Hypothesis HF : NoDup (map fst F).
  Hypothesis HFn : forall n s, In (n, s) F -> type_name go_words n.

  Let L := Golang num vname.

  Inductive gatom : Type := GName (n : bytes) (s : shape) | GRaw (s : shape).
  Definition gtext (a : gatom) : bytes := match a with GName n _ => n | GRaw s => body L F s end.
  Definition gshape (a : gatom) : shape := match a with GName _ s | GRaw s => s end.
  Definition gsimple (s : shape) : bool := match s with SSeq _ | SArray _ _ | SOpaque _ => false | _ => true end.
  Definition good_gatom (a : gatom) : Prop :=
    match a with
    | GName n s => In (n, s) F /\ nameable s = true
    | GRaw s => gsimple s = true /\ proper_shape s /\ go_shape s
    end.

  Fixpoint gpeel (s : shape) : list prefix * gatom :=
    match name_of F s with
    | Some n => ([], GName n s)
    | None => match s with
              | SSeq t => let (l, a) := gpeel t in (PSeq :: l, a)
              | SArray d t => let (l, a) := gpeel t in (map PDim d ++ l, a)
              | SOpaque n => ([PDim n], GRaw (SInt 1 false))
              | _ => ([], GRaw s)
              end
    end.
  Definition gpeel_body (s : shape) : list prefix * gatom :=
    match s with
    | SSeq t => let (l, a) := gpeel t in (PSeq :: l, a)
    | SArray d t => let (l, a) := gpeel t in (map PDim d ++ l, a)
    | SOpaque n => ([PDim n], GRaw (SInt 1 false))
    | _ => ([], GRaw s)
    end.
  Lemma gpeel_eq s : gpeel s = match name_of F s with Some n => ([], GName n s) | None => gpeel_body s end.
  Proof. destruct s; reflexivity. Qed.

  (** the type of a list of prefixes and what they are put before *)
  Definition put (u : prefix) (t : shape) : shape :=
    match u with
    | PSeq => SSeq t
    | PDim d => match t with
                | SArray ds u => SArray (d :: ds) u
                | SInt 1 false => SOpaque d
                | _ => SArray [d] t
                end
    end.
  Definition build (l : list prefix) (t : shape) : shape := fold_right put t l.

  Definition gpeeled (p : list prefix * gatom) (s : shape) (t : bytes) : Prop :=
    t = flat_map ptext (fst p) ++ gtext (snd p) /\ s = build (fst p) (gshape (snd p)) /\ good_gatom (snd p).

  Lemma put_array d t : (forall e u, t <> SArray e u) -> t <> SInt 1 false -> put (PDim d) t = SArray [d] t.
  Proof.
    intros Ha Hi. destruct t; cbn [put]; try reflexivity.
    - destruct sg; [destruct n as [|[]|]; reflexivity|]. destruct n as [|[p|p|]|]; try reflexivity. congruence.
    - exfalso. eapply Ha. reflexivity.
  Qed.
  Lemma build_dims dims t : dims <> [] -> (forall e u, t <> SArray e u) -> t <> SInt 1 false ->
    build (map PDim dims) t = SArray dims t.
  Proof.
    intros Hd Ha Hi. induction dims as [|d dims IH]; [congruence|]. cbn [map build fold_right].
    destruct dims as [|d' dims]; [apply put_array; assumption|]. fold (build (map PDim (d' :: dims)) t). rewrite IH by discriminate. reflexivity.
  Qed.

  Lemma gpeel_ok : forall s, proper_shape s -> go_shape s ->
    gpeeled (gpeel s) s (text L F s) /\ gpeeled (gpeel_body s) s (body L F s).
  Proof.
    assert (N : forall s, proper_shape s -> gpeeled (gpeel_body s) s (body L F s) -> gpeeled (gpeel s) s (text L F s)).
    { intros s Hp H. rewrite gpeel_eq, text_body. destruct (name_of F s) as [n|] eqn:En; [|exact H].
      apply name_of_In in En. destruct En as [Hi Hn]. repeat split; assumption. }
    assert (B : forall s, gsimple s = true -> proper_shape s -> go_shape s -> gpeeled (gpeel_body s) s (body L F s)).
    { intros s Hs Hp Hg. assert (gpeel_body s = ([], GRaw s)) as -> by (destruct s; try discriminate Hs; reflexivity).
      repeat split; assumption. }
    induction s using shape_ind'; intros Hp Hg.
    1-3,5-6: (match goal with |- gpeeled (gpeel ?s) _ _ /\ _ =>
        assert (G : gpeeled (gpeel_body s) s (body L F s)) by (apply B; [reflexivity|exact Hp|exact Hg]);
        split; [apply N; [exact Hp|exact G]|exact G] end).
    - assert (G : gpeeled (gpeel_body (SOpaque n)) (SOpaque n) (body L F (SOpaque n))).
      { split; [|split; [reflexivity|repeat split; left; reflexivity]]. cbn [gpeel_body fst snd flat_map ptext gtext body L Golang l_opaque l_int].
        rewrite app_nil_r, <- !app_assoc. reflexivity. }
      split; [apply N; [exact Hp|exact G]|exact G].
    - cbn [proper_shape] in Hp. cbn [go_shape] in Hg. destruct (IHs Hp Hg) as [(I1 & I2 & I3) _].
      assert (G : gpeeled (gpeel_body (SSeq s)) (SSeq s) (body L F (SSeq s))).
      { cbn [gpeel_body body L Golang l_seq]. destruct (gpeel s) as [l a]. cbn [fst snd] in *.
        split; [|split; [|exact I3]]; cbn [fst snd flat_map]; rewrite <- ?app_assoc.
        - fold L. rewrite I1. reflexivity.
        - cbn [build fold_right put]. fold (build l (gshape a)). rewrite <- I2. reflexivity. }
      split; [apply N; [exact Hp|exact G]|exact G].
    - cbn [proper_shape] in Hp. cbn [go_shape] in Hg. destruct Hp as [Hd Hp]. destruct Hg as (Hne & Ha & Hi & Hg).
      destruct (IHs Hp Hg) as [(I1 & I2 & I3) _].
      assert (G : gpeeled (gpeel_body (SArray d s)) (SArray d s) (body L F (SArray d s))).
      { cbn [gpeel_body body L Golang l_array]. destruct (gpeel s) as [l a]. cbn [fst snd] in *.
        split; [|split; [|exact I3]]; cbn [fst snd].
        - fold L. rewrite I1, flat_map_app, <- app_assoc. f_equal. clear.
          induction d as [|x d IH]; [reflexivity|]. cbn [map flat_map]. rewrite IH. reflexivity.
        - unfold build. rewrite fold_right_app. fold (build l (gshape a)). rewrite <- I2.
          symmetry. apply build_dims; assumption. }
      split; [apply N; [split; assumption|exact G]|exact G].
  Qed.

  (** the first word, and what comes after it *)
  Definition gword (a : gatom) : bytes :=
    match a with
    | GName n _ => n
    | GRaw s => match s with
                | SInt n sg | SEnum n sg _ => go_int n sg
                | SFloat n => go_float n
                | SText => bs "string"
                | SStruct _ => bs "struct"
                | _ => []
                end
    end.
  Definition gmembers (ms : list (bytes * shape)) : bytes :=
    flat_map (fun m => 10 :: 9 :: fst m ++ 32 :: text L F (snd m)) ms.
  Definition gconstants (vals : list (bytes * Z)) : bytes :=
    flat_map (fun v => 10 :: 9 :: fst v ++ bs " = " ++ num (snd v)) vals.
  Definition gconsts (vals : list (bytes * Z)) : bytes :=
    match vals with
    | [] => [10]
    | v :: r => (10 :: 9 :: fst v ++ bs " " ++ vname ++ bs " = " ++ num (snd v)) ++ gconstants r
    end.
  Definition grest (a : gatom) : bytes :=
    match a with
    | GName _ _ => []
    | GRaw s => match s with
                | SStruct ms => bs " {" ++ (match ms with [] => [10] | _ => gmembers ms end) ++ 10 :: 125 :: [10]
                | SEnum _ _ vals => [10] ++ bs "const (" ++ gconsts vals ++ 10 :: 41 :: [10]
                | _ => []
                end
    end.
  Lemma gtext_split a : good_gatom a -> gtext a = gword a ++ grest a.
  Proof.
    destruct a as [n s|s]; intros H; cbn [gtext gword grest]; [rewrite app_nil_r; reflexivity|].
    destruct H as [Hs _]. destruct s; cbn [gsimple] in Hs; try discriminate;
      cbn [body L Golang l_int l_float l_struct l_enum]; rewrite ?app_nil_r; try reflexivity.
    - unfold line, newline. rewrite <- !app_assoc. change (bs "struct {") with (bs "struct" ++ bs " {"). rewrite <- app_assoc.
      do 2 f_equal. change ([10] ++ bs "}" ++ [10]) with (10 :: 125 :: [10]). rewrite app_assoc. f_equal. fold L.
      destruct ms as [|[m t] r]; [reflexivity|]. unfold gmembers. cbn [map separated flat_map fst snd app]. change (bs " ") with [32]. cbn [app].
      do 2 f_equal. f_equal. clear.
      induction r as [|[m' t'] r IH]; [reflexivity|]. cbn [map flat_map fst snd app]. rewrite IH. reflexivity.
    - unfold line, newline. rewrite <- !app_assoc. do 3 f_equal. change ([10] ++ bs ")" ++ [10]) with (10 :: 41 :: [10]). rewrite app_assoc. f_equal.
      destruct vals as [|v r]; [reflexivity|]. cbn [go_constants separated gconsts app]. do 2 f_equal. f_equal. clear.
      induction r as [|v r IH]; [reflexivity|]. unfold gconstants in *. cbn [map flat_map app]. rewrite <- IH. reflexivity.
  Qed.

  Lemma gint_word n sg : n = 1 \/ n = 2 \/ n = 4 \/ n = 8 -> In (go_int n sg) go_words /\ plain_name (go_int n sg).
  Proof.
    intros [-> | [-> | [-> | ->]]]; destruct sg; (split; [vm_compute; tauto|vm_compute; repeat constructor; discriminate]).
  Qed.
  Lemma gword_plain a : good_gatom a -> plain_name (gword a).
  Proof.
    destruct a as [n s|s]; cbn [good_gatom gword].
    - intros [H _]. exact (proj1 (proj2 (HFn _ _ H))).
    - intros (Hs & Hp & _). destruct s; cbn [gsimple proper_shape] in *; try discriminate.
      + apply gint_word. exact Hp.
      + unfold go_float. destruct (n =? 4); vm_compute; repeat constructor; discriminate.
      + vm_compute; repeat constructor; discriminate.
      + vm_compute; repeat constructor; discriminate.
      + apply gint_word. tauto.
  Qed.
  Lemma graw_word s : good_gatom (GRaw s) -> In (gword (GRaw s)) go_words.
  Proof.
    cbn [good_gatom gword]. intros (Hs & Hp & _). destruct s; cbn [gsimple proper_shape] in *; try discriminate.
    - apply gint_word. exact Hp.
    - unfold go_float. destruct (n =? 4); vm_compute; tauto.
    - vm_compute; tauto.
    - vm_compute; tauto.
    - apply gint_word. tauto.
  Qed.
  Lemma gword_start a x y : good_gatom a -> gstop x -> gtext a ++ x <> 91 :: y.
  Proof.
    intros Ha Hx E. pose proof (gword_plain a Ha) as Hw. rewrite (gtext_split a Ha), <- app_assoc in E.
    destruct (gword a) as [|c w] eqn:Ew.
    - destruct a as [n s|s]; [cbn [gword] in Ew; exact (proj1 (HFn n s (proj1 Ha)) Ew)|].
      pose proof (graw_word _ Ha) as Hr. rewrite Ew in Hr. vm_compute in Hr. intuition discriminate.
    - cbn [app] in E. injection E as -> _. inversion Hw as [|? ? Hc _]; subst. unfold plain_char in Hc. tauto.
  Qed.
  Lemma grest_stops a x : gstop x -> stops plain_char (grest a ++ x).
  Proof.
    intros H. destruct a as [n s|s]; cbn [grest app]; [apply gstop_plain; exact H|].
    destruct s; cbn [grest app]; try (apply gstop_plain; exact H); rewrite <- ?app_assoc.
    - change (bs " {") with [32; 123]. cbn [app stops]. unfold plain_char. tauto.
    - cbn [stops]. unfold plain_char. tauto.
  Qed.

  Lemma gconstants_unique : forall l l' r r',
    Forall (fun v => plain_name (fst v)) l -> Forall (fun v => plain_name (fst v)) l' ->
    gconstants l ++ 10 :: 41 :: r = gconstants l' ++ 10 :: 41 :: r' -> l = l' /\ r = r'.
  Proof.
    assert (G : forall l r, stops num_char (gconstants l ++ 10 :: 41 :: r)).
    { intros [|v l] r; cbn [gconstants flat_map app stops]; unfold num_char, is_digit; lia. }
    induction l as [|[m z] l IH]; intros [|[m' z'] l'] r r' Hl Hl' E; unfold gconstants in E; cbn [flat_map fst snd app] in E; try discriminate E.
    - injection E as ->. auto.
    - injection E as E. rewrite <- !app_assoc in E. fold gconstants in E. inversion Hl; subst. inversion Hl'; subst. cbn [fst] in *.
      change (flat_map _ ?k) with (gconstants k) in E.
      match type of E with _ ++ ?a = _ ++ ?b => apply (span_unique plain_char m m' a b) in E end; auto;
        try (change (bs " = ") with [32; 61; 32]; cbn [app stops]; unfold plain_char; tauto).
      destruct E as [-> E]. cbn [app] in E. injection E as E. apply (num_unique num Hnum) in E; try apply G. destruct E as [-> E].
      apply IH in E; auto. destruct E as [-> ->]. auto.
  Qed.
  Lemma gconsts_unique l l' r r' :
    Forall (fun v => plain_name (fst v)) l -> Forall (fun v => plain_name (fst v)) l' ->
    gconsts l ++ 10 :: 41 :: r = gconsts l' ++ 10 :: 41 :: r' -> l = l' /\ r = r'.
  Proof.
    assert (G : forall l r, stops num_char (gconstants l ++ 10 :: 41 :: r)).
    { intros [|v k] z; cbn [gconstants flat_map app stops]; unfold num_char, is_digit; lia. }
    intros Hl Hl' E. destruct l as [|[m z] l], l' as [|[m' z'] l']; cbn [gconsts app fst snd] in E; try discriminate E.
    - injection E as ->. auto.
    - injection E as E. rewrite <- !app_assoc in E. inversion Hl; subst. inversion Hl'; subst. cbn [fst] in *.
      match type of E with _ ++ ?a = _ ++ ?b => apply (span_unique plain_char m m' a b) in E end; auto;
        try (change (bs " ") with [32]; cbn [app stops]; unfold plain_char; tauto).
      destruct E as [-> E]. cbn [app] in E. injection E as E. rewrite <- !app_assoc in E. apply app_inv_head in E. cbn [app] in E. injection E as E.
      apply (num_unique num Hnum) in E; try apply G. destruct E as [-> E].
      apply gconstants_unique in E; auto. destruct E as [-> ->]. auto.
  Qed.

  Definition gunique_text (s : shape) : Prop := forall s' r r', proper_shape s' -> go_shape s' -> gstop r -> gstop r' ->
    text L F s ++ r = text L F s' ++ r' -> s = s' /\ r = r'.
  Definition gunique_atom (a : gatom) : Prop := forall a' x x', good_gatom a' -> gstop x -> gstop x' ->
    gtext a ++ x = gtext a' ++ x' -> gshape a = gshape a' /\ x = x'.

  Lemma gmembers_stop l r : gstop (gmembers l ++ 10 :: 125 :: r).
  Proof. destruct l as [|m l]; cbn [gmembers flat_map app]; [right; right|right; left]; eexists; reflexivity. Qed.
  Lemma gmembers_unique : forall l l' r r',
    Forall (fun m => gunique_text (snd m)) l -> Forall (fun m => plain_name (fst m)) l ->
    Forall (fun m => plain_name (fst m) /\ proper_shape (snd m) /\ go_shape (snd m)) l' ->
    gmembers l ++ 10 :: 125 :: r = gmembers l' ++ 10 :: 125 :: r' -> l = l' /\ r = r'.
  Proof.
    induction l as [|[m t] l IH]; intros [|[m' t'] l'] r r' Hu Hn Hp E; unfold gmembers in E; cbn [flat_map fst snd app] in E; try discriminate E.
    - injection E as ->. auto.
    - injection E as E. rewrite <- !app_assoc in E. cbn [app] in E. rewrite <- ?app_assoc in E. change (flat_map _ ?k) with (gmembers k) in E.
      inversion Hu as [|? ? H1 H2]; subst. inversion Hn; subst. inversion Hp as [|? ? (Hp1 & Hp2 & Hp3) Hp4]; subst. cbn [fst snd] in *.
      match type of E with _ ++ ?a = _ ++ ?b => apply (span_unique plain_char m m' a b) in E end; auto; try (cbn [stops]; unfold plain_char; tauto).
      destruct E as [-> E]. injection E as E. apply H1 in E; auto; try apply gmembers_stop. destruct E as [-> E].
      apply IH in E; auto. destruct E as [-> ->]. auto.
  Qed.
  Lemma go_members ms : go_shape (SStruct ms) <-> Forall (fun m => go_shape (snd m)) ms.
  Proof.
    cbn [go_shape]. induction ms as [|[n t] r IH]; [split; constructor|]. rewrite Forall_cons_iff, <- IH. cbn [fst snd]. tauto.
  Qed.

  Lemma graw_unique s : good_gatom (GRaw s) ->
    (forall ms, s = SStruct ms -> Forall (fun m => gunique_text (snd m)) ms) -> gunique_atom (GRaw s).
  Proof.
    intros Hg Hms a x x' Ha Hx Hx' E. rewrite (gtext_split _ Hg), (gtext_split _ Ha), <- !app_assoc in E.
    apply (span_unique plain_char) in E; [|apply gword_plain; exact Hg|apply gword_plain; exact Ha|apply grest_stops; exact Hx|apply grest_stops; exact Hx'].
    destruct E as [Ew Er]. destruct a as [n t|t].
    { exfalso. pose proof (graw_word _ Hg) as Hw. rewrite Ew in Hw. exact (proj2 (proj2 (HFn _ _ (proj1 Ha))) Hw). }
    cbn [gshape]. destruct Hg as (Hs & Hp & Hq). destruct Ha as (Hs' & Hp' & Hq').
    assert (W : forall n n' sg sg', (n = 1 \/ n = 2 \/ n = 4 \/ n = 8) -> (n' = 1 \/ n' = 2 \/ n' = 4 \/ n' = 8) ->
              go_int n sg = go_int n' sg' -> n = n' /\ sg = sg').
    { intros n n' sg sg' [-> | [-> | [-> | ->]]] [-> | [-> | [-> | ->]]] H; destruct sg, sg'; try discriminate H; auto. }
    assert (V : forall n sg w, (n = 1 \/ n = 2 \/ n = 4 \/ n = 8) -> In w [go_float 4; go_float 8; bs "string"; bs "struct"] -> go_int n sg = w -> False).
    { intros n sg w Hn Hw <-. destruct Hn as [-> | [-> | [-> | ->]]], sg; cbn [In] in Hw;
        repeat (destruct Hw as [Hw|Hw]; [discriminate Hw|]); exact Hw. }
    assert (Fl : forall n, In (go_float n) [go_float 4; go_float 8; bs "string"; bs "struct"]).
    { intros n. unfold go_float at 1. destruct (n =? 4); [left; reflexivity|right; left; reflexivity]. }
    assert (NE : forall x y, gstop x -> x = [10] ++ bs "const (" ++ y -> False).
    { intros z y [->|[(z' & ->)|(z' & ->)]] Ez; discriminate Ez. }
    destruct s, t; cbn [gsimple] in Hs, Hs'; try discriminate Hs; try discriminate Hs'; cbn [gword] in Ew; cbn [grest] in Er; cbn [proper_shape] in Hp, Hp';
      try (exfalso; refine (V _ _ _ _ _ Ew); [tauto|first [apply Fl|cbn [In]; solve [auto 10]]]);
      try (exfalso; refine (V _ _ _ _ _ (eq_sym Ew)); [tauto|first [apply Fl|cbn [In]; solve [auto 10]]]);
      try discriminate Ew;
      try (exfalso; unfold go_float in Ew; match type of Ew with context [?n =? 4] => destruct (n =? 4) end; discriminate Ew).
    - destruct (W _ _ _ _ Hp Hp' Ew) as [-> ->]. split; [reflexivity|exact Er].
    - exfalso. cbn [app] in Er. rewrite <- !app_assoc in Er. exact (NE _ _ Hx Er).
    - assert (n = n0) as ->. { unfold go_float in Ew. destruct Hp as [-> | ->], Hp' as [-> | ->]; auto; discriminate Ew. } split; [reflexivity|exact Er].
    - split; [reflexivity|exact Er].
    - rewrite <- !app_assoc in Er. apply app_inv_head in Er. cbn [app] in Er.
      assert (G : forall ms, ms <> [] -> exists y, gmembers ms = 10 :: 9 :: y) by (intros [|k ks] Hk; [congruence|eexists; reflexivity]).
      assert (Q : ms = ms0 /\ 10 :: x = 10 :: x').
      { destruct ms as [|k ks], ms0 as [|k' ks'].
        - split; [reflexivity|]. cbn [app] in Er. injection Er as ->. reflexivity.
        - exfalso. destruct (G (k' :: ks')) as (y & Ey); [discriminate|]. rewrite Ey in Er. discriminate Er.
        - exfalso. destruct (G (k :: ks)) as (y & Ey); [discriminate|]. rewrite Ey in Er. discriminate Er.
        - apply gmembers_unique in Er.
          + exact Er.
          + apply Hms. reflexivity.
          + apply (proj1 (proper_members (k :: ks))) in Hp. apply (Forall_impl _ (fun m H => proj1 H) Hp).
          + apply (proj1 (proper_members (k' :: ks'))) in Hp'. apply (proj1 (go_members (k' :: ks'))) in Hq'.
            revert Hp' Hq'. rewrite !Forall_forall. intros Hp' Hq' m Hm. destruct (Hp' m Hm). repeat split; auto. }
      destruct Q as [-> Q]. injection Q as ->. split; reflexivity.
    - exfalso. cbn [app] in Er. rewrite <- !app_assoc in Er. symmetry in Er. exact (NE _ _ Hx' Er).
    - destruct Hp as [Hp Hr], Hp' as [Hp' Hr']. destruct (W _ _ _ _ Hp Hp' Ew) as [-> ->].
      rewrite <- !app_assoc in Er. do 2 apply app_inv_head in Er. cbn [app] in Er.
      apply gconsts_unique in Er; auto. destruct Er as [-> Er]. injection Er as ->. split; reflexivity.
  Qed.
  Lemma gname_unique n s : In (n, s) F -> nameable s = true -> gunique_atom (GName n s).
  Proof.
    intros Hi Hn a x x' Ha Hx Hx' E. assert (Hg : good_gatom (GName n s)) by (split; assumption).
    rewrite (gtext_split _ Hg), (gtext_split _ Ha), <- !app_assoc in E.
    apply (span_unique plain_char) in E; [|apply gword_plain; exact Hg|apply gword_plain; exact Ha|apply grest_stops; exact Hx|apply grest_stops; exact Hx'].
    destruct E as [Ew Er]. destruct a as [n' t|t].
    - cbn [gword] in Ew. subst n'. cbn [grest app gshape] in *. split; [|exact Er].
      apply (NoDup_fst_inj F n s t); [assumption|assumption|exact (proj1 Ha)].
    - exfalso. pose proof (graw_word _ Ha) as Hw. rewrite <- Ew in Hw. exact (proj2 (proj2 (HFn _ _ Hi)) Hw).
  Qed.

  Lemma gpeeled_unique p s t : gpeeled p s t -> gunique_atom (snd p) -> forall p' s' t' r r', gpeeled p' s' t' -> gstop r -> gstop r' ->
    t ++ r = t' ++ r' -> s = s' /\ r = r'.
  Proof.
    intros (E1 & E2 & Hg) Hu p' s' t' r r' (E1' & E2' & Hg') Hr Hr' E. rewrite E1, E1', <- !app_assoc in E.
    apply prefixes_unique in E; [|intros y; apply gword_start; assumption|intros y; apply gword_start; assumption].
    destruct E as [El E]. apply Hu in E; auto. destruct E as [Ea ->]. rewrite E2, E2', Ea, El. auto.
  Qed.

  Lemma gtexts_unique : forall s, proper_shape s -> go_shape s -> gunique_atom (snd (gpeel s)) /\ gunique_atom (snd (gpeel_body s)).
  Proof.
    assert (T : forall s, proper_shape s -> go_shape s -> gunique_atom (snd (gpeel s)) -> gunique_text s).
    { intros s Hp Hg Hu s' r r' Hp' Hg' Hr Hr' E.
      exact (gpeeled_unique _ _ _ (proj1 (gpeel_ok s Hp Hg)) Hu _ _ _ _ _ (proj1 (gpeel_ok s' Hp' Hg')) Hr Hr' E). }
    assert (N : forall s, gunique_atom (snd (gpeel_body s)) -> gunique_atom (snd (gpeel s))).
    { intros s H. rewrite gpeel_eq. destruct (name_of F s) as [n|] eqn:En; [|exact H]. cbn [snd].
      apply name_of_In in En. apply gname_unique; tauto. }
    assert (B : forall s, gsimple s = true -> proper_shape s -> go_shape s -> (forall ms, s = SStruct ms -> Forall (fun m => gunique_text (snd m)) ms) -> gunique_atom (snd (gpeel_body s))).
    { intros s Hs Hp Hg Hm. assert (gpeel_body s = ([], GRaw s)) as -> by (destruct s; try discriminate Hs; reflexivity).
      cbn [snd]. apply graw_unique; [repeat split; assumption|exact Hm]. }
    induction s using shape_ind'; intros Hp Hg.
    1-3,6: (match goal with |- gunique_atom (snd (gpeel ?s)) /\ _ =>
        assert (G : gunique_atom (snd (gpeel_body s))) by (apply B; [reflexivity|exact Hp|exact Hg|intros ? ?; discriminate]);
        split; [apply N; exact G|exact G] end).
    - assert (G : gunique_atom (snd (gpeel_body (SOpaque n)))).
      { cbn [gpeel_body snd]. apply graw_unique; [repeat split; left; reflexivity|intros ? ?; discriminate]. }
      split; [apply N; exact G|exact G].
    - assert (G : gunique_atom (snd (gpeel_body (SStruct ms)))).
      { apply B; [reflexivity|exact Hp|exact Hg|]. intros ms' E. injection E as <-.
        apply proper_members in Hp. apply go_members in Hg. revert H Hp Hg. rewrite !Forall_forall. intros H Hp Hg m Hm.
        apply T; [exact (proj2 (Hp m Hm))|exact (Hg m Hm)|].
        apply (H m Hm); [exact (proj2 (Hp m Hm))|exact (Hg m Hm)]. }
      split; [apply N; exact G|exact G].
    - cbn [proper_shape go_shape] in Hp, Hg. destruct (IHs Hp Hg) as [I _].
      assert (G : gunique_atom (snd (gpeel_body (SSeq s)))) by (cbn [gpeel_body]; destruct (gpeel s) as [a l]; exact I).
      split; [apply N; exact G|exact G].
    - cbn [proper_shape go_shape] in Hp, Hg. destruct Hp as [_ Hp]. destruct Hg as (_ & _ & _ & Hg). destruct (IHs Hp Hg) as [I _].
      assert (G : gunique_atom (snd (gpeel_body (SArray d s)))) by (cbn [gpeel_body]; destruct (gpeel s) as [a l]; exact I).
      split; [apply N; exact G|exact G].
  Qed.

  Lemma go_text_inj s s' : proper_shape s -> go_shape s -> proper_shape s' -> go_shape s' -> text L F s = text L F s' -> s = s'.
  Proof.
    intros Hp Hg Hp' Hg' E.
    apply (gpeeled_unique _ _ _ (proj1 (gpeel_ok s Hp Hg)) (proj1 (gtexts_unique s Hp Hg)) _ _ _ [] [] (proj1 (gpeel_ok s' Hp' Hg')));
      [left; reflexivity|left; reflexivity|rewrite E; reflexivity].
  Qed.
  Lemma go_body_inj s s' : proper_shape s -> go_shape s -> proper_shape s' -> go_shape s' -> body L F s = body L F s' -> s = s'.
  Proof.
    intros Hp Hg Hp' Hg' E.
    apply (gpeeled_unique _ _ _ (proj2 (gpeel_ok s Hp Hg)) (proj2 (gtexts_unique s Hp Hg)) _ _ _ [] [] (proj2 (gpeel_ok s' Hp' Hg')));
      [left; reflexivity|left; reflexivity|rewrite E; reflexivity].
  Qed.
End Go.
