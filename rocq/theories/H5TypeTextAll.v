(** All the texts that a type can have, listed: for concrete cases of what H5TypeText says of every
    order. *)
From Coq Require Import Permutation.
From Verif Require Import Prelude GoVal H5Base H5Value H5TypeRead H5FileRead H5TypeText H5TypeTextProofs.

Fixpoint inserts {A} (x : A) (l : list A) : list (list A) :=
  (x :: l) :: match l with [] => [] | y :: r => map (cons y) (inserts x r) end.
Fixpoint perms {A} (l : list A) : list (list A) :=
  match l with [] => [[]] | x :: r => flat_map (inserts x) (perms r) end.

Lemma inserts_In {A} (x : A) l2 : forall l1, In (l1 ++ x :: l2) (inserts x (l1 ++ l2)).
Proof.
  induction l1 as [|y l1 IH]; cbn [app].
  - destruct l2; left; reflexivity.
  - cbn [inserts]. right. apply in_map. exact IH.
Qed.
Lemma inserts_perm {A} (x : A) l : forall l', In l' (inserts x l) -> Permutation (x :: l) l'.
Proof.
  induction l as [|y l IH]; cbn [inserts]; intros l' [<-|H]; try apply Permutation_refl; [contradiction|].
  apply in_map_iff in H. destruct H as (m & <- & H). apply IH in H. rewrite perm_swap. constructor. exact H.
Qed.
Lemma perms_In {A} (l : list A) : forall l', In l' (perms l) <-> Permutation l l'.
Proof.
  induction l as [|x l IH]; intros l'; cbn [perms].
  - split; [intros [<-|[]]; constructor|]. intros H. apply Permutation_nil in H. left. symmetry. exact H.
  - rewrite in_flat_map. split.
    + intros (m & Hm & H). apply IH in Hm. apply inserts_perm in H. rewrite Hm. exact H.
    + intros H. assert (Hx : In x l') by (apply (Permutation_in x H); left; reflexivity). apply in_split in Hx.
      destruct Hx as (l1 & l2 & ->). exists (l1 ++ l2). split; [|apply inserts_In]. apply IH. exact (Permutation_cons_app_inv _ _ H).
Qed.

Definition obind {A B} (m : list (res A)) (f : A -> list (res B)) : list (res B) :=
  flat_map (fun r => match r with Ok a => f a | Err e => [Err e] | Panic => [Panic] end) m.
Definition oopt {A} (o : option A) : list (res A) := match o with Some a => [Ok a] | None => [Panic] end.

Definition agrees {A} (m : M A) (l : list (res A)) : Prop := forall r, m r <-> In r l.
Lemma agrees_ret {A} (a : A) : agrees (mret a) [Ok a].
Proof. intros r. split; [intros ->; left; reflexivity|intros [<-|[]]; reflexivity]. Qed.
Lemma agrees_fail {A} e : agrees (@mfail A e) [Err e].
Proof. intros r. split; [intros ->; left; reflexivity|intros [<-|[]]; reflexivity]. Qed.
Lemma agrees_panic {A} : agrees (@mpanic A) [Panic].
Proof. intros r. split; [intros ->; left; reflexivity|intros [<-|[]]; reflexivity]. Qed.
Lemma agrees_opt {A} (o : option A) : agrees (mopt o) (oopt o).
Proof. destruct o; [apply agrees_ret|apply agrees_panic]. Qed.
Lemma agrees_bind {A B} (m : M A) l (f : A -> M B) g : agrees m l -> (forall a, agrees (f a) (g a)) -> agrees (mbind m f) (obind l g).
Proof.
  intros Hm Hf r. unfold mbind, obind. rewrite in_flat_map. split.
  - intros [(a & Ha & H)|[(e & He & ->)|[He ->]]]; [exists (Ok a)|exists (Err e)|exists Panic]; (split; [apply Hm; assumption|]); [apply Hf; exact H| |]; left; reflexivity.
  - intros ([a|e|] & Ha & H); apply Hm in Ha.
    + left. exists a. split; [exact Ha|apply Hf; exact H].
    + right. left. exists e. split; [exact Ha|]. destruct H as [<-|[]]. reflexivity.
    + right. right. split; [exact Ha|]. destruct H as [<-|[]]. reflexivity.
Qed.

Fixpoint loopAll (print : list bytes -> option dty -> list (res bytes)) (X : list bytes) (sig : bytes) (l : list tdef) : list (res bytes) :=
  match l with
  | [] => [Ok []]
  | (key, (name, t)) :: r =>
      if mem key X then loopAll print X sig r
      else obind (print (key :: X) t)
             (fun s => if negb (beqb s []) && beqb s sig then [Ok name] else loopAll print X sig r)
  end.
Lemma loopAll_ok p q X sig : (forall X' t, agrees (p X' t) (q X' t)) -> forall l, agrees (signatureLoop p X sig l) (loopAll q X sig l).
Proof.
  intros H. induction l as [|[key [name t]] l IH]; cbn [signatureLoop loopAll]; [apply agrees_ret|]. destruct (mem key X); [exact IH|].
  apply agrees_bind; [apply H|]. intros a. destruct (negb (beqb a []) && beqb a sig); [apply agrees_ret|exact IH].
Qed.

Section All.
  Variable st : style.
  Variable env : list tdef.
  Definition findsAll (printAll : list bytes -> option dty -> list (res bytes)) (X : list bytes) (sig : bytes) : list (res bytes) :=
    flat_map (fun l => loopAll printAll X sig l) (perms env).
  Definition namedAll (find : bytes -> list (res bytes)) (sig : bytes) : list (res bytes) :=
    obind (find sig) (fun n => [Ok (match n with [] => sig | _ => n end)]).
  Fixpoint textsAll (depth : nat) : list bytes -> dty -> list (res bytes) :=
    fun X =>
    let find := fun sig =>
      match depth with
      | O => [Ok []]
      | S k => findsAll (fun X' t => match t with Some d => textsAll k X' d | None => [Panic] end) X sig
      end in
    fix go (d : dty) : list (res bytes) :=
      match d with
      | DFixed len sg _ => oopt (s_fixed st len sg)
      | DFloat len _ => oopt (s_float st len)
      | DString _ => [Ok (bs "string")]
      | DRef _ => [Ok (bs "uint64")]
      | DOpaque len => namedAll find (s_opaque st len)
      | DComp _ ms =>
          obind ((fix members (ms : list (bytes * Z * list Z * dty)) : list (res (list (bytes * bytes))) :=
                    match ms with
                    | [] => [Ok []]
                    | (n, _, _, t) :: r => obind (go t) (fun s => obind (members r) (fun l => [Ok ((n, s) :: l)]))
                    end) ms)
            (fun l => namedAll find (s_comp st l))
      | DEnum _ blen sg _ names vals =>
          obind (oopt (s_fixed st blen sg)) (fun ty => namedAll find (s_enum st ty (combine names (map value_text vals))))
      | DVlen _ true _ => [Ok (bs "string")]
      | DVlen _ false t => obind (go t) (fun ty => namedAll find (s_vlen st ty))
      | DArray _ dims t =>
          obind (go t) (fun ty => obind (find (s_array st dims ty)) (fun n =>
            match n with [] => [Ok (s_array st dims ty)] | _ => [Err EInternal] end))
      end.

  Lemma textsAll_step k :
    (match k with O => True | S k => forall X d, agrees (typeString st env k X d) (textsAll k X d) end) ->
    forall X d, agrees (typeString st env k X d) (textsAll k X d).
  Proof.
    intros IH X.
    assert (Hf : forall sig, agrees (finds st env k X sig)
      (match k with O => [Ok []] | S k => findsAll (fun X' t => match t with Some d => textsAll k X' d | None => [Panic] end) X sig end)).
    { intros sig. destruct k as [|k]; [apply agrees_ret|]. cbn [finds]. intros r. unfold findsAll. rewrite in_flat_map.
      assert (Hl : forall l, agrees (signatureLoop (printer st env k) X sig l) (loopAll (fun X' t => match t with Some d => textsAll k X' d | None => [Panic] end) X sig l)).
      { apply loopAll_ok. intros X' [d|]; [apply IH|apply agrees_panic]. }
      split; intros (l & H1 & H2); exists l; (split; [apply perms_In; exact H1|apply Hl; exact H2]). }
    assert (Hn : forall sig, agrees (named st env k X sig)
      (namedAll (fun sig => match k with O => [Ok []] | S k => findsAll (fun X' t => match t with Some d => textsAll k X' d | None => [Panic] end) X sig end) sig)).
    { intros sig. apply agrees_bind; [apply Hf|]. intros n. apply agrees_ret. }
    induction d using dty_ind'.
    - rewrite ts_fixed. destruct k; apply agrees_opt.
    - rewrite ts_float. destruct k; apply agrees_opt.
    - rewrite ts_string. destruct k; apply agrees_ret.
    - rewrite ts_opaque. destruct k; apply Hn.
    - rewrite ts_comp.
      assert (G : agrees (memberTexts (typeString st env k X) ms)
        ((fix members (ms : list (bytes * Z * list Z * dty)) : list (res (list (bytes * bytes))) :=
                    match ms with
                    | [] => [Ok []]
                    | (n, _, _, t) :: r => obind (textsAll k X t) (fun s => obind (members r) (fun l => [Ok ((n, s) :: l)]))
                    end) ms)).
      { induction H as [|[[[m off] dims] t] ms H1 _ IHm]; [apply agrees_ret|]. cbn [memberTexts].
        apply agrees_bind; [exact H1|]. intros a. apply agrees_bind; [exact IHm|]. intros b. apply agrees_ret. }
      destruct k; (apply agrees_bind; [exact G|]; intros l; apply Hn).
    - rewrite ts_ref. destruct k; apply agrees_ret.
    - rewrite ts_enum. destruct k; (apply agrees_bind; [apply agrees_opt|]; intros l; apply Hn).
    - rewrite ts_vlen. destruct b; [destruct k; apply agrees_ret|]. destruct k; (apply agrees_bind; [exact IHd|]; intros l; apply Hn).
    - rewrite ts_array. destruct k; (apply agrees_bind; [exact IHd|]; intros l; apply agrees_bind; [apply Hf|]; intros [|? ?]; [apply agrees_ret|apply agrees_fail]).
  Qed.
  Theorem textsAll_ok k : forall X d, agrees (typeString st env k X d) (textsAll k X d).
  Proof. induction k as [|k IH]; apply textsAll_step; [exact I|exact IH]. Qed.
End All.

Definition textAll (st : style) (o : robj) (X : list bytes) (ty : option dty) : list (res bytes) :=
  match ty with Some d => textsAll st (typeDefs o) (List.length (typeDefs o)) X d | None => [Panic] end.
Lemma textAll_ok st o X ty : agrees (textOf st o X ty) (textAll st o X ty).
Proof. destruct ty; [apply textsAll_ok|apply agrees_panic]. Qed.
Definition variableTypesAll (h : rhandle) (name : bytes) : list (res (option (bytes * bytes))) :=
  match findVariable h name with
  | None => [Ok None]
  | Some o => obind (textAll cdlStyle (rh_obj h) [name] (ri_ty (r_info o))) (fun ty =>
              obind (textAll (goStyle name) (rh_obj h) [name] (ri_ty (r_info o))) (fun gty => [Ok (Some (ty, gty))]))
  end.
Lemma variableTypesAll_ok h name : agrees (variableTypes h name) (variableTypesAll h name).
Proof.
  unfold variableTypes, variableTypesAll. destruct (findVariable h name); [|apply agrees_ret].
  apply agrees_bind; [apply textAll_ok|]. intros ty. apply agrees_bind; [apply textAll_ok|]. intros gty. apply agrees_ret.
Qed.
