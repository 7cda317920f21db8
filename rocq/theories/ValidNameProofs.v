(** Name validity: characterisation and consequences. *)
From Coq Require Import ZifyBool ZifyNat.
From Verif Require Import Prelude BaseLemmas ValidNameModel.
Ltac Zify.zify_post_hook ::= Z.div_mod_to_equations.

(** ** Specification *)
(** UTF-8 encoding of a Unicode scalar value (the standard's definition). *)
Definition scalar_value (c : Z) : Prop := 0 <= c < 55296 \/ 57344 <= c < 1114112.
Definition utf8 (c : Z) : bytes :=
  if c <? 128 then [c]
  else if c <? 2048 then [192 + c / 64; 128 + c mod 64]
  else if c <? 65536 then [224 + c / 4096; 128 + c / 64 mod 64; 128 + c mod 64]
  else [240 + c / 262144; 128 + c / 4096 mod 64; 128 + c / 64 mod 64; 128 + c mod 64].
Definition utf8_string (cs : list Z) : bytes := flat_map utf8 cs.

(** Letters and digits are neither control characters. *)
Definition ucd_disjoint (U : ucd) : Prop := forall c, uL U c || uN U c = true -> uC U c = false.

(** A valid netCDF name, as a property of its sequence of code points. *)
Definition good_name (U : ucd) (cs : list Z) : Prop :=
  (exists c r, cs = c :: r /\ (uL U c = true \/ uN U c = true)) /\
  Forall (fun c => uC U c = false /\ c <> 47) cs /\
  (forall r c, cs = r ++ [c] -> uZ U c = false).

(** ** Decoding inverts encoding *)
Lemma decode1_utf8 c r : scalar_value c -> decode1 (utf8 c ++ r) = Some (c, r).
Proof.
  intros Hc. unfold utf8, scalar_value in *.
  destruct (Z.ltb_spec c 128); [|destruct (Z.ltb_spec c 2048); [|destruct (Z.ltb_spec c 65536)]].
  - cbn [app decode1]. destruct (Z.ltb_spec c 128); [reflexivity|lia].
  - cbn [app decode1]. unfold cont.
    destruct (Z.ltb_spec (192 + c / 64) 128); [lia|].
    replace (194 <=? 192 + c / 64) with true by lia.
    replace (192 + c / 64 <=? 223) with true by lia.
    replace (128 <=? 128 + c mod 64) with true by lia.
    replace (128 + c mod 64 <=? 191) with true by lia.
    cbn [andb]. do 2 f_equal. lia.
  - cbn [app decode1]. unfold cont.
    destruct (Z.ltb_spec (224 + c / 4096) 128); [lia|].
    replace (224 + c / 4096 <=? 223) with false by lia.
    rewrite andb_false_r, andb_false_l.
    replace (224 <=? 224 + c / 4096) with true by lia.
    replace (224 + c / 4096 <=? 239) with true by lia.
    replace (128 <=? 128 + c / 64 mod 64) with true by lia.
    replace (128 + c / 64 mod 64 <=? 191) with true by lia.
    replace (128 <=? 128 + c mod 64) with true by lia.
    replace (128 + c mod 64 <=? 191) with true by lia.
    replace (negb (224 + c / 4096 =? 224) || (160 <=? 128 + c / 64 mod 64)) with true by lia.
    replace (negb (224 + c / 4096 =? 237) || (128 + c / 64 mod 64 <=? 159)) with true by lia.
    cbn [andb]. do 2 f_equal. lia.
  - cbn [app decode1]. unfold cont.
    destruct (Z.ltb_spec (240 + c / 262144) 128); [lia|].
    replace (240 + c / 262144 <=? 223) with false by lia.
    replace (240 + c / 262144 <=? 239) with false by lia.
    rewrite !andb_false_r, !andb_false_l.
    replace (240 <=? 240 + c / 262144) with true by lia.
    replace (240 + c / 262144 <=? 244) with true by lia.
    replace (128 <=? 128 + c / 4096 mod 64) with true by lia.
    replace (128 + c / 4096 mod 64 <=? 191) with true by lia.
    replace (128 <=? 128 + c / 64 mod 64) with true by lia.
    replace (128 + c / 64 mod 64 <=? 191) with true by lia.
    replace (128 <=? 128 + c mod 64) with true by lia.
    replace (128 + c mod 64 <=? 191) with true by lia.
    replace (negb (240 + c / 262144 =? 240) || (144 <=? 128 + c / 4096 mod 64)) with true by lia.
    replace (negb (240 + c / 262144 =? 244) || (128 + c / 4096 mod 64 <=? 143)) with true by lia.
    cbn [andb]. do 2 f_equal. lia.
Qed.

Lemma utf8_length c : scalar_value c -> (1 <= List.length (utf8 c))%nat.
Proof.
  intros. unfold utf8. destruct (_ <? _); [cbn; lia|]. destruct (_ <? _); [cbn; lia|].
  destruct (_ <? _); cbn; lia.
Qed.

Lemma runes_fuel_utf8 cs fuel : Forall scalar_value cs ->
  (List.length (utf8_string cs) <= fuel)%nat -> runes_fuel fuel (utf8_string cs) = cs.
Proof.
  intros H; revert fuel; induction H as [|c cs Hc Hcs IH]; intros fuel Hf.
  - destruct fuel; reflexivity.
  - cbn [utf8_string flat_map] in *. rewrite app_length in Hf.
    pose proof (utf8_length c Hc). destruct fuel as [|fuel]; [lia|].
    cbn [runes_fuel]. rewrite decode1_utf8 by easy. f_equal. apply IH. unfold utf8_string. lia.
Qed.
Lemma runes_utf8 cs : Forall scalar_value cs -> runes (utf8_string cs) = cs.
Proof. intros. unfold runes. apply runes_fuel_utf8; auto. Qed.

(** ** The recogniser *)
Lemma valid_runes U cs : ucd_ascii U -> ucd_disjoint U ->
  (re_match U cs && negb (antire_match U cs) = true <-> good_name U cs).
Proof.
  intros HA HD. unfold good_name, re_match, antire_match.
  assert (H47 : uL U 47 || uN U 47 = false).
  { destruct (HA 47) as (-> & -> & _); [lia|]. reflexivity. }
  split.
  - intros H. apply andb_true_iff in H. destruct H as [H1 H2].
    destruct cs as [|c r]; [easy|].
    apply andb_true_iff in H1. destruct H1 as [H1 H3].
    split; [|split].
    + exists c, r. split; [easy|]. now apply orb_true_iff.
    + constructor.
      * split; [now apply HD|]. intros ->. congruence.
      * rewrite forallb_forall in H3. apply Forall_forall. intros x Hx.
        specialize (H3 x Hx). apply andb_true_iff in H3. destruct H3 as [H3 H4].
        apply negb_true_iff in H3, H4. apply Z.eqb_neq in H4. easy.
    + intros r' c' E. rewrite E, rev_app_distr in H2. cbn in H2. now apply negb_true_iff.
  - intros ((c & r & E & HL) & HF & HZ). subst cs. apply andb_true_iff. split.
    + apply andb_true_iff. split; [now apply orb_true_iff|].
      inversion HF; subst. apply forallb_forall. rewrite Forall_forall in H2. intros x Hx.
      destruct (H2 x Hx) as [Hc Hs]. rewrite Hc. cbn. apply negb_true_iff. now apply Z.eqb_neq.
    + destruct (rev (c :: r)) as [|z l] eqn:Er.
      * apply (f_equal (@List.length Z)) in Er. rewrite rev_length in Er. easy.
      * apply negb_true_iff. apply HZ with (rev l).
        rewrite <- (rev_involutive (c :: r)), Er. reflexivity.
Qed.

(** ** Valid names contain no NUL byte *)
Lemma decode1_zero s c r : decode1 s = Some (c, r) -> ucd_ascii ucd_example ->
  In 0 s -> c = 0 \/ In 0 r.
Proof.
  intros H _ Hin. destruct s as [|b0 s]; [easy|]. cbn [decode1] in H.
  assert (Hb : b0 = 0 \/ b0 <> 0) by lia. destruct Hb as [->|Hb].
  { cbn in H. left. congruence. }
  destruct Hin as [E|Hin]; [easy|].
  destruct (b0 <? 128); [right; congruence|].
  destruct s as [|b1 s1]; [easy|].
  destruct ((194 <=? b0) && (b0 <=? 223) && cont b1) eqn:E1.
  { inversion H; subst. unfold cont in E1. right. destruct Hin as [->|?]; [lia|easy]. }
  destruct s1 as [|b2 s2]; [right; inversion H; now subst|].
  match type of H with (if ?b then _ else _) = _ => destruct b eqn:E2 end.
  { inversion H; subst. unfold cont in E2. right.
    destruct Hin as [->|[->|?]]; [lia|lia|easy]. }
  destruct s2 as [|b3 s3]; [right; inversion H; now subst|].
  match type of H with (if ?b then _ else _) = _ => destruct b eqn:E3 end.
  { inversion H; subst. unfold cont in E3. right.
    destruct Hin as [->|[->|[->|?]]]; [lia|lia|lia|easy]. }
  right; inversion H; now subst.
Qed.

Lemma decode1_shorter s c r : decode1 s = Some (c, r) -> (List.length r < List.length s)%nat.
Proof.
  intros H. destruct s as [|b0 s]; [easy|]. cbn [decode1] in H.
  destruct (b0 <? 128); [inversion H; cbn; lia|].
  destruct s as [|b1 s1]; [inversion H; cbn; lia|].
  destruct (_ && cont b1); [inversion H; subst; cbn; lia|].
  destruct s1 as [|b2 s2]; [inversion H; cbn; lia|].
  match type of H with (if ?b then _ else _) = _ => destruct b eqn:E2 end; [inversion H; subst; cbn; lia|].
  destruct s2 as [|b3 s3]; [inversion H; cbn; lia|].
  match type of H with (if ?b then _ else _) = _ => destruct b eqn:E3 end; inversion H; subst; cbn; lia.
Qed.
Lemma decode1_cons b s : exists c r, decode1 (b :: s) = Some (c, r).
Proof.
  cbn [decode1]. destruct (b <? 128); [eauto|].
  destruct s as [|b1 s1]; [eauto|]. destruct (_ && cont b1); [eauto|].
  destruct s1 as [|b2 s2]; [eauto|].
  match goal with |- context [if ?b then _ else _] => destruct b end; [eauto|].
  destruct s2 as [|b3 s3]; [eauto|].
  match goal with |- context [if ?b then _ else _] => destruct b end; eauto.
Qed.

Lemma ucd_example_ascii : ucd_ascii ucd_example.
Proof.
  intros c Hc. cbn. repeat split. replace (128 <=? c) with false by lia. apply orb_false_r.
Qed.

Lemma runes_fuel_zero fuel s : (List.length s <= fuel)%nat -> In 0 s -> In 0 (runes_fuel fuel s).
Proof.
  revert s; induction fuel as [|f IH]; intros s Hf Hin.
  - destruct s; [easy|cbn in Hf; lia].
  - cbn [runes_fuel]. destruct s as [|b s]; [easy|].
    destruct (decode1_cons b s) as (c & r & E). rewrite E.
    pose proof (decode1_shorter _ _ _ E). destruct (decode1_zero _ _ _ E ucd_example_ascii Hin) as [->|H1].
    + now left.
    + right. apply IH; [|easy]. cbn [List.length] in *. lia.
Qed.

Lemma valid_name_no_nul U s : ucd_ascii U -> ucd_disjoint U -> valid_name U s = true -> ~ In 0 s.
Proof.
  intros HA HD HV Hin. unfold valid_name in HV. apply valid_runes in HV; auto.
  destruct HV as (_ & HF & _). rewrite Forall_forall in HF.
  assert (In 0 (runes s)) by (apply runes_fuel_zero; auto).
  destruct (HF 0 H) as [Hc _]. destruct (HA 0) as (_ & _ & E & _); [lia|]. rewrite E in Hc. easy.
Qed.
Lemma valid_name_nonempty U s : valid_name U s = true -> s <> [].
Proof. intros H ->. easy. Qed.

Lemma ucd_example_disjoint : ucd_disjoint ucd_example.
Proof.
  intros c H. cbn in *. unfold ascii_letter, ascii_digit, ascii_control in *. lia.
Qed.

(** ** Forms used by the property file *)
Lemma valid_name_iff U cs : ucd_ascii U -> ucd_disjoint U -> Forall scalar_value cs ->
  (valid_name U (utf8_string cs) = true <-> good_name U cs).
Proof. intros. unfold valid_name. rewrite runes_utf8 by easy. now apply valid_runes. Qed.

Lemma valid_name_any U s : ucd_ascii U -> ucd_disjoint U ->
  (valid_name U s = true <-> good_name U (runes s)).
Proof. intros. unfold valid_name. now apply valid_runes. Qed.

Lemma valid_name_bytes U s : ucd_ascii U -> ucd_disjoint U ->
  (valid_name U s = true <-> good_name U (runes s)) /\
  (valid_name U s = true -> s <> [] /\ ~ In 0 s).
Proof.
  intros HA HD. split; [now apply valid_name_any|]. intros H. split.
  - eapply valid_name_nonempty; eauto.
  - eapply valid_name_no_nul; eauto.
Qed.

Lemma names_example :
  ucd_ascii ucd_example /\ ucd_disjoint ucd_example /\
  Forall scalar_value [233; 32; 8364; 128512] /\ good_name ucd_example [233; 32; 8364; 128512] /\
  ~ good_name ucd_example [95; 97] /\ ~ good_name ucd_example [97; 32].
Proof.
  pose proof ucd_example_ascii as HA. pose proof ucd_example_disjoint as HD.
  split; [easy|]. split; [easy|]. split; [|split; [|split]].
  - repeat constructor; unfold scalar_value; lia.
  - now apply (valid_runes ucd_example).
  - intros H. apply (valid_runes ucd_example) in H; auto. easy.
  - intros H. apply (valid_runes ucd_example) in H; auto. easy.
Qed.
