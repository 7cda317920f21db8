(** Names accepted by the CDF writer, and their encoding. *)
From Coq Require Import ZifyBool ZifyNat.
From Verif Require Import Prelude GoVal BaseLemmas ValidNameModel ValidNameProofs
  CdfWriterModel CdfReaderModel CdfCodec.

Lemma add_var_names U st name val dims a st' :
  add_var U st name val dims a = (st', Ok tt) ->
  valid_name U name = true /\ Forall (fun kv => valid_name U (fst kv) = true) a.
Proof.
  unfold add_var. destruct (valid_name U name) eqn:E; cbn [negb]; [|easy].
  destruct (valid_attr_names U a) eqn:E2; cbn [negb]; [|easy]. intros _. split; [easy|].
  unfold valid_attr_names in E2. rewrite forallb_forall in E2. now apply Forall_forall.
Qed.

Lemma add_attributes_names U st a st' :
  add_attributes U st a = (st', Ok tt) ->
  Forall (fun kv => valid_name U (fst kv) = true) a.
Proof.
  unfold add_attributes. destruct (valid_attr_names U a) eqn:E2; [|easy]. intros _.
  unfold valid_attr_names in E2. rewrite forallb_forall in E2. now apply Forall_forall.
Qed.

Lemma cdf_accepted_names U st o st' : ucd_ascii U -> ucd_disjoint U ->
  wstep U st o = (st', Ok tt) ->
  (forall n v d a, o = WVar n v d a -> good_name U (runes n)) /\
  (forall n v d a k x, o = WVar n v d a -> In (k, x) a -> good_name U (runes k)) /\
  (forall a k x, o = WAttrs a -> In (k, x) a -> good_name U (runes k)).
Proof.
  intros HA HD H. split; [|split]; intros; subst o; cbn [wstep] in H.
  - apply add_var_names in H. now apply valid_name_any.
  - apply add_var_names in H. destruct H as [_ H]. rewrite Forall_forall in H.
    apply valid_name_any; auto. now apply (H (k, x)).
  - apply add_attributes_names in H. rewrite Forall_forall in H.
    apply valid_name_any; auto. now apply (H (k, x)).
Qed.

Lemma valid_name_codec U ver out name r : ucd_ascii U -> ucd_disjoint U ->
  valid_name U name = true -> ver = 2 \/ ver = 5 -> zlen out mod 4 = 0 -> zlen name < 2 ^ 31 ->
  exists b, write_name ver out name = out ++ b /\ read_name ver (b ++ r) = Ok (name, r).
Proof.
  intros HA HD HV Hv Ho Hl. exists (enc_name ver name). split.
  - now apply write_name_app.
  - apply read_name_enc. pose proof (lim_pos ver). repeat split; try lia.
    eapply valid_name_no_nul; eauto.
Qed.
