(** Property C20: reference counting of CDF groups. *)
From Verif Require Import Prelude CdfRefModel CdfRefProofs.

(** The file's Close runs at most once, and it has run exactly if at some point of the
    history the number of Close calls equalled one plus the number of successful GetGroup
    calls; the call that reaches that point is the one that closes the file, because
    the statement holds for every history and hence every prefix. *)
Theorem C20_closed_exactly_once h :
  (rc_closes (rc_state h) <= 1)%nat /\
  (rc_closes (rc_state h) = 1%nat <-> exhausted h).
Proof. exact (rc_closed_exactly h). Qed.

(** GetGroup succeeds exactly for "" and "/", and until the file is closed no call panics. *)
Theorem C20_calls h o : ~ exhausted h ->
  snd (rc_step (rc_state h) o) <> Panic /\
  (forall p, o = RGet p -> (snd (rc_step (rc_state h) o) = Ok tt <-> root_path p)).
Proof. exact (rc_calls h o). Qed.

Example C20_example :
  exhausted [RGet (bs "/"); RGet (bs "x"); RClose; RClose; RClose] /\
  ~ exhausted [RGet (bs "/"); RGet (bs "x"); RClose].
Proof. exact rc_example. Qed.

(** A group obtained after the file was closed cannot be closed without a crash. *)
Theorem C20_reopen_after_close_panics :
  exists h, exhausted h /\ snd (rc_step (rc_state h) RClose) = Panic.
Proof. exact rc_reopen_panics. Qed.

Print Assumptions C20_closed_exactly_once.
Print Assumptions C20_calls.
Print Assumptions C20_reopen_after_close_panics.
