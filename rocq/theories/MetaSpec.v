(** What it means for HDF5 metadata to be read back, stated without the reader's helpers. *)
From Verif Require Import Prelude H5MetaWrite.

(** The file [f] has the bytes [b] at address [a]. *)
Definition has_at (f : bytes) (a : Z) (b : bytes) : Prop :=
  exists pre post, f = pre ++ b ++ post /\ zlen pre = a.

(** A message that fits the fields of an object header: a one byte type, a two byte size. *)
Definition msg_ok (m : h5msg) : Prop := 0 <= m_type m < 256 /\ zlen (m_data m) < 2 ^ 16.

(** The messages of a header that carry any data, as pairs of type and body. *)
Definition contents (ms : list h5msg) : list (Z * bytes) :=
  filter (fun p => negb (match snd p with [] => true | _ => false end))
    (map (fun m => (m_type m, m_data m)) ms).

(** What may follow them: nothing, or one null message of at most seven zero bytes. *)
Definition is_padding (p : list (Z * bytes)) : Prop :=
  p = [] \/ exists n, 1 <= n <= 7 /\ p = [(0, zrep n 0)].

(** Handing messages one by one to [h], which may leave some bytes of a message unread if they
    are zero. *)
Fixpoint deliver {S} (h : Z -> bytes -> S -> res (S * bytes)) (ms : list (Z * bytes)) (st : S) : res S :=
  match ms with
  | [] => Ok st
  | (t, b) :: r =>
      match h t b st with
      | Ok (st', rest) => if forallb (Z.eqb 0) rest then deliver h r st' else Panic
      | Err e => Err e
      | Panic => Panic
      end
  end.

(** The handler that just writes the messages down. *)
Definition record (t : Z) (b : bytes) (st : list (Z * bytes)) : res (list (Z * bytes) * bytes) :=
  Ok (st ++ [(t, b)], []).
