(** What one handle's reads deliver when nothing else runs: reads continue where the previous one
    stopped, reads at an offset do not move the position. *)
From Verif Require Import Prelude H5ConcModel.

Definition bytes_at (f : bytes) (pos n : Z) : bytes := ztake n (zdrop pos f).

Fixpoint alone (f : bytes) (pos : Z) (ops : list cop) : list bytes :=
  match ops with
  | [] => []
  | CRead _ n :: r => let b := bytes_at f pos n in b :: alone f (pos + zlen b) r
  | CReadAt _ off n :: r => bytes_at f off n :: alone f pos r
  end.

(** The completed operations on handle [v], and those of goroutine [t], in order *)
Definition on_view (v : nat) (d : list (nat * cop * bytes)) : list (nat * cop * bytes) :=
  filter (fun x => Nat.eqb (op_view (snd (fst x))) v) d.
Definition done_by (t : nat) (d : list (nat * cop * bytes)) : list (nat * cop * bytes) :=
  filter (fun x => Nat.eqb (fst (fst x)) t) d.
Definition ops_of (d : list (nat * cop * bytes)) : list cop := map (fun x => snd (fst x)) d.
Definition outs_of (d : list (nat * cop * bytes)) : list bytes := map snd d.
