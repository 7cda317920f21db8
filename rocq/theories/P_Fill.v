(** Property C21: the fill value stream. *)
From Verif Require Import Prelude FillModel FillProofs.

(** [cyc pat 0 n] is the first n bytes of the endless repetition of [pat]. *)
Theorem C21_partition_independent pat ns : pat <> [] ->
  List.concat (fv_reads (new_fvr pat) ns) =
    map (fun i => nth (i mod List.length pat) pat 0) (seq 0 (list_sum ns)) /\
  map (@List.length Z) (fv_reads (new_fvr pat) ns) = ns.
Proof. exact (fv_reads_new pat ns). Qed.

Example C21_example : fv_reads (new_fvr [1; 2; 3]) [2; 0; 7; 1]%nat = [[1; 2]; []; [3; 1; 2; 3; 1; 2; 3]; [1]].
Proof. exact eq_refl. Qed.

Print Assumptions C21_partition_independent.
