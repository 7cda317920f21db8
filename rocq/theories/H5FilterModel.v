(** The shuffle and fletcher32 filters of netcdf/hdf5/readers.go and readAll of hdf5.go.

    The reader below a filter is the list of bytes it will deliver.  How many of the bytes
    asked for it delivers in one Read is decided from outside (the [m] arguments below),
    because bufio and zlib deliver as much as they have. *)
From Verif Require Import Prelude GoVal H5Base.

(** ** Shuffle *)

Fixpoint upd {A} (l : list A) (i : nat) (x : A) : list A :=
  match l, i with
  | [], _ => []
  | _ :: r, O => x :: r
  | y :: r, S j => y :: upd r j x
  end.

(** readers.go:302-306: the two loops.  All indices are in range, since
    i < n and j < nelems give i*nelems+j < n*nelems <= len(val). *)
Definition unshuffle_inner (val : bytes) (n nelems : nat) (i : nat) (tmp : bytes) : bytes :=
  fold_left (fun t j => upd t (j * n + i) (nth (i * nelems + j) val 0)) (seq 0 nelems) tmp.
Definition unshuffle_loops (val : bytes) (n nelems : nat) (tmp : bytes) : bytes :=
  fold_left (fun t i => unshuffle_inner val n nelems i t) (seq 0 n) tmp.

(** readers.go:294-308; integer division by zero panics *)
Definition unshuffle (val : bytes) (n : Z) : res bytes :=
  if n =? 1 then Ok val
  else if n =? 0 then Panic
  else
    let nelems := zlen val / n in
    Ok (unshuffle_loops val (Z.to_nat n) (Z.to_nat nelems) (zrep (zlen val) 0)).

(** readers.go:49-54; [u_b] is nil (None) before the first Read.  [u_lim] is what remains of
    the io.LimitedReader that newUnshuffleReader (291-293) puts around it. *)
Record unsh : Type := mkUnsh {
  u_r : bytes; u_b : option bytes; u_size : Z; u_param : Z; u_lim : Z }.

Definition newUnshuffleReader (r : bytes) (size param : Z) : unsh := mkUnsh r None size param size.

(** hdf5.go:2456-2474 on a reader that delivers [r]: what it has, up to the buffer size, into a
    zeroed buffer.  (A reader that delivers nothing before its end stops the loop; the
    readers below do not.) *)
Definition readAll (r : bytes) (size : Z) : bytes * Z :=
  let got := ztake size r in (got, zlen got).

(** readers.go:310-335 behind the LimitedReader: the bytes delivered ([] at EOF) *)
Definition unsh_read (u : unsh) (plen : Z) : res (bytes * unsh) :=
  let plen := Z.min plen (u_lim u) in
  if u_lim u <=? 0 then Ok ([], u)
  else if u_size u =? 0 then Ok ([], u)
  else
    let thisLen := Z.min plen (u_size u) in
    let* b :=
      match u_b u with
      | Some b => Ok b
      | None =>
          let (got, tot) := readAll (u_r u) (u_size u) in
          let* v := unshuffle got (u_param u) in
          Ok (v ++ zrep (u_size u - tot) 0)
      end in
    Ok (ztake thisLen b,
        mkUnsh (u_r u) (Some (zdrop thisLen b)) (u_size u - thisLen) (u_param u)
               (u_lim u - thisLen)).

Fixpoint unsh_reads (u : unsh) (sizes : list Z) : res (list bytes) :=
  match sizes with
  | [] => Ok []
  | p :: r => let* (out, u') := unsh_read u p in
              let* outs := unsh_reads u' r in Ok (out :: outs)
  end.

(** ** Fletcher32 *)

(** readers.go:57-66 *)
Record fletcher : Type := mkFl {
  fl_r : bytes; fl_size : Z; fl_count : Z; fl_sum1 : Z; fl_sum2 : Z;
  fl_partial : Z; fl_checksum : Z; fl_readck : bool }.

(** readers.go:69-81 *)
Definition fletcher32Reader (r : bytes) (size : Z) : res fletcher :=
  if 4 <=? size then Ok (mkFl r size 0 0 0 0 0 false) else Err EInternal.

(** readers.go:104-107; sums are uint32 and stay below 65535, so nothing wraps *)
Definition addToSums (s : Z * Z) (val : Z) : Z * Z :=
  let s1 := (fst s + val) mod 65535 in
  let s2 := (s1 + snd s) mod 65535 in (s1, s2).

(** readers.go:108-124: [odd] tells whether fl.count+i is odd *)
Fixpoint fl_loop (odd : bool) (s : Z * Z) (partial : Z) (b : bytes) {struct b} : (Z * Z) * Z :=
  match b with
  | [] => (s, partial)
  | x :: r =>
      if odd then fl_loop false (addToSums s (partial * 256 + x)) partial r
      else
        match r with
        | [] => (s, x)
        | y :: r' => fl_loop false (addToSums s (x * 256 + y)) partial r'
        end
  end.

(** readers.go:95-142; [plen] is len(b), [m] bounds what the reader below delivers *)
Definition fl_read (fl : fletcher) (plen m : Z) : res (bytes * fletcher) :=
  let data := fl_size fl - 4 in
  let thisLen := if data <? plen + fl_count fl then data - fl_count fl else plen in
  let n := Z.max 0 (Z.min (Z.min m thisLen) (zlen (fl_r fl))) in
  let b := ztake n (fl_r fl) in
  let r := zdrop n (fl_r fl) in
  let '(s, partial) := fl_loop (fl_count fl mod 2 =? 1) (fl_sum1 fl, fl_sum2 fl) (fl_partial fl) b in
  let count := fl_count fl + n in
  if count =? data then
    let s := if data mod 2 =? 1 then addToSums s (u16 (partial * 256)) else s in
    let calced := snd s * 2 ^ 16 + fst s in
    let* (ck, r) := (if fl_readck fl then Ok (fl_checksum fl, r) else read32 r) in
    if calced =? ck
    then Ok (b, mkFl r (fl_size fl) count (fst s) (snd s) partial ck true)
    else Err EFletcher
  else Ok (b, mkFl r (fl_size fl) count (fst s) (snd s) partial (fl_checksum fl) (fl_readck fl)).

(** A sequence of Read calls: buffer length and bound on the delivery of each. *)
Fixpoint fl_reads (fl : fletcher) (reqs : list (Z * Z)) : res (list bytes * fletcher) :=
  match reqs with
  | [] => Ok ([], fl)
  | (p, m) :: rest =>
      let* (out, fl') := fl_read fl p m in
      let* (outs, fl'') := fl_reads fl' rest in Ok (out :: outs, fl'')
  end.

(** hdf5.go:2456-2474 on the fletcher reader: Read until it returns 0 bytes; [ms] bounds the
    deliveries below. *)
Fixpoint fl_readAll (fl : fletcher) (blen : Z) (ms : list Z) : res bytes :=
  match ms with
  | [] => Ok []
  | m :: rest =>
      let* (out, fl') := fl_read fl blen m in
      if zlen out =? 0 then Ok []
      else let* more := fl_readAll fl' (blen - zlen out) rest in Ok (out ++ more)
  end.

(** A chunk stored with shuffle and fletcher32 (hdf5.go:2563-2590, no deflate): the whole data
    read through newUnshuffleReader(fletcher32Reader(r)). *)
Definition read_shuffled_fletcher (stored : bytes) (dsLength param : Z) (ms : list Z) : res bytes :=
  let* fl := fletcher32Reader stored (dsLength + 4) in
  let* got := fl_readAll fl dsLength ms in
  unshuffle got param.
