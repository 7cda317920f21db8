(** Places in the header of a classic netCDF file that no conforming file has and that ask for the impossible.  The
    grammar is that of CdfFormat, but with any bytes for names, types, values and padding, and any numbers.  Written
    without the reader. *)
From Verif Require Import Prelude GoVal ArraySpec CdfFormat.

Definition numbers (ver : Z) : Z := if ver =? 5 then 2 ^ 64 else 2 ^ 32.
Definition number (ver n : Z) : Prop := 0 <= n < numbers ver.
(** A negative number of 32 bits counts as one of 64 bits without a sign *)
Definition counted (ver n : Z) : Z := if (ver =? 5) || (n <? 2 ^ 31) then n else n + (2 ^ 64 - 2 ^ 32).
(** More bytes than a program can ask for *)
Definition memory : Z := 2 ^ 48.

(** A name of [n] bytes *)
Definition any_name (ver : Z) (b : bytes) : Prop :=
  exists n p, number ver n /\ zlen p = pad_size (counted ver n) /\ zlen p <= memory /\ b = non_neg ver n ++ p.
Definition long_name (ver : Z) (s : bytes) : Prop :=
  exists n rest, number ver n /\ memory < pad_size (counted ver n) /\ s = non_neg ver n ++ rest.

Definition any_dim (ver len : Z) (b : bytes) : Prop :=
  exists nm n, any_name ver nm /\ number ver n /\ len = counted ver n /\ b = nm ++ non_neg ver n.

Definition any_att (ver : Z) (b : bytes) : Prop :=
  exists nm t n p, any_name ver nm /\ number ver n /\ zlen p = pad_size (counted ver n * elt_size t) /\
    counted ver n * elt_size t <= memory /\ b = nm ++ be 4 (type_code t) ++ non_neg ver n ++ p.
(** An attribute whose name or whose value is too long *)
Definition long_att (ver : Z) (s : bytes) : Prop :=
  long_name ver s \/
  exists nm t n rest, any_name ver nm /\ number ver n /\ memory < counted ver n * elt_size t /\
    s = nm ++ be 4 (type_code t) ++ non_neg ver n ++ rest.

(** A list of items; a list that begins well but has a bad item *)
Definition any_list (item : bytes -> Prop) (tag ver : Z) (b : bytes) : Prop :=
  exists t k bs, (t = tag \/ t = 0 /\ k = 0) /\ number ver k /\ Forall item bs /\ zlen bs = counted ver k /\
    b = be 4 t ++ non_neg ver k ++ List.concat bs.
Definition bad_list (item bad : bytes -> Prop) (tag ver : Z) (s : bytes) : Prop :=
  exists k bs rest, number ver k /\ Forall item bs /\ zlen bs < counted ver k /\ bad rest /\
    s = be 4 tag ++ non_neg ver k ++ List.concat bs ++ rest.
Definition any_atts (ver : Z) : bytes -> Prop := any_list (any_att ver) 12 ver.
Definition bad_atts (ver : Z) : bytes -> Prop := bad_list (any_att ver) (long_att ver) 12 ver.

Definition any_var (ver : Z) (b : bytes) : Prop :=
  exists nm ids a t size begin, any_name ver nm /\ zlen ids <= 1024 /\ Forall (number ver) ids /\ any_atts ver a /\
    0 <= t < 2 ^ 32 /\ number ver size /\
    b = nm ++ non_neg ver (zlen ids) ++ flat_map (non_neg ver) ids ++ a ++ be 4 t ++ non_neg ver size ++ offs ver begin.
(** The dimensions have these lengths; the first id of the variable is of none of them, or of the record dimension, and
    another one is of none of them *)
Definition bad_ids (lens ids : list Z) : Prop :=
  exists i r, ids = i :: r /\
    (zlen lens <= i \/ nth_error lens (Z.to_nat i) = Some 0 /\ Exists (fun j => zlen lens <= j) r).
Definition bad_var (ver : Z) (lens : list Z) (s : bytes) : Prop :=
  long_name ver s \/
  exists nm ids rest, any_name ver nm /\ zlen ids <= 1024 /\ Forall (number ver) ids /\
    s = nm ++ non_neg ver (zlen ids) ++ flat_map (non_neg ver) ids ++ rest /\
    (bad_atts ver rest \/
     exists a t size rest', any_atts ver a /\ 0 <= t < 2 ^ 32 /\ number ver size /\ bad_ids lens ids /\
       rest = a ++ be 4 t ++ non_neg ver size ++ rest').

(** A file that begins as a header and then has such a place *)
Definition bad_header (f : bytes) : Prop :=
  exists ver numrecs s, (ver = 1 \/ ver = 2 \/ ver = 5) /\ number ver numrecs /\
    f = bs "CDF" ++ [ver] ++ non_neg ver numrecs ++ s /\
    ((exists nd lens bs rest, nd <= 1024 /\ number ver nd /\ Forall2 (any_dim ver) lens bs /\ zlen bs < nd /\ long_name ver rest /\
        s = be 4 10 ++ non_neg ver nd ++ List.concat bs ++ rest) \/
     (exists t lens bs rest, (t = 10 \/ t = 0 /\ lens = []) /\ zlen lens <= 1024 /\ Forall2 (any_dim ver) lens bs /\
        s = be 4 t ++ non_neg ver (zlen lens) ++ List.concat bs ++ rest /\
        (bad_atts ver rest \/
         exists a rest', any_atts ver a /\ bad_list (any_var ver) (bad_var ver lens) 11 ver rest' /\ rest = a ++ rest'))).
