(** What the file theorems ask of a history of calls and what they say about the file: written
    in terms of the calls ([events], WriterSpec) and of Go values (TypeSpec), without the
    functions of the writer or the reader. *)
From Verif Require Import Prelude GoVal OrderedMapModel ArraySpec H5Value H5FileWrite H5WriterModel TypeSpec WriterSpec.

(** ** Numbers and strings *)
(** [v] is a number, a string, or a rectangular array of them with the dimensions [dims] *)
Definition num_or_text (dims : list Z) (v : hval) : Prop :=
  (exists k, array_of (SNum k) dims v) \/ (dims <> [] /\ array_of SStr dims v) \/
  (dims = [] /\ exists t, v = HStr t /\ text t /\ zlen t < 2 ^ 32 - 1).

(** Bytes that are enough for the description of a type in the header of a variable *)
Fixpoint type_room (s : sty) : Z :=
  match s with
  | SNum _ | SStr => 40
  | SOpaque _ => 8
  | SEnum _ names _ => 28 + fold_right (fun nm n => zlen nm + 9 + n) 0 names
  | SComp fs => 8 + (fix go (fs : list (bytes * sty)) : Z :=
                       match fs with [] => 0 | (nm, s) :: r => zlen nm + 5 + type_room s + go r end) fs
  | SVlen s => 8 + type_room s
  end.
(** [v] is of a compound, enumeration or opaque type, a sequence of any length, or an array of these
    with the dimensions [dims]; sequences do not occur within others or in compounds *)
Definition composed (dims : list Z) (v : hval) : Prop :=
  exists s, var_type s /\ type_room s <= 60000 /\ value_of s dims v /\ shape_ok s dims v.
(** What variables may hold *)
Definition var_value (dims : list Z) (v : hval) : Prop := num_or_text dims v \/ composed dims v.

(** All dimensions but the last are positive; the shape of an array with, say, no rows is not
    recorded beyond that *)
Definition shape_told (dims : list Z) : Prop := Forall (fun n => 0 < n) (removelast dims).

(** The strings in a value *)
Fixpoint strings_of (v : hval) : list bytes :=
  match v with
  | HStr s => [s]
  | HComp fs => (fix go (fs : list (bytes * hval)) : list bytes :=
                   match fs with [] => [] | (_, x) :: r => strings_of x ++ go r end) fs
  | HEnum w _ _ => strings_of w
  | HSlice _ l => (fix go (l : list hval) : list bytes :=
                     match l with [] => [] | x :: r => strings_of x ++ go r end) l
  | _ => []
  end.
(** Those that are kept apart from the value: not a string that is the whole value *)
Definition heap_strings (v : hval) : list bytes := match v with HStr _ => [] | _ => strings_of v end.
(** The number of sequences in a value of [n] dimensions: the slices below these *)
Fixpoint sequences (n : nat) (v : hval) {struct v} : Z :=
  match v with
  | HSlice _ l =>
      match n with
      | O => 1
      | S m => (fix go (l : list hval) : Z := match l with [] => 0 | x :: r => sequences m x + go r end) l
      end
  | _ => 0
  end.
(** Rows of different lengths *)
Definition row_length (v : hval) : Z := match v with HSlice _ l => zlen l | _ => 0 end.
Definition uneven (l : list hval) : bool :=
  match l with [] => false | x :: r => existsb (fun y => negb (row_length y =? row_length x)) r end.
(** The dimensions of an attribute are not given: its sequences are the rows of different lengths, and the
    members of compounds that are slices *)
Fixpoint attr_sequences (v : hval) : Z :=
  match v with
  | HComp fs => (fix go (fs : list (bytes * hval)) : Z :=
                   match fs with [] => 0 | (_, x) :: r => (match x with HSlice _ _ => 1 | _ => attr_sequences x end) + go r end) fs
  | HSlice _ l => if uneven l then zlen l
                  else (fix go (l : list hval) : Z := match l with [] => 0 | x :: r => attr_sequences x + go r end) l
  | _ => 0
  end.
Definition attrs_sequences (l : hattrs) : Z := fold_right (fun kv n => attr_sequences (snd kv) + n) 0 l.
(** Those of all variables and attributes that were ever described *)
Definition sequences_in (es : list event) : Z :=
  fold_right (fun e n => match e with
                         | EVar _ _ v => sequences (List.length (hv_dims v)) (hv_val v) + attrs_sequences (attr_list (hv_attrs v)) + n
                         | EAttrs _ a => attrs_sequences (attr_list a) + n
                         | EGroup _ => n
                         end) 0 es.
(** The writer keeps references to dimensions in the same table as strings, under keys that
    begin like this *)
Definition no_dimref (s : bytes) : Prop := forall d, s <> bs "__dimref:" ++ d.

(** ** Attributes *)
(** Names that the reader hides or the writer adds *)
Definition reserved : list bytes :=
  [bs "_Netcdf4Dimid"; bs "_Netcdf4Coordinates"; bs "DIMENSION_LIST"; bs "NAME"; bs "REFERENCE_LIST"; bs "CLASS";
   bs "_NCProperties"].
(** An array with the dimensions [dims] of sequences, which differ in length within every row of the array *)
Fixpoint ragged (dims : list Z) (v : hval) : Prop :=
  match v, dims with
  | HSlice _ l, [_] => uneven l = true
  | HSlice _ l, _ :: ds => Forall (ragged ds) l
  | _, _ => False
  end.
(** The elements of an array of [n] dimensions *)
Fixpoint items (n : nat) (v : hval) {struct n} : list hval :=
  match n, v with
  | O, _ => [v]
  | S m, HSlice _ l => flat_map (items m) l
  | S _, _ => []
  end.
(** What attributes may hold: numbers and strings, compounds and enumerations,
    and arrays of sequences of different lengths, that fit into [room] bytes.  A compound that is
    the whole value has more than one member, or none.  An empty sequence in a compound is one of numbers,
    [seqs_ok]. *)
Definition attr_value (room : Z) (dims : list Z) (v : hval) : Prop :=
  (num_or_text dims v /\ 8 * zlen dims + 16 * volume dims <= room /\ forall t, v = HStr t -> zlen t <= room) \/
  (exists s, writable s /\ 8 * zlen dims + type_room s + volume dims * size_of s <= room /\
     value_of s dims v /\ shape_ok s dims v /\
     match s with
     | SEnum _ _ _ => True
     | SComp fs => (dims = [] -> List.length fs <> 1%nat) /\
         Forall (fun x => seqs_ok s x = true) (items (List.length dims) v)
     | _ => False
     end) \/
  (exists s, writable (SVlen s) /\ 8 * zlen dims + type_room (SVlen s) + 16 * volume dims <= room /\
     array_of (SVlen s) dims v /\ shape_ok (SVlen s) dims v /\ ragged dims v).
(** An attribute that fits into one message, with all its dimensions positive *)
Definition fine_attr (kv : bytes * hval) : Prop :=
  text (fst kv) /\ ~ In (fst kv) reserved /\
  exists dims, attr_value (65000 - zlen (fst kv)) dims (snd kv) /\ Forall (fun n => 0 < n) dims /\ zlen dims <= 255.
Definition fine_attrs (a : option hattrs) : Prop :=
  NoDup (map fst (attr_list a)) /\ Forall fine_attr (attr_list a) /\ zlen (attr_list a) <= 30000.

(** ** Variables *)
Definition fine_var (v : hvar) : Prop :=
  (exists dims, List.length dims = List.length (hv_dims v) /\ zlen dims <= 255 /\
     Forall (fun n => 0 <= n < 2 ^ 63) dims /\ shape_told dims /\ var_value dims (hv_val v)) /\
  fine_attrs (hv_attrs v) /\
  Forall (fun d => d <> [] /\ text d /\ zlen d < 256) (hv_dims v).

(** ** Histories *)
Definition dimension (es : list event) (d : bytes) : Prop :=
  exists p n v, last_var es p n = Some v /\ In d (hv_dims v).
(** The values of variables and attributes *)
Definition value_in (es : list event) (v : hval) : Prop :=
  exists p, (exists k, In (k, v) (attr_list (last_attrs es p))) \/
    exists n w, last_var es p n = Some w /\ (v = hv_val w \/ exists k, In (k, v) (attr_list (hv_attrs w))).
(** The name of a dimension without a variable begins like this *)
Definition marker : bytes := bs "This is a netCDF dimension".

(** What the calls must have described for the theorems about the file; [D] lists the dimensions,
    [S] the strings. *)
Record calls_fine (D S : list bytes) (es : list event) : Prop := {
  cf_vars : forall p n v, last_var es p n = Some v -> zlen n < 256 /\ fine_var v;
  cf_groups : forall p n, group_made es (p ++ [n]) -> zlen n < 256;
  cf_attrs : forall p, fine_attrs (last_attrs es p);
  cf_names : forall p n, last_var es p n <> None -> ~ group_made es (p ++ [n]);
  cf_dims : forall d, dimension es d -> In d D /\ no_dimref d /\ ~ group_made es [d];
  cf_marked : forall n, dimension es n -> last_var es [] n <> None -> forall r, n <> marker ++ r;
  cf_strings : forall v s, value_in es v -> In s (strings_of v) -> no_dimref s;
  cf_heap : forall v s, value_in es v -> In s (heap_strings v) -> In s S;
  cf_count : zlen S + zlen D + sequences_in es <= 65535;
  cf_size : zlen es + zlen D <= 32000 }.

(** ** What is read *)
(** An attribute that is a slice of one element is read as that element. *)
Definition read_back (v : hval) : hval :=
  match v with
  | HSlice _ [x] => x
  | HEnum (HSlice _ [x]) names vals => HEnum x names vals
  | _ => v
  end.
(** The attributes [l], in their order; [_NCProperties], which the writer adds to the root, is not
    among the keys. *)
Definition attrs_as (l : hattrs) (m : omap hval) : Prop :=
  om_keys_visible m = map fst l /\
  forall k, k <> bs "_NCProperties" -> om_get m k = option_map read_back (assoc k l).
