(** The texts in which the HDF5 reader describes types, in CDL and in Go: cdlTypeString and
    goTypeString of the type managers (fixedPoint.go:22-58, floatingPoint.go:22-42,
    string.go:15-21, opaque.go:18-34, compound.go:25-53, reference.go:19-27, enum.go:24-64,
    vlen.go:18-48, array.go:16-44), the dispatch types.go:109-115, and from hdf5.go findSignature
    (3060-3083), findType (2948-2955), getTypeObj, GetType and GetGoType (2957-3008), the
    callbacks for the types of global attributes (2908-2946) and the types that GetVarGetter gives
    (3350-3353).

    A group's children are in a Go map, and every loop over it has an order of its own.  So a text
    is not a function of the file: the model gives the set of the possible outcomes, and every
    call of findSignature goes through the children in some order.

    Simplifications: the texts are those of types as the model of the datatype parser gives them
    (H5TypeRead); the obsolete time class, whose text is empty, is not among them.  The lengths of
    the lists of names and values of an enumeration agree. *)
From Coq Require Import Permutation.
From Verif Require Import Prelude GoVal H5Base H5Value H5TypeRead H5FileRead.

(** ** Sets of outcomes *)
Definition M (A : Type) := res A -> Prop.
Definition mret {A} (a : A) : M A := fun r => r = Ok a.
Definition mfail {A} (e : err) : M A := fun r => r = Err e.
Definition mpanic {A} : M A := fun r => r = Panic.
Definition mbind {A B} (m : M A) (f : A -> M B) : M B :=
  fun r => (exists a, m (Ok a) /\ f a r) \/ (exists e, m (Err e) /\ r = Err e) \/ (m Panic /\ r = Panic).
Definition mopt {A} (o : option A) : M A := match o with Some a => mret a | None => mpanic end.

(** fmt's %d and %v of an integer *)
Fixpoint digits (fuel : nat) (n : Z) : bytes :=
  match fuel with
  | O => []
  | S k => (if n <? 10 then [] else digits k (n / 10)) ++ [48 + n mod 10]
  end.
Definition decimal (n : Z) : bytes :=
  if n <? 0 then 45 :: digits (Z.to_nat (Z.log2 (- n)) + 1) (- n) else digits (Z.to_nat (Z.log2 n) + 1) n.
Definition value_text (v : hval) : bytes := match v with HNum _ z => decimal z | _ => [] end.

(** strings.Join *)
Fixpoint join (sep : bytes) (l : list bytes) : bytes :=
  match l with
  | [] => []
  | [x] => x
  | x :: r => x ++ sep ++ join sep r
  end.

Definition nl : bytes := [10].
Definition tab : bytes := [9].

(** ** The parts of a text, in one of the two languages *)
Record style : Type := mkStyle {
  s_fixed : Z -> bool -> option bytes;
  s_float : Z -> option bytes;
  s_opaque : Z -> bytes;
  s_comp : list (bytes * bytes) -> bytes;      (* names and types of the members *)
  s_enum : bytes -> list (bytes * bytes) -> bytes;  (* names and values *)
  s_vlen : bytes -> bytes;
  s_array : list Z -> bytes -> bytes }.

Definition unsigned_prefix (sg : bool) : bytes := if sg then [] else bs "u".

(** fixedPoint.go:22-39 *)
Definition cdlFixed (len : Z) (sg : bool) : option bytes :=
  if len =? 1 then Some (unsigned_prefix sg ++ bs "byte")
  else if len =? 2 then Some (unsigned_prefix sg ++ bs "short")
  else if len =? 4 then Some (unsigned_prefix sg ++ bs "int")
  else if len =? 8 then Some (unsigned_prefix sg ++ bs "int64")
  else None.
(** fixedPoint.go:41-58 *)
Definition goFixed (len : Z) (sg : bool) : option bytes :=
  if len =? 1 then Some (unsigned_prefix sg ++ bs "int8")
  else if len =? 2 then Some (unsigned_prefix sg ++ bs "int16")
  else if len =? 4 then Some (unsigned_prefix sg ++ bs "int32")
  else if len =? 8 then Some (unsigned_prefix sg ++ bs "int64")
  else None.
(** floatingPoint.go:22-31 and 33-42 *)
Definition cdlFloat (len : Z) : option bytes :=
  if len =? 4 then Some (bs "float") else if len =? 8 then Some (bs "double") else None.
Definition goFloat (len : Z) : option bytes :=
  if len =? 4 then Some (bs "float32") else if len =? 8 then Some (bs "float64") else None.
(** opaque.go:19 and 28 *)
Definition cdlOpaque (len : Z) : bytes := bs "opaque(" ++ decimal len ++ bs ")".
Definition goOpaque (len : Z) : bytes := bs "[" ++ decimal len ++ bs "]uint8".
(** compound.go:26-32 and 41-47 *)
Definition cdlCompound (ms : list (bytes * bytes)) : bytes :=
  bs "compound {" ++ nl ++
  join [] (map (fun m => tab ++ snd m ++ bs " " ++ fst m ++ bs ";" ++ nl) ms) ++ bs "}".
Definition goCompound (ms : list (bytes * bytes)) : bytes :=
  bs "struct {" ++ nl ++
  join nl (map (fun m => tab ++ fst m ++ bs " " ++ snd m) ms) ++ nl ++ bs "}" ++ nl.
(** enum.go:30-35 and 49-58; [name] is the name of the variable or type *)
Definition cdlEnum (ty : bytes) (l : list (bytes * bytes)) : bytes :=
  ty ++ bs " enum {" ++ nl ++
  join (bs "," ++ nl) (map (fun m => tab ++ fst m ++ bs " = " ++ snd m) l) ++ nl ++ bs "}".
Definition goEnumItems (name : bytes) (l : list (bytes * bytes)) : list bytes :=
  match l with
  | [] => []
  | m :: r => (tab ++ fst m ++ bs " " ++ name ++ bs " = " ++ snd m)
              :: map (fun m => tab ++ fst m ++ bs " = " ++ snd m) r
  end.
Definition goEnum (name : bytes) (ty : bytes) (l : list (bytes * bytes)) : bytes :=
  ty ++ nl ++ bs "const (" ++ nl ++ join nl (goEnumItems name l) ++ nl ++ bs ")" ++ nl.
(** vlen.go:26 and 42 *)
Definition cdlVlen (ty : bytes) : bytes := ty ++ bs "(*)".
Definition goVlen (ty : bytes) : bytes := bs "[]" ++ ty.
(** array.go:20-25 and 35-40 *)
Definition cdlArray (dims : list Z) (ty : bytes) : bytes :=
  ty ++ bs "(" ++ join (bs ",") (map decimal dims) ++ bs ")".
Definition goArray (dims : list Z) (ty : bytes) : bytes :=
  join [] (map (fun d => bs "[" ++ decimal d ++ bs "]") dims) ++ ty.

Definition cdlStyle : style :=
  mkStyle cdlFixed cdlFloat cdlOpaque cdlCompound cdlEnum cdlVlen cdlArray.
Definition goStyle (name : bytes) : style :=
  mkStyle goFixed goFloat goOpaque goCompound (goEnum name) goVlen goArray.

(** ** The texts *)

(** What findSignature sees of a child that is a type: its key, its name, and its datatype.  A
    child without a datatype has class 0 and length 0. *)
Definition tdef : Type := bytes * (bytes * option dty).

(** hdf5.go:3064-3081, over the types in the order of [l] *)
Fixpoint signatureLoop (print : list bytes -> option dty -> M bytes) (X : list bytes) (sig : bytes)
  (l : list tdef) : M bytes :=
  match l with
  | [] => mret []
  | (key, (name, t)) :: r =>
      if mem key X then signatureLoop print X sig r
      else mbind (print (key :: X) t)
             (fun s => if negb (beqb s []) && beqb s sig then mret name
                       else signatureLoop print X sig r)
  end.

(** The texts for the types [env] of a group; [X] are the names for which origNames is true.
    [depth] bounds how often findSignature is within itself: every time there is one more type in
    [X], so the number of types is enough. *)
Section Texts.
  Variable st : style.
  Variable env : list tdef.

  Fixpoint typeString (depth : nat) : list bytes -> dty -> M bytes :=
    fun X =>
    let findSignature := fun sig : bytes =>
      match depth with
      | O => mret []
      | S k => fun r => exists l, Permutation env l /\
                 signatureLoop (fun X' t => match t with Some d => typeString k X' d | None => mpanic end)
                   X sig l r
      end in
    (* the name if there is one *)
    let named := fun sig : bytes =>
      mbind (findSignature sig) (fun n => mret (match n with [] => sig | _ => n end)) in
    fix go (d : dty) : M bytes :=
      match d with
      | DFixed len sg _ => mopt (s_fixed st len sg)
      | DFloat len _ => mopt (s_float st len)
      | DString _ => mret (bs "string")
      | DRef _ => mret (bs "uint64")
      | DOpaque len => named (s_opaque st len)
      | DComp _ ms =>
          mbind ((fix members (ms : list (bytes * Z * list Z * dty)) : M (list (bytes * bytes)) :=
                    match ms with
                    | [] => mret []
                    | (n, _, _, t) :: r =>
                        mbind (go t) (fun s => mbind (members r) (fun l => mret ((n, s) :: l)))
                    end) ms)
            (fun l => named (s_comp st l))
      | DEnum _ blen sg _ names vals =>
          mbind (mopt (s_fixed st blen sg))
            (fun ty => named (s_enum st ty (combine names (map value_text vals))))
      | DVlen _ true _ => mret (bs "string")
      | DVlen _ false t => mbind (go t) (fun ty => named (s_vlen st ty))
      | DArray _ dims t =>
          mbind (go t) (fun ty =>
          mbind (findSignature (s_array st dims ty)) (fun n =>
          match n with
          | [] => mret (s_array st dims ty)
          | _ => mfail EInternal
          end))
      end.
End Texts.

(** ** The calls *)

(** The children that findSignature does not pass over: hdf5.go:3065-3074 *)
Definition typeDefs (o : robj) : list tdef :=
  flat_map (fun c => if ri_group (r_info (snd c)) || isDimensionScale (r_attrs (snd c)) then []
                     else match ri_dims (r_info (snd c)) with
                          | Some _ => []
                          | None => [(fst c, (ri_name (r_info (snd c)), ri_ty (r_info (snd c))))]
                          end) (r_children o).

(** [ty]: the type of the object, of class 0 and length 0 if it has none *)
Definition textOf (st : style) (o : robj) (X : list bytes) (ty : option dty) : M bytes :=
  match ty with
  | Some d => typeString st (typeDefs o) (List.length (typeDefs o)) X d
  | None => mpanic
  end.

(** hdf5.go:3350-3353: the CDL and the Go type of a variable; findType (2948-2955) is the first of them *)
Definition variableTypes (h : rhandle) (name : bytes) : M (option (bytes * bytes)) :=
  match findVariable h name with
  | None => mret None
  | Some o =>
      mbind (textOf cdlStyle (rh_obj h) [name] (ri_ty (r_info o))) (fun ty =>
      mbind (textOf (goStyle name) (rh_obj h) [name] (ri_ty (r_info o))) (fun gty =>
      mret (Some (ty, gty))))
  end.

(** hdf5.go:2957-2984: getTypeObj and GetType *)
Definition getType (h : rhandle) (name : bytes) : M (option bytes) :=
  match assoc name (r_children (rh_obj h)) with
  | None => mret None
  | Some o =>
      match ri_dims (r_info o) with
      | Some _ => mret None
      | None =>
          if ri_group (r_info o) then mret None
          else match r_attrs o with
               | _ :: _ => mfail EInternal
               | [] => mbind (textOf cdlStyle (rh_obj h) [name] (ri_ty (r_info o)))
                         (fun s => mret (Some s))
               end
      end
  end.
(** hdf5.go:2987-3008 *)
Definition getGoType (h : rhandle) (name : bytes) : M (option bytes) :=
  match assoc name (r_children (rh_obj h)) with
  | None => mret None
  | Some o =>
      match r_attrs o, ri_dims (r_info o) with
      | [], None =>
          if ri_group (r_info o) then mret None
          else mbind (textOf (goStyle name) (rh_obj h) [name] (ri_ty (r_info o)))
                 (fun s => mret (Some (bs "type " ++ name ++ bs " " ++ s)))
      | _, _ => mret None
      end
  end.

(** hdf5.go:2908-2926 and 2928-2946: the type of an attribute of the root group, with a mark for
    every dimension unless there is just one element *)
Definition dimMarks (mark : bytes) (dims : list Z) : bytes :=
  match dims with
  | [1] => []
  | _ => List.concat (map (fun _ => mark) dims)
  end.
Definition globalAttrType (root : robj) (group : robj) (name : bytes) : M bytes :=
  match find (fun a => beqb (ra_name a) name) (r_attrs root) with
  | None => mfail EInternal
  | Some a => mbind (textOf cdlStyle group [] (Some (ra_ty a)))
                (fun s => mret (s ++ dimMarks (bs "(*)") (ra_dims a)))
  end.
Definition globalAttrGoType (root : robj) (group : robj) (name : bytes) : M bytes :=
  match find (fun a => beqb (ra_name a) name) (r_attrs root) with
  | None => mfail EInternal
  | Some a => mbind (textOf (goStyle name) group [] (Some (ra_ty a)))
                (fun s => mret (dimMarks (bs "[]") (ra_dims a) ++ s))
  end.

(** hdf5.go:2752-2758, without registrations: the text with which cast begins.  The values of a
    compound, an enumeration, opaque data or a sequence are read after it (compound.go:57,
    enum.go:70, opaque.go:38, vlen.go:108). *)
Definition castText (o : robj) (d : dty) : M bytes :=
  textOf (goStyle (bs "junk")) o [bs "junk"] (Some d).
