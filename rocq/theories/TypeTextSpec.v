(** What a datatype is, apart from how it is stored, and how CDL and Go write it.  Nothing in this
    file refers to the models, but for the decimal digits of a number, which are characterised in
    [number_text]. *)
From Verif Require Import Prelude GoVal.

(** Integers and floats of so many bytes, texts, opaque data, structures, enumerations, sequences
    of any length, and arrays of fixed dimensions *)
Inductive shape : Type :=
| SInt (n : Z) (sg : bool)
| SFloat (n : Z)
| SText
| SOpaque (n : Z)
| SStruct (ms : list (bytes * shape))
| SEnum (n : Z) (sg : bool) (vals : list (bytes * Z))
| SSeq (s : shape)
| SArray (dims : list Z) (s : shape).

(** [s] writes [n] in decimal: no digit is missing, none is superfluous *)
Fixpoint value (acc : Z) (s : bytes) : Z :=
  match s with [] => acc | c :: r => value (10 * acc + (c - 48)) r end.
Definition is_digit (c : Z) : Prop := 48 <= c <= 57.
Definition natural_text (n : Z) (s : bytes) : Prop :=
  Forall is_digit s /\ value 0 s = n /\ (s = [48] \/ exists c r, s = c :: r /\ c <> 48).
Definition number_text (n : Z) (s : bytes) : Prop :=
  (0 <= n /\ natural_text n s) \/ (n < 0 /\ exists t, s = 45 :: t /\ natural_text (- n) t).

(** ** A language: how it writes a type whose parts have been written already *)
Record language : Type := mkLanguage {
  l_int : Z -> bool -> bytes;
  l_float : Z -> bytes;
  l_opaque : Z -> bytes;
  l_struct : list (bytes * bytes) -> bytes;       (* name and type *)
  l_enum : Z -> bool -> list (bytes * Z) -> bytes;
  l_seq : bytes -> bytes;
  l_array : list Z -> bytes -> bytes }.

(** the lines of a text *)
Definition newline : Z := 10.
Definition line (s : bytes) : bytes := s ++ [newline].
Definition separated (sep : bytes) (l : list bytes) : bytes :=
  match l with [] => [] | x :: r => x ++ flat_map (fun y => sep ++ y) r end.

(** Types that can have a name of their own *)
Definition nameable (s : shape) : bool :=
  match s with SOpaque _ | SStruct _ | SEnum _ _ _ | SSeq _ => true | _ => false end.

Fixpoint shape_eqb (a b : shape) : bool :=
  match a, b with
  | SInt n sg, SInt n' sg' => (n =? n') && Bool.eqb sg sg'
  | SFloat n, SFloat n' => n =? n'
  | SText, SText => true
  | SOpaque n, SOpaque n' => n =? n'
  | SStruct ms, SStruct ms' =>
      (fix go l l' := match l, l' with
                      | [], [] => true
                      | (n, s) :: r, (n', s') :: r' => beqb n n' && shape_eqb s s' && go r r'
                      | _, _ => false
                      end) ms ms'
  | SEnum n sg l, SEnum n' sg' l' =>
      (n =? n') && Bool.eqb sg sg' && beqb (map snd l) (map snd l') &&
      (fix go l l' := match l, l' with
                      | [], [] => true
                      | a :: r, b :: r' => beqb (fst a) (fst b) && go r r'
                      | _, _ => false
                      end) l l'
  | SSeq s, SSeq s' => shape_eqb s s'
  | SArray d s, SArray d' s' => beqb d d' && shape_eqb s s'
  | _, _ => false
  end.

(** the name that [F] has for a type *)
Definition name_of (F : list (bytes * shape)) (s : shape) : option bytes :=
  if nameable s
  then match find (fun e => shape_eqb (snd e) s) F with Some (n, _) => Some n | None => None end
  else None.

(** ** The text of a type: every part of it that is one of the types [F] is written by its name *)
Fixpoint text (L : language) (F : list (bytes * shape)) (s : shape) : bytes :=
  match name_of F s with
  | Some n => n
  | None =>
      match s with
      | SInt n sg => l_int L n sg
      | SFloat n => l_float L n
      | SText => bs "string"
      | SOpaque n => l_opaque L n
      | SStruct ms => l_struct L (map (fun m => match m with (n, t) => (n, text L F t) end) ms)
      | SEnum n sg vals => l_enum L n sg vals
      | SSeq t => l_seq L (text L F t)
      | SArray dims t => l_array L dims (text L F t)
      end
  end.

(** ** CDL *)
Section Languages.
  (** how numbers are written *)
  Variable num : Z -> bytes.

  Definition cdl_int (n : Z) (sg : bool) : bytes :=
    match n, sg with
    | 1, true => bs "byte" | 1, false => bs "ubyte"
    | 2, true => bs "short" | 2, false => bs "ushort"
    | 4, true => bs "int" | 4, false => bs "uint"
    | 8, true => bs "int64" | 8, false => bs "uint64"
    | _, _ => []
    end.
  Definition cdl_float (n : Z) : bytes := if n =? 4 then bs "float" else bs "double".
  Definition CDL : language := mkLanguage
    cdl_int cdl_float
    (fun n => bs "opaque(" ++ num n ++ bs ")")
    (fun ms => line (bs "compound {")
               ++ flat_map (fun m => line ([9] ++ snd m ++ bs " " ++ fst m ++ bs ";")) ms
               ++ bs "}")
    (fun n sg vals => line (cdl_int n sg ++ bs " enum {")
                      ++ line (separated (line (bs ",")) (map (fun v => [9] ++ fst v ++ bs " = " ++ num (snd v)) vals))
                      ++ bs "}")
    (fun t => t ++ bs "(*)")
    (fun dims t => t ++ bs "(" ++ separated (bs ",") (map num dims) ++ bs ")").

  (** ** Go; the constants of an enumeration belong to the type [name] *)
  Definition go_int (n : Z) (sg : bool) : bytes :=
    match n, sg with
    | 1, true => bs "int8" | 1, false => bs "uint8"
    | 2, true => bs "int16" | 2, false => bs "uint16"
    | 4, true => bs "int32" | 4, false => bs "uint32"
    | 8, true => bs "int64" | 8, false => bs "uint64"
    | _, _ => []
    end.
  Definition go_float (n : Z) : bytes := if n =? 4 then bs "float32" else bs "float64".
  Definition go_constants (name : bytes) (vals : list (bytes * Z)) : list bytes :=
    match vals with
    | [] => []
    | v :: r => ([9] ++ fst v ++ bs " " ++ name ++ bs " = " ++ num (snd v))
                :: map (fun v => [9] ++ fst v ++ bs " = " ++ num (snd v)) r
    end.
  Definition Golang (name : bytes) : language := mkLanguage
    go_int go_float
    (fun n => bs "[" ++ num n ++ bs "]uint8")
    (fun ms => line (bs "struct {")
               ++ line (separated [newline] (map (fun m => [9] ++ fst m ++ bs " " ++ snd m) ms))
               ++ line (bs "}"))
    (fun n sg vals => line (go_int n sg) ++ line (bs "const (")
                      ++ line (separated [newline] (go_constants name vals))
                      ++ line (bs ")"))
    (fun t => bs "[]" ++ t)
    (fun dims t => flat_map (fun d => bs "[" ++ num d ++ bs "]") dims ++ t).
End Languages.

(** ** Types and names for which a text says what the type is *)

(** characters of names: no blank, opening bracket or semicolon, nor a newline *)
Definition plain_char (c : Z) : Prop := c <> 32 /\ c <> 40 /\ c <> 91 /\ c <> 59 /\ c <> 10.
Definition plain_name (n : bytes) : Prop := Forall plain_char n.

(** Sizes that exist, and plain names in it *)
Fixpoint proper_shape (s : shape) : Prop :=
  match s with
  | SInt n _ => n = 1 \/ n = 2 \/ n = 4 \/ n = 8
  | SFloat n => n = 4 \/ n = 8
  | SText => True
  | SOpaque n => 0 <= n
  | SStruct ms => (fix go l := match l with
                               | [] => True
                               | (n, t) :: r => plain_name n /\ proper_shape t /\ go r
                               end) ms
  | SEnum n _ vals => (n = 1 \/ n = 2 \/ n = 4 \/ n = 8) /\ Forall (fun v => plain_name (fst v)) vals
  | SSeq t => proper_shape t
  | SArray dims t => Forall (fun d => 0 <= d) dims /\ proper_shape t
  end.

(** words that a type cannot have as its name, if its name is to be told from them *)
Definition cdl_words : list bytes :=
  [bs "byte"; bs "ubyte"; bs "short"; bs "ushort"; bs "int"; bs "uint"; bs "int64"; bs "uint64";
   bs "float"; bs "double"; bs "string"; bs "opaque"; bs "compound"].
Definition go_words : list bytes :=
  [bs "int8"; bs "uint8"; bs "int16"; bs "uint16"; bs "int32"; bs "uint32"; bs "int64"; bs "uint64";
   bs "float32"; bs "float64"; bs "string"; bs "struct"].
Definition type_name (words : list bytes) (n : bytes) : Prop :=
  n <> [] /\ plain_name n /\ ~ In n words.

(** The types of a group: proper, of different names, of different shapes if they can be named,
    and no arrays, which cannot be *)
Definition proper_types (words : list bytes) (F : list (bytes * shape)) : Prop :=
  NoDup (map fst F) /\
  (forall n n' s, In (n, s) F -> In (n', s) F -> nameable s = true -> n = n') /\
  (forall n s, In (n, s) F -> type_name words n /\ proper_shape s /\ forall d t, s <> SArray d t).

(** those not excluded *)
Definition without (X : list bytes) (F : list (bytes * shape)) : list (bytes * shape) :=
  filter (fun e => negb (mem (fst e) X)) F.

(** In Go an array of several dimensions is an array of arrays, and opaque data an array of bytes.
    These types are not written like others. *)
Fixpoint go_shape (s : shape) : Prop :=
  match s with
  | SStruct ms => (fix go l := match l with [] => True | (_, t) :: r => go_shape t /\ go r end) ms
  | SSeq t => go_shape t
  | SArray dims t => dims <> [] /\ (forall d u, t <> SArray d u) /\ t <> SInt 1 false /\ go_shape t
  | _ => True
  end.
