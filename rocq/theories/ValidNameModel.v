(** Model of internal/validname.go over an abstract Unicode classification. *)
From Verif Require Import Prelude.

(** Unicode general categories used by the patterns (validname.go:11,13):
    \pL letters, \pN numbers, \pC other/control, \pZ separators.  The Unicode tables
    themselves are a parameter; [ucd_ascii] below states what is assumed of them. *)
Record ucd : Type := mkUcd { uL : Z -> bool; uN : Z -> bool; uC : Z -> bool; uZ : Z -> bool }.

Definition ascii_letter (c : Z) : bool :=
  ((65 <=? c) && (c <=? 90)) || ((97 <=? c) && (c <=? 122)).
Definition ascii_digit (c : Z) : bool := (48 <=? c) && (c <=? 57).
Definition ascii_control (c : Z) : bool := (c <=? 31) || (c =? 127).
Definition ascii_sep (c : Z) : bool := c =? 32.

(** Assumption about the Unicode tables: their ASCII part. *)
Definition ucd_ascii (U : ucd) : Prop :=
  forall c, 0 <= c < 128 ->
    uL U c = ascii_letter c /\ uN U c = ascii_digit c /\
    uC U c = ascii_control c /\ uZ U c = ascii_sep c.

(** A classification good enough for concrete examples: everything above ASCII is a letter. *)
Definition ucd_example : ucd :=
  mkUcd (fun c => ascii_letter c || (128 <=? c)) ascii_digit ascii_control ascii_sep.

(** UTF-8 decoding as done by Go's regexp on strings (unicode/utf8.DecodeRuneInString):
    invalid input yields U+FFFD with width one. *)
Definition cont (b : Z) : bool := (128 <=? b) && (b <=? 191).
Definition runeError : Z := 65533.
Definition decode1 (s : bytes) : option (Z * bytes) :=
  match s with
  | [] => None
  | b0 :: r =>
    if b0 <? 128 then Some (b0, r)
    else
      match r with
      | b1 :: r1 =>
        if (194 <=? b0) && (b0 <=? 223) && cont b1
        then Some ((b0 - 192) * 64 + (b1 - 128), r1)
        else
        match r1 with
        | b2 :: r2 =>
          if (224 <=? b0) && (b0 <=? 239) && cont b1 && cont b2
             && (negb (b0 =? 224) || (160 <=? b1)) && (negb (b0 =? 237) || (b1 <=? 159))
          then Some (((b0 - 224) * 64 + (b1 - 128)) * 64 + (b2 - 128), r2)
          else
          match r2 with
          | b3 :: r3 =>
            if (240 <=? b0) && (b0 <=? 244) && cont b1 && cont b2 && cont b3
               && (negb (b0 =? 240) || (144 <=? b1)) && (negb (b0 =? 244) || (b1 <=? 143))
            then Some ((((b0 - 240) * 64 + (b1 - 128)) * 64 + (b2 - 128)) * 64 + (b3 - 128), r3)
            else Some (runeError, r)
          | [] => Some (runeError, r)
          end
        | [] => Some (runeError, r)
        end
      | [] => Some (runeError, r)
      end
  end.
Fixpoint runes_fuel (fuel : nat) (s : bytes) : list Z :=
  match fuel with
  | O => []
  | S f => match decode1 s with
           | None => []
           | Some (c, r) => c :: runes_fuel f r
           end
  end.
Definition runes (s : bytes) : list Z := runes_fuel (List.length s) s.

(** validname.go:11: ^[\pL\pN][^\pC/]*$ *)
Definition re_match (U : ucd) (cs : list Z) : bool :=
  match cs with
  | [] => false
  | c :: r => (uL U c || uN U c) && forallb (fun c => negb (uC U c) && negb (c =? 47)) r
  end.
(** validname.go:13: \pZ$ *)
Definition antire_match (U : ucd) (cs : list Z) : bool :=
  match rev cs with
  | [] => false
  | c :: _ => uZ U c
  end.
(** validname.go:34-36 *)
Definition valid_name (U : ucd) (name : bytes) : bool :=
  re_match U (runes name) && negb (antire_match U (runes name)).
