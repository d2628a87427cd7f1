(* Specification of the number strings of the traces (src/serde.rs): numerals and the numbers they denote.  Nothing here refers to the model. *)
From Coq Require Import ZArith List Bool.
Import ListNotations.
Open Scope Z_scope.

(** * Specification: numerals *)
(* the value of a digit: '0'..'9', 'a'..'f', 'A'..'F' *)
Definition digit_value (c : Z) : Z := if c <=? 57 then c - 48 else if c <=? 70 then c - 55 else c - 87.
Definition hex_digit_char (c : Z) : Prop := 48 <= c <= 57 \/ 65 <= c <= 70 \/ 97 <= c <= 102.
Definition bin_digit_char (c : Z) : Prop := c = 48 \/ c = 49.
Definition underscore : Z := 95.
(* the number a list of digits denotes, most significant first; underscores separate *)
Fixpoint denotes (radix : Z) (s : list Z) : Z :=
  match s with
  | [] => 0
  | c :: r => if c =? underscore then denotes radix r
              else digit_value c * radix ^ Z.of_nat (length (filter (fun c => negb (c =? underscore)) r)) + denotes radix r
  end.
(* a numeral: a digit, then digits and underscores *)
Definition numeral (digit : Z -> Prop) (s : list Z) : Prop :=
  match s with [] => False | c :: r => digit c /\ Forall (fun c => digit c \/ c = underscore) r end.
(* an optional plus sign *)
Definition signed (digit : Z -> Prop) (s t : list Z) : Prop := (s = t \/ s = 43 :: t) /\ numeral digit t.
