(* C40, C62: exactly which strings the deserializers of the traces accept, and the value each denotes.  The specification is SerdeSpec.v.
   - characters are numbers (48 is '0', 120 is 'x', 43 is '+', 95 is '_')
   - hb_parse LEN reads a fixed-length byte string (HexBytes<LEN>), de_uint_hex and de_uint_bin a number; None is an error *)
From Coq Require Import ZArith List Bool.
From Verif Require Import Serde SerdeSpec SerdeExact.
Import ListNotations.
Open Scope Z_scope.

(* byte i of an accepted string is the number its digits 2i and 2i+1 denote *)
Theorem C40_parsed_digits : forall LEN s l, hb_parse LEN s = Some l -> exists d, (s = d \/ s = [48; 120] ++ d) /\ length d = (2 * LEN)%nat /\
  forall i, (i < LEN)%nat -> nth i l 0 = 16 * digit_value (nth (2 * i) d 0) + digit_value (nth (2 * i + 1) d 0).
Proof. exact parsed_digits. Qed.
Example C40_digits_case : hb_parse 2 [48; 120; 65; 98; 48; 53] = Some [171; 5] /\ digit_value 65 = 10 /\ digit_value 98 = 11.
Proof. repeat split. Qed.

(* "0x" alone is zero; otherwise, after an optional 0x and an optional plus sign, a digit followed by digits and underscores *)
Theorem C62_hexadecimal : forall s v, de_uint_hex s = Some v <->
  s = [48; 120] /\ v = 0 \/ exists b t, (s = b \/ s = [48; 120] ++ b) /\ signed hex_digit_char b t /\ v = denotes 16 t.
Proof. exact hex_iff. Qed.
Theorem C62_binary : forall s v, de_uint_bin s = Some v <-> exists t, signed bin_digit_char s t /\ v = denotes 2 t.
Proof. exact bin_iff. Qed.
(* "0x1_fF" is 511, "+10" in binary is 2; "_1", "++1", "0x0x1" and "12" in binary are refused *)
Example C62_case : de_uint_hex [48; 120; 49; 95; 102; 70] = Some 511 /\ denotes 16 [49; 95; 102; 70] = 511 /\ de_uint_bin [43; 49; 48] = Some 2 /\ denotes 2 [49; 48] = 2 /\
  de_uint_hex [95; 49] = None /\ de_uint_hex [43; 43; 49] = None /\ de_uint_hex [48; 120; 48; 120; 49] = None /\ de_uint_bin [49; 50] = None.
Proof. repeat split. Qed.
Example C62_spec_case : signed hex_digit_char [43; 49; 95; 102] [49; 95; 102] /\ signed bin_digit_char [49; 95; 48] [49; 95; 48].
Proof.
  split; split; [right; reflexivity| |left; reflexivity|].
  - split; [left; split; discriminate|]. constructor; [right; reflexivity|]. constructor; [left; right; right; split; discriminate|constructor].
  - split; [right; reflexivity|]. constructor; [right; reflexivity|]. constructor; [left; left; reflexivity|constructor].
Qed.
Print Assumptions C40_parsed_digits. Print Assumptions C62_hexadecimal. Print Assumptions C62_binary.
