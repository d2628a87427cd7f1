(* Properties C38-C44 and C46: conversions, random linear combinations, serialisation.  Only statements; the proofs are
   in UtilProofs.v, UtilMain.v, RlcProofs.v and SerdeProofs.v.
   - be_val l: the number whose big-endian bytes are l; be_bytes k x: the k big-endian bytes of x; bytes_ok l: every
     element of l is in 0..255; fz: integer to field element; val: canonical representative
   - 48, 120 are the characters '0' and 'x'; hex_val c is the value of a hexadecimal digit *)
From Coq Require Import ZArith List Bool Lia.
From Verif Require Import Pocklington Fr Query Builder BuilderProofs Gadgets MptUpdate Fixed Bytes TrieSpec TableSpec UpdateRows UpdateSound UpdateProps Util UtilProofs RlcProofs Serde SerdeProofs UtilMain.
Import ListNotations.
Open Scope Z_scope.

(** * C38 *)
Theorem C38_word_splitting : forall x, 0 <= x < 2 ^ 256 ->
  exists hi lo, u256_hi_lo x = (hi, lo) /\ split_word x = (fz hi, fz lo) /\ hi_lo x = (fz hi, fz lo) /\
    hi * 2 ^ 128 + lo = x /\ 0 <= hi < 2 ^ 128 /\ 0 <= lo < 2 ^ 128 /\
    forall r, rlc (u256_to_big_endian x) r = (rlc (be_bytes 16 hi) r * fpow r 16 + rlc (be_bytes 16 lo) r)%fr.
Proof. exact word_split. Qed.
Example C38_case : split_word (2 ^ 255 + 17) = (fz (2 ^ 127), fz 17) /\ 0 <= 2 ^ 255 + 17 < 2 ^ 256.
Proof. split; [|lia]. destruct (word_split (2 ^ 255 + 17) ltac:(lia)) as (hi & lo & E & -> & _).
  assert (E' : u256_hi_lo (2 ^ 255 + 17) = (2 ^ 127, 17)) by (vm_compute; reflexivity). congruence. Qed.

(** * C39 *)
Theorem C39_rlc_closed_form : forall l r, rlc l r =
  fold_right (fun p acc => (fz (snd p) * fpow r (length l - 1 - fst p) + acc)%fr) f0 (combine (seq 0 (length l)) l).
Proof. exact rlc_sum. Qed.
Theorem C39_rlc_concatenation : forall a b r, rlc (a ++ b) r = (rlc a r * fpow r (length b) + rlc b r)%fr.
Proof. exact rlc_app. Qed.
Theorem C39_rlc_leading_zeros : forall k l r, rlc (repeat 0 k ++ l) r = rlc l r.
Proof. exact rlc_zeros. Qed.
Theorem C39_rlc_at_256 : forall l, rlc l (fz 256) = fz (be_val l).
Proof. exact rlc_256. Qed.
Theorem C39_rlc_binding : forall l l', bytes_ok l -> bytes_ok l' -> length l = length l' -> l <> l' ->
  forall challenges, NoDup challenges -> Forall (fun r => rlc l r = rlc l' r) challenges -> (length challenges < length l)%nat.
Proof. exact rlc_agree. Qed.
(* the bound is attained: [1; 0] and [0; 7] agree at the challenge 7 *)
Example C39_case : rlc [1; 0] (fz 7) = rlc [0; 7] (fz 7) /\ [1; 0] <> [0; 7] /\ bytes_ok [1; 0] /\ bytes_ok [0; 7].
Proof.
  split; [|split; [congruence|unfold bytes_ok, is_byte; split; repeat constructor; lia]].
  unfold rlc. cbn [fold_left]. change (fz 1) with f1. change (fz 0) with f0. ring.
Qed.

(** * C40 *)
Theorem C40_hex_bytes_round_trip : forall LEN l, length l = LEN -> bytes_ok l -> hb_parse LEN (hb_serialize LEN l) = Some l.
Proof. exact hb_roundtrip. Qed.
Theorem C40_prefix_optional : forall LEN s, starts_with_0x s = false -> hb_parse LEN ([48; 120] ++ s) = hb_parse LEN s.
Proof. exact hb_parse_prefix. Qed.
Theorem C40_accepted_strings : forall LEN s, (exists l, hb_parse LEN s = Some l) <->
  hex_string (2 * LEN) s \/ exists s', s = [48; 120] ++ s' /\ hex_string (2 * LEN) s'.
Proof. exact hb_parse_iff. Qed.
Theorem C40_parsed_value : forall LEN s l, hb_parse LEN s = Some l -> length l = LEN /\ bytes_ok l.
Proof. exact hb_parse_bytes. Qed.
Example C40_case : hb_serialize 2 [171; 5] = [48; 120; 97; 98; 48; 53] /\ hb_parse 2 [65; 98; 48; 53] = Some [171; 5] /\ hb_parse 2 [97; 98; 48] = None.
Proof. repeat split. Qed.

(** * C41 *)
Theorem C41_big_integers_round_trip : forall z, 0 <= z -> de_uint_hex (se_uint_hex z) = Some z /\ de_uint_hex (se_uint_hex_fixed32 z) = Some z.
Proof. exact uint_roundtrip. Qed.
Theorem C41_prefix_optional : forall s, s <> [] -> Forall (fun c => hex_val c <> None) s ->
  de_uint_hex s = Some (hex_number s) /\ de_uint_hex ([48; 120] ++ s) = Some (hex_number s).
Proof. exact de_hex. Qed.
Theorem C41_leading_zeros : forall k s, s <> [] -> Forall (fun c => hex_val c <> None) s ->
  de_uint_hex (repeat 48 k ++ s) = de_uint_hex s /\ de_uint_hex ([48; 120] ++ repeat 48 k ++ s) = de_uint_hex ([48; 120] ++ s).
Proof. exact de_leading_zeros. Qed.
Theorem C41_fixed_width : forall z, 0 <= z < 2 ^ 256 -> length (se_uint_hex_fixed32 z) = 66%nat.
Proof. exact fixed32_length. Qed.
Example C41_case : se_uint_hex 4011 = [48; 120; 102; 97; 98] /\ de_uint_hex [48; 70; 65; 98] = Some 4011 /\ de_uint_hex [48; 120] = Some 0 /\ de_uint_hex [] = None.
Proof. repeat split. Qed.

(** * C42: for any row type and is_first flag *)
Theorem C42_row_grouping : forall (R : Type) (is_first : R -> bool) (rows : list R),
  let groups := fold_flattern_rows is_first rows in
  concat groups = rows /\
  Forall (fun g => match g with [] => False | _ :: rest => Forall (fun x => is_first x = false) rest end) groups /\
  Forall (fun g => match g with [] => False | x :: _ => is_first x = true end) (tl groups).
Proof. intros R is_first rows. exact (fold_grouped is_first rows). Qed.
Example C42_case : fold_flattern_rows Z.even [1; 3; 2; 5; 4; 4; 7] = [[1; 3]; [2; 5]; [4]; [4; 7]].
Proof. reflexivity. Qed.

(** * C43 *)
Theorem C43_cast : forall M l, length (hb_cast M l) = M /\
  forall i, (i < M)%nat -> nth i (hb_cast M l) 0 = if (i <? length l)%nat then nth i l 0 else 0.
Proof. exact hb_cast_spec. Qed.
Example C43_case : hb_cast 2 [1; 2; 3] = [1; 2] /\ hb_cast 4 [1; 2; 3] = [1; 2; 3; 0].
Proof. split; reflexivity. Qed.

(** * C44: address_high / address_low are the two cells that assign_single_proof writes into the first two intermediate
      values of the start row (see UpdateAssign.v); the table exposes the first expression *)
Theorem C44_exposed_address_and_key : forall H e n, circuit_ok H e n ->
  forall i a, 1 <= i < n -> sg e i = SegStart -> length a = 20%nat -> bytes_ok a ->
  eadv e (iv 0) i = fz (address_high a) -> eadv e (iv 1) i = fz (address_low a) ->
  nth 0 (table_row e i) f0 = fz (be_val a) /\ eadv e MU_key i = account_key H a.
Proof. intros H e n OK i a Hi S L B. exact (address_exposed H e n OK i a Hi S (conj L B)). Qed.
Theorem C44_account_key : forall H a, length a = 20%nat -> bytes_ok a ->
  account_key H a = H (fz (be_val a / 2 ^ 32)) (fz (be_val a mod 2 ^ 32 * 2 ^ 96)) (fdom DPair).
Proof. intros H a L B. exact (account_key_spec H a (conj L B)). Qed.
Theorem C44_split_injective : forall a b, length a = 20%nat -> bytes_ok a -> length b = 20%nat -> bytes_ok b ->
  (fz (address_high a), fz (address_low a)) = (fz (address_high b), fz (address_low b)) -> a = b.
Proof. intros a b L B L' B'. exact (halves_inj a b (conj L B) (conj L' B')). Qed.
Theorem C44_exposed_injective : forall a b, length a = 20%nat -> bytes_ok a -> length b = 20%nat -> bytes_ok b ->
  fz (be_val a) = fz (be_val b) -> a = b.
Proof. intros a b L B L' B'. exact (exposed_inj a b (conj L B) (conj L' B')). Qed.
Example C44_case : let a := [1; 2; 3; 4; 5; 6; 7; 8; 9; 10; 11; 12; 13; 14; 15; 16; 0; 0; 1; 2] in
  length a = 20%nat /\ bytes_ok a /\ address_low a = 258.
Proof. split; [reflexivity|split; [unfold bytes_ok, is_byte; repeat constructor; lia|reflexivity]]. Qed.

(** * C46 *)
Theorem C46_biguint_to_field : forall b, 0 <= b -> fr_from_biguint b = fz b /\ big_uint_to_fr b = fz b /\ (b < modulus -> val (fr_from_biguint b) = b) /\
  val (fr_from_biguint b) = b mod modulus.
Proof. exact biguint_to_field. Qed.
Theorem C46_from_to_bytes : forall x, fr_from_bytes (fr_to_bytes x) = Some x.
Proof. exact fr_from_to. Qed.
Theorem C46_to_from_bytes : forall l x, length l = 32%nat -> bytes_ok l -> fr_from_bytes l = Some x -> fr_to_bytes x = l.
Proof. exact fr_to_from. Qed.
Theorem C46_from_bytes_accepts : forall l, fr_from_bytes l <> None <-> le_val l < modulus.
Proof. exact from_bytes_accepts. Qed.
Theorem C46_bit : forall x i, fr_bit x i = Z.testbit (val x) (Z.of_nat i).
Proof. exact fr_bit_testbit. Qed.
Theorem C46_biguint_to_word : forall z, 0 <= z -> u256_from_biguint z = if z <? 2 ^ 256 then Some z else None.
Proof. exact u256_from_biguint_spec. Qed.
Example C46_case : fr_bit (fz 10) 3 = true /\ fr_bit (fz 10) 2 = false /\ to_u64_digits (2 ^ 64 + 5) = [5; 1] /\ fr_from_bytes (repeat 255 32) = None.
Proof. repeat split. Qed.

Print Assumptions C38_word_splitting. Print Assumptions C39_rlc_closed_form. Print Assumptions C39_rlc_concatenation. Print Assumptions C39_rlc_leading_zeros. Print Assumptions C39_rlc_at_256. Print Assumptions C39_rlc_binding. Print Assumptions C40_hex_bytes_round_trip. Print Assumptions C40_prefix_optional. Print Assumptions C40_accepted_strings. Print Assumptions C40_parsed_value. Print Assumptions C41_big_integers_round_trip. Print Assumptions C41_prefix_optional. Print Assumptions C41_leading_zeros. Print Assumptions C41_fixed_width. Print Assumptions C42_row_grouping. Print Assumptions C43_cast. Print Assumptions C44_exposed_address_and_key. Print Assumptions C44_account_key. Print Assumptions C44_split_injective. Print Assumptions C44_exposed_injective. Print Assumptions C46_biguint_to_field. Print Assumptions C46_from_to_bytes. Print Assumptions C46_to_from_bytes. Print Assumptions C46_from_bytes_accepts. Print Assumptions C46_bit. Print Assumptions C46_biguint_to_word.
