(* Models of the `configure` functions of the gadgets in /repo/src/gadgets. *)
From Coq Require Import ZArith String List Bool.
From Verif Require Import Pocklington Fr Query Builder.
Import ListNotations.
Open Scope Z_scope.

(** * is_zero.rs *)
Record IsZeroGadget := mkIsZero { iz_value : acol; iz_inv : acol }.             (* 10-14 *)
(* 17-19 *)
Definition iz_current (g : IsZeroGadget) : query := (qone - cur (iz_value g) * cur (iz_inv g))%q.
(* 20-22 *)
Definition iz_previous (g : IsZeroGadget) : query := (qone - prev (iz_value g) * prev (iz_inv g))%q.
(* 52-70; the fresh inverse_or_zero column is part of the record *)
Definition is_zero_configure (g : IsZeroGadget) : cmd :=
  AssertZero "value is 0 or inverse_or_zero is inverse of value"
    (cur (iz_value g) * (qone - cur (iz_value g) * cur (iz_inv g)))%q ;;
  AssertZero "inverse_or_zero is 0 or inverse_or_zero is inverse of value"
    (cur (iz_inv g) * (qone - cur (iz_value g) * cur (iz_inv g)))%q.

(** * one_hot.rs *)
(* The BTreeMap from non-first variants to columns is given by the variants in declaration order
   (which is also the order of the derived Ord, hence of `values()`) and the column function. *)
Record OneHot (T : Type) := mkOneHot {
  oh_eqb : T -> T -> bool; oh_variants : list T; oh_col : T -> acol }.
Arguments oh_eqb {T}. Arguments oh_variants {T}. Arguments oh_col {T}.
Section OneHot.
  Context {T : Type} (o : OneHot T).
  Definition oh_nonfirst : list T := tl (oh_variants o).                        (* one_hot.rs:95-99 *)
  (* `self.columns.get(v)` *)
  Definition oh_get (v : T) : option acol :=
    if existsb (oh_eqb o v) oh_nonfirst then Some (oh_col o v) else None.
  (* one_hot.rs:87-93 *)
  Definition oh_sum (r : Z) : query :=
    fold_left (fun a v => (a + rotation (oh_col o v) r)%q) oh_nonfirst qzero.
  (* one_hot.rs:15-29 *)
  Definition one_hot_configure : cmd :=
    for_each oh_nonfirst (fun v => binary_columns [oh_col o v]) ;;
    assert_ "sum of binary columns in OneHot is 0 or 1" (bor (oh_sum 0) (bnot (oh_sum 0))).
  Definition oh_term (v : T) (r : Z) : query :=
    match oh_get v with None => bnot (oh_sum r) | Some c => rotation c r end.
  (* one_hot.rs:54-65 *)
  Definition oh_matches (vs : list T) (r : Z) : query :=
    fold_left (fun a b => (a + b)%q) (map (fun v => oh_term v r) vs) qzero.
  Definition previous_matches vs := oh_matches vs (-1).                         (* 42-44 *)
  Definition current_matches vs := oh_matches vs 0.                             (* 46-48 *)
  Definition next_matches vs := oh_matches vs 1.                                (* 50-52 *)
  (* one_hot.rs:67-85 current / previous: sum of i * (variant i matches) *)
  Definition oh_index (r : Z) : query :=
    fold_left (fun acc p => (acc + qz (Z.of_nat (fst p)) * oh_term (snd p) r)%q)
      (combine (seq 0 (List.length (oh_variants o))) (oh_variants o)) qzero.
  Definition oh_current := oh_index 0.
  Definition oh_previous := oh_index (-1).
End OneHot.

(** * byte_bit.rs: no constraints; 53-78 the lookup expressions *)
Definition range_check_8_lookup : list query := [fcur BB_index].
Definition range_check_256_lookup : list query := [fcur BB_byte].
Definition byte_bit_lookup : list query := [fcur BB_byte; fcur BB_index; fcur BB_bit].

(** * rlc_randomness.rs:22-24 *)
Definition randomness : query := QChallenge.

(** * byte_representation.rs *)
Definition BR_index_is_zero : IsZeroGadget := mkIsZero BR_index BR_index_inv.
Definition rlc_lookup : list query := [cur BR_value; cur BR_index; cur BR_rlc].  (* 37-45 *)
Definition bytes_lookup : list query := [cur BR_value; cur BR_index].            (* 47-51 *)
(* 54-92 *)
Definition byte_representation_configure : cmd :=
  is_zero_configure BR_index_is_zero ;;
  Condition (fcur BR_is_first) (AssertZero "index is 0 for first row" (cur BR_index)) ;;
  AssertZero "index is 0 or increases by 1"
    (cur BR_index * (cur BR_index - prev BR_index - qone))%q ;;
  assert_equal "current value = previous value * 256 * (index != 0) + byte"
    (cur BR_value)
    (prev BR_value * qz 256 * bnot (iz_current BR_index_is_zero) + cur BR_byte)%q ;;
  assert_equal "current rlc = previous rlc * randomness * (index != 0) + byte"
    (cur BR_rlc)
    (prev BR_rlc * randomness * bnot (iz_current BR_index_is_zero) + cur BR_byte)%q ;;
  AddLookup "0 <= byte < 256" [cur BR_byte] range_check_256_lookup.

(** * canonical_representation.rs *)
Definition CR_difference_is_zero : IsZeroGadget := mkIsZero CR_difference CR_difference_inv.
(* 314-322 *)
Definition canonical_lookup : list query := [cur CR_value; fcur CR_index; cur CR_byte].
(* 324-331 *)
Definition fr_rlc_lookup : list query :=
  [(cur CR_value * fcur CR_index_is_31)%q; (cur CR_rlc * fcur CR_index_is_31)%q].
(* 45-119 *)
Definition canonical_representation_configure : cmd :=
  binary_columns [CR_zero_so_far] ;;
  is_zero_configure CR_difference_is_zero ;;
  assert_equal "difference = modulus_byte - byte"
    (cur CR_difference) (fcur CR_modulus_byte - cur CR_byte)%q ;;
  Condition (fcur CR_index_is_zero) (
    assert_equal "every group of 32 bytes represent value"
      (cur CR_value)
      (fold_left (fun acc x => (acc * qz 256 + x)%q)
         (map (fun i => rotation CR_byte (Z.of_nat i)) (seq 0 32)) qzero) ;;
    assert_ "differences_are_zero_so_far = 1 when index = 0" (cur CR_zero_so_far) ;;
    assert_equal "???????" (cur CR_rlc) (cur CR_byte)) ;;
  Condition (bnot (fcur CR_index_is_zero)) (
    assert_equal "value can only change when index = 0" (cur CR_value) (prev CR_value) ;;
    assert_equal "differences_are_zero_so_far = difference == 0 && differences_are_zero_so_far.previous() when index != 0"
      (cur CR_zero_so_far)
      (band (prev CR_zero_so_far) (iz_previous CR_difference_is_zero)) ;;
    assert_equal "???" (cur CR_rlc) (prev CR_rlc * randomness + cur CR_byte)%q) ;;
  AddLookup "0 <= byte < 256" [cur CR_byte] range_check_256_lookup ;;
  Condition (band (cur CR_zero_so_far) (bnot (iz_current CR_difference_is_zero))) (
    AddLookup "0 <= first nonzero difference < 256" [cur CR_difference] range_check_256_lookup) ;;
  Condition (frot CR_index_is_zero (-31)) (
    assert_ "there is at least 1 nonzero difference"
      (bnot (band (cur CR_zero_so_far) (iz_current CR_difference_is_zero)))).

(** * key_bit.rs *)
Definition key_bit_lookup : list query := [cur KB_value; cur KB_index; cur KB_bit]. (* 169-177 *)
(* 32-87 *)
Definition key_bit_configure : cmd :=
  AddLookup "0 <= index < 256" [cur KB_index] range_check_256_lookup ;;
  AddLookup "0 <= index_div_8 < 256" [cur KB_index_div_8] range_check_256_lookup ;;
  AddLookup "0 <= index_mod_8 < 8" [cur KB_index_mod_8] range_check_8_lookup ;;
  AddLookup "byte in canonical representation"
    [cur KB_value; (qz 31 - cur KB_index_div_8)%q; cur KB_byte] canonical_lookup ;;
  AddLookup "bit is correct" [cur KB_byte; cur KB_index_mod_8; cur KB_bit] byte_bit_lookup ;;
  assert_equal "index = index_div_8 * 8 + index_mod_8"
    (cur KB_index) (cur KB_index_div_8 * qz 8 + cur KB_index_mod_8)%q.

(** * types.rs:24-66 HashDomain and its u64 encoding *)
Inductive HashDomain := DLeaf | Branch0 | Branch1 | Branch2 | Branch3 | DPair | AccountFields.
Definition domain_u64 (d : HashDomain) : Z :=
  match d with
  | DLeaf => 4 | Branch0 => 6 | Branch1 => 7 | Branch2 => 8 | Branch3 => 9
  | DPair => 512 | AccountFields => 1280 end.
Definition qdom (d : HashDomain) : query := qz (domain_u64 d).
Definition fdom (d : HashDomain) : Fr := fz (domain_u64 d).

(** * gadgets/mpt_update/word_rlc.rs:16-62 *)
Definition word_rlc_configure (word_hash high low rlc_word rlc_high rlc_low : acol) : cmd :=
  AddLookup "old_high is 16 bytes" [cur high; qz 15] bytes_lookup ;;
  AddLookup "old_low is 16 bytes" [cur low; qz 15] bytes_lookup ;;
  PoseidonLookup "word_hash = poseidon(high, low)" (cur high) (cur low) (qdom DPair) (cur word_hash) ;;
  AddLookup "rlc_high = rlc(high) and high is 16 bytes" [cur high; qz 15; cur rlc_high] rlc_lookup ;;
  AddLookup "rlc_low = rlc(low) and low is 16 bytes" [cur low; qz 15; cur rlc_low] rlc_lookup ;;
  assert_equal "word_rlc = rlc(high) * randomness ^ 16 + rlc(low)"
    (cur rlc_word)
    (cur rlc_high * qsquare (qsquare (qsquare (qsquare randomness))) + cur rlc_low)%q.

(** * gadgets/mpt_update/nonexistence_proof.rs:9-52 *)
Definition nonexistence_configure (value key other_key : acol) (key_equals_other_key : IsZeroGadget)
  (hash : acol) (hash_is_zero : IsZeroGadget) (other_leaf_data_hash : acol) : cmd :=
  AssertZero "value is 0 for empty node" (cur value) ;;
  assert_equal "key_minus_other_key = key - other key"
    (cur (iz_value key_equals_other_key)) (cur key - cur other_key)%q ;;
  assert_equal "hash_is_zero input == hash" (cur (iz_value hash_is_zero)) (cur hash) ;;
  let is_type_1 := bnot (iz_current key_equals_other_key) in
  let is_type_2 := iz_current hash_is_zero in
  assert_equal "Empty account is either type 1 xor type 2" qone (is_type_1 + is_type_2)%q ;;
  Condition is_type_1 (
    PoseidonLookup "hash == h(other_key, other_leaf_data_hash)"
      (cur other_key) (cur other_leaf_data_hash) (qdom DLeaf) (cur hash)).
