(* Model of /repo/src/util.rs (all of it except lagrange_polynomial, which is in MptUpdate.v, and rlc, which is in
   Bytes.v) and of the helper functions at the end of /repo/src/types.rs (961-1000).
   Representation: [u8; N] and Vec<u8> are lists of integers, u64/u128/U256/BigUint are non-negative integers
   (their range is a hypothesis where it matters), Address and HexBytes<N> are lists of 20 resp. N bytes.
   A panic is None. *)
From Coq Require Import ZArith List Bool Lia.
From Verif Require Import Pocklington Fr Query Gadgets Bytes.
Import ListNotations.
Open Scope Z_scope.

(** * Library functions *)
(* halo2curves Fr::from_bytes: little-endian, None (and here a panic by unwrap) unless below the modulus *)
Definition le_val (l : list Z) : Z := be_val (rev l).
Definition fr_from_bytes (l : list Z) : option Fr := if le_val l <? modulus then Some (fz (le_val l)) else None.
(* Fr::to_bytes: 32 little-endian bytes *)
Definition fr_to_bytes (x : Fr) : list Z := rev (be_bytes 32 (val x)).
(* Fr::from_u128 / Fr::from(u64) *)
Definition fr_from_u128 (x : Z) : Fr := fz x.
(* BigUint::to_u64_digits: least significant digit first, no leading zero digit, empty for 0 *)
Fixpoint digits_fuel (fuel : nat) (base z : Z) : list Z :=
  match fuel with
  | O => []
  | S f => if z =? 0 then [] else z mod base :: digits_fuel f base (z / base)
  end.
Definition zsize (z : Z) : nat := match z with Zpos p => Pos.size_nat p | _ => O end.
Definition to_u64_digits (z : Z) : list Z := digits_fuel (zsize z) (2 ^ 64) z.
(* BigUint::to_bytes_be: most significant byte first, [0] for 0 *)
Definition to_bytes_be (z : Z) : list Z := match digits_fuel (zsize z) 256 z with [] => [0] | l => rev l end.
(* U256::from_big_endian: asserts at most 32 bytes *)
Definition u256_from_big_endian (l : list Z) : option Z := if (length l <=? 32)%nat then Some (be_val l) else None.
(* U256::to_big_endian into [u8; 32] *)
Definition u256_to_be (x : Z) : list Z := be_bytes 32 x.
(* the four u64 words of a U256, least significant first *)
Definition u256_words (x : Z) : list Z := limbs64 x.
(* u128::from_be_bytes, u32::from_be_bytes *)
Definition uint_from_be_bytes (l : list Z) : Z := be_val l.

Section Hash.
  (* Poseidon (poseidon-circuit's Hashable::hash_with_domain); arguments left, right, domain *)
  Variable H : Fr -> Fr -> Fr -> Fr.

  (* util.rs:14-16 *)
  Definition domain_hash (x y : Fr) (d : HashDomain) : Fr := H x y (fdom d).
End Hash.

(* util.rs:10-12, types.rs:963-965 *)
Definition fr (x : list Z) : option Fr := fr_from_bytes x.
(* util.rs:22-30, types.rs:989-997.  31 - i / 8 underflows for i >= 256: a panic with debug assertions, otherwise
   the wrapped index is out of bounds and the result is false, which is what is modelled. *)
Definition fr_bit (x : Fr) (i : nat) : bool :=
  let bytes := rev (fr_to_bytes x) in
  let j := Z.of_nat i / 8 in
  if j <? 32 then
    match nth_error bytes (31 - Z.to_nat j) with
    | Some byte => negb (Z.land byte (Z.shiftl 1 (Z.of_nat i mod 8)) =? 0)
    | None => false
    end
  else false.
(* util.rs:32-34 *)
Definition u256_from_hex (x : list Z) : option Z := u256_from_big_endian x.
(* util.rs:36-51 *)
Definition split_word (x : Z) : Fr * Fr :=
  let bytes := u256_to_be x in
  (fr_from_u128 (uint_from_be_bytes (firstn 16 bytes)), fr_from_u128 (uint_from_be_bytes (skipn 16 bytes))).
(* util.rs:53-59; the shift and the sum are below 2^128 *)
Definition u256_hi_lo (x : Z) : Z * Z :=
  let d := u256_words x in
  (Z.shiftl (nth 3 d 0) 64 + nth 2 d 0, Z.shiftl (nth 1 d 0) 64 + nth 0 d 0).
(* util.rs:60-67: Fr::from(1 << 32).square() is 2^64 *)
Definition fr_from_biguint (b : Z) : Fr :=
  fold_left (fun a d => (a * (fz (Z.shiftl 1 32) * fz (Z.shiftl 1 32)) + fz d)%fr) (rev (to_u64_digits b)) f0.
(* util.rs:76-78 *)
Definition u256_from_biguint (x : Z) : option Z := u256_from_big_endian (to_bytes_be x).
(* util.rs:80-84 *)
Definition u256_to_big_endian (x : Z) : list Z := u256_to_be x.
(* util.rs:86-89 *)
Definition storage_key_hash (H : Fr -> Fr -> Fr -> Fr) (key : Z) : Fr :=
  let (high, low) := split_word key in domain_hash H high low DPair.
(* util.rs:91-98; the shift left by 96 of a u32 stays below 2^128 *)
Definition account_key (H : Fr -> Fr -> Fr -> Fr) (address : list Z) : Fr :=
  let address_high := fr_from_u128 (uint_from_be_bytes (firstn 16 address)) in
  let address_low := fr_from_u128 (Z.shiftl (uint_from_be_bytes (skipn 16 address)) 96) in
  domain_hash H address_high address_low DPair.
Definition dom_eqb (a b : HashDomain) : bool := domain_u64 a =? domain_u64 b.
(* util.rs:101-113; false = the assertion fails *)
Definition check_domain_consistency (before after : HashDomain) (direction : bool) : bool :=
  if direction
  then (dom_eqb before Branch0 && dom_eqb after Branch1) || (dom_eqb before Branch2 && dom_eqb after Branch3)
  else (dom_eqb before Branch0 && dom_eqb after Branch2) || (dom_eqb before Branch1 && dom_eqb after Branch3).

(* types.rs:967-974 *)
Definition big_uint_to_fr (i : Z) : Fr :=
  fold_left (fun a d => (a * (fz (Z.shiftl 1 32) * fz (Z.shiftl 1 32)) + fz d)%fr) (rev (to_u64_digits i)) f0.
(* Vec::resize(4, 0) *)
Definition resize4 (l : list Z) : list Z := firstn 4 (l ++ [0; 0; 0; 0]).
(* types.rs:976-983 *)
Definition hi_lo (x : Z) : Fr * Fr :=
  let d := resize4 (to_u64_digits x) in
  (fr_from_u128 (Z.shiftl (nth 3 d 0) 64 + nth 2 d 0), fr_from_u128 (Z.shiftl (nth 1 d 0) 64 + nth 0 d 0)).
(* types.rs:35-47 HashDomain::try_from(u64) followed by unwrap *)
Definition domain_of_u64 (x : Z) : option HashDomain :=
  if x =? 4 then Some DLeaf else if x =? 6 then Some Branch0 else if x =? 7 then Some Branch1
  else if x =? 8 then Some Branch2 else if x =? 9 then Some Branch3 else None.

(* mpt_update.rs:2038-2046 *)
Definition address_high (a : list Z) : Z := uint_from_be_bytes (firstn 16 a).
Definition address_low (a : list Z) : Z := uint_from_be_bytes (skipn 16 a).
