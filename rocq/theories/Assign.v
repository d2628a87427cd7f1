(* Model of the `assign` functions of the helper gadgets: what they write into which cell. *)
From Coq Require Import ZArith List Bool Lia.
From Verif Require Import Pocklington Fr Query Builder Bytes Gadgets.
Import ListNotations.
Open Scope Z_scope.

(** * Cells *)
(* an advice or a fixed column *)
Inductive col := A (c : acol) | Fx (c : fcol).
Lemma acol_eq_dec (a b : acol) : {a = b} + {a <> b}.
Proof. repeat decide equality. Defined.
Lemma fcol_eq_dec (a b : fcol) : {a = b} + {a <> b}.
Proof. decide equality. Defined.
Lemma col_eq_dec (a b : col) : {a = b} + {a <> b}.
Proof. decide equality; [apply acol_eq_dec|apply fcol_eq_dec]. Defined.

(* one call of Region::assign_advice / assign_fixed (constraint_builder/column.rs, binary_column.rs) *)
Definition write := (col * Z * Fr)%type.
(* the last write to a cell *)
Fixpoint wfind (ws : list write) (c : col) (i : Z) : option Fr :=
  match ws with
  | [] => None
  | (c', i', v) :: r =>
      match wfind r c i with
      | Some x => Some x
      | None => if col_eq_dec c c' then if i =? i' then Some v else None else None
      end
  end.
(* halo2 fills unassigned cells with 0 *)
Definition cell (ws : list write) (c : col) (i : Z) : Fr := match wfind ws c i with Some v => v | None => f0 end.
(* the table with these writes: N rows of which the first u are usable, challenge ch *)
Definition env_of (N u : Z) (ch : Fr) (ws : list write) : env :=
  mkEnv N u (fun c => cell ws (A c)) (fun c => cell ws (Fx c)) ch.

(* A loop that performs some assignments at `offset` and then `offset += 1` yields a list of rows *)
Definition row := list (col * Fr).
Fixpoint emit (start : Z) (rows : list row) : list write :=
  match rows with
  | [] => []
  | r :: rest => map (fun p => (fst p, start, snd p)) r ++ emit (start + 1) rest
  end.

(** * is_zero.rs *)
(* 23-37 assign; Assigned::invert maps 0 to 0 (halo2: Assigned::Zero.invert().evaluate() = 0) *)
Definition iz_assign (g : IsZeroGadget) (v : Fr) : row := [(A (iz_inv g), finv v)].
(* 39-50 *)
Definition iz_assign_value_and_inverse (g : IsZeroGadget) (v : Fr) : row := (A (iz_value g), v) :: iz_assign g v.

(** * one_hot.rs:31-40 *)
Definition oh_assign {T} (o : OneHot T) (v : T) : row :=
  match oh_get o v with Some c => [(A c, f1)] | None => [] end.

(** * byte_bit.rs:33-50: `for byte in 0..256 { for index in 0..8 { .. offset += 1 } }`, offset = 1 *)
Definition bb_row (byte index : Z) : row :=
  [(Fx BB_byte, fz byte); (Fx BB_index, fz index); (Fx BB_bit, fb (negb (Z.land byte (Z.shiftl 1 index) =? 0)))].
Definition bb_rows : list row :=
  flat_map (fun byte => map (fun index => bb_row (Z.of_nat byte) (Z.of_nat index)) (seq 0 8)) (seq 0 256).
Definition byte_bit_assign : list write := emit 1 bb_rows.
(* byte_bit.rs:52-55 *)
Definition byte_bit_n_rows : Z := 256 * 8 + 1.

(** * byte_representation.rs *)
(* 113-131: one byte string; value and rlc are the loop's accumulators *)
Fixpoint br_bytes_rows (r : Fr) (bytes : list Z) (index : Z) (value rl : Fr) : list row :=
  match bytes with
  | [] => []
  | b :: rest =>
      let value' := (value * fz 256 + fz b)%fr in
      let rl' := (rl * r + fz b)%fr in
      ([(A BR_byte, fz b); (A BR_value, value'); (A BR_rlc, rl'); (A BR_index, fz index)]
         ++ iz_assign BR_index_is_zero (fz index))
      :: br_bytes_rows r rest (index + 1) value' rl'
  end.
(* 148-156: u32 / u64 / u128 are integers in range *)
Definition u32_to_big_endian (x : Z) : list Z := be_bytes 4 x.
Definition u64_to_big_endian (x : Z) : list Z := be_bytes 8 x.
Definition u128_to_big_endian (x : Z) : list Z := be_bytes 16 x.
(* 158-167: panics unless the top byte is 0, drops it *)
Definition fr_to_big_endian (x : Fr) : option (list Z) :=
  match be_bytes 32 (val x) with
  | 0 :: rest => Some rest
  | _ => None
  end.
(* all elements or a panic *)
Fixpoint all_some {A B} (f : A -> option B) (l : list A) : option (list B) :=
  match l with
  | [] => Some []
  | x :: r => match f x, all_some f r with Some y, Some ys => Some (y :: ys) | _, _ => None end
  end.
(* 104-109 the chained iterators *)
Definition br_strings (u32s u64s u128s : list Z) (frs : list Fr) : option (list (list Z)) :=
  match all_some fr_to_big_endian frs with
  | Some fs => Some (map u32_to_big_endian u32s ++ map u64_to_big_endian u64s ++ map u128_to_big_endian u128s ++ fs)
  | None => None
  end.
(* 93-139; None = panic (the debug_assert is theorem br_assign_rows) *)
Definition byte_repr_assign (r : Fr) (u32s u64s u128s : list Z) (frs : list Fr) : option (list write) :=
  match br_strings u32s u64s u128s frs with
  | Some ss => Some ((Fx BR_is_first, 0, f1) :: emit 1 (flat_map (fun bs => br_bytes_rows r bs 0 f0 f0) ss))
  | None => None
  end.
(* 141-144 *)
Definition byte_repr_n_rows (u32s u64s u128s : list Z) (frs : list Fr) : Z :=
  1 + Z.of_nat (length u32s) * 4 + Z.of_nat (length u64s) * 8 + Z.of_nat (length u128s) * 16 + Z.of_nat (length frs) * 31.

(** * canonical_representation.rs *)
(* 132-136 *)
Definition cr_modulus_bytes : list Z := be_bytes 32 modulus.
(* the if index.is_zero() .. else if index == 31 .. *)
Definition cr_index_flags (index : Z) : row :=
  if index =? 0 then [(Fx CR_index_is_zero, f1)] else if index =? 31 then [(Fx CR_index_is_31, f1)] else [].
(* 144-176, the body for one value *)
Fixpoint cr_value_rows (r v : Fr) (bytes mbytes : list Z) (index : Z) (so_far : bool) (rl : Fr) : list row :=
  match bytes, mbytes with
  | b :: bytes', m :: mbytes' =>
      let difference := (fz m - fz b)%fr in
      let rl' := (rl * r + fz b)%fr in
      ([(A CR_byte, fz b); (Fx CR_modulus_byte, fz m); (Fx CR_index, fz index)]
        ++ cr_index_flags index
        ++ [(A CR_difference, difference)] ++ iz_assign CR_difference_is_zero difference
        ++ [(A CR_zero_so_far, fb so_far); (A CR_value, v); (A CR_rlc, rl')])
      :: cr_value_rows r v bytes' mbytes' (index + 1) (so_far && feqb difference f0) rl'
  | _, _ => []
  end.
(* value.to_bytes() reversed *)
Definition cr_rows_of (r v : Fr) : list row :=
  cr_value_rows r v (be_bytes 32 (val v)) cr_modulus_bytes 0 true f0.
(* 187-208 one padding value *)
Fixpoint cr_padding_rows (mbytes : list Z) (index : Z) : list row :=
  match mbytes with
  | [] => []
  | m :: rest =>
      let difference := fz m in
      ([(Fx CR_modulus_byte, fz m); (Fx CR_index, fz index)] ++ cr_index_flags index
        ++ [(A CR_difference, difference)] ++ iz_assign CR_difference_is_zero difference
        ++ [(A CR_zero_so_far, fb (index =? 0))])
      :: cr_padding_rows rest (index + 1)
  end.
(* 125-209; n_rows / 32 - values.len() panics when negative, MptCircuitConfig::assign checks it first *)
Definition canonical_assign (r : Fr) (values : list Fr) (n_rows : Z) : option (list write) :=
  if Z.of_nat (length values) <=? n_rows / 32
  then Some (emit 1 (flat_map (cr_rows_of r) values ++
                     flat_map (fun _ => cr_padding_rows cr_modulus_bytes 0)
                       (repeat tt (Z.to_nat (n_rows / 32) - length values))))
  else None.
(* 307-310 *)
Definition canonical_n_rows (values : list Fr) : Z := Z.of_nat (length values) * 32 + 1.

(* slice::chunks(k); [chunks_of] is called with enough fuel (the length) *)
Fixpoint chunks_of {X} (fuel : nat) (k : nat) (l : list X) : list (list X) :=
  match fuel, l with
  | S f, _ :: _ => firstn k l :: chunks_of f k (skipn k l)
  | _, _ => []
  end.
Definition chunks {X} (k : nat) (l : list X) : list (list X) := chunks_of (length l) k l.
(* (len + num_threads - 1) / num_threads *)
Definition chunk_size (len threads : nat) : nat := (len + threads - 1) / threads.
(* halo2's Layouter::assign_regions places each region at the first row after the previous one in the
   columns of its first-pass shape.  A region is its shape's height and its writes relative to its start. *)
Fixpoint place (start : Z) (regions : list (Z * (Z -> list write))) : list write :=
  match regions with
  | [] => []
  | (height, body) :: rest => body start ++ place (start + height) rest
  end.

(* 211-305; threads = available_parallelism() >= 1; slice::chunks panics on size 0 *)
Definition canonical_regions (r : Fr) (cs : list (list Fr)) : list (Z * (Z -> list write)) :=
  match cs with
  | [] => []
  | c :: rest =>
      (Z.of_nat (length c) * 32 + 1, fun start => emit (start + 1) (flat_map (cr_rows_of r) c)) ::
      map (fun c' => (Z.of_nat (length c') * 32, fun start => emit start (flat_map (cr_rows_of r) c'))) rest
  end.
Definition canonical_assign_par (threads : nat) (r : Fr) (values : list Fr) (n_rows : Z) : option (list write) :=
  let num_values := Z.to_nat (n_rows / 32) in
  let padded := firstn num_values (values ++ repeat f0 num_values) in
  let k := chunk_size num_values threads in
  if (k =? 0)%nat then None
  else Some (place 0 (canonical_regions r (firstn threads (chunks k padded)))).

(** * key_bit.rs *)
(* 99-122, the body for one lookup; the indexing bytes[index / 8] and the assert_eq panic *)
Definition kb_row (l : Fr * Z * bool) : option row :=
  let '(value, index, bit) := l in
  let index_div_8 := index / 8 in
  let index_mod_8 := index mod 8 in
  if index_div_8 <? 32 then
    let byte := be_byte 32 (val value) (31 - Z.to_nat index_div_8) in
    if Bool.eqb bit (negb (Z.land byte (Z.shiftl 1 index_mod_8) =? 0))
    then Some [(A KB_value, value); (A KB_index, fz index); (A KB_bit, fb bit);
               (A KB_index_div_8, fz index_div_8); (A KB_index_mod_8, fz index_mod_8); (A KB_byte, fz byte)]
    else None
  else None.
(* 90-92: rows start at offset 1 *)
Definition key_bit_assign (lookups : list (Fr * Z * bool)) : option (list write) :=
  match all_some kb_row lookups with Some rows => Some (emit 1 rows) | None => None end.
(* 126-162: in a parallel region assignment starts at the region's row 0, also in the first one, whose
   shape is one row higher *)
Definition kb_regions (cs : list (list row)) : list (Z * (Z -> list write)) :=
  match cs with
  | [] => []
  | c :: rest =>
      (Z.of_nat (length c) + 1, fun start => emit start c) ::
      map (fun c' => (Z.of_nat (length c'), fun start => emit start c')) rest
  end.
Definition key_bit_assign_par (threads : nat) (lookups : list (Fr * Z * bool)) : option (list write) :=
  let k := chunk_size (length lookups) threads in
  if (k =? 0)%nat then None
  else match all_some kb_row lookups with
       | Some rows => Some (place 0 (kb_regions (firstn threads (chunks k rows))))
       | None => None
       end.
(* 164-167 *)
Definition key_bit_n_rows (lookups : list (Fr * Z * bool)) : Z := 1 + Z.of_nat (length lookups).

(** * mpt.rs *)
(* mpt.rs:210-212 selector and 249 is_final_row *)
Definition selector_writes (n_rows : Z) : list write :=
  map (fun i => (Fx SEL, Z.of_nat i, f1)) (seq 1 (Z.to_nat n_rows - 1)).
Definition final_row_write (n_rows : Z) : list write := [(Fx FINAL, n_rows - 1, f1)].
(* the region "mpt keys", sequential mode (mpt.rs:207-253) *)
Definition keys_region (r : Fr) (u32s u64s u128s : list Z) (frs keys : list Fr) (lookups : list (Fr * Z * bool)) (n_rows : Z)
  : option (list write) :=
  match canonical_assign r keys n_rows, key_bit_assign lookups, byte_repr_assign r u32s u64s u128s frs with
  | Some cr, Some kb, Some br =>
      Some (selector_writes n_rows ++ cr ++ kb ++ byte_bit_assign ++ br ++ final_row_write n_rows)
  | _, _, _ => None
  end.
(* the same gadgets in parallel mode (mpt.rs:170-177, 197-205, 207-253) *)
Definition keys_regions_par (threads : nat) (r : Fr) (u32s u64s u128s : list Z) (frs keys : list Fr) (lookups : list (Fr * Z * bool)) (n_rows : Z)
  : option (list write) :=
  match canonical_assign_par threads r keys n_rows, key_bit_assign_par threads lookups, byte_repr_assign r u32s u64s u128s frs with
  | Some cr, Some kb, Some br =>
      Some (kb ++ cr ++ selector_writes n_rows ++ byte_bit_assign ++ br ++ final_row_write n_rows)
  | _, _, _ => None
  end.
