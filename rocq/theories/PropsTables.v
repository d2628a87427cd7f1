(* Properties C06, C08 and C11 where the code falls short of them: the lookup tables accept false entries.  Only statements; the
   proofs are in TableFree.v (on Retable.v, ByteFree.v, CanonFree.v).  All tables here satisfy the whole circuit, with a Poseidon
   table that holds hashes only.
   - circuit H                     the whole circuit (mpt.rs), for the hash function H;  fixed_ok e n   the fixed columns of e are those
                                   of n_rows = n
   - accepts e table tuple         an enabled row of e holds tuple in the columns of that lookup table
   - exposes e row                 e offers row to users of the MPT table *)
From Coq Require Import ZArith List Bool Lia.
From Verif Require Import Pocklington Fr Query Builder BuilderProofs Gadgets MptUpdate Fixed Bytes AssignOk UpdateSound UpdateProps GadgetMain GadgetMain2 TableFree.
Import ListNotations.
Open Scope Z_scope.

(** * C06: the byte representation table is not anchored *)
(* for every n_rows and challenge, any value, any length above one byte and any RLC can be looked up *)
Theorem C06_any_entry_refuted : forall H n r X m y, 2052 <= n < 2 ^ 62 -> r <> f0 -> 1 <= m <= 30 ->
  exists e, fixed_ok e n /\ echal e = r /\ sat e (circuit_of (circuit H)) /\ (forall a b d h, poseidon_hit e a b d h -> H a b d = h) /\
  accepts e rlc_lookup [X; fz m; y] /\ accepts e bytes_lookup [X; fz m].
Proof. exact any_entry_len. Qed.
(* any accepted table with an unused row in the byte representation table remains accepted, and exposes the same rows, after such
   an entry is added *)
Theorem C06_any_table_refuted : forall H e n, circuit_ok H e n -> echal e <> f0 -> n < eusable e ->
  (forall c, In c BR_cols -> eadv e c (n - 1) = eadv e c (n - 2) /\ eadv e c n = eadv e c 0) ->
  forall X m y, 1 <= m <= 30 -> exists e', fixed_ok e' n /\ echal e' = echal e /\ sat e' (circuit_of (circuit H)) /\
  (forall a b d h, poseidon_hit e' a b d h <-> poseidon_hit e a b d h) /\ (forall row, exposes e row <-> exposes e' row) /\
  accepts e' rlc_lookup [X; fz m; y] /\ accepts e' bytes_lookup [X; fz m].
Proof. exact entry_added. Qed.
Example C06_any_table_met : exists e, circuit_ok (fun a b d => (a + b + d)%fr) e 2060 /\ echal e = fz 256 /\ 2060 < eusable e /\
  (forall c, In c BR_cols -> eadv e c (2060 - 1) = eadv e c (2060 - 2) /\ eadv e c 2060 = eadv e c 0).
Proof. destruct (empty_table (fun a b d => (a + b + d)%fr) 2060 (fz 256) ltac:(lia)) as (e & A & B & [C D] & _). exists e. auto. Qed.

(** * C08: the canonical lookup is sound exactly when n_rows = 1 (mod 32) *)
Theorem C08_sound_iff_one_row_after_the_groups : forall H n, 2052 <= n < 2 ^ 62 ->
  ((forall e, fixed_ok e n -> sat e (circuit_of (circuit H)) -> forall v i b, accepts e canonical_lookup [v; i; b] ->
      exists k, (k < 32)%nat /\ i = fz (Z.of_nat k) /\ b = fz (nth k (be_bytes 32 (val v)) 0)) <-> n mod 32 = 1).
Proof. exact canonical_exact. Qed.
(* otherwise the most significant byte of any value below 256^31 can be claimed to be any byte ... *)
Theorem C08_top_byte_refuted : forall H n r v b j, 2052 <= n < 2 ^ 62 -> 2 <= n mod 32 -> val v < 256 ^ 31 -> 0 <= b < 256 -> 248 <= j < 256 ->
  exists e, fixed_ok e n /\ echal e = r /\ sat e (circuit_of (circuit H)) /\ (forall a b d h, poseidon_hit e a b d h -> H a b d = h) /\
  accepts e canonical_lookup [v; fz 0; fz b] /\ accepts e key_bit_lookup [v; fz j; fb (Z.testbit b (j - 248))].
Proof. exact any_top_byte. Qed.
(* ... and all bytes but the least significant one, of any value, to be 0 *)
Theorem C08_zero_bytes_refuted : forall H n r v j, 2052 <= n < 2 ^ 62 -> n mod 32 = 0 -> 8 <= j < 256 ->
  exists e, fixed_ok e n /\ echal e = r /\ sat e (circuit_of (circuit H)) /\ (forall a b d h, poseidon_hit e a b d h -> H a b d = h) /\
  (forall k, 0 <= k < 31 -> accepts e canonical_lookup [v; fz k; fz 0]) /\ accepts e key_bit_lookup [v; fz j; fb false].
Proof. exact any_zero_bytes. Qed.

(** * C11: so is the key bit lookup *)
Theorem C11_sound_iff_one_row_after_the_groups : forall H n, 2052 <= n < 2 ^ 62 ->
  ((forall e, fixed_ok e n -> sat e (circuit_of (circuit H)) -> forall v i b, accepts e key_bit_lookup [v; i; b] ->
      exists j, 0 <= j < 256 /\ i = fz j /\ b = fb (Z.testbit (val v) j)) <-> n mod 32 = 1).
Proof. exact key_bit_exact. Qed.
Theorem C11_top_bits_refuted : forall H n r v j b, 2052 <= n < 2 ^ 62 -> 2 <= n mod 32 -> val v < 256 ^ 31 -> 248 <= j < 256 ->
  exists e, fixed_ok e n /\ echal e = r /\ sat e (circuit_of (circuit H)) /\ (forall a b d h, poseidon_hit e a b d h -> H a b d = h) /\
  accepts e key_bit_lookup [v; fz j; fb b].
Proof. exact key_bit_any. Qed.
(* the hypotheses are met by common sizes: n_rows = 2^18 - 100 and 2^18 *)
Example C08_sizes_met : 2052 <= 2 ^ 18 - 100 < 2 ^ 62 /\ 2 <= (2 ^ 18 - 100) mod 32 /\ 2052 <= 2 ^ 18 < 2 ^ 62 /\ 2 ^ 18 mod 32 = 0 /\ 2052 <= 2 ^ 18 + 1 < 2 ^ 62 /\ (2 ^ 18 + 1) mod 32 = 1.
Proof. vm_compute. repeat split; discriminate. Qed.

Print Assumptions C06_any_entry_refuted. Print Assumptions C06_any_table_refuted.
Print Assumptions C08_sound_iff_one_row_after_the_groups. Print Assumptions C08_top_byte_refuted. Print Assumptions C08_zero_bytes_refuted.
Print Assumptions C11_sound_iff_one_row_after_the_groups. Print Assumptions C11_top_bits_refuted.
