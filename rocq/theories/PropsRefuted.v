(* Properties C16-C22 where the code falls short of them: false claims that the circuit accepts.  Only statements; the proofs
   are in Free.v and RefuteCase.v (on Edit.v, Freedom.v, Address.v).
   - also_accepted H e n s s' e'   e' satisfies the circuit as well (circuit_ok), with the same challenge and the same Poseidon
                                   table as far as trie_of goes; it exposes s' in place of s and otherwise what e exposes
   - with_address / with_new_value / with_old_value   the statement with one component replaced
   - sub t k 0 d                   the subtree d levels down the path of k
   - mix, S0 .. S5, ad             the concrete hash function, states and addresses of HonestCase.v *)
From Coq Require Import ZArith String List Bool Lia.
From Verif Require Import Pocklington Fr Query Builder Gadgets MptUpdate Fixed Bytes TrieSpec TableSpec UpdateWalk UpdateSound UpdateProps GadgetMain HonestSpec HonestCase Address Free RefuteCase.
Import ListNotations.
Open Scope Z_scope.

(** * C16-C20, C22: the address is not tied to the account leaf *)
(* whatever update of an existing account a table claims, the same claim about an absent account whose path ends at that leaf
   is accepted too, if only the table contains an absence proof for the latter (for its key bits and bytes) *)
Theorem C16_address_not_bound : forall H e n, circuit_ok H e n ->
  forall row row2, exposes e row -> exposes e row2 ->
  (exists p, In p [NonceChanged; BalanceChanged; CodeHashExists; CodeSizeExists; PoseidonCodeHashExists; StorageChanged] /\ nth 2 row f0 = fz (kind_number p)) -> row <> blank_row ->
  nth 2 row2 f0 = fz (kind_number AccountDoesNotExist) -> row2 <> final_row ->
  exists s s2, row = encode (echal e) s /\ row2 = encode (echal e) s2 /\
  In (st_kind s) [NonceChanged; BalanceChanged; CodeHashExists; CodeSizeExists; PoseidonCodeHashExists; StorageChanged] /\ st_kind s2 = AccountDoesNotExist /\
  0 <= st_address s < 2 ^ 160 /\ 0 <= st_address s2 < 2 ^ 160 /\
  forall t t2 d a u2, trie_of H e n (st_old_root s) t -> trie_of H e n (st_old_root s2) t2 ->
  let K := addr_key H (st_address s) in let K2 := addr_key H (st_address s2) in
  sub t K 0 d = Some (Leaf K a) -> sub t2 K2 0 d = Some u2 -> (forall j, (j < d)%nat -> kbit K2 j = kbit K j) ->
  exists e', also_accepted H e n s (with_address (st_address s2) s) e'.
Proof. exact address_free. Qed.

(* one table claims that an account changes its nonce from 1 to 8, and that it does not exist afterwards; indeed it exists
   neither before nor afterwards *)
Theorem C16_nonce_of_absent_account_refuted : exists H e n t t' address,
  circuit_ok H e n /\ trie_of H e n (state_root H t) t /\ trie_of H e n (state_root H t') t' /\ 0 <= address < 2 ^ 160 /\
  get t 0 (addr_key H address) = None /\ get t' 0 (addr_key H address) = None /\
  exposes e (encode (echal e) (Statement address f0 NonceChanged (state_root H t') (state_root H t) (fz 8) (fz 1))) /\
  exposes e (encode (echal e) (Statement address f0 AccountDoesNotExist (state_root H t') (state_root H t') f0 f0)).
Proof. exact absent_nonce. Qed.
(* ... and one claims that an account has a non-zero balance, and that it does not exist *)
Theorem C17_balance_of_absent_account_refuted : exists H e n t address v,
  circuit_ok H e n /\ trie_of H e n (state_root H t) t /\ 0 <= address < 2 ^ 160 /\ get t 0 (addr_key H address) = None /\ v <> f0 /\
  exposes e (encode (echal e) (Statement address f0 BalanceChanged (state_root H t) (state_root H t) v v)) /\
  exposes e (encode (echal e) (Statement address f0 AccountDoesNotExist (state_root H t) (state_root H t) f0 f0)).
Proof. exact (absent_read BalanceChanged ltac:(cbn; auto)). Qed.
(* ... and one claims that an account has a non-zero code size, and that it does not exist *)
Theorem C18_code_size_of_absent_account_refuted : exists H e n t address v,
  circuit_ok H e n /\ trie_of H e n (state_root H t) t /\ 0 <= address < 2 ^ 160 /\ get t 0 (addr_key H address) = None /\ v <> f0 /\
  exposes e (encode (echal e) (Statement address f0 CodeSizeExists (state_root H t) (state_root H t) v v)) /\
  exposes e (encode (echal e) (Statement address f0 AccountDoesNotExist (state_root H t) (state_root H t) f0 f0)).
Proof. exact (absent_read CodeSizeExists ltac:(cbn; auto)). Qed.
(* ... and one claims that an account has a non-zero keccak code hash, and that it does not exist *)
Theorem C19_keccak_code_hash_of_absent_account_refuted : exists H e n t address v,
  circuit_ok H e n /\ trie_of H e n (state_root H t) t /\ 0 <= address < 2 ^ 160 /\ get t 0 (addr_key H address) = None /\ v <> f0 /\
  exposes e (encode (echal e) (Statement address f0 CodeHashExists (state_root H t) (state_root H t) v v)) /\
  exposes e (encode (echal e) (Statement address f0 AccountDoesNotExist (state_root H t) (state_root H t) f0 f0)).
Proof. exact (absent_read CodeHashExists ltac:(cbn; auto)). Qed.
(* ... and one claims that an account has a non-zero poseidon code hash, and that it does not exist *)
Theorem C20_poseidon_code_hash_of_absent_account_refuted : exists H e n t address v,
  circuit_ok H e n /\ trie_of H e n (state_root H t) t /\ 0 <= address < 2 ^ 160 /\ get t 0 (addr_key H address) = None /\ v <> f0 /\
  exposes e (encode (echal e) (Statement address f0 PoseidonCodeHashExists (state_root H t) (state_root H t) v v)) /\
  exposes e (encode (echal e) (Statement address f0 AccountDoesNotExist (state_root H t) (state_root H t) f0 f0)).
Proof. exact (absent_read PoseidonCodeHashExists ltac:(cbn; auto)). Qed.

(** * C22: storage *)
(* a slot of an absent account is changed from 10 to 12 *)
Theorem C22_slot_of_absent_account_refuted : exists H e n t t' address slot,
  circuit_ok H e n /\ trie_of H e n (state_root H t) t /\ trie_of H e n (state_root H t') t' /\ 0 <= address < 2 ^ 160 /\
  get t 0 (addr_key H address) = None /\ get t' 0 (addr_key H address) = None /\
  exposes e (encode (echal e) (Statement address (word_rlc (echal e) slot) StorageChanged (state_root H t') (state_root H t) (word_rlc (echal e) 12) (word_rlc (echal e) 10))) /\
  exposes e (encode (echal e) (Statement address f0 AccountDoesNotExist (state_root H t) (state_root H t) f0 f0)).
Proof. exact absent_slot. Qed.
(* the new value of a slot that is filled can be replaced by anything: for every claim of an accepted table with old value 0 and
   new value not 0, about an existing account (whose stored words do not happen to have RLC 0) *)
Theorem C22_inserted_value_not_bound : forall H e n, circuit_ok H e n ->
  forall row, exposes e row -> nth 2 row f0 = fz (kind_number StorageChanged) ->
  exists s, row = encode (echal e) s /\ st_kind s = StorageChanged /\ 0 <= st_address s < 2 ^ 160 /\
  forall t a, trie_of H e n (st_old_root s) t -> get t 0 (addr_key H (st_address s)) = Some a -> tree_all (fun w => word_rlc (echal e) w <> f0) (storage a) ->
  st_old_value s = f0 -> st_new_value s <> f0 -> forall x, exists e', also_accepted H e n s (with_new_value x s) e'.
Proof. exact inserted_value_free. Qed.
(* between two states that differ in a slot changing from 0 to 2^200, every new value of the slot is accepted *)
Theorem C22_inserted_value_refuted : exists H n t t' address slot,
  0 <= address < 2 ^ 160 /\ word_ok slot /\ get t 0 (addr_key H address) <> None /\ slot_value H t address slot = 0 /\ slot_value H t' address slot = 2 ^ 200 /\
  forall x, exists e, circuit_ok H e n /\ trie_of H e n (state_root H t) t /\ trie_of H e n (state_root H t') t' /\
  exposes e (encode (echal e) (Statement address (word_rlc (echal e) slot) StorageChanged (state_root H t') (state_root H t) x f0)).
Proof. exact any_inserted. Qed.
(* the old value of a slot that is cleared can be replaced by anything *)
Theorem C22_cleared_value_not_bound : forall H e n, circuit_ok H e n ->
  forall row, exposes e row -> nth 2 row f0 = fz (kind_number StorageChanged) ->
  exists s, row = encode (echal e) s /\ st_kind s = StorageChanged /\ 0 <= st_address s < 2 ^ 160 /\
  forall t a, trie_of H e n (st_old_root s) t -> get t 0 (addr_key H (st_address s)) = Some a ->
  st_old_value s <> f0 -> st_new_value s = f0 ->
  (* the new root does not come from overwriting the slot by a non-zero word that also has RLC 0 *)
  (forall slot w', word_ok w' -> w' <> 0 -> word_rlc (echal e) w' = f0 ->
     state_root H (modify_reached (set_storage (modify_reached (fun _ => w') (storage a) 0 (slot_key H slot))) t 0 (addr_key H (st_address s))) <> st_new_root s) ->
  forall x, exists e', also_accepted H e n s (with_old_value x s) e'.
Proof. exact deleted_value_free. Qed.
Theorem C22_cleared_value_refuted : exists H n t t' address slot,
  0 <= address < 2 ^ 160 /\ word_ok slot /\ get t 0 (addr_key H address) <> None /\ slot_value H t address slot = 10 /\ slot_value H t' address slot = 0 /\
  forall x, exists e, circuit_ok H e n /\ trie_of H e n (state_root H t) t /\ trie_of H e n (state_root H t') t' /\
  exposes e (encode (echal e) (Statement address (word_rlc (echal e) slot) StorageChanged (state_root H t') (state_root H t) f0 x)).
Proof. exact any_cleared. Qed.

Print Assumptions C16_address_not_bound. Print Assumptions C16_nonce_of_absent_account_refuted. Print Assumptions C17_balance_of_absent_account_refuted. Print Assumptions C18_code_size_of_absent_account_refuted. Print Assumptions C19_keccak_code_hash_of_absent_account_refuted. Print Assumptions C20_poseidon_code_hash_of_absent_account_refuted. Print Assumptions C22_slot_of_absent_account_refuted. Print Assumptions C22_inserted_value_not_bound. Print Assumptions C22_inserted_value_refuted. Print Assumptions C22_cleared_value_not_bound. Print Assumptions C22_cleared_value_refuted.
