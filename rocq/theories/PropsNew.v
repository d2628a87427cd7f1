(* Properties C24, C49, C50, C51: what an accepted update does to the state trie.  Only statements; the proofs are in TwoTries.v and
   New*.v.  Specification: TrieSpec.v (tries), TableSpec.v (rows), ChangeSpec.v (changes).
   - circuit_ok H e n          the assignment e satisfies the circuit (see PropsSound.v)
   - tries_of H e n s t t'     t and t' are any two state tries with the old and the new root of the statement s, values in
                               range, paths no longer than the key-bit table is reliable for, and without hash collisions among
                               the hashes of the tries, of a new account and of the circuit's Poseidon table
   - modify f t 0 k            t with f applied to the value under the key k, and nothing else changed
   - foreign_leaf t k k'       the leaf at the end of the path of k belongs to another key k'
   - case_for p P              some row of the table of NewCase.v is about kind p and about two tries of which P holds: the
                               examples show that the hypotheses of the theorems are met *)
From Coq Require Import ZArith String List Bool Lia.
From Verif Require Import Pocklington Fr Query Builder Gadgets MptUpdate Fixed Bytes TrieSpec TableSpec UpdateSound UpdateProps GadgetMain ChangeSpec NewAccount NewProps NewPlaced HonestCase NewCase.
Import ListNotations.
Open Scope Z_scope.

(** * C24: whatever the claim, an account that exists still exists, at the same place, after the update *)
Theorem C24_account_survives : forall H e n, circuit_ok H e n -> forall row, exposes e row -> row <> blank_row -> row <> final_row ->
  exists s, row = encode (echal e) s /\ 0 <= st_address s < 2 ^ 160 /\ forall t t', tries_of H e n s t t' ->
  let K := addr_key H (st_address s) in
  forall a, get t 0 K = Some a -> exists a', t' = modify (fun _ => a') t 0 K /\ get t' 0 K = Some a'.
Proof. exact survives. Qed.
Example C24_case : case_for NonceChanged (fun address t t' => get t 0 (addr_key mix address) = Some A1 /\ get t' 0 (addr_key mix address) = Some (set_nonce 8 A1)).
Proof. exact nonce_case. Qed.

(** * C49: how the new trie differs from the old one *)
(* claims about a field of an existing account: only that account changes, and only in that field *)
Theorem C49_field_change : forall H e n, circuit_ok H e n -> forall row, exposes e row -> row <> blank_row -> row <> final_row ->
  exists s, row = encode (echal e) s /\ 0 <= st_address s < 2 ^ 160 /\ forall t t', tries_of H e n s t t' ->
  let K := addr_key H (st_address s) in
  In (st_kind s) [NonceChanged; BalanceChanged; CodeSizeExists; CodeHashExists; PoseidonCodeHashExists] ->
  forall a, get t 0 K = Some a ->
  exists a', t' = modify (fun _ => a') t 0 K /\ field_step (echal e) (st_kind s) a (st_old_value s) (st_new_value s) a'.
Proof. exact field_changes. Qed.
Example C49_field_case : case_for NonceChanged (fun address t t' => get t 0 (addr_key mix address) = Some A1 /\ get t' 0 (addr_key mix address) = Some (set_nonce 8 A1)).
Proof. exact nonce_case. Qed.
(* claims about storage of an existing account: only the storage of that account changes, and there only the claimed slot;
   overwriting, filling and clearing *)
Theorem C49_storage_change : forall H e n, circuit_ok H e n -> forall row, exposes e row -> row <> blank_row -> row <> final_row ->
  exists s, row = encode (echal e) s /\ 0 <= st_address s < 2 ^ 160 /\ forall t t', tries_of H e n s t t' ->
  let K := addr_key H (st_address s) in
  st_kind s = StorageChanged -> forall a, get t 0 K = Some a ->
  exists st' slot, t' = modify (set_storage st') t 0 K /\ word_ok slot /\ st_slot_rlc s = word_rlc (echal e) slot /\
    slot_change (echal e) (slot_key H slot) (storage a) st' (st_old_value s) (st_new_value s).
Proof. exact storage_changes. Qed.
Example C49_storage_case : case_for StorageChanged (fun address t t' => exists a st', get t 0 (addr_key mix address) = Some a /\ get t' 0 (addr_key mix address) = Some (set_storage st' a) /\
  placed (storage a) [] /\ placed st' [] /\ get (storage a) 0 (slot_key mix 5) = None /\ get st' 0 (slot_key mix 5) = Some (2 ^ 200) /\ get (storage a) 0 (slot_key mix 4) = Some 11 /\ get (storage a) 0 (slot_key mix 1) = Some 12).
Proof. exact fill_case. Qed.
(* an account that an update creates has the claimed nonce or balance and is otherwise empty; no other kind of claim about
   account fields creates an account *)
Theorem C49_account_created : forall H e n, circuit_ok H e n -> forall row, exposes e row -> row <> blank_row -> row <> final_row ->
  exists s, row = encode (echal e) s /\ 0 <= st_address s < 2 ^ 160 /\ forall t t', tries_of H e n s t t' ->
  let K := addr_key H (st_address s) in
  st_kind s <> StorageChanged -> get t 0 K = None -> forall a', get t' 0 K = Some a' ->
  st_old_value s = f0 /\ account_created (echal e) (st_kind s) a' (st_new_value s).
Proof. exact creates. Qed.
Example C49_created_case : case_for BalanceChanged (fun address t t' => get t 0 (addr_key mix address) = None /\ get t' 0 (addr_key mix address) = Some (set_balance (2 ^ 100) new_account) /\
  placed t' [] /\ (forall o b, t = Leaf o b -> o = addr_key mix address) /\ present t (addr_key mix (ad 2)) /\ present t (addr_key mix (ad 11)) /\ present t (addr_key mix (ad 15))).
Proof. exact create_case. Qed.
(* an account that does not exist after the update did not exist before, and the claim is about 0 -- unless the leaf of another
   account is in its place (the code falls short there: C16_address_not_bound) *)
Theorem C49_account_absent_partial : forall H e n, circuit_ok H e n -> forall row, exposes e row -> row <> blank_row -> row <> final_row ->
  exists s, row = encode (echal e) s /\ 0 <= st_address s < 2 ^ 160 /\ forall t t', tries_of H e n s t t' ->
  let K := addr_key H (st_address s) in
  st_kind s <> StorageChanged -> get t' 0 K = None ->
  (get t 0 K = None /\ st_old_value s = f0 /\ st_new_value s = f0) \/ exists k', foreign_leaf t' K k'.
Proof. exact stays_absent. Qed.
Example C49_absent_case : case_for AccountDoesNotExist (fun address t t' => get t' 0 (addr_key mix address) = None).
Proof. exact absent_case. Qed.

(** * C50: other accounts are not affected.  What is missing: new tries with misplaced leaves, an old trie that is a single leaf
      of another account (finding S7), and an account whose leaf is at the end of the path of an address that exists neither before
      nor afterwards (finding S1) *)
Theorem C50_other_accounts_kept_partial : forall H e n, circuit_ok H e n -> forall row, exposes e row -> row <> blank_row -> row <> final_row ->
  exists s, row = encode (echal e) s /\ 0 <= st_address s < 2 ^ 160 /\ forall t t', tries_of H e n s t t' ->
  let K := addr_key H (st_address s) in
  placed t' [] -> (forall o b, t = Leaf o b -> o = K) ->
  forall k', k' <> K -> present t K \/ present t' K \/ ~ foreign_leaf t' K k' -> get t' 0 k' = get t 0 k'.
Proof. exact keeps_others. Qed.
Example C50_case : case_for BalanceChanged (fun address t t' => get t 0 (addr_key mix address) = None /\ get t' 0 (addr_key mix address) = Some (set_balance (2 ^ 100) new_account) /\
  placed t' [] /\ (forall o b, t = Leaf o b -> o = addr_key mix address) /\ present t (addr_key mix (ad 2)) /\ present t (addr_key mix (ad 11)) /\ present t (addr_key mix (ad 15))).
Proof. exact create_case. Qed.

(* the complete list of the ways in which an update changes a state (state_change is defined in NewPlaced.v; it is about nothing
   but two tries and the path of the key): nothing, one leaf keeps its key, or a new leaf -- or, the code being too lenient, a
   copy of what was there (C51_doubled_state_refuted) -- is hung up where the path ends *)
Theorem C50_all_changes : forall H e n, circuit_ok H e n -> forall row, exposes e row -> row <> blank_row -> row <> final_row ->
  exists s, row = encode (echal e) s /\ 0 <= st_address s < 2 ^ 160 /\ forall t t', tries_of H e n s t t' ->
  state_change (st_kind s) (addr_key H (st_address s)) t t'.
Proof. exact changes. Qed.

(** * C51: every leaf stays where its key says.  What is missing is false of the code: nonce, balance and storage claims about
      an account that does not exist may misplace leaves if its path ends at another account (C51_misplaced_leaf_refuted,
      C51_doubled_state_refuted) or if the new leaf is not its own *)
Theorem C51_leaves_stay_placed_partial : forall H e n, circuit_ok H e n -> forall row, exposes e row -> row <> blank_row -> row <> final_row ->
  exists s, row = encode (echal e) s /\ 0 <= st_address s < 2 ^ 160 /\ forall t t', tries_of H e n s t t' ->
  let K := addr_key H (st_address s) in
  placed t [] -> present t K \/ ~ In (st_kind s) [NonceChanged; BalanceChanged; StorageChanged] \/ (reached t 0 K = None /\ forall k', ~ foreign_leaf t' K k') -> placed t' [].
Proof. exact stays_placed. Qed.
Example C51_case : case_for NonceChanged (fun address t t' => placed t [] /\ present t (addr_key mix address) /\ t <> t').
Proof. exact placed_case. Qed.

Print Assumptions C24_account_survives.
Print Assumptions C49_field_change.
Print Assumptions C49_storage_change.
Print Assumptions C49_account_created.
Print Assumptions C49_account_absent_partial.
Print Assumptions C50_other_accounts_kept_partial.
Print Assumptions C50_all_changes.
Print Assumptions C51_leaves_stay_placed_partial.
