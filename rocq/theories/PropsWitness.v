(* C65 *)
From Coq Require Import ZArith List Bool.
From Verif Require Import Fr Query Fixed TrieSpec TableSpec MptUpdate UpdateSound UpdateProps HonestCase ChangeSpec NewAccount NewProps NewCase Witness NewWitness WitnessCase.
Import ListNotations.
Open Scope Z_scope.

(** * C65: the account or slot that an accepted proof of absence presents in the place of the missing one is another one, and is
      stored in the trie under its own key. [reached t 0 K]: the leaf at the end of the path of K, whatever its key *)
Theorem C65_account_occupant_partial : forall H e n, circuit_ok H e n ->
  forall row, exposes e row -> nth 2 row f0 = fz (kind_number AccountDoesNotExist) -> row <> final_row ->
  exists s, row = encode (echal e) s /\ st_kind s = AccountDoesNotExist /\ 0 <= st_address s < 2 ^ 160 /\
  forall t, trie_of H e n (st_old_root s) t ->
  forall k b, reached t 0 (addr_key H (st_address s)) = Some (k, b) -> k <> addr_key H (st_address s) /\ get t 0 k = Some b.
Proof. exact account_occupant_row. Qed.
Example C65_account_case : exists e row, circuit_ok mix e 2081 /\ exposes e row /\ nth 2 row f0 = fz (kind_number AccountDoesNotExist) /\ row <> final_row /\
  forall s, row = encode (echal e) s -> 0 <= st_address s < 2 ^ 160 ->
  exists t k b, trie_of mix e 2081 (st_old_root s) t /\ reached t 0 (addr_key mix (st_address s)) = Some (k, b) /\ k <> addr_key mix (st_address s).
Proof. exact occupied_account. Qed.

(* for slots: the account is missing in this way, or the slot of the reached account is *)
Theorem C65_slot_occupant_partial : forall H e n, circuit_ok H e n ->
  forall row, exposes e row -> nth 2 row f0 = fz (kind_number StorageDoesNotExist) ->
  exists s, row = encode (echal e) s /\ st_kind s = StorageDoesNotExist /\ 0 <= st_address s < 2 ^ 160 /\
  forall t, trie_of H e n (st_old_root s) t ->
    (forall k b, reached t 0 (addr_key H (st_address s)) = Some (k, b) -> k <> addr_key H (st_address s) /\ get t 0 k = Some b) \/
    (exists k a slot, reached t 0 (addr_key H (st_address s)) = Some (k, a) /\ word_ok slot /\ st_slot_rlc s = word_rlc (echal e) slot /\
     forall k' v, reached (storage a) 0 (slot_key H slot) = Some (k', v) -> k' <> slot_key H slot /\ get (storage a) 0 k' = Some v).
Proof. exact slot_occupant_row. Qed.
Example C65_slot_case : exists e row, circuit_ok mix e 2081 /\ exposes e row /\ nth 2 row f0 = fz (kind_number StorageDoesNotExist) /\
  forall s, row = encode (echal e) s -> 0 <= st_address s < 2 ^ 160 ->
  st_slot_rlc s = word_rlc (echal e) 7 /\
  exists t a k v, trie_of mix e 2081 (st_old_root s) t /\ get t 0 (addr_key mix (st_address s)) = Some a /\
    reached (storage a) 0 (slot_key mix 7) = Some (k, v) /\ k <> slot_key mix 7.
Proof. exact occupied_slot. Qed.

(* creations: the leaf that stood in the place of the new account *)
Theorem C65_created_account_partial : forall H e n, circuit_ok H e n -> forall row, exposes e row -> row <> blank_row -> row <> final_row ->
  exists s, row = encode (echal e) s /\ 0 <= st_address s < 2 ^ 160 /\ forall t t', tries_of H e n s t t' ->
  let K := addr_key H (st_address s) in
  ~ present t K -> present t' K -> forall k b, reached t 0 K = Some (k, b) -> k <> K /\ get t 0 k = Some b.
Proof. exact created_occupant_row. Qed.
Example C65_created_case : case_for BalanceChanged (fun address t t' => let K := addr_key mix address in
  ~ present t K /\ present t' K /\ exists k b, reached t 0 K = Some (k, b) /\ k <> K).
Proof. exact create_occupied. Qed.

(* the leaf that stood in the place of a slot that is filled, and the one that comes in the place of a slot that is cleared *)
Theorem C65_changed_slot_partial : forall H e n, circuit_ok H e n -> forall row, exposes e row -> row <> blank_row -> row <> final_row ->
  exists s, row = encode (echal e) s /\ 0 <= st_address s < 2 ^ 160 /\ forall t t', tries_of H e n s t t' ->
  let K := addr_key H (st_address s) in
  st_kind s = StorageChanged -> forall a, get t 0 K = Some a ->
  exists st' slot, t' = modify (set_storage st') t 0 K /\ word_ok slot /\ st_slot_rlc s = word_rlc (echal e) slot /\
    slot_change (echal e) (slot_key H slot) (storage a) st' (st_old_value s) (st_new_value s) /\
    let sk := slot_key H slot in
    (~ present (storage a) sk -> present st' sk -> forall k v, reached (storage a) 0 sk = Some (k, v) -> k <> sk /\ get (storage a) 0 k = Some v) /\
    (present (storage a) sk -> ~ present st' sk -> forall k v, reached st' 0 sk = Some (k, v) -> k <> sk /\ get st' 0 k = Some v).
Proof. exact swapped_occupant_row. Qed.
Example C65_changed_slot_case : case_for StorageChanged (fun address t t' => exists a st', get t 0 (addr_key mix address) = Some a /\ get t' 0 (addr_key mix address) = Some (set_storage st' a) /\
  let sk := slot_key mix 5 in ~ present (storage a) sk /\ present st' sk /\ exists k w, reached (storage a) 0 sk = Some (k, w) /\ k <> sk).
Proof. exact fill_occupied. Qed.

Print Assumptions C65_account_occupant_partial. Print Assumptions C65_slot_occupant_partial. Print Assumptions C65_created_account_partial. Print Assumptions C65_changed_slot_partial.
