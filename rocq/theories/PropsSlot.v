(* C13, C22 and C23 without the anchor of the byte representation table: they are false of the code. *)
From Coq Require Import ZArith List Bool.
From Verif Require Import Pocklington Fr Query Builder BuilderProofs Gadgets MptUpdate Fixed Bytes GadgetProofs UpdateRows UpdateSound TrieSpec Assign AssignOk MptAssign GadgetMain GadgetMain2 GadgetMain3 UpdateProps TableSpec HonestSpec HonestCase ByteFree SlotFree SlotCase.
Import ListNotations.
Open Scope Z_scope.

(** * C13: where the circuit uses the gadget for the slot, the value cell can hold anything *)
(* in any accepted table with a StorageChanged claim and an unused row in the byte representation table, without another hash *)
Theorem C13_word_value_not_bound : forall H e n, circuit_ok H e n -> echal e <> f0 -> n < eusable e ->
  (forall c, In c BR_cols -> eadv e c (n - 1) = eadv e c (n - 2) /\ eadv e c n = eadv e c 0) ->
  forall row, exposes e row -> nth 2 row f0 = fz (kind_number StorageChanged) ->
  forall Y, exists e' i, fixed_ok e' n /\ sat e' (circuit_of (circuit H)) /\ echal e' = echal e /\
  (forall l r d h, poseidon_hit e' l r d h <-> poseidon_hit e l r d h) /\ enabled e' i /\
  GadgetMain.all_one e' i [current_matches oh_proof [StorageChanged]; cur_seg [AccountLeaf3]] /\ eadv e' MU_storage_key_rlc i = Y.
Proof. exact word_value_free. Qed.
(* these are the conditions under which the circuit uses the gadget *)
Theorem C13_slot_gadget_used : forall H, occurs (word_rlc_configure MU_key (MU_iv 0) (MU_iv 1) MU_storage_key_rlc (MU_sp 0) (MU_sp 1))
  [current_matches oh_proof [StorageChanged]; cur_seg [AccountLeaf3]] (circuit H).
Proof. exact slot_gadget. Qed.
(* C13_word_gadget_sound_partial without its anchor hypothesis fails *)
Theorem C13_word_gadget_refuted : exists H e n bs word_hash high low rlc_word rlc_high rlc_low i,
  fixed_ok e n /\ satisfied e (circuit H) /\ (forall a b d h, poseidon_hit e a b d h -> H a b d = h) /\ echal e <> f0 /\
  part_of byte_representation_configure (circuit H) /\
  occurs (word_rlc_configure word_hash high low rlc_word rlc_high rlc_low) bs (circuit H) /\ enabled e i /\ GadgetMain.all_one e i bs /\
  ~ exists w, 0 <= w < 2 ^ 256 /\ eadv e word_hash i = H (fz (w / 2 ^ 128)) (fz (w mod 2 ^ 128)) (fz 512) /\ eadv e rlc_word i = rlc (be_bytes 32 w) (echal e).
Proof. exact word_gadget_fooled. Qed.

(** * C22, C23: the slot of a storage claim can be replaced by anything, without another hash *)
Theorem C22_slot_not_bound : forall H e n, circuit_ok H e n -> echal e <> f0 -> n < eusable e ->
  (forall c, In c BR_cols -> eadv e c (n - 1) = eadv e c (n - 2) /\ eadv e c n = eadv e c 0) ->
  forall row p, exposes e row -> In p [StorageChanged; StorageDoesNotExist] -> nth 2 row f0 = fz (kind_number p) ->
  forall Y, exists e', fixed_ok e' n /\ sat e' (circuit_of (circuit H)) /\ echal e' = echal e /\
  (forall l r d h, poseidon_hit e' l r d h <-> poseidon_hit e l r d h) /\
  exposes e' (firstn 1 row ++ [Y] ++ skipn 2 row) /\ forall row', exposes e row' -> row' <> row -> exposes e' row'.
Proof. exact slot_free. Qed.
(* a slot that holds 11 in both states is claimed to change from 10 to 12, for every challenge but 0 *)
Theorem C22_unchanged_slot_refuted : exists H n t t' address slot,
  0 <= address < 2 ^ 160 /\ word_ok slot /\ slot_value H t address slot = 11 /\ slot_value H t' address slot = 11 /\
  forall r, r <> f0 -> exists e, fixed_ok e n /\ sat e (circuit_of (circuit H)) /\ (forall a b d h, poseidon_hit e a b d h -> H a b d = h) /\ echal e = r /\
  trie_of H e n (state_root H t) t /\ trie_of H e n (state_root H t') t' /\
  exposes e (encode r (Statement address (word_rlc r slot) StorageChanged (state_root H t') (state_root H t) (word_rlc r 12) (word_rlc r 10))).
Proof. exact other_slot_changed. Qed.
(* a slot that holds 11 is claimed to be empty *)
Theorem C23_stored_slot_refuted : exists H n t address slot,
  0 <= address < 2 ^ 160 /\ word_ok slot /\ slot_value H t address slot = 11 /\
  forall r, r <> f0 -> exists e, fixed_ok e n /\ sat e (circuit_of (circuit H)) /\ (forall a b d h, poseidon_hit e a b d h -> H a b d = h) /\ echal e = r /\
  trie_of H e n (state_root H t) t /\
  exposes e (encode r (Statement address (word_rlc r slot) StorageDoesNotExist (state_root H t) (state_root H t) f0 f0)).
Proof. exact stored_slot_denied. Qed.
Example C22_slot_case : forall r, exists e, circuit_ok mix e 2081 /\ echal e = r /\ spare_row e 2081 BR_cols /\ (forall t, In t [S1; S2] -> trie_of mix e 2081 (state_root mix t) t) /\
  exposes e (encode r (Statement (ad 11) (word_rlc r 1) StorageChanged (state_root mix S2) (state_root mix S1) (word_rlc r 12) (word_rlc r 10))) /\
  exposes e (encode r (Statement (ad 11) (word_rlc r 7) StorageDoesNotExist (state_root mix S1) (state_root mix S1) (word_rlc r 0) (word_rlc r 0))).
Proof. exact slot_table. Qed.

Print Assumptions C13_word_value_not_bound. Print Assumptions C13_slot_gadget_used. Print Assumptions C13_word_gadget_refuted.
Print Assumptions C22_slot_not_bound. Print Assumptions C22_unchanged_slot_refuted. Print Assumptions C23_stored_slot_refuted.
