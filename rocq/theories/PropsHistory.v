(* Property C52: over any number of accepted updates, each starting from the state in which the one before ended, the state trie
   behaves like a key-value store.  Only statements; the proofs are in History.v, the examples in HistoryCase.v.
   Specification: HistorySpec.v on top of TrieSpec.v (tries), TableSpec.v (rows) and ChangeSpec.v (changes).
   - step H R e s t t'         a row of the accepted table e states s, about the tries t and t', and R e s t t' holds
   - history H R t l t'        the updates l (each with its table) lead from t to t'; tables may differ from update to update
   - regular H s t t'          one of the cases in which C49 and C50 hold of the code: the account exists before, or nothing
                               changes, or a nonce or balance claim creates the account, leaves being placed by their keys.  The
                               other cases are refuted in PropsForged.v, hence _partial
   - slot_regular H K slot     in addition: no other slot in the table has the RLC or the key of slot, leaves of the storage tries
                               are placed, and each claimed slot of the account K exists before or after the claim *)
From Coq Require Import ZArith String List Bool Lia.
From Verif Require Import Pocklington Fr Query Builder Gadgets MptUpdate Fixed Bytes TrieSpec TableSpec UpdateSound UpdateProps GadgetMain ChangeSpec NewProps HistorySpec History HonestCase HistoryCase.
Import ListNotations.
Open Scope Z_scope.

(* a root belongs to one state only, so histories can be chained by comparing roots *)
Theorem C52_root_determines_state : forall H t t', tree_all account_ok t -> tree_all account_ok t' ->
  collision_free H (fun x => In x (state_inputs H t) \/ In x (state_inputs H t')) -> state_root H t = state_root H t' -> t = t'.
Proof. exact one_state. Qed.
(* each account evolves by the updates about it, one after the other, each from the old to the new value it states, and not by any
   other update *)
Theorem C52_replay_partial : forall H t l t', history H (fun _ => regular H) t l t' -> forall K, replay H K l (get t 0 K) (get t' 0 K).
Proof. exact replays. Qed.
Theorem C52_untouched_partial : forall H t l t' K, history H (fun _ => regular H) t l t' ->
  (forall e s, In (e, s) l -> addr_key H (st_address s) <> K) -> get t' 0 K = get t 0 K.
Proof. exact untouched. Qed.
(* without "regular" this is false of the code *)
Theorem C52_untouched_refuted : exists H e s t t' k B, history H (fun _ _ _ _ => True) t [(e, s)] t' /\ addr_key H (st_address s) <> k /\
  placed t [] /\ placed t' [] /\ get t 0 k = Some B /\ get t' 0 k = None.
Proof. exists mix. exact replaced_history. Qed.
(* no account disappears, and a field that no update is about is unchanged *)
Theorem C52_fields_kept_partial : forall H t l t' K a, history H (fun _ => regular H) t l t' -> get t 0 K = Some a ->
  exists a', get t' 0 K = Some a' /\ forall p, ~ claimed H K p l -> same_field p a a'.
Proof. exact keeps_fields. Qed.
(* the last update of a field determines its final value *)
Theorem C52_last_write_partial : forall H t e s t1 l t', let K := addr_key H (st_address s) in
  step H (fun _ => regular H) e s t t1 -> history H (fun _ => regular H) t1 l t' -> present t K ->
  In (st_kind s) [NonceChanged; BalanceChanged; CodeSizeExists; CodeHashExists; PoseidonCodeHashExists] -> ~ claimed H K (st_kind s) l ->
  exists a', get t' 0 K = Some a' /\ table_value (echal e) (st_kind s) a' = st_new_value s.
Proof. exact last_write. Qed.
(* the next update of a field starts from the value the last one ended with: both rows show the same value, and the same table
   entry if the tables have the same challenge or the field is shown without it *)
Theorem C52_read_back_partial : forall H t e1 s1 t1 l t2 e2 s2 t3, let K := addr_key H (st_address s1) in
  step H (fun _ => regular H) e1 s1 t t1 -> history H (fun _ => regular H) t1 l t2 -> step H (fun _ => regular H) e2 s2 t2 t3 ->
  present t K -> addr_key H (st_address s2) = K ->
  In (st_kind s1) [NonceChanged; BalanceChanged; CodeSizeExists; CodeHashExists; PoseidonCodeHashExists] -> st_kind s2 = st_kind s1 ->
  ~ claimed H K (st_kind s1) l ->
  exists a, get t2 0 K = Some a /\ st_new_value s1 = table_value (echal e1) (st_kind s1) a /\ st_old_value s2 = table_value (echal e2) (st_kind s1) a.
Proof. exact read_back. Qed.
Theorem C52_same_entry_partial : forall H t e1 s1 t1 l t2 e2 s2 t3, let K := addr_key H (st_address s1) in
  step H (fun _ => regular H) e1 s1 t t1 -> history H (fun _ => regular H) t1 l t2 -> step H (fun _ => regular H) e2 s2 t2 t3 ->
  present t K -> addr_key H (st_address s2) = K ->
  In (st_kind s1) [NonceChanged; BalanceChanged; CodeSizeExists; CodeHashExists; PoseidonCodeHashExists] -> st_kind s2 = st_kind s1 ->
  ~ claimed H K (st_kind s1) l -> echal e2 = echal e1 \/ In (st_kind s1) [NonceChanged; CodeSizeExists; PoseidonCodeHashExists] ->
  st_old_value s2 = st_new_value s1.
Proof. exact read_same. Qed.
(* five updates, of accounts 11, 14 and 2; account 15 is in none of them *)
Example C52_long_case : exists e s1 s2 s3 s4 s5, step mix (fun _ => regular mix) e s1 S0 S1 /\ history mix (fun _ => regular mix) S1 [(e, s2); (e, s3); (e, s4); (e, s5)] S5 /\
  map (fun s => (st_kind s, st_address s)) [s1; s2; s3; s4; s5] = [(NonceChanged, ad 11); (StorageChanged, ad 11); (StorageChanged, ad 11); (BalanceChanged, ad 14); (StorageChanged, ad 2)] /\ st_new_value s1 = fz 8.
Proof. exact long_case. Qed.
Example C52_present : present S0 (addr_key mix (ad 11)). Proof. exact present_11_S0. Qed.
(* the balance of account 11, claimed twice with another claim in between *)
Example C52_twice_case : exists e s1 s2 s3, step mix (fun _ => regular mix) e s1 S1 S1 /\ history mix (fun _ => regular mix) S1 [(e, s2)] S1 /\ step mix (fun _ => regular mix) e s3 S1 S1 /\
  map (fun s => (st_kind s, st_address s)) [s1; s2; s3] = [(BalanceChanged, ad 11); (CodeSizeExists, ad 11); (BalanceChanged, ad 11)] /\ st_new_value s1 = word_rlc (echal e) 3.
Proof. exact twice_case. Qed.

(** * Storage slots *)
Theorem C52_slot_kept_partial : forall H K slot t l t', history H (slot_regular H K slot) t l t' ->
  (forall e s, In (e, s) l -> ~ about_slot H K slot e s) -> forall a, get t 0 K = Some a ->
  exists a', get t' 0 K = Some a' /\ get (storage a') 0 (slot_key H slot) = get (storage a) 0 (slot_key H slot).
Proof. exact slot_kept. Qed.
(* for a slot that exists before its last update *)
Theorem C52_slot_last_write_partial : forall H K slot t e s t1 l t' a, step H (slot_regular H K slot) e s t t1 -> history H (slot_regular H K slot) t1 l t' ->
  about_slot H K slot e s -> get t 0 K = Some a -> present (storage a) (slot_key H slot) ->
  (forall e' s', In (e', s') l -> ~ about_slot H K slot e' s') ->
  exists a', get t' 0 K = Some a' /\ st_new_value s = slot_table_value (echal e) (get (storage a') 0 (slot_key H slot)).
Proof. exact slot_last_write. Qed.
(* for a slot that exists before the first and after the second update *)
Theorem C52_slot_read_back_partial : forall H K slot t e1 s1 t1 l t2 e2 s2 t3 a a3,
  step H (slot_regular H K slot) e1 s1 t t1 -> history H (slot_regular H K slot) t1 l t2 -> step H (slot_regular H K slot) e2 s2 t2 t3 ->
  about_slot H K slot e1 s1 -> about_slot H K slot e2 s2 ->
  get t 0 K = Some a -> present (storage a) (slot_key H slot) -> get t3 0 K = Some a3 -> present (storage a3) (slot_key H slot) ->
  (forall e' s', In (e', s') l -> ~ about_slot H K slot e' s') ->
  exists o, st_new_value s1 = slot_table_value (echal e1) o /\ st_old_value s2 = slot_table_value (echal e2) o.
Proof. exact slot_read_back. Qed.
(* slot 1 of account 11 becomes 12, slot 5 is filled, slot 1 becomes 9 *)
Example C52_slots_case : exists e s1 s2 s3, step mix (slot_regular mix (ac 11) 1) e s1 S1 S2 /\ history mix (slot_regular mix (ac 11) 1) S2 [(e, s2)] S3 /\ step mix (slot_regular mix (ac 11) 1) e s3 S3 S6 /\
  about_slot mix (ac 11) 1 e s1 /\ ~ about_slot mix (ac 11) 1 e s2 /\ about_slot mix (ac 11) 1 e s3 /\
  (exists a, get S1 0 (ac 11) = Some a /\ present (storage a) (slot_key mix 1)) /\ (exists a, get S6 0 (ac 11) = Some a /\ present (storage a) (slot_key mix 1)) /\
  st_new_value s1 = word_rlc (echal e) 12 /\ st_old_value s3 = word_rlc (echal e) 12 /\ st_new_value s3 = word_rlc (echal e) 9.
Proof. exact slots_case. Qed.

Print Assumptions C52_root_determines_state.
Print Assumptions C52_replay_partial.
Print Assumptions C52_untouched_partial.
Print Assumptions C52_untouched_refuted.
Print Assumptions C52_fields_kept_partial.
Print Assumptions C52_last_write_partial.
Print Assumptions C52_read_back_partial.
Print Assumptions C52_same_entry_partial.
Print Assumptions C52_slot_kept_partial.
Print Assumptions C52_slot_last_write_partial.
Print Assumptions C52_slot_read_back_partial.
