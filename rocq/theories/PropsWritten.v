(* Property C64: an accepted update changes the tries as an honest update does.  Only statements; proofs in Written.v,
   ForgeBuried.v and WrittenCase.v.
   - circuit_ok H e n          the assignment e satisfies the circuit (see PropsSound.v)
   - tries_of H e n s t t'     t and t' have the old and the new root of the statement s, values in range, paths no longer than the
                               key-bit table is reliable for, no hash collisions (see PropsNew.v)
   - written K ov nv t t'      HonestSpec.v: the value under K changes from ov to nv (None: not there) and nothing else does; a new
                               leaf takes an empty place or shares one with the leaf it finds there, from where their keys part
   - compact t                 WrittenSpec.v: every branch node of t has at least two leaves below it
   - placed t []               every leaf of t is where its key says
   - foreign_leaf t K k'       the leaf at the end of the path of K is that of the other key k' *)
From Coq Require Import ZArith String List Bool Lia.
From Verif Require Import Pocklington Fr Query Builder Gadgets MptUpdate Fixed Bytes TrieSpec TableSpec BuilderProofs Util Serde Trie Storage Types Lookups HonestTrace LookupMain UpdateAssign MptModes UpdateWalk UpdateSound UpdateProps GadgetMain GadgetMain2 MptRows MptCases TablesOk ChangeSpec NewProps NewCase
  HonestSpec HonestCase Forge Forgeries ForgeCase ForgeBuried WrittenSpec Written WrittenCase.
Import ListNotations.
Open Scope Z_scope.

(* What is missing is false of the code: the new trie may have misplaced leaves (C51_misplaced_leaf_refuted) or superfluous nodes
   (C64_buried_leaf_refuted), a single leaf may be replaced (C50_other_account_replaced_refuted), and the leaf at the end of the
   path may be that of another account (C16_address_not_bound) *)
Theorem C64_account_written_partial : forall H e n, circuit_ok H e n -> forall row, exposes e row -> row <> blank_row -> row <> final_row ->
  exists s, row = encode (echal e) s /\ 0 <= st_address s < 2 ^ 160 /\ forall t t', tries_of H e n s t t' ->
  let K := addr_key H (st_address s) in
  placed t' [] -> compact t' -> (forall o b, t = Leaf o b -> o = K) -> present t K \/ present t' K \/ (forall k', ~ foreign_leaf t' K k') ->
  written K (get t 0 K) (get t' 0 K) t t'.
Proof. exact accounts_written. Qed.
Example C64_account_case : case_for BalanceChanged (fun address t t' => let K := addr_key mix address in
  get t 0 K = None /\ get t' 0 K = Some (set_balance (2 ^ 100) new_account) /\ leaves t = 3%nat /\ placed t' [] /\ compact t' /\ (forall o b, t = Leaf o b -> o = K)).
Proof. exact created_case. Qed.

(* storage slots of an existing account: written, filled or cleared *)
Theorem C64_slot_written_partial : forall H e n, circuit_ok H e n -> forall row, exposes e row -> row <> blank_row -> row <> final_row ->
  exists s, row = encode (echal e) s /\ 0 <= st_address s < 2 ^ 160 /\ forall t t', tries_of H e n s t t' ->
  let K := addr_key H (st_address s) in
  st_kind s = StorageChanged -> forall a, get t 0 K = Some a ->
  exists st' slot, t' = modify (set_storage st') t 0 K /\ word_ok slot /\ st_slot_rlc s = word_rlc (echal e) slot /\
    slot_change (echal e) (slot_key H slot) (storage a) st' (st_old_value s) (st_new_value s) /\
    let k := slot_key H slot in
    (placed (storage a) [] -> placed st' [] -> compact (storage a) -> compact st' ->
     present (storage a) k \/ present st' k \/ (forall k', ~ foreign_leaf (storage a) k k' /\ ~ foreign_leaf st' k k') ->
     written k (get (storage a) 0 k) (get st' 0 k) (storage a) st').
Proof. exact Written.slots_written. Qed.
Example C64_slot_case : case_for StorageChanged (fun address t t' => exists a st', get t 0 (addr_key mix address) = Some a /\ t' = modify (set_storage st') t 0 (addr_key mix address) /\
  placed (storage a) [] /\ placed st' [] /\ compact (storage a) /\ compact st' /\ get (storage a) 0 (slot_key mix 5) = None /\ get st' 0 (slot_key mix 5) = Some (2 ^ 200) /\ leaves (storage a) = 2%nat).
Proof. exact filled_case. Qed.

(* the new root is determined by the old state and the new account, whatever table the update is proved in *)
Theorem C64_new_root_determined_partial : forall H e1 n1 e2 n2, circuit_ok H e1 n1 -> circuit_ok H e2 n2 ->
  forall row1 row2, exposes e1 row1 -> row1 <> blank_row -> row1 <> final_row -> exposes e2 row2 -> row2 <> blank_row -> row2 <> final_row ->
  exists s1 s2, row1 = encode (echal e1) s1 /\ 0 <= st_address s1 < 2 ^ 160 /\ row2 = encode (echal e2) s2 /\ 0 <= st_address s2 < 2 ^ 160 /\
  forall t t1 t2, tries_of H e1 n1 s1 t t1 -> tries_of H e2 n2 s2 t t2 -> st_address s1 = st_address s2 ->
  let K := addr_key H (st_address s1) in
  get t1 0 K = get t2 0 K -> placed t1 [] -> placed t2 [] -> compact t1 -> compact t2 -> (forall o b, t = Leaf o b -> o = K) ->
  present t K \/ present t1 K \/ (forall k', ~ foreign_leaf t1 K k' /\ ~ foreign_leaf t2 K k') ->
  t1 = t2 /\ st_new_root s1 = st_new_root s2.
Proof. exact root_determined. Qed.

(* an honest write leaves no choice, in tries without superfluous nodes; inserting into such a trie gives such a trie *)
Theorem C64_written_unique : forall V K (t t1 t2 : tree V) ov nv, written K ov nv t t1 -> written K ov nv t t2 -> compact t1 -> compact t2 -> t1 = t2.
Proof. exact (fun V K t t1 t2 ov nv => written_unique K t t1 t2 ov nv). Qed.
Theorem C64_insertion_compact : forall V K (v : V) t t', insertion K v 0 t t' -> compact t -> compact t'.
Proof. exact (fun V K v t t' => insertion_compact K v 0 t t'). Qed.

(* in an empty state, a new account may be hung up one level too deep: all its contents are right, all leaves are where their keys
   say, but the new root is not that of the state with this account *)
Theorem C64_buried_leaf_refuted : forall H n r a x, 2052 <= n < 2 ^ 62 -> 0 <= a < 2 ^ 160 -> 0 <= x < 2 ^ 64 -> bits_ok n 1 ->
  let K := addr_key H a in let v := set_nonce x new_account in let t' := beside (kbit K 0) Empty (Leaf K v) in
  collision_free H (fun y => In y (all_inputs H a a Empty t')) ->
  (exists e, circuit_ok H e n /\ echal e = r /\ let s := Statement a f0 NonceChanged (state_root H t') (state_root H Empty) (fz x) f0 in
     exposes e (encode r s) /\ tries_of H e n s Empty t') /\
  placed t' [] /\ get t' 0 K = Some v /\ (forall k, k <> K -> get t' 0 k = None) /\ ~ compact t' /\ state_root H t' <> state_root H (Leaf K v).
Proof.
  intros H n r a x Hn Ha Hx HS K v t' CF. split; [exact (buried H n r a x Hn Ha Hx HS CF)|]. exact (buried_shape H a x CF).
Qed.
Example C64_buried_case : forall r, exists e, circuit_ok mix e 2081 /\ echal e = r /\
  let K := addr_key mix (ad 11) in let t' := beside (kbit K 0) Empty (Leaf K (set_nonce 8 new_account)) in
  let s := Statement (ad 11) f0 NonceChanged (state_root mix t') (state_root mix Empty) (fz 8) f0 in exposes e (encode r s) /\ tries_of mix e 2081 s Empty t' /\ ~ compact t'.
Proof.
  intros r. destruct (C64_buried_leaf_refuted mix 2081 r (ad 11) 8 ltac:(lia) (ad_small 11 ltac:(lia)) ltac:(lia) ltac:(left; reflexivity) cf_buried) as ((e & OK & Ch & Ex & Tr) & _ & _ & _ & Q & _).
  exists e. cbv zeta. split; [exact OK|]. split; [exact Ch|]. split; [exact Ex|]. split; [exact Tr|exact Q].
Qed.

(* when a slot is cleared, the node above it may be removed or not: the same claim goes with two new roots, in one and the same table *)
Theorem C64_removal_two_roots_refuted : forall r, exists proofs ws e,
  Forall (honest_update mix) [clear T1; clear T2] /\ Forall2 (fun u p => proof_from mix (u_kind u) (u_trace u) = Some p) [clear T1; clear T2] proofs /\
  mpt_assign mix true 4 proofs 2080 r = Some ws /\ filled e r ws /\ room e 2080 /\ sat e (circuit_of (circuit mix)) /\
  (let row root := encode r (Statement (ad 11) (word_rlc r 1) StorageChanged root (state_root mix T0) f0 (word_rlc r 10)) in
   exposes e (row (state_root mix T1)) /\ exposes e (row (state_root mix T2))) /\
  state_root mix T1 <> state_root mix T2.
Proof.
  intros r. destruct (two_ways r) as (proofs & ws & e & C & W & F & R & S & Ex). exists proofs, ws, e.
  split; [exact clears_ok|]. split; [exact C|]. split; [exact W|]. split; [exact F|]. split; [exact R|]. split; [exact S|]. split; [exact Ex|exact two_roots].
Qed.

Print Assumptions C64_account_written_partial. Print Assumptions C64_slot_written_partial. Print Assumptions C64_new_root_determined_partial. Print Assumptions C64_written_unique.
Print Assumptions C64_insertion_compact. Print Assumptions C64_buried_leaf_refuted. Print Assumptions C64_removal_two_roots_refuted. Print Assumptions C64_account_case. Print Assumptions C64_slot_case. Print Assumptions C64_buried_case.
