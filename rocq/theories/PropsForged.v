(* Properties C16, C21, C22, C24, C49, C50, C51 where the code falls short of them: tries and false claims about them that the
   circuit accepts, for every hash function, every number of rows and every challenge.  Only statements; the proofs are in
   Forgeries.v, ForgeByte.v and ForgeBits.v (on Forge.v), the concrete cases in ForgeCase.v.
   - circuit_ok H e n          the assignment e satisfies the circuit (see PropsSound.v)
   - tries_of H e n s t t'     t and t' have the old and the new root of the statement s, values in range, paths no longer than the
                               key-bit table is reliable for, no hash collisions (see PropsNew.v)
   - placed t []               every leaf of t is where its key says
   - beside b t u              the node with the child u on side b and the child t on the other side
   - all_inputs H a b t t'     the inputs of the hashes of t and t', of the addresses a and b and of a new account *)
From Coq Require Import ZArith String List Bool Lia.
From Verif Require Import Pocklington Fr Query Builder Gadgets MptUpdate Fixed Bytes TrieSpec TableSpec BuilderProofs UpdateWalk UpdateSound UpdateProps GadgetMain ChangeSpec NewProps HonestSpec HonestCase Forge Forgeries ForgeByte ForgeBits ForgeCase.
Import ListNotations.
Open Scope Z_scope.

(** * C24, C50: an account is replaced by another one *)
(* whenever the state is a single account of address b, the claim that the nonce of another account a changes from 0 to x is
   accepted with a new state from which b has disappeared *)
Theorem C50_other_account_replaced_refuted : forall H n r a b x B, 2052 <= n < 2 ^ 62 -> 0 <= a < 2 ^ 160 -> 0 <= b < 2 ^ 160 -> a <> b -> 0 <= x < 2 ^ 64 ->
  account_ok B -> bits_ok n (height (storage B)) ->
  let t := Leaf (addr_key H b) B in let t' := Leaf (addr_key H a) (set_nonce x new_account) in
  collision_free H (fun y => In y (all_inputs H a b t t')) ->
  (exists e, circuit_ok H e n /\ echal e = r /\ let s := Statement a f0 NonceChanged (state_root H t') (state_root H t) (fz x) f0 in
     exposes e (encode r s) /\ tries_of H e n s t t') /\
  placed t [] /\ placed t' [] /\ get t 0 (addr_key H b) = Some B /\ get t' 0 (addr_key H b) = None.
Proof.
  intros H n r a b x B Hn Ha Hb Hab Hx HB HS t t' CF. split; [exact (replaced H n r a b x B Hn Ha Hb Hab Hx HB HS CF)|].
  do 2 (split; [intros i bit E; destruct i; discriminate E|]). exact (replaced_lost H a b x B Ha Hb Hab CF).
Qed.
Theorem C24_other_account_removed_refuted : forall r, exists H e n s t t' k B, circuit_ok H e n /\ echal e = r /\ exposes e (encode r s) /\ tries_of H e n s t t' /\
  placed t [] /\ placed t' [] /\ get t 0 k = Some B /\ get t' 0 k = None.
Proof.
  intros r. destruct (C50_other_account_replaced_refuted mix 2081 r (ad 11) (ad 15) 8 A1 ltac:(lia) (ad_small 11 ltac:(lia)) (ad_small 15 ltac:(lia)) ltac:(discriminate) ltac:(lia) A1_ok ltac:(left; reflexivity) cf_replaced) as ((e & OK & Ch & Ex & Tr) & R).
  exists mix, e, 2081. do 5 eexists. split; [exact OK|]. split; [exact Ch|]. split; [exact Ex|]. split; [exact Tr|]. exact R.
Qed.

(** * C50, C51: an account is inserted at the wrong place *)
(* whenever the state is a single account of address b whose path starts with the same bit as that of a, the claim that the
   nonce of a changes from 0 to x is accepted with a new state that has b on the wrong side: it is not found there any more *)
Theorem C51_misplaced_leaf_refuted : forall H n r a b x B, 2052 <= n < 2 ^ 62 -> 0 <= a < 2 ^ 160 -> 0 <= b < 2 ^ 160 -> a <> b ->
  kbit (addr_key H b) 0 = kbit (addr_key H a) 0 -> 0 <= x < 2 ^ 64 -> account_ok B -> bits_ok n (height (storage B)) ->
  let t := Leaf (addr_key H b) B in let t' := beside (kbit (addr_key H a) 0) t (Leaf (addr_key H a) (set_nonce x new_account)) in
  collision_free H (fun y => In y (all_inputs H a b t t')) ->
  (exists e, circuit_ok H e n /\ echal e = r /\ let s := Statement a f0 NonceChanged (state_root H t') (state_root H t) (fz x) f0 in
     exposes e (encode r s) /\ tries_of H e n s t t') /\
  placed t [] /\ get t 0 (addr_key H b) = Some B /\ ~ placed t' [] /\ get t' 0 (addr_key H b) = None.
Proof.
  intros H n r a b x B Hn Ha Hb Hab Side Hx HB HS t t' CF. split; [exact (misplaced H n r a b x B Hn Ha Hb Hab Side Hx HB HS CF)|]. exact (misplaced_lost H a b x B Ha Hb Hab Side CF).
Qed.
Example C51_misplaced_case : forall r, exists e, circuit_ok mix e 2081 /\ echal e = r /\
  let t := Leaf (addr_key mix (ad 15)) A1 in let t' := beside (kbit (addr_key mix (ad 11)) 0) t (Leaf (addr_key mix (ad 11)) (set_nonce 8 new_account)) in
  let s := Statement (ad 11) f0 NonceChanged (state_root mix t') (state_root mix t) (fz 8) f0 in exposes e (encode r s) /\ tries_of mix e 2081 s t t' /\
  placed t [] /\ ~ placed t' [].
Proof.
  intros r. destruct (C51_misplaced_leaf_refuted mix 2081 r (ad 11) (ad 15) 8 A1 ltac:(lia) (ad_small 11 ltac:(lia)) (ad_small 15 ltac:(lia)) ltac:(discriminate) same_side ltac:(lia) A1_ok ltac:(left; reflexivity) cf_misplaced) as ((e & OK & Ch & Ex & Tr) & P & _ & Q & _).
  exists e. cbv zeta. split; [exact OK|]. split; [exact Ch|]. split; [exact Ex|]. split; [exact Tr|]. split; [exact P|exact Q].
Qed.

(** * C16, C50, C51: a claim that nothing happens goes with a change of the state *)
(* whenever the state is a single account of address b, the claim that the nonce of an absent account a remains 0 is accepted
   with a different new state, one in which the leaf of b occurs twice *)
Theorem C51_doubled_state_refuted : forall H n r a b B, 2052 <= n < 2 ^ 62 -> 0 <= a < 2 ^ 160 -> 0 <= b < 2 ^ 160 -> a <> b ->
  account_ok B -> bits_ok n (height (storage B)) ->
  let t := Leaf (addr_key H b) B in let t' := Node t t in
  collision_free H (fun y => In y (all_inputs H a b t t')) ->
  (exists e, circuit_ok H e n /\ echal e = r /\ let s := Statement a f0 NonceChanged (state_root H t') (state_root H t) f0 f0 in
     exposes e (encode r s) /\ tries_of H e n s t t') /\
  placed t [] /\ get t 0 (addr_key H a) = None /\ state_root H t' <> state_root H t /\ ~ placed t' [].
Proof.
  intros H n r a b B Hn Ha Hb Hab HB HS t t' CF. split; [exact (doubled H n r a b B Hn Ha Hb Hab HB HS CF)|]. exact (doubled_bad H a b B Ha Hb Hab CF).
Qed.
Example C51_doubled_case : forall r, exists e, circuit_ok mix e 2081 /\ echal e = r /\
  let t := Leaf (addr_key mix (ad 15)) A1 in let t' := Node t t in
  let s := Statement (ad 11) f0 NonceChanged (state_root mix t') (state_root mix t) f0 f0 in exposes e (encode r s) /\ tries_of mix e 2081 s t t' /\
  state_root mix t' <> state_root mix t.
Proof.
  intros r. destruct (C51_doubled_state_refuted mix 2081 r (ad 11) (ad 15) A1 ltac:(lia) (ad_small 11 ltac:(lia)) (ad_small 15 ltac:(lia)) ltac:(discriminate) A1_ok ltac:(left; reflexivity) cf_doubled) as ((e & OK & Ch & Ex & Tr) & _ & _ & Q & _).
  exists e. cbv zeta. split; [exact OK|]. split; [exact Ch|]. split; [exact Ex|]. split; [exact Tr|exact Q].
Qed.

(** * C22, C49: a claim about a storage slot creates an account with arbitrary contents *)
(* in the empty state, the claim that a slot of the account a changes from 0 to any value nv is accepted with every new state in
   which a is the only account, has any nonce, balance, code size and code hashes, and the slot contains any word other than 0 *)
Theorem C49_account_created_by_storage_claim_refuted : forall H n r a slot w nonce code_size balance keccak poseidon nv, 2052 <= n < 2 ^ 62 -> bits_ok n 0 -> 0 <= a < 2 ^ 160 -> word_ok slot -> w <> 0 ->
  let v := mkAccount nonce code_size balance keccak poseidon (Leaf (slot_key H slot) w) in let t' := Leaf (addr_key H a) v in
  account_ok v -> collision_free H (fun y => In y (cr_inputs H a slot w nonce code_size balance keccak poseidon)) ->
  exists e, circuit_ok H e n /\ echal e = r /\ let s := Statement a (word_rlc r slot) StorageChanged (state_root H t') f0 nv f0 in
     exposes e (encode r s) /\ tries_of H e n s Empty t'.
Proof. intros H n r a slot w nonce code_size balance keccak poseidon nv Hn Hb Ha Hs Hw v t' Hv CF. exact (created H n r a slot w nonce code_size balance keccak poseidon nv Hn Hb Ha Hs Hv Hw CF). Qed.
(* for example, with a balance of 2^100 out of nothing, whatever value the slot is said to get *)
Example C22_created_case : forall r nv, exists e, circuit_ok mix e 2081 /\ echal e = r /\
  let t' := Leaf (addr_key mix (ad 11)) (mkAccount 1000 24 (2 ^ 100) (2 ^ 255) (fz 9) (Leaf (slot_key mix 5) 77)) in
  let s := Statement (ad 11) (word_rlc r 5) StorageChanged (state_root mix t') f0 nv f0 in exposes e (encode r s) /\ tries_of mix e 2081 s Empty t'.
Proof.
  intros r nv. exact (C49_account_created_by_storage_claim_refuted mix 2081 r (ad 11) 5 77 1000 24 (2 ^ 100) (2 ^ 255) (fz 9) nv ltac:(lia) ltac:(left; reflexivity) (ad_small 11 ltac:(lia)) ltac:(unfold word_ok; lia) ltac:(discriminate) rich_ok cf_created).
Qed.

(** * C21: an existing account is claimed not to exist *)
(* if the first row of the byte-representation table is not anchored (nothing in the code makes it so: C06), every account that
   is alone in its state can be claimed not to exist; hi and lo are any second way to write its address as hi * 2^32 + lo *)
Theorem C21_unanchored_refuted : forall H n r a B hi lo, 2052 <= n < 2 ^ 62 -> r <> f0 -> 0 <= a < 2 ^ 160 ->
  hi * 2 ^ 32 + lo = a -> 0 <= hi < 2 ^ 128 -> hi <> a / 2 ^ 32 -> account_ok B -> bits_ok n (height (storage B)) ->
  let t := Leaf (addr_key H a) B in collision_free H (fun y => In y (dn_inputs H a B hi lo)) ->
  (exists e, fixed_ok e n /\ sat e (circuit_of (circuit H)) /\ (forall x y d h, poseidon_hit e x y d h -> H x y d = h) /\ echal e = r /\
     exposes e (encode r (Statement a f0 AccountDoesNotExist (state_root H t) (state_root H t) f0 f0)) /\ trie_of H e n (state_root H t) t) /\
  get t 0 (addr_key H a) = Some B.
Proof.
  intros H n r a B hi lo Hn Hr Ha Sp Hhi Oth HB HS t CF. split; [exact (denied H n r a B hi lo Hn Hr Ha Sp Hhi Oth HB HS CF)|]. subst t. cbn [get]. rewrite (proj2 (feqb_eq _ _) eq_refl). reflexivity.
Qed.
Example C21_unanchored_case : forall r, r <> f0 -> exists e, fixed_ok e 2081 /\ sat e (circuit_of (circuit mix)) /\ (forall x y d h, poseidon_hit e x y d h -> mix x y d = h) /\ echal e = r /\
  let t := Leaf (addr_key mix (ad 11)) A1 in exposes e (encode r (Statement (ad 11) f0 AccountDoesNotExist (state_root mix t) (state_root mix t) f0 f0)) /\ trie_of mix e 2081 (state_root mix t) t.
Proof.
  intros r R. exact (proj1 (C21_unanchored_refuted mix 2081 r (ad 11) A1 10 (2 ^ 32) ltac:(lia) R (ad_small 11 ltac:(lia)) eq_refl ltac:(lia) ltac:(discriminate) A1_ok ltac:(left; reflexivity) cf_denied)).
Qed.
(* if the number of rows is a multiple of 32 (a power of two, say), an account at a depth of more than 8 can be claimed not to
   exist although everything is anchored: spine k 0 j (fork k B) is the state that consists of the account B under the key k,
   at depth j + 1 *)
Theorem C21_n_rows_multiple_of_32_refuted : forall H n r a B j, 2052 <= n < 2 ^ 62 -> n mod 32 = 0 -> 0 <= a < 2 ^ 160 -> (8 <= j < 256)%nat -> account_ok B ->
  let k := addr_key H a in kbit k j = true -> let t := spine k 0 j (fork k B) in
  collision_free H (fun y => In y (hd_inputs H a B j)) ->
  (exists e, circuit_ok H e n /\ echal e = r /\ exposes e (encode r (Statement a f0 AccountDoesNotExist (state_root H t) (state_root H t) f0 f0)) /\
     collision_free H (UpdateSound.inputs H e t)) /\
  get t 0 k = Some B /\ placed t [] /\ tree_all account_ok t.
Proof.
  intros H n r a B j Hn N Ha Hj HB k Hb t CF. split; [exact (hidden H n r a B j Hn N Ha Hj Hb CF)|]. exact (hidden_there H a B j HB Hb).
Qed.
Example C21_n_rows_case : forall r, exists e, circuit_ok mix e (2 ^ 18) /\ echal e = r /\
  let t := spine (addr_key mix (ad 11)) 0 8 (fork (addr_key mix (ad 11)) A1) in exposes e (encode r (Statement (ad 11) f0 AccountDoesNotExist (state_root mix t) (state_root mix t) f0 f0)).
Proof.
  intros r. destruct (C21_n_rows_multiple_of_32_refuted mix (2 ^ 18) r (ad 11) A1 8 ltac:(lia) eq_refl (ad_small 11 ltac:(lia)) ltac:(lia) A1_ok bit_8 cf_hidden) as ((e & OK & Ch & Ex & _) & _).
  exists e. cbv zeta. split; [exact OK|]. split; [exact Ch|exact Ex].
Qed.

Print Assumptions C50_other_account_replaced_refuted.
Print Assumptions C24_other_account_removed_refuted.
Print Assumptions C51_misplaced_leaf_refuted.
Print Assumptions C51_doubled_state_refuted.
Print Assumptions C49_account_created_by_storage_claim_refuted.
Print Assumptions C21_unanchored_refuted.
Print Assumptions C21_n_rows_multiple_of_32_refuted.
