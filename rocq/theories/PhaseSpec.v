(* What a prover fixes before the challenge is known, and what another circuit asks of the table: a small specification on top of
   TrieSpec.v, TableSpec.v and ChangeSpec.v. *)
From Coq Require Import ZArith List Bool.
From Verif Require Import Pocklington Fr Query BuilderProofs Gadgets Bytes TrieSpec TableSpec ChangeSpec UpdateSound UpdateProps GadgetMain NewProps.
Import ListNotations.
Open Scope Z_scope.

(* The columns allocated in the second phase, that is, after the challenge: byte_representation.rs:62,
   canonical_representation.rs:53, mpt_update.rs:119 and 124-125.  All others are allocated in the first phase
   (constraint_builder.rs:137-138,142-147; the Poseidon table: gadgets/poseidon.rs:36-45) *)
Definition second_phase (c : acol) : bool :=
  match c with BR_rlc | CR_rlc | MU_storage_key_rlc | MU_old_value | MU_new_value | MU_sp _ => true | _ => false end.

(* e agrees with e0 in all that is fixed before the challenge: the size, the fixed columns and the first-phase columns *)
Record commits (e0 e : env) : Prop := {
  cm_rows : eN e = eN e0;
  cm_usable : eusable e = eusable e0;
  cm_fixed : forall c i, efix e c i = efix e0 c i;
  cm_first : forall c i, second_phase c = false -> eadv e c i = eadv e0 c i }.

(* a claim in terms of numbers and roots, as another circuit has it before the challenge is known *)
Record request := Request { rq_address : Z; rq_slot : Z; rq_kind : MPTProofType; rq_new_root : Fr; rq_old_root : Fr; rq_new : Z; rq_old : Z }.
(* values of this kind are 64-bit numbers, field elements, 256-bit words *)
Definition value_ok (p : MPTProofType) (v : Z) : Prop :=
  match p with
  | NonceChanged | CodeSizeExists => 0 <= v < 2 ^ 64
  | PoseidonCodeHashExists => 0 <= v < modulus
  | _ => word_ok v
  end.
Record request_ok (q : request) : Prop := {
  ro_address : 0 <= rq_address q < 2 ^ 160; ro_slot : word_ok (rq_slot q); ro_new : value_ok (rq_kind q) (rq_new q); ro_old : value_ok (rq_kind q) (rq_old q) }.
(* how the table shows it under the challenge c: types.rs:122-154 and mpt_update.rs:80-105 *)
Definition value_column (c : Fr) (p : MPTProofType) (v : Z) : Fr :=
  match p with NonceChanged | CodeSizeExists | PoseidonCodeHashExists => fz v | _ => word_rlc c v end.
Definition requested (c : Fr) (q : request) : statement :=
  Statement (rq_address q) (word_rlc c (rq_slot q)) (rq_kind q) (rq_new_root q) (rq_old_root q)
    (value_column c (rq_kind q) (rq_new q)) (value_column c (rq_kind q) (rq_old q)).

(* the fields of an account as numbers *)
Definition field (p : MPTProofType) (a : account) : Z :=
  match p with
  | NonceChanged => nonce a | BalanceChanged => balance a | CodeHashExists => keccak_code_hash a
  | CodeSizeExists => code_size a | PoseidonCodeHashExists => val (poseidon_code_hash a) | _ => 0
  end.
Definition set_field (p : MPTProofType) (w : Z) (a : account) : account :=
  match p with
  | NonceChanged => set_nonce w a | BalanceChanged => set_balance w a | CodeHashExists => set_keccak w a
  | CodeSizeExists => set_code_size w a | PoseidonCodeHashExists => set_poseidon (fz w) a | _ => a
  end.
(* the slot with key sk changes from old to new (slot_change of ChangeSpec.v, about numbers) *)
Record slot_moves (sk : Fr) (s s' : tree Z) (old new : Z) : Prop := {
  sm_both : forall w w', get s 0 sk = Some w -> get s' 0 sk = Some w' -> old = w /\ new = w' /\ w <> 0 /\ w' <> 0;
  sm_before : ~ present s sk -> old = 0 \/ exists k', foreign_leaf s sk k';
  sm_after : ~ present s' sk -> new = 0 \/ exists k', foreign_leaf s' sk k';
  sm_fill : ~ present s sk -> present s' sk -> old = 0;
  sm_clear : present s sk -> ~ present s' sk -> new = 0;
  sm_others : placed s [] -> placed s' [] -> forall k', k' <> sk ->
    present s sk \/ present s' sk \/ (~ foreign_leaf s sk k' /\ ~ foreign_leaf s' sk k') -> get s' 0 k' = get s 0 k' }.
Definition is_field (p : MPTProofType) : Prop := In p [NonceChanged; BalanceChanged; CodeSizeExists; CodeHashExists; PoseidonCodeHashExists].
(* the claim is true of the states t and t'; the cases in which the code falls short (C16-C20, C49) are left out: claims about
   an account that exists neither before nor afterwards, and storage claims that create an account *)
Record true_claim (H : Fr -> Fr -> Fr -> Fr) (q : request) (t t' : tree account) : Prop := {
  tc_field : forall a, get t 0 (addr_key H (rq_address q)) = Some a -> is_field (rq_kind q) ->
    field (rq_kind q) a = rq_old q /\ t' = modify (set_field (rq_kind q) (rq_new q)) t 0 (addr_key H (rq_address q));
  tc_slot : forall a, get t 0 (addr_key H (rq_address q)) = Some a -> rq_kind q = StorageChanged ->
    exists st', t' = modify (set_storage st') t 0 (addr_key H (rq_address q)) /\ slot_moves (slot_key H (rq_slot q)) (storage a) st' (rq_old q) (rq_new q);
  tc_no_slot : rq_kind q = StorageDoesNotExist -> rq_old q = 0 /\ rq_new q = 0 /\ rq_new_root q = rq_old_root q /\
    forall a, get t 0 (addr_key H (rq_address q)) = Some a -> get (storage a) 0 (slot_key H (rq_slot q)) = None;
  tc_no_account : rq_kind q = AccountDoesNotExist -> rq_old q = 0 /\ rq_new q = 0 /\ rq_new_root q = rq_old_root q /\
    get t 0 (addr_key H (rq_address q)) = None;
  tc_created : forall a', get t 0 (addr_key H (rq_address q)) = None -> get t' 0 (addr_key H (rq_address q)) = Some a' -> rq_kind q <> StorageChanged ->
    rq_old q = 0 /\ (rq_kind q = NonceChanged \/ rq_kind q = BalanceChanged) /\ a' = set_field (rq_kind q) (rq_new q) new_account;
  tc_possible : rq_kind q <> AccountDestructed }.

(* under the challenge c the prover, committed to e0, can complete the table so that it is accepted and shows the claim q, which is
   false of the states t and t' with the claimed roots *)
Definition fooled (H : Fr -> Fr -> Fr -> Fr) (e0 : env) (n : Z) (q : request) (t t' : tree account) (c : Fr) : Prop :=
  exists e, commits e0 e /\ echal e = c /\ circuit_ok H e n /\
    exposes e (encode c (requested c q)) /\ encode c (requested c q) <> blank_row /\ encode c (requested c q) <> final_row /\
    tries_of H e n (requested c q) t t' /\ ~ true_claim H q t t'.
