(* What an update may change, stated about the old and the new trie: a small specification on top of TrieSpec.v and TableSpec.v. *)
From Coq Require Import ZArith List Bool.
From Verif Require Import Pocklington Fr Query BuilderProofs Gadgets Bytes TrieSpec TableSpec.
Import ListNotations.
Open Scope Z_scope.

(* the account that a creation starts from: no nonce, balance, code or storage *)
Definition new_account : account := mkAccount 0 0 0 0 f0 Empty.
(* a is a new account with only the field of a claim of kind p set, to the table value v *)
Definition account_created (c : Fr) (p : MPTProofType) (a : account) (v : Fr) : Prop :=
  (p = NonceChanged /\ exists w, 0 <= w < 2 ^ 64 /\ v = fz w /\ a = set_nonce w new_account) \/
  (p = BalanceChanged /\ exists w, 0 <= w < 2 ^ 248 /\ v = word_rlc c w /\ a = set_balance w new_account).

(* key k is present *)
Definition present {V} (t : tree V) (k : Fr) : Prop := exists v, get t 0 k = Some v.
(* the leaf at the end of the path of k belongs to another key k' *)
Definition foreign_leaf {V} (t : tree V) (k k' : Fr) : Prop := k' <> k /\ exists v, reached t 0 k = Some (k', v).

(* how the slots of an account may change when the slot with key sk is claimed to change from old to new *)
Record slot_change (c : Fr) (sk : Fr) (s s' : tree Z) (old new : Fr) : Prop := {
  (* a slot that is in both tries has the old and the new value *)
  sc_both : forall w w', get s 0 sk = Some w -> get s' 0 sk = Some w' -> w <> 0 /\ w' <> 0 /\ old = word_rlc c w /\ new = word_rlc c w';
  (* a slot that is not in the old trie has old value 0, one that is not in the new trie has new value 0 *)
  sc_before : ~ present s sk -> old = f0 \/ exists k', foreign_leaf s sk k';
  sc_after : ~ present s' sk -> new = f0 \/ exists k', foreign_leaf s' sk k';
  (* a slot that is filled has old value 0, one that is cleared has new value 0 *)
  sc_fill : ~ present s sk -> present s' sk -> old = f0;
  sc_clear : present s sk -> ~ present s' sk -> new = f0;
  (* all other slots keep their values *)
  sc_others : placed s [] -> placed s' [] -> forall k', k' <> sk ->
    present s sk \/ present s' sk \/ (~ foreign_leaf s sk k' /\ ~ foreign_leaf s' sk k') -> get s' 0 k' = get s 0 k' }.

(* the circuit's Poseidon table contains the key of a storage slot: its hash, as that of its two 128-bit halves *)
Definition slot_hashed (H : Fr -> Fr -> Fr -> Fr) (e : env) (slot : Z) : Prop := poseidon_hit e (fz (slot / 2 ^ 128)) (fz (slot mod 2 ^ 128)) (fdom DPair) (slot_key H slot).
