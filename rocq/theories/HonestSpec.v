(* Specification: what the states before and after an honest update look like, and the trace that is written for it. *)
From Coq Require Import ZArith List Bool.
From Verif Require Import Pocklington Fr Query Builder Gadgets MptUpdate Bytes TrieSpec TableSpec Util Serde HonestTrace.
Import ListNotations.
Open Scope Z_scope.

Section Tree.
  Context {V : Type}.
  Variable k : Fr.
  (* the trie, hanging at depth d, that holds exactly k -> v and k' -> v' and forks where the keys part *)
  Inductive fork (v : V) (k' : Fr) (v' : V) : nat -> tree V -> Prop :=
  | fork_here d : kbit k d <> kbit k' d -> fork v k' v' d (if kbit k d then Node (Leaf k' v') (Leaf k v) else Node (Leaf k v) (Leaf k' v'))
  | fork_below d t : kbit k d = kbit k' d -> fork v k' v' (S d) t -> fork v k' v' d (if kbit k d then Node Empty t else Node t Empty).
  (* [insertion v d t t']: the key k is not in t; t' is t with k -> v added.  The new leaf takes an empty place or pushes another leaf down *)
  Inductive insertion (v : V) : nat -> tree V -> tree V -> Prop :=
  | ins_empty d : insertion v d Empty (Leaf k v)
  | ins_fork d k' v' t : fork v k' v' d t -> insertion v d (Leaf k' v') t
  | ins_right d l r r' : kbit k d = true -> insertion v (S d) r r' -> insertion v d (Node l r) (Node l r')
  | ins_left d l r l' : kbit k d = false -> insertion v (S d) l l' -> insertion v d (Node l r) (Node l' r).
  (* the value under k changes from ov to nv (None = not in the trie) and nothing else does *)
  Definition written (ov nv : option V) (t t' : tree V) : Prop :=
    match ov, nv with
    | Some v, Some v' => get t 0 k = Some v /\ t' = modify (fun _ => v') t 0 k
    | None, Some v' => insertion v' 0 t t'
    | Some v, None => insertion v 0 t' t
    | None, None => get t 0 k = None /\ t' = t
    end.
End Tree.

Section States.
  Variable H : Fr -> Fr -> Fr -> Fr.
  (* [honest address t t' kind trace]: the update of the state t to t' at the address is of the given kind, and the trace is
     what the tracer reports for it *)
  Inductive honest (address : Z) (t t' : tree account) : MPTProofType -> SMTTrace -> Prop :=
  (* one field of an account is rewritten (or read, when the value stays the same) *)
  | hon_nonce a x : written (addr_key H address) (Some a) (Some (set_nonce x a)) t t' -> honest address t t' NonceChanged (account_trace_of H t t' address)
  | hon_balance a x : written (addr_key H address) (Some a) (Some (set_balance x a)) t t' -> honest address t t' BalanceChanged (account_trace_of H t t' address)
  | hon_code_size a x : written (addr_key H address) (Some a) (Some (set_code_size x a)) t t' -> honest address t t' CodeSizeExists (account_trace_of H t t' address)
  | hon_code_hash a x : written (addr_key H address) (Some a) (Some (set_keccak x a)) t t' -> honest address t t' CodeHashExists (account_trace_of H t t' address)
  | hon_poseidon a x : written (addr_key H address) (Some a) (Some (set_poseidon x a)) t t' -> honest address t t' PoseidonCodeHashExists (account_trace_of H t t' address)
  (* an account is created by giving it a nonce or a balance *)
  | hon_create_nonce x : x <> 0 -> written (addr_key H address) None (Some (mkAccount x 0 0 0 f0 Empty)) t t' -> honest address t t' NonceChanged (account_trace_of H t t' address)
  | hon_create_balance x : x <> 0 -> written (addr_key H address) None (Some (mkAccount 0 0 x 0 f0 Empty)) t t' -> honest address t t' BalanceChanged (account_trace_of H t t' address)
  (* an account that is not there: it is absent, and its fields read as 0 *)
  | hon_missing ty : In ty [NonceChanged; BalanceChanged; CodeHashExists; CodeSizeExists; AccountDoesNotExist] ->
      written (addr_key H address) None None t t' -> honest address t t' ty (account_trace_of H t t' address)
  (* a storage slot of an existing account is written, filled or cleared; zeros are not stored *)
  | hon_slot a slot ov nv s' : 0 <= slot < 2 ^ 256 -> (ov <> None \/ nv <> None) -> ov <> Some 0 -> nv <> Some 0 ->
      written (slot_key H slot) ov nv (storage a) s' -> written (addr_key H address) (Some a) (Some (set_storage s' a)) t t' ->
      honest address t t' StorageChanged (storage_trace_of H t t' address slot)
  (* an empty slot of an existing account *)
  | hon_empty_slot a slot : 0 <= slot < 2 ^ 256 -> get t 0 (addr_key H address) = Some a -> get (storage a) 0 (slot_key H slot) = None -> t' = t ->
      honest address t t' StorageDoesNotExist (storage_trace_of H t t' address slot)
  (* a slot of an account that is not there *)
  | hon_missing_slot slot : 0 <= slot < 2 ^ 256 -> written (addr_key H address) None None t t' ->
      honest address t t' StorageDoesNotExist (storage_trace_of H t t' address slot).

  (* values fit: the circuit's byte tables hold 8-byte nonces and code sizes and 31-byte balances *)
  Definition fits (a : account) : Prop := account_ok a /\ balance a < 2 ^ 248.
  (* the hash inputs in the two states and the pair (0, 0), each in every domain *)
  Definition inputs_of (t t' : tree account) : triple -> Prop :=
    fun x => (exists d, In (fst x, d) ((f0, f0, fdom DPair) :: state_inputs H t ++ state_inputs H t')) /\ exists d, snd x = fdom d.

  (* tries whose leaves lie where their keys say and which are not deeper than a key has bits *)
  Definition shaped {V} (t : tree V) : Prop := placed t [] /\ (height t <= 256)%nat.
  Definition state_wf (t : tree account) : Prop := tree_all fits t /\ shaped t /\ tree_all (fun a => shaped (storage a)) t.
  (* an update: where, the states before and after, the kind of proof asked for, the trace *)
  Record update := Update { u_address : Z; u_old : tree account; u_new : tree account; u_kind : MPTProofType; u_trace : SMTTrace }.
  Record honest_update (u : update) : Prop := {
    hu_honest : honest (u_address u) (u_old u) (u_new u) (u_kind u) (u_trace u);
    hu_address : 0 <= u_address u < 2 ^ 160;
    hu_old : state_wf (u_old u);
    hu_new : state_wf (u_new u);
    hu_hash : collision_free H (inputs_of (u_old u) (u_new u)) }.
  (* a field of an account as a table value; everything is 0 in an account that is not there *)
  Definition field_value (c : Fr) (p : MPTProofType) (a : option account) : Fr :=
    match a, p with
    | Some a, NonceChanged => fz (nonce a)
    | Some a, BalanceChanged => word_rlc c (balance a)
    | Some a, CodeHashExists => word_rlc c (keccak_code_hash a)
    | Some a, PoseidonCodeHashExists => poseidon_code_hash a
    | Some a, CodeSizeExists => fz (code_size a)
    | _, _ => f0
    end.
  (* [says c u s]: s is the true statement about u's states; c is the RLC challenge *)
  Definition says (c : Fr) (u : update) (s : statement) : Prop :=
    let t := u_old u in let t' := u_new u in
    st_address s = u_address u /\ st_kind s = u_kind u /\ st_old_root s = state_root H t /\ st_new_root s = state_root H t' /\
    match u_kind u with
    | StorageChanged | StorageDoesNotExist =>
        exists slot, u_trace u = storage_trace_of H t t' (u_address u) slot /\ st_slot_rlc s = word_rlc c slot /\
          st_old_value s = word_rlc c (slot_value H t (u_address u) slot) /\ st_new_value s = word_rlc c (slot_value H t' (u_address u) slot)
    | k => st_slot_rlc s = f0 /\ st_old_value s = field_value c k (get t 0 (addr_key H (u_address u))) /\ st_new_value s = field_value c k (get t' 0 (addr_key H (u_address u)))
    end.
End States.
