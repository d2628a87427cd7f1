(* Histories: sequences of updates, from one or several accepted tables, in which each update starts from the state in which the
   one before ended.  A small specification on top of TrieSpec.v, TableSpec.v and ChangeSpec.v. *)
From Coq Require Import ZArith List Bool.
From Verif Require Import Pocklington Fr Query Builder Gadgets MptUpdate Fixed Bytes TrieSpec TableSpec UpdateSound UpdateProps GadgetMain ChangeSpec NewProps.
Import ListNotations.
Open Scope Z_scope.

(* row i of the table exposes the statement s; the table contains the RLCs of the roots, the roots themselves are in the columns
   old_hash and new_hash *)
Record row_states (e : env) (i : Z) (s : statement) : Prop := {
  ss_row : table_row e i = encode (echal e) s;
  ss_claims : table_row e i <> blank_row;
  ss_address : 0 <= st_address s < 2 ^ 160;
  ss_old : st_old_root s = eadv e MU_old_hash i;
  ss_new : st_new_root s = eadv e MU_new_hash i }.

(* the cases in which C49 and C50 hold of the code: the account exists before, or the root does not change, or the account exists
   afterwards only, all leaves are placed then, and the state before is not a single leaf of another account *)
Definition regular (H : Fr -> Fr -> Fr -> Fr) (s : statement) (t t' : tree account) : Prop :=
  let K := addr_key H (st_address s) in
  present t K \/ st_new_root s = st_old_root s \/
  (st_kind s <> StorageChanged /\ present t' K /\ placed t' [] /\ forall o b, t = Leaf o b -> o = K).

(* one update: a row of an accepted table states s, about the states t and t', and R holds of it *)
Definition step (H : Fr -> Fr -> Fr -> Fr) (R : env -> statement -> tree account -> tree account -> Prop) (e : env) (s : statement) (t t' : tree account) : Prop :=
  exists n i, circuit_ok H e n /\ 1 <= i /\ i + 1 < n /\ row_states e i s /\ tries_of H e n s t t' /\ R e s t t'.
(* history H R t l t': the updates l lead from the state t to the state t'.  Each is listed as the table in which it is stated
   (which may differ from update to update, in size and challenge) and the statement *)
Inductive history (H : Fr -> Fr -> Fr -> Fr) (R : env -> statement -> tree account -> tree account -> Prop) : tree account -> list (env * statement) -> tree account -> Prop :=
| h_done : forall t, history H R t [] t
| h_step : forall e s t t1 l t2, step H R e s t t1 -> history H R t1 l t2 -> history H R t ((e, s) :: l) t2.

(* the claim is about the given slot of the account with key K *)
Definition about_slot (H : Fr -> Fr -> Fr -> Fr) (K : Fr) (slot : Z) (e : env) (s : statement) : Prop :=
  addr_key H (st_address s) = K /\ st_kind s = StorageChanged /\ st_slot_rlc s = word_rlc (echal e) slot.
(* no other slot that occurs in the table has the same RLC or the same key *)
Definition unconfused (H : Fr -> Fr -> Fr -> Fr) (slot : Z) (e : env) : Prop :=
  forall w, word_ok w -> slot_hashed H e w -> word_rlc (echal e) w = word_rlc (echal e) slot \/ slot_key H w = slot_key H slot -> w = slot.
(* in addition, for claims about slots of the account with key K: the slot of interest is not confused with others, leaves are
   placed, and the claimed slot exists before or afterwards (C22 and C49 do not hold otherwise) *)
Definition slot_regular (H : Fr -> Fr -> Fr -> Fr) (K : Fr) (slot : Z) (e : env) (s : statement) (t t' : tree account) : Prop :=
  regular H s t t' /\
  (addr_key H (st_address s) = K -> st_kind s = StorageChanged -> unconfused H slot e /\
   forall w a a', word_ok w -> slot_hashed H e w -> st_slot_rlc s = word_rlc (echal e) w -> get t 0 K = Some a -> get t' 0 K = Some a' ->
    placed (storage a) [] /\ placed (storage a') [] /\ (present (storage a) (slot_key H w) \/ present (storage a') (slot_key H w))).

(* what one update may do to the account it is about; None = there is no account *)
Inductive account_step (H : Fr -> Fr -> Fr -> Fr) (c : Fr) (s : statement) : option account -> option account -> Prop :=
| as_field : forall a a', In (st_kind s) [NonceChanged; BalanceChanged; CodeSizeExists; CodeHashExists; PoseidonCodeHashExists] ->
    field_step c (st_kind s) a (st_old_value s) (st_new_value s) a' -> account_step H c s (Some a) (Some a')
| as_storage : forall a st' slot, st_kind s = StorageChanged -> word_ok slot -> st_slot_rlc s = word_rlc c slot ->
    slot_change c (slot_key H slot) (storage a) st' (st_old_value s) (st_new_value s) -> account_step H c s (Some a) (Some (set_storage st' a))
| as_no_slot : forall a slot, st_kind s = StorageDoesNotExist -> word_ok slot -> st_slot_rlc s = word_rlc c slot ->
    get (storage a) 0 (slot_key H slot) = None -> account_step H c s (Some a) (Some a)
| as_created : forall a', st_old_value s = f0 -> account_created c (st_kind s) a' (st_new_value s) -> account_step H c s None (Some a')
| as_absent : account_step H c s None None.
(* what a history does to the account with key K: every update about K is such a step, all others leave it alone *)
Inductive replay (H : Fr -> Fr -> Fr -> Fr) (K : Fr) : list (env * statement) -> option account -> option account -> Prop :=
| rp_done : forall o, replay H K [] o o
| rp_this : forall e s l o o1 o2, addr_key H (st_address s) = K -> account_step H (echal e) s o o1 -> replay H K l o1 o2 -> replay H K ((e, s) :: l) o o2
| rp_other : forall e s l o o2, addr_key H (st_address s) <> K -> replay H K l o o2 -> replay H K ((e, s) :: l) o o2.

(* the value of a field of an account as the table shows it *)
Definition table_value (c : Fr) (p : MPTProofType) (a : account) : Fr :=
  match p with
  | NonceChanged => fz (nonce a) | CodeSizeExists => fz (code_size a) | BalanceChanged => word_rlc c (balance a)
  | CodeHashExists => word_rlc c (keccak_code_hash a) | PoseidonCodeHashExists => poseidon_code_hash a | _ => f0
  end.
(* the value of a slot as the table shows it *)
Definition slot_table_value (c : Fr) (o : option Z) : Fr := match o with Some w => word_rlc c w | None => f0 end.
(* some update of l is a claim of kind p about the account with key K *)
Definition claimed (H : Fr -> Fr -> Fr -> Fr) (K : Fr) (p : MPTProofType) (l : list (env * statement)) : Prop :=
  exists e s, In (e, s) l /\ addr_key H (st_address s) = K /\ st_kind s = p.
(* two accounts agree in the field p *)
Definition same_field (p : MPTProofType) (a a' : account) : Prop :=
  match p with
  | NonceChanged => nonce a' = nonce a | CodeSizeExists => code_size a' = code_size a | BalanceChanged => balance a' = balance a
  | CodeHashExists => keccak_code_hash a' = keccak_code_hash a | PoseidonCodeHashExists => poseidon_code_hash a' = poseidon_code_hash a
  | StorageChanged => storage a' = storage a | _ => True
  end.
