(* Stand-alone specification of the two-level Poseidon state trie whose roots the circuit talks about.
   Nothing here depends on the model of the Rust code except the field [Fr], the hash-domain numbers
   [fdom] and big-endian byte strings. *)
From Coq Require Import ZArith List Bool.
From Verif Require Import Pocklington Fr Gadgets Bytes.
Import ListNotations.
Open Scope Z_scope.

(** * Binary tries: keys are field elements, read from bit 0 upwards *)
Inductive tree (V : Type) := Empty | Leaf (k : Fr) (v : V) | Node (l r : tree V).
Arguments Empty {V}. Arguments Leaf {V}. Arguments Node {V}.

Definition kbit (k : Fr) (d : nat) : bool := Z.testbit (val k) (Z.of_nat d).

(* value stored under [k] (d = depth at which t hangs) *)
Fixpoint get {V} (t : tree V) (d : nat) (k : Fr) : option V :=
  match t with
  | Empty => None
  | Leaf k' v => if feqb k k' then Some v else None
  | Node l r => get (if kbit k d then r else l) (S d) k
  end.
(* the leaf that walking down along the bits of [k] ends at *)
Fixpoint reached {V} (t : tree V) (d : nat) (k : Fr) : option (Fr * V) :=
  match t with
  | Empty => None
  | Leaf k' v => Some (k', v)
  | Node l r => reached (if kbit k d then r else l) (S d) k
  end.
(* apply [f] to the value stored under [k], leaving everything else alone *)
Fixpoint modify {V} (f : V -> V) (t : tree V) (d : nat) (k : Fr) : tree V :=
  match t with
  | Empty => Empty
  | Leaf k' v => if feqb k k' then Leaf k' (f v) else Leaf k' v
  | Node l r => if kbit k d then Node l (modify f r (S d) k) else Node (modify f l (S d) k) r
  end.
(* every leaf lies where its key's bits say *)
Fixpoint placed {V} (t : tree V) (prefix : list bool) : Prop :=
  match t with
  | Empty => True
  | Leaf k _ => forall i b, nth_error prefix i = Some b -> kbit k i = b
  | Node l r => placed l (prefix ++ [false]) /\ placed r (prefix ++ [true])
  end.

(* number of branch nodes on the longest path *)
Fixpoint height {V} (t : tree V) : nat :=
  match t with Node l r => S (Nat.max (height l) (height r)) | _ => O end.

Definition is_node {V} (t : tree V) : bool := match t with Node _ _ => true | _ => false end.
(* Branch0: no child is a branch; Branch1: only the right one; Branch2: only the left one; Branch3: both *)
Definition branch_domain {V} (l r : tree V) : HashDomain :=
  match is_node l, is_node r with
  | false, false => Branch0 | false, true => Branch1 | true, false => Branch2 | true, true => Branch3
  end.

(** * Accounts *)
Record account := mkAccount {
  nonce : Z; code_size : Z; balance : Z;      (* integers *)
  keccak_code_hash : Z;                       (* 256-bit word *)
  poseidon_code_hash : Fr;
  storage : tree Z }.                         (* storage key hash -> 256-bit word *)
Definition set_nonce x a := mkAccount x (code_size a) (balance a) (keccak_code_hash a) (poseidon_code_hash a) (storage a).
Definition set_code_size x a := mkAccount (nonce a) x (balance a) (keccak_code_hash a) (poseidon_code_hash a) (storage a).
Definition set_balance x a := mkAccount (nonce a) (code_size a) x (keccak_code_hash a) (poseidon_code_hash a) (storage a).
Definition set_keccak x a := mkAccount (nonce a) (code_size a) (balance a) x (poseidon_code_hash a) (storage a).
Definition set_poseidon x a := mkAccount (nonce a) (code_size a) (balance a) (keccak_code_hash a) x (storage a).
Definition set_storage x a := mkAccount (nonce a) (code_size a) (balance a) (keccak_code_hash a) (poseidon_code_hash a) x.

(* values are in the ranges the state trie can hold *)
Fixpoint tree_all {V} (P : V -> Prop) (t : tree V) : Prop :=
  match t with Empty => True | Leaf _ v => P v | Node l r => tree_all P l /\ tree_all P r end.
Definition word_ok (w : Z) : Prop := 0 <= w < 2 ^ 256.
Definition account_ok (a : account) : Prop :=
  0 <= nonce a < 2 ^ 64 /\ 0 <= code_size a < 2 ^ 64 /\ 0 <= balance a < modulus /\
  word_ok (keccak_code_hash a) /\ tree_all word_ok (storage a).

Section Hash.
  Variable H : Fr -> Fr -> Fr -> Fr.   (* Poseidon: left, right, domain *)

  (* a 256-bit word is hashed as its two 128-bit halves *)
  Definition word_hash (w : Z) : Fr := H (fz (w / 2 ^ 128)) (fz (w mod 2 ^ 128)) (fdom DPair).

  Fixpoint thash {V} (hv : V -> Fr) (t : tree V) : Fr :=
    match t with
    | Empty => f0
    | Leaf k v => H k (hv v) (fdom DLeaf)
    | Node l r => H (thash hv l) (thash hv r) (fdom (branch_domain l r))
    end.

  Definition storage_root (s : tree Z) : Fr := thash word_hash s.
  Definition account_hash (a : account) : Fr :=
    H (H (H (fz (nonce a + code_size a * 2 ^ 64)) (fz (balance a)) (fdom AccountFields))
         (H (storage_root (storage a)) (word_hash (keccak_code_hash a)) (fdom AccountFields))
         (fdom AccountFields))
      (poseidon_code_hash a) (fdom AccountFields).
  Definition state_root (t : tree account) : Fr := thash account_hash t.

  (* keys *)
  Definition addr_key (address : Z) : Fr :=
    H (fz (address / 2 ^ 32)) (fz ((address mod 2 ^ 32) * 2 ^ 96)) (fdom DPair).
  Definition slot_key (slot : Z) : Fr := word_hash slot.

  (** * The hash inputs that occur in a trie; collision-freeness is only ever assumed for these
        (plus the finitely many rows of the Poseidon table) *)
  Definition triple := (Fr * Fr * Fr)%type.
  Definition word_inputs (w : Z) : list triple := [(fz (w / 2 ^ 128), fz (w mod 2 ^ 128), fdom DPair)].
  Fixpoint tree_inputs {V} (hv : V -> Fr) (iv : V -> list triple) (t : tree V) : list triple :=
    match t with
    | Empty => []
    | Leaf k v => (k, hv v, fdom DLeaf) :: iv v
    | Node l r => (thash hv l, thash hv r, fdom (branch_domain l r)) :: tree_inputs hv iv l ++ tree_inputs hv iv r
    end.
  Definition account_inputs (a : account) : list triple :=
    let x := fz (nonce a + code_size a * 2 ^ 64) in
    let y := fz (balance a) in
    let s := storage_root (storage a) in
    let k := word_hash (keccak_code_hash a) in
    [(x, y, fdom AccountFields); (s, k, fdom AccountFields);
     (H x y (fdom AccountFields), H s k (fdom AccountFields), fdom AccountFields);
     (H (H x y (fdom AccountFields)) (H s k (fdom AccountFields)) (fdom AccountFields), poseidon_code_hash a, fdom AccountFields)]
    ++ word_inputs (keccak_code_hash a) ++ tree_inputs word_hash word_inputs (storage a).
  Definition state_inputs (t : tree account) : list triple := tree_inputs account_hash account_inputs t.

  (* no two of the inputs in [S] collide and none hashes to 0, the hash of the empty trie *)
  Definition collision_free (S : triple -> Prop) : Prop :=
    (forall x y, S x -> S y -> H (fst (fst x)) (snd (fst x)) (snd x) = H (fst (fst y)) (snd (fst y)) (snd y) -> x = y) /\
    (forall x, S x -> H (fst (fst x)) (snd (fst x)) (snd x) <> f0).
End Hash.

(* RLC of a 256-bit word, the encoding of 256-bit values in the lookup table *)
Definition word_rlc (c : Fr) (w : Z) : Fr := rlc (be_bytes 32 w) c.
(* RLC of a root *)
Definition root_rlc (c : Fr) (x : Fr) : Fr := rlc (be_bytes 32 (val x)) c.
