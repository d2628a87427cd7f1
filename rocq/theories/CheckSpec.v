(* C60: Merkle openings, on the fields of a trace. *)
From Coq Require Import ZArith List Bool.
From Verif Require Import Pocklington Fr Query Gadgets MptUpdate Bytes TrieSpec Util Serde TraceSpec.
Import ListNotations.
Open Scope Z_scope.

Section Spec.
  Variable H : Fr -> Fr -> Fr -> Fr.
  (* [climbs g key i nodes x root]: hashing x with the siblings of the nodes, bottom-up, along the bits of the key from depth i on,
     gives root; each node records the hash below it.  A node is hashed in its own type d; at a depth in g, it may also be the
     type before or after its child becomes a branch *)
  Definition type_at (g : Prop) (right : bool) (own d : HashDomain) : Prop := d = own \/ g /\ (grown right own d \/ grown right d own).
  Inductive climbs (g : nat -> Prop) (key : Fr) : nat -> list SMTNode -> Fr -> Fr -> Prop :=
  | climbs_end i x : climbs g key i [] x x
  | climbs_step i nd nodes own d h x root : own_domain nd own -> type_at (g i) (kbit key i) own d -> fr (n_value nd) = Some h ->
      climbs g key (S i) nodes x h -> hashes_to H (kbit key i) d nd root -> climbs g key i (nd :: nodes) x root.
  (* the depth of the last node of the shorter of two paths, where the longer one continues *)
  Definition fork (p0 p1 : SMTPath) (i : nat) : Prop := length (p_path p0) <> length (p_path p1) /\ S i = Nat.min (length (p_path p0)) (length (p_path p1)).
  (* the path leads from its root to its leaf *)
  Definition opened (g : nat -> Prop) (key : Fr) (path : SMTPath) : Prop :=
    exists h root, leaf_hashes_to H (p_leaf path) h /\ fr (p_root path) = Some root /\ climbs g key 0 (p_path path) h root.
  (* the storage path leads from its root to the entry; it is the path of the slot's own key, if the slot holds something or
     another slot's leaf ends the path *)
  Definition slot_opened (g : nat -> Prop) (key : Fr) (path : SMTPath) (entry : StateData) : Prop :=
    exists h root, entry_hashes_to H (p_leaf path) entry h /\ fr (p_root path) = Some root /\ climbs g key 0 (p_path path) h root /\
      (p_leaf path <> None -> climbs g (slot_key H (be_val (sd_key entry))) 0 (p_path path) h root).
End Spec.
(* the top branch has the same type in both states *)
Definition same_top {V} (t t' : tree V) : Prop :=
  exists l r l' r', t = Node l r /\ t' = Node l' r' /\ branch_domain l r = branch_domain l' r'.
