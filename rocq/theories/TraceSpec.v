(* C53: what is consistent about a trace, stated on the fields of the trace (serde.rs:275-350, see Serde.v) without reference
   to the conversion code.  Hash: the Poseidon hash H.  A field of 32 bytes is read as a field element by Util.fr. *)
From Coq Require Import ZArith List Bool.
From Verif Require Import Pocklington Fr Query Gadgets MptUpdate Bytes TrieSpec Util Serde.
Import ListNotations.
Open Scope Z_scope.

Section Spec.
  Variable H : Fr -> Fr -> Fr -> Fr.

  (* the kind of branch a node says it is *)
  Definition own_domain (n : SMTNode) (d : HashDomain) : Prop := domain_of_u64 (n_type n) = Some d.
  (* the hash of branch node n, when its child on the path is the right one, taken in domain d *)
  Definition hashes_to (right : bool) (d : HashDomain) (n : SMTNode) (h : Fr) : Prop :=
    exists v s, fr (n_value n) = Some v /\ fr (n_sibling n) = Some s /\ h = if right then H s v (fdom d) else H v s (fdom d).
  (* every node but the last records the hash of the node below it *)
  Definition chained (key : Fr) (nodes : list SMTNode) : Prop :=
    forall i n m, nth_error nodes i = Some n -> nth_error nodes (S i) = Some m ->
    exists d h, own_domain m d /\ hashes_to (kbit key (S i)) d m h /\ fr (n_value n) = Some h.
  (* the domain of a branch whose child on the given side becomes a branch *)
  Definition grown (right : bool) (d d' : HashDomain) : Prop :=
    match d with
    | Branch0 => d' = if right then Branch1 else Branch2
    | Branch1 | Branch2 => d' = Branch3
    | _ => False
    end.
  (* node number i is the last one of the shorter path olds, and the two paths give it the same type *)
  Definition last_and_unchanged (olds news : list SMTNode) (i : nat) : Prop :=
    S i = length olds /\ (length olds < length news)%nat /\
    exists m m' d, nth_error olds i = Some m /\ nth_error news i = Some m' /\ own_domain m d /\ own_domain m' d.
  (* as [chained], but at such a node the hash is taken in the grown domain *)
  Definition chained_new (key : Fr) (olds news : list SMTNode) : Prop :=
    forall i n m, nth_error news i = Some n -> nth_error news (S i) = Some m ->
    exists own d h, own_domain m own /\ (~ last_and_unchanged olds news (S i) -> d = own) /\
      (last_and_unchanged olds news (S i) -> grown (kbit key (S i)) own d) /\
      hashes_to (kbit key (S i)) d m h /\ fr (n_value n) = Some h.
  (* on the common part the siblings are the same and so are the types, except that the last node of the shorter path grows *)
  Definition same_branches (key : Fr) (olds news : list SMTNode) : Prop :=
    forall i m m', nth_error olds i = Some m -> nth_error news i = Some m' ->
    n_sibling m = n_sibling m' /\
    exists d d', own_domain m d /\ own_domain m' d' /\
      (d = d' \/
       length olds <> length news /\ S i = Nat.min (length olds) (length news) /\
       ((length olds < length news)%nat -> grown (kbit key i) d d') /\ ((length news < length olds)%nat -> grown (kbit key i) d' d)).

  (* the hash of the leaf that ends a path *)
  Definition leaf_hashes_to (leaf : option SMTNode) (h : Fr) : Prop :=
    match leaf with
    | None => h = f0
    | Some l => exists k v, fr (n_sibling l) = Some k /\ fr (n_value l) = Some v /\ h = H k v (fdom DLeaf)
    end.
  (* the storage root of one side of a trace: the common one, or the root of that side's storage path *)
  Definition side_root (tr : SMTTrace) (path : option SMTPath) (root : Fr) : Prop :=
    match t_common_state_root tr with
    | Some b => fr b = Some root
    | None => exists p, path = Some p /\ fr (p_root p) = Some root
    end.
  (* the hash of account data with a given storage root *)
  Definition data_hash (d : AccountData) (root : Fr) : Fr :=
    H (H (H (fz (ad_nonce d + ad_code_size d * 2 ^ 64)) (fz (ad_balance d)) (fdom AccountFields))
         (H root (word_hash H (ad_code_hash d)) (fdom AccountFields)) (fdom AccountFields))
      (fz (ad_poseidon_code_hash d)) (fdom AccountFields).
  (* the account leaf at the end of a path is the hash of the address's key and of the account data the trace gives *)
  Definition leaf_of_account (tr : SMTTrace) (path : SMTPath) (data : option AccountData) (state : option SMTPath) : Prop :=
    forall d, data = Some d -> 0 <= ad_nonce d -> 0 <= ad_balance d -> 0 <= ad_code_hash d -> 0 <= ad_poseidon_code_hash d -> 0 <= ad_code_size d ->
    exists root, side_root tr state root /\ leaf_hashes_to (p_leaf path) (H (addr_key H (be_val (t_address tr))) (data_hash d root) (fdom DLeaf)).
  (* the root of a storage path is the hash of its top node, or of its leaf if it has no nodes; other: the other side's path *)
  Definition entry_hashes_to (leaf : option SMTNode) (entry : StateData) (h : Fr) : Prop :=
    (be_val (sd_value entry) = 0 -> leaf_hashes_to leaf h) /\
    (be_val (sd_value entry) <> 0 -> leaf <> None /\ h = H (slot_key H (be_val (sd_key entry))) (word_hash H (be_val (sd_value entry))) (fdom DLeaf)).
  Definition storage_root_ok (key : Fr) (path other : SMTPath) (entry : StateData) : Prop :=
    exists h, fr (p_root path) = Some h /\
    match p_path path with
    | n :: _ =>
        exists own d, own_domain n own /\ hashes_to (kbit key 0) d n h /\
          (~ last_and_unchanged (p_path other) (p_path path) 0 -> d = own) /\
          (last_and_unchanged (p_path other) (p_path path) 0 -> grown (kbit key 0) own d)
    | [] => match p_path other with
            | [] => entry_hashes_to (p_leaf path) entry h
            | _ => leaf_hashes_to (p_leaf path) h
            end
    end.
  (* a slot that holds nothing at the end of a path with a leaf: the path is the one of the slot's own key *)
  Definition empty_slot_key (key : Fr) (leaf : option SMTNode) (entry : StateData) : Prop :=
    leaf <> None -> be_val (sd_value entry) = 0 -> key = slot_key H (be_val (sd_key entry)).

  (* a trace with other roots of the account paths *)
  Definition with_roots (tr : SMTTrace) (r0 r1 : list Z) : SMTTrace :=
    let path r p := mkPath r (p_leaf p) (p_path p) in
    mkTrace (t_address tr) (t_account_key tr) (path r0 (fst (t_account_path tr)), path r1 (snd (t_account_path tr)))
      (t_account_update tr) (t_state_path tr) (t_common_state_root tr) (t_state_key tr) (t_state_update tr).
  (* a trace with other storage values *)
  Definition with_values (tr : SMTTrace) (v0 v1 : list Z) : SMTTrace :=
    mkTrace (t_address tr) (t_account_key tr) (t_account_path tr) (t_account_update tr) (t_state_path tr) (t_common_state_root tr) (t_state_key tr)
      (option_map (fun u => (option_map (fun e => mkStateData (sd_key e) v0) (fst u), option_map (fun e => mkStateData (sd_key e) v1) (snd u))) (t_state_update tr)).
End Spec.
