(* C66: what a root commits to.  Hash: the Poseidon hash H.  [broken H l]: the list l of hash inputs shows a collision of H, or an
   input that H maps to 0, the hash of the empty trie. *)
From Coq Require Import ZArith List Bool.
From Verif Require Import Pocklington Fr Query Gadgets MptUpdate Bytes TrieSpec Util Serde TraceSpec.
Import ListNotations.
Open Scope Z_scope.

Definition hash_of (H : Fr -> Fr -> Fr -> Fr) (x : triple) : Fr := H (fst (fst x)) (snd (fst x)) (snd x).
Definition broken (H : Fr -> Fr -> Fr -> Fr) (l : list triple) : Prop :=
  (exists x y, In x l /\ In y l /\ x <> y /\ hash_of H x = hash_of H y) \/ (exists x, In x l /\ hash_of H x = f0).

(* the numbers of the kinds of hashes: leaf, the four kinds of branches, pairs (domain 2 * 256), account fields (domain 5 * 256) *)
Definition domain_numbers : list (HashDomain * Z) :=
  [(DLeaf, 4); (Branch0, 6); (Branch1, 7); (Branch2, 8); (Branch3, 9); (DPair, 512); (AccountFields, 1280)].

(* the possible inputs of the hash of a path's nodes, the first of them at depth i, in any branch domain *)
Definition node_inputs (right : bool) (nd : SMTNode) : list triple :=
  match fr (n_value nd), fr (n_sibling nd) with
  | Some v, Some s => map (fun d => (if right then s else v, if right then v else s, fdom d)) [Branch0; Branch1; Branch2; Branch3]
  | _, _ => []
  end.
Fixpoint path_inputs (key : Fr) (i : nat) (nodes : list SMTNode) : list triple :=
  match nodes with [] => [] | nd :: rest => node_inputs (kbit key i) nd ++ path_inputs key (S i) rest end.
(* the nodes of a path say that they are branches *)
Definition branches (path : SMTPath) : Prop := Forall (fun nd => n_type nd <> 4) (p_path path).

Section Data.
  Variable H : Fr -> Fr -> Fr -> Fr.
  (* account data with a storage root: the fields are in their ranges; its hash and the inputs of that hash; and when an account holds it *)
  Definition data_fits (d : AccountData) : Prop :=
    0 <= ad_nonce d < 2 ^ 64 /\ 0 <= ad_code_size d < 2 ^ 64 /\ 0 <= ad_balance d < modulus /\
    0 <= ad_code_hash d < 2 ^ 256 /\ 0 <= ad_poseidon_code_hash d < modulus.
  Definition data_inputs (d : AccountData) (root : Fr) : list triple :=
    let x := fz (ad_nonce d + ad_code_size d * 2 ^ 64) in let y := fz (ad_balance d) in let k := word_hash H (ad_code_hash d) in
    let A := fdom AccountFields in
    [(x, y, A); (root, k, A); (H x y A, H root k A, A); (H (H x y A) (H root k A) A, fz (ad_poseidon_code_hash d), A)] ++ word_inputs (ad_code_hash d).
  Definition holds_data (d : AccountData) (root : Fr) (a : account) : Prop :=
    nonce a = ad_nonce d /\ code_size a = ad_code_size d /\ balance a = ad_balance d /\ keccak_code_hash a = ad_code_hash d /\
    val (poseidon_code_hash a) = ad_poseidon_code_hash d /\ storage_root H (storage a) = root.
End Data.

Section Openings.
  Variable H : Fr -> Fr -> Fr -> Fr.
  (* one side of a trace that gives account data: the state whose root that side's account path has holds an account with that data
     under the address's key; or a collision is found among the hashes of the state, of the path and of the data *)
  Definition account_shown (tr : SMTTrace) (path : SMTPath) (data : option AccountData) (state : option SMTPath) : Prop :=
    forall d t, data = Some d -> data_fits d -> tree_all account_ok t -> fr (p_root path) = Some (state_root H t) ->
    let key := addr_key H (be_val (t_address tr)) in
    exists root, side_root tr state root /\
      ((exists a, get t 0 key = Some a /\ holds_data H d root a) \/
       broken H (state_inputs H t ++ path_inputs key 0 (p_path path) ++ (key, data_hash H d root, fdom DLeaf) :: data_inputs H d root)).
  (* likewise for a storage path and the entry that the trace gives for it *)
  Definition slot_shown (path : SMTPath) (entry : StateData) : Prop :=
    forall s, be_val (sd_value entry) <> 0 -> tree_all word_ok s -> fr (p_root path) = Some (storage_root H s) ->
    let slot := be_val (sd_key entry) in let value := be_val (sd_value entry) in
    get s 0 (slot_key H slot) = Some value \/
    broken H (tree_inputs H (word_hash H) word_inputs s ++ path_inputs (slot_key H slot) 0 (p_path path) ++ (slot_key H slot, word_hash H value, fdom DLeaf) :: word_inputs value).
End Openings.
