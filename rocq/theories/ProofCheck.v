(* Model of the checks that the tests run on converted proofs: StorageProof::check (types/storage.rs:136-172) and
   Proof::check (types.rs:786-880), both compiled for tests only.  A panic (a failed assertion, unwrap, unreachable!) is None.
   TrieRows::check (types/trie.rs:225-277) is Trie.trie_check, check_hash_traces_new (types.rs:882-961) is in Types.v. *)
From Coq Require Import ZArith List Bool.
From Verif Require Import Pocklington Fr Query Gadgets MptUpdate Bytes Util Serde Trie Storage Types.
Import ListNotations.

Section Hash.
  Variable H : Fr -> Fr -> Fr -> Fr.
  Notation domain_hash := (domain_hash H).

  (* types/storage.rs:148-164: the direction of the row at depth i against the keys of the two leaves *)
  Definition row_direction_ok (old_key new_key : Fr) (i : nat) (row : TrieRow) : option unit :=
    match tr_path row with
    | PathStart => None
    | Common =>
        _ <- oassert (Bool.eqb (tr_direction row) (fr_bit old_key i));
        oassert (Bool.eqb (tr_direction row) (fr_bit new_key i))
    | ExtensionOld => oassert (Bool.eqb (tr_direction row) (fr_bit old_key i))
    | ExtensionNew => oassert (Bool.eqb (tr_direction row) (fr_bit new_key i))
    end.
  Fixpoint directions_ok (old_key new_key : Fr) (i : nat) (rows : TrieRows) : option unit :=
    match rows with
    | [] => Some tt
    | row :: rest => _ <- row_direction_ok old_key new_key i row; directions_ok old_key new_key (S i) rest
    end.
  (* types/storage.rs:136-172 *)
  Definition storage_check (s : StorageProof) : option unit :=
    match s with
    | SRoot _ => Some tt
    | SUpdate _ _ rows old_leaf new_leaf =>
        ro <- sp_old_root H s; rn <- sp_new_root H s;
        ok <- trie_check H rows ro rn;
        _ <- oassert ok;
        _ <- directions_ok (sl_key H old_leaf) (sl_key H new_leaf) 0 rows;
        match rev rows with
        | [] => Some tt
        | row :: _ =>
            ho <- sl_hash H old_leaf; _ <- oassert (feqb ho (tr_old row));
            hn <- sl_hash H new_leaf; oassert (feqb hn (tr_new row))
        end
    end.

  (* types.rs:792-799: the traces are in order from the leaf to the root *)
  Fixpoint trace_directions_ok (key : Fr) (len i : nat) (traces : list HashTrace) : option unit :=
    match traces with
    | [] => Some tt
    | t :: rest => _ <- oassert (Bool.eqb (ht_direction t) (fr_bit key (len - i - 1))); trace_directions_ok key len (S i) rest
    end.
  (* types.rs:801-822: the last trace, in its one domain, gives both roots; no traces: a panic *)
  Definition trace_roots_ok (c : Claim) (traces : list HashTrace) : option unit :=
    match rev traces with
    | t :: _ =>
        let h x := if ht_direction t then domain_hash (ht_sibling t) x (ht_domain t) else domain_hash x (ht_sibling t) (ht_domain t) in
        _ <- oassert (feqb (h (ht_open t)) (c_old_root c));
        oassert (feqb (h (ht_close t)) (c_new_root c))
    | [] => None
    end.
  (* types.rs:835-842 and 843-850: the leaf of one side against the account hash x of that side and the first trace's value y *)
  Definition leaf_ok (leaf : option LeafNode) (x y : Fr) : option unit :=
    match leaf with
    | Some l => oassert (feqb (domain_hash (ln_key l) (ln_value_hash l) DLeaf) x)
    | None => oassert (feqb y f0)
    end.
  (* types.rs:786-880 *)
  Definition proof_check (p : Proof) : option unit :=
    let traces := pf_address_hash_traces p in
    _ <- storage_check (pf_storage p);
    _ <- check_hash_traces_new H traces;
    _ <- trace_directions_ok (account_key H (c_address (pf_claim p))) (length traces) 0 traces;
    _ <- trace_roots_ok (pf_claim p) traces;
    match traces with
    | [] => None
    | first :: _ =>
        _ <- oassert (feqb (at2 (pf_old_account_hash_traces p) 5 2) (ht_open first));
        _ <- oassert (feqb (at2 (pf_new_account_hash_traces p) 5 2) (ht_close first));
        _ <- leaf_ok (fst (pf_leafs p)) (at2 (pf_old_account_hash_traces p) 5 2) (ht_open first);
        leaf_ok (snd (pf_leafs p)) (at2 (pf_new_account_hash_traces p) 5 2) (ht_close first)
    end.
End Hash.
