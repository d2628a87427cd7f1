(* Model of /repo/src/types/trie.rs.  A panic (assert, unwrap, unreachable!) is None. *)
From Coq Require Import ZArith List Bool.
From Verif Require Import Pocklington Fr Query Gadgets MptUpdate Bytes Util Serde.
Import ListNotations.
Open Scope Z_scope.

Definition obind {A B} (x : option A) (f : A -> option B) : option B := match x with Some a => f a | None => None end.
Notation "x <- e ; k" := (obind e (fun x => k)) (at level 61, e at next level, right associativity).
Definition oassert (b : bool) : option unit := if b then Some tt else None.
Fixpoint bytes_eqb (a b : list Z) : bool :=
  match a, b with [], [] => true | x :: a', y :: b' => (x =? y) && bytes_eqb a' b' | _, _ => false end.

(* types/trie.rs:10-18 *)
Record TrieRow := mkTrieRow { tr_domain : HashDomain; tr_old : Fr; tr_new : Fr; tr_sibling : Fr; tr_direction : bool; tr_path : PathType }.
Definition TrieRows := list TrieRow.

(* types/trie.rs:280-293 *)
Definition next_domain (before_insertion_domain : HashDomain) (insertion_direction : bool) : option HashDomain :=
  match before_insertion_domain with
  | Branch0 => Some (if insertion_direction then Branch1 else Branch2)
  | Branch1 | Branch2 => Some Branch3
  | _ => None
  end.
(* types/trie.rs:295-312 *)
Definition get_domains (next_path_type : PathType) (before : HashDomain) (direction : bool) : option (HashDomain * HashDomain) :=
  match next_path_type with
  | PathStart => None
  | Common => Some (before, before)
  | ExtensionOld => d <- next_domain before direction; Some (d, before)
  | ExtensionNew => d <- next_domain before direction; Some (before, d)
  end.

Section Hash.
  Variable H : Fr -> Fr -> Fr -> Fr.
  Notation domain_hash := (domain_hash H).

  (* types/trie.rs:314-316 *)
  Definition node_leaf_hash (leaf : SMTNode) : option Fr :=
    k <- fr (n_sibling leaf); v <- fr (n_value leaf); Some (domain_hash k v DLeaf).

  (* types/trie.rs:46-57; next_path_type is None after the last row *)
  Definition hash_domains (row : TrieRow) (next_path_type : option PathType) : option (HashDomain * HashDomain) :=
    match tr_path row, next_path_type with
    | Common, Some ExtensionNew => get_domains ExtensionNew (tr_domain row) (tr_direction row)
    | Common, Some ExtensionOld => get_domains ExtensionOld (tr_domain row) (tr_direction row)
    | _, _ => Some (tr_domain row, tr_domain row)
    end.
  (* types/trie.rs:25-34 *)
  Definition old_hash (row : TrieRow) (next_path_type : option PathType) : option Fr :=
    ds <- hash_domains row next_path_type;
    Some (match tr_path row with
          | ExtensionNew => tr_old row
          | _ => if tr_direction row then domain_hash (tr_sibling row) (tr_old row) (fst ds)
                 else domain_hash (tr_old row) (tr_sibling row) (fst ds)
          end).
  (* types/trie.rs:35-44 *)
  Definition new_hash (row : TrieRow) (next_path_type : option PathType) : option Fr :=
    ds <- hash_domains row next_path_type;
    Some (match tr_path row with
          | ExtensionOld => tr_new row
          | _ => if tr_direction row then domain_hash (tr_sibling row) (tr_new row) (snd ds)
                 else domain_hash (tr_new row) (tr_sibling row) (snd ds)
          end).

  (* types/trie.rs:68-75 *)
  Definition path_end_hash (nodes : list SMTNode) (leaf : option SMTNode) : option Fr :=
    match rev nodes with
    | node :: _ => fr (n_value node)
    | [] => match leaf with Some l => node_leaf_hash l | None => Some f0 end
    end.
  (* types/trie.rs:82-120: the row of a position present in both paths *)
  Definition both_row (key : Fr) (i n_old n_new : nat) (old new : SMTNode) : option TrieRow :=
    let direction := fr_bit key i in
    _ <- oassert (bytes_eqb (n_sibling old) (n_sibling new));
    old_domain <- domain_of_u64 (n_type old);
    new_domain <- domain_of_u64 (n_type new);
    domain <- (if dom_eqb old_domain new_domain then Some old_domain
               else
                 _ <- oassert (negb (n_old =? n_new)%nat);
                 _ <- oassert (i =? Nat.min n_old n_new - 1)%nat;
                 if (i =? n_old - 1)%nat
                 then _ <- oassert (check_domain_consistency old_domain new_domain direction); Some old_domain
                 else _ <- oassert (check_domain_consistency new_domain old_domain direction); Some new_domain);
    o <- fr (n_value old); n <- fr (n_value new); s <- fr (n_sibling old);
    Some (mkTrieRow domain o n s direction Common).
  (* types/trie.rs:76-135: zip_longest *)
  Fixpoint trie_rows_from (key old_leaf_hash new_leaf_hash : Fr) (i n_old n_new : nat) (olds news : list SMTNode) {struct olds} : option TrieRows :=
    match olds, news with
    | old :: olds', new :: news' =>
        row <- both_row key i n_old n_new old new;
        rows <- trie_rows_from key old_leaf_hash new_leaf_hash (S i) n_old n_new olds' news';
        Some (row :: rows)
    | old :: olds', [] =>
        d <- domain_of_u64 (n_type old); o <- fr (n_value old); s <- fr (n_sibling old);
        rows <- trie_rows_from key old_leaf_hash new_leaf_hash (S i) n_old n_new olds' [];
        Some (mkTrieRow d o new_leaf_hash s (fr_bit key i) ExtensionOld :: rows)
    | [], _ =>
        (fix go (i : nat) (news : list SMTNode) : option TrieRows :=
           match news with
           | [] => Some []
           | new :: news' =>
               d <- domain_of_u64 (n_type new); n <- fr (n_value new); s <- fr (n_sibling new);
               rows <- go (S i) news';
               Some (mkTrieRow d old_leaf_hash n s (fr_bit key i) ExtensionNew :: rows)
           end) i news
    end.
  (* types/trie.rs:61-136 *)
  Definition trie_rows_new (key : Fr) (old_nodes new_nodes : list SMTNode) (old_leaf new_leaf : option SMTNode) : option TrieRows :=
    o <- path_end_hash old_nodes old_leaf;
    n <- path_end_hash new_nodes new_leaf;
    trie_rows_from key o n 0 (length old_nodes) (length new_nodes) old_nodes new_nodes.

  Definition order (direction : bool) (sibling x : Fr) : Fr * Fr := if direction then (sibling, x) else (x, sibling).
  (* types/trie.rs:142-191 *)
  Fixpoint trie_poseidon_lookups (rows : TrieRows) : option (list (Fr * Fr * HashDomain * Fr)) :=
    match rows with
    | [] => Some []
    | row :: rest =>
        let (old_left, old_right) := order (tr_direction row) (tr_sibling row) (tr_old row) in
        let (new_left, new_right) := order (tr_direction row) (tr_sibling row) (tr_new row) in
        here <- (match tr_path row with
                 | PathStart => None
                 | Common =>
                     ds <- (match rest with
                            | next :: _ => get_domains (tr_path next) (tr_domain row) (tr_direction row)
                            | [] => Some (tr_domain row, tr_domain row)
                            end);
                     Some [(old_left, old_right, fst ds, domain_hash old_left old_right (fst ds));
                           (new_left, new_right, snd ds, domain_hash new_left new_right (snd ds))]
                 | ExtensionOld => Some [(old_left, old_right, tr_domain row, domain_hash old_left old_right (tr_domain row))]
                 | ExtensionNew => Some [(new_left, new_right, tr_domain row, domain_hash new_left new_right (tr_domain row))]
                 end);
        there <- trie_poseidon_lookups rest;
        Some (here ++ there)
    end.
  (* types/trie.rs:193-208 *)
  Fixpoint trie_key_bit_lookups_from (i : nat) (rows : TrieRows) (key other_key : Fr) : list (Fr * Z * bool) :=
    match rows with
    | [] => []
    | row :: rest =>
        (match tr_path row with
         | PathStart => []
         | Common => [(key, Z.of_nat i, tr_direction row); (other_key, Z.of_nat i, tr_direction row)]
         | ExtensionOld | ExtensionNew => [(key, Z.of_nat i, tr_direction row)]
         end) ++ trie_key_bit_lookups_from (S i) rest key other_key
    end.
  Definition trie_key_bit_lookups := trie_key_bit_lookups_from 0.
  (* types/trie.rs:210-215 *)
  Definition trie_old_root (rows : TrieRows) (leaf_hash : option Fr) : option Fr :=
    match rows with
    | [] => leaf_hash
    | row :: rest => old_hash row (match rest with next :: _ => Some (tr_path next) | [] => None end)
    end.
  (* types/trie.rs:217-222 *)
  Definition trie_new_root (rows : TrieRows) (leaf_hash : option Fr) : option Fr :=
    match rows with
    | [] => leaf_hash
    | row :: rest => new_hash row (match rest with next :: _ => Some (tr_path next) | [] => None end)
    end.

  (* types/trie.rs:225-277 (compiled for tests only): false = an assertion fails *)
  Fixpoint trie_check_from (expected_old expected_new : Fr) (rows : TrieRows) : option bool :=
    match rows with
    | [] => Some true
    | row :: rest =>
        let (old_left, old_right) := order (tr_direction row) (tr_sibling row) (tr_old row) in
        let (new_left, new_right) := order (tr_direction row) (tr_sibling row) (tr_new row) in
        ok <- (match tr_path row with
               | PathStart => None
               | Common =>
                   ds <- (match rest with
                          | next :: _ => get_domains (tr_path next) (tr_domain row) (tr_direction row)
                          | [] => Some (tr_domain row, tr_domain row)
                          end);
                   Some (feqb (domain_hash old_left old_right (fst ds)) expected_old && feqb (domain_hash new_left new_right (snd ds)) expected_new)
               | ExtensionOld => Some ((match rest with next :: _ => path_eqb (tr_path next) ExtensionOld | [] => true end)
                                       && feqb (domain_hash old_left old_right (tr_domain row)) expected_old)
               | ExtensionNew => Some ((match rest with next :: _ => path_eqb (tr_path next) ExtensionNew | [] => true end)
                                       && feqb (domain_hash new_left new_right (tr_domain row)) expected_new)
               end);
        r <- trie_check_from (tr_old row) (tr_new row) rest;
        Some (ok && r)
    end.
  Definition trie_check (rows : TrieRows) (old_root new_root : Fr) : option bool := trie_check_from old_root new_root rows.
End Hash.
