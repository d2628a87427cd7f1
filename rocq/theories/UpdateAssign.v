(* Model of the assignment half of /repo/src/gadgets/mpt_update.rs (348-940), gadgets/mpt_update/word_rlc.rs:64-85 and
   mpt.rs:114-285: what is written into which cell.  A panic is None.
   Region offsets are integers; a write is (column, row, value), the last write to a cell counts (Assign.v).
   `randomness` is the value r of the EVM word challenge (in halo2's first pass it is unknown and nothing is stored). *)
From Coq Require Import ZArith List Bool.
From Verif Require Import Pocklington Fr Query Builder Gadgets MptUpdate Bytes Util Serde Trie Storage Types Lookups Assign.
Import ListNotations.
Open Scope Z_scope.

(* some assignments at one offset *)
Definition at_ (offset : Z) (r : row) : list write := map (fun p => (fst p, offset, snd p)) r.
(* `for i in 0..n { f(offset + i) }` with the same values each time *)
Definition loop (offset : Z) (n : nat) (r : row) : list write := emit offset (repeat r n).

(* word_rlc.rs:64-85 *)
Definition word_rlc_assign (word : Z) (high_column low_column rlc_high rlc_low : acol) (r : Fr) : row :=
  let (high, low) := u256_hi_lo word in
  [(A high_column, fr_from_u128 high); (A low_column, fr_from_u128 low);
   (A rlc_high, rlc (be_bytes 16 high) r); (A rlc_low, rlc (be_bytes 16 low) r)].

(* mpt_update.rs:670-732.  rows.0.get(i + 1) is the head of the remaining rows; i starts at 0 *)
Definition trie_row_cells (i : nat) (row : TrieRow) (next : option TrieRow) : option Assign.row :=
  extra <- (match next with
            | Some next_row =>
                match tr_path next_row, tr_path row with
                | PathStart, _ | Common, _ => Some []
                | _, Common => d <- next_domain (tr_domain row) (tr_direction row); Some [(A (iv 2), fdom d)]
                | _, _ => Some []
                end
            | None => Some []
            end);
  Some ([(A MU_depth, fz (Z.of_nat i + 1))] ++ oh_assign oh_path (tr_path row) ++ extra
        ++ [(A MU_sibling, tr_sibling row); (A MU_old_hash, tr_old row); (A MU_new_hash, tr_new row);
            (A MU_direction, fb (tr_direction row)); (A MU_domain, fdom (tr_domain row))]).
Fixpoint trie_rows_cells (i : nat) (rows : TrieRows) : option (list Assign.row) :=
  match rows with
  | [] => Some []
  | row :: rest =>
      here <- trie_row_cells i row (match rest with next :: _ => Some next | [] => None end);
      there <- trie_rows_cells (S i) rest;
      Some (here :: there)
  end.
Definition assign_trie_rows (segment : SegmentType) (offset : Z) (rows : TrieRows) : option (list write) :=
  cells <- trie_rows_cells 0 rows;
  Some (emit offset cells ++ loop offset (length rows) (oh_assign oh_segment segment)).

Section Hash.
  Variable H : Fr -> Fr -> Fr -> Fr.

  (* mpt_update.rs:773-820 *)
  Definition assign_empty_storage_proof (offset : Z) (key other_key : Fr) (old new : StorageLeaf) : option (list write) :=
    match old, new with
    | SLeaf old_key old_value_hash, SLeaf new_key new_value_hash =>
        _ <- oassert (negb (feqb key other_key));
        _ <- oassert (feqb new_key old_key); _ <- oassert (feqb old_value_hash new_value_hash);
        h <- sl_hash H old;
        Some (at_ offset (iz_assign_value_and_inverse (izg 2) (key - other_key)%fr
                ++ iz_assign_value_and_inverse (izg 3) h ++ [(A (iv 3), old_value_hash)]))
    | SEmpty _, SEmpty _ =>
        _ <- oassert (feqb key other_key);
        ho <- sl_hash H old; _ <- oassert (feqb ho f0);
        hn <- sl_hash H new; _ <- oassert (feqb hn f0);
        Some (at_ offset (iz_assign_value_and_inverse (izg 2) (key - other_key)%fr))
    | SEntry _ _, _ | _, SEntry _ _ => Some []
    | SLeaf _ _, SEmpty _ | SEmpty _, SLeaf _ _ => None
    end.
  (* mpt_update.rs:832-846: the path type of the leaf row; None = there is no leaf row *)
  Definition storage_leaf_path (old new : StorageLeaf) : option PathType :=
    match old, new with
    | SEntry _ _, SEntry _ _ => Some Common
    | SEntry _ _, _ => Some ExtensionOld
    | _, SEntry _ _ => Some ExtensionNew
    | _, _ => None
    end.
  (* mpt_update.rs:860-865 *)
  Definition storage_leaf_hashes (path_type : PathType) (old new : StorageLeaf) : option (Fr * Fr) :=
    match path_type with
    | PathStart => None
    | Common => o <- sl_value_hash H old; n <- sl_value_hash H new; Some (o, n)
    | ExtensionOld => o <- sl_value_hash H old; n <- sl_hash H new; Some (o, n)
    | ExtensionNew => o <- sl_hash H old; n <- sl_value_hash H new; Some (o, n)
    end.
  Definition word_of (l : StorageLeaf) (h lo rh rl : acol) (r : Fr) : row :=
    match l with SEntry _ v => word_rlc_assign v h lo rh rl r | _ => [] end.
  (* mpt_update.rs:908-937: the last match *)
  Definition storage_leaf_nonexistence (path_type : PathType) (key : Fr) (old new : StorageLeaf) (old_hash new_hash : Fr) : option row :=
    let part (own other : StorageLeaf) (hash : Fr) :=
      let k := sl_key H other in
      let other_key := if negb (feqb key k) then k else sl_key H own in
      data <- (if negb (feqb key other_key) then v <- sl_value_hash H other; Some [(A (iv 9), v)] else Some []);
      Some (iz_assign_value_and_inverse (izg 2) (key - other_key)%fr ++ iz_assign_value_and_inverse (izg 3) hash ++ data) in
    match path_type with
    | PathStart => None
    | Common => Some []
    | ExtensionOld => part old new new_hash
    | ExtensionNew => part new old old_hash
    end.
  (* mpt_update.rs:822-940: the assignments and the number of rows used *)
  Definition assign_storage_leaf_row (offset : Z) (key other_key : Fr) (old new : StorageLeaf) (r : Fr) : option (list write * nat) :=
    match storage_leaf_path old new with
    | None => ws <- assign_empty_storage_proof (offset - 1) key other_key old new; Some (ws, 0%nat)
    | Some path_type =>
        let sibling := match path_type with ExtensionNew => sl_key H new | _ => sl_key H old end in
        hs <- storage_leaf_hashes path_type old new;
        let '(old_hash, new_hash) := hs in
        last <- storage_leaf_nonexistence path_type key old new old_hash new_hash;
        Some (at_ offset
               (oh_assign oh_path path_type ++ oh_assign oh_segment StorageLeaf0
                ++ [(A MU_direction, f1); (A MU_domain, fdom DLeaf); (A MU_sibling, sibling); (A MU_old_hash, old_hash); (A MU_new_hash, new_hash)]
                ++ word_of old (iv 0) (iv 1) (sp 0) (sp 1) r ++ word_of new (iv 2) (iv 3) (sp 2) (sp 3) r
                ++ iz_assign_value_and_inverse (izg 0) (old_hash - ZERO_PAIR_HASH H)%fr
                ++ iz_assign_value_and_inverse (izg 1) (new_hash - ZERO_PAIR_HASH H)%fr
                ++ last), 1%nat)
    end.
  (* mpt_update.rs:734-771 *)
  Definition assign_storage (offset : Z) (storage : StorageProof) (r : Fr) : option (list write) :=
    match storage with
    | SRoot _ => Some []
    | SUpdate _ key trie_rows old_leaf new_leaf =>
        other_key <- sp_other_key H storage;
        trie <- assign_trie_rows StorageTrie offset trie_rows;
        leaf <- assign_storage_leaf_row (offset + Z.of_nat (length trie_rows)) key other_key old_leaf new_leaf r;
        let '(leaf_writes, n_leaf_rows) := leaf in
        Some (trie ++ leaf_writes ++ loop offset (length trie_rows + n_leaf_rows) [(A MU_key, key); (A MU_other_key, other_key)])
    end.

  (* mpt_update.rs:401-413 *)
  Definition other_key_and_data (key : Fr) (old new : Path) : option (Fr * Fr) :=
    if negb (feqb (pth_key old) key) then
      _ <- oassert (feqb (pth_key new) key || feqb (pth_key new) (pth_key old));
      d <- pth_leaf_data_hash old; Some (pth_key old, d)
    else if negb (feqb (pth_key new) key) then
      d <- pth_leaf_data_hash new; Some (pth_key new, d)
    else Some (pth_key old, fr_or_default (pth_leaf_data_hash new)).
  (* mpt_update.rs:462-477 *)
  Definition final_path_type (p : Proof) : option PathType :=
    match pf_address_hash_traces p with [] => Some Common | t :: _ => ht_path_type t end.
  Definition final_hashes (p : Proof) : Fr * Fr :=
    match pf_address_hash_traces p with
    | [] => (path_hash H (pf_old p), path_hash H (pf_new p))
    | t :: _ => (ht_open t, ht_close t)
    end.
  (* mpt_update.rs:496-510 *)
  Definition leaf_path_type (final : PathType) (old_hash new_hash : Fr) : option PathType :=
    match final with
    | Common =>
        match feqb old_hash f0, feqb new_hash f0 with
        | true, true => None
        | true, false => Some ExtensionNew
        | false, true => Some ExtensionOld
        | false, false => Some Common
        end
    | _ => Some final
    end.
  (* mpt_update.rs:512-524 *)
  Definition leaf_directions (t : MPTProofType) : option (list bool) :=
    match t with
    | NonceChanged | CodeSizeExists => Some [true; false; false; false]
    | BalanceChanged => Some [true; false; false; true]
    | PoseidonCodeHashExists => Some [true; true]
    | CodeHashExists => Some [true; false; true; true]
    | StorageChanged | StorageDoesNotExist => Some [true; false; true; false]
    | AccountDoesNotExist | AccountDestructed => None
    end.
  (* mpt_update.rs:535-585: one iteration; offset is that of the first leaf row.  data = other_leaf_data_hash *)
  Definition leaf_row_cells (p : Proof) (path : PathType) (key other_key data r : Fr)
      (segment : SegmentType) (sibling old_hash new_hash : Fr) (direction : bool) (i : nat) : option row :=
    extra <- (match segment with
              | AccountLeaf0 => Some [(A (iv 8), other_key); (A (iv 9), data)]
              | AccountLeaf3 =>
                  match c_kind (pf_claim p) with
                  | KStorage k _ _ | KIsEmpty (Some k) =>
                      sk <- sp_key (pf_storage p); sok <- sp_other_key H (pf_storage p);
                      Some ([(A MU_key, sk)] ++ word_rlc_assign k (iv 0) (iv 1) (sp 0) (sp 1) r
                            ++ [(A MU_other_key, sok); (A (iv 2), fdom AccountFields)])
                  | _ => Some []
                  end
              | _ => Some []
              end);
    Some ((match i with
           | O => iz_assign_value_and_inverse (izg 3) old_hash ++ [(A MU_domain, fdom DLeaf)]
           | _ => [(A MU_domain, fdom AccountFields)]
           end)
          ++ oh_assign oh_segment segment ++ oh_assign oh_path path
          ++ [(A MU_sibling, sibling); (A MU_old_hash, old_hash); (A MU_new_hash, new_hash); (A MU_direction, fb direction);
              (A MU_key, key); (A MU_other_key, other_key)]
          ++ extra).
  Definition SEGMENT_TYPES := [AccountLeaf0; AccountLeaf1; AccountLeaf2; AccountLeaf3].
  (* izip!(..).enumerate() stops with the shortest list *)
  Definition izip5 {S} (ss : list S) (siblings olds news : list Fr) (dirs : list bool) : list (S * Fr * Fr * Fr * bool) :=
    combine (combine (combine (combine ss siblings) olds) news) dirs.
  (* mpt_update.rs:380-615 *)
  Definition claim_cells (p : Proof) (r : Fr) : row :=
    let c := pf_claim p in
    oh_assign oh_proof (proof_type_of (c_kind c))
    ++ [(A MU_storage_key_rlc, rlc (u256_to_big_endian (claim_storage_key c)) r);
        (A MU_old_value, old_value_assignment c r); (A MU_new_value, new_value_assignment c r)].
  Definition rlc_fr (x r : Fr) : Fr := rlc (be_bytes 32 (val x)) r.
  Definition start_cells (c : Claim) (key other_key r : Fr) : row :=
    oh_assign oh_segment SegStart ++ oh_assign oh_path PathStart
    ++ [(A MU_old_hash, c_old_root c); (A MU_new_hash, c_new_root c); (A MU_key, key); (A MU_other_key, other_key);
        (A MU_domain, fdom DPair); (A (iv 0), fr_from_u128 (address_high (c_address c))); (A (iv 1), fz (address_low (c_address c)));
        (A (sp 0), rlc_fr (c_old_root c) r); (A (sp 1), rlc_fr (c_new_root c) r)].
  Definition code_hash_cells (k : ClaimKind) (r : Fr) : row :=
    match k with
    | KCodeHash old new =>
        (match old with Some v => word_rlc_assign v (iv 0) (iv 1) (sp 0) (sp 1) r | None => [] end)
        ++ (match new with Some v => word_rlc_assign v (iv 2) (iv 3) (sp 2) (sp 3) r | None => [] end)
    | _ => []
    end.
  Definition or_else {X} (o : option X) (d : X) : X := match o with Some x => x | None => d end.
  (* mpt_update.rs:489-614: an account exists on at least one side *)
  Definition assign_account_leaf (offset : Z) (p : Proof) (final : PathType) (final_old final_new key other_key data r : Fr) : option (list write) :=
    path <- leaf_path_type final final_old final_new;
    dirs <- leaf_directions (proof_type_of (c_kind (pf_claim p)));
    let olds := or_else (old_account_leaf_hashes p) (repeat final_old 4) in
    let news := or_else (new_account_leaf_hashes p) (repeat final_new 4) in
    siblings <- account_leaf_siblings H p;
    cells <- omap_from (fun i x => let '(s, sib, o, n, d) := x in leaf_row_cells p path key other_key data r s sib o n d i) 0
               (izip5 SEGMENT_TYPES siblings olds news dirs);
    storage <- assign_storage (offset + Z.of_nat (length dirs)) (pf_storage p) r;
    Some (emit offset cells
          ++ at_ offset ([(A MU_key, key); (A MU_other_key, other_key)] ++ iz_assign_value_and_inverse (izg 2) (key - other_key)%fr)
          ++ at_ (offset + 3) (code_hash_cells (c_kind (pf_claim p)) r)
          ++ storage).
  Definition assign_single_proof (p : Proof) (r : Fr) (offset : Z) : option (list write) :=
    let c := pf_claim p in
    let key := account_key H (c_address c) in
    ok <- other_key_and_data key (pf_old p) (pf_new p);
    let '(other_key, data) := ok in
    let n := length (pf_account_trie_rows p) in
    trie <- assign_trie_rows AccountTrie (offset + 1) (pf_account_trie_rows p);
    final <- final_path_type p;
    let '(final_old, final_new) := final_hashes p in
    let offset' := offset + 1 + Z.of_nat n in
    rest <- (if is_none (pf_old_account p) && is_none (pf_new_account p)
             then Some (at_ (offset' - 1) (iz_assign_value_and_inverse (izg 2) (key - other_key)%fr
                          ++ iz_assign_value_and_inverse (izg 3) final_old ++ [(A (iv 3), data)]))
             else assign_account_leaf offset' p final final_old final_new key other_key data r);
    Some (loop offset (proof_n_rows p) (claim_cells p r)
          ++ at_ offset (start_cells c key other_key r)
          ++ trie ++ loop (offset + 1) n [(A MU_key, key); (A MU_other_key, other_key)]
          ++ rest).

  (* mpt_update.rs:348-354 *)
  Definition padding_row : row :=
    oh_assign oh_proof AccountDoesNotExist ++ [(A MU_key, ZERO_PAIR_HASH H); (A MU_other_key, ZERO_PAIR_HASH H); (A MU_domain, fdom DPair)].
  Definition total_rows (proofs : list Proof) : nat := fold_right (fun p s => (proof_n_rows p + s)%nat) 0%nat proofs.
  (* mpt_update.rs:665-668 *)
  Definition update_n_rows (proofs : list Proof) : Z := Z.of_nat (total_rows proofs) + 1.
  (* mpt_update.rs:357-378: the loop; the assertion at the end compares two sums of the same n_rows *)
  Fixpoint assign_proofs (proofs : list Proof) (r : Fr) (offset : Z) : option (list write) :=
    match proofs with
    | [] => Some []
    | p :: rest =>
        a <- assign_single_proof p r offset;
        b <- assign_proofs rest r (offset + Z.of_nat (proof_n_rows p));
        Some (a ++ b)
    end.
  (* mpt_update.rs:617-663: one region per proof; the first pass assigns proof_type at last_off, so the region of proof i has last_off + 1 rows
     (halo2's assign_regions: the shape of a region is measured in its first pass and fixes where the next one starts) *)
  Fixpoint update_regions (first : bool) (proofs : list Proof) (r : Fr) : option (list (Z * (Z -> list write))) :=
    match proofs with
    | [] => Some []
    | p :: rest =>
        let first_off := if first then 1 else 0 in
        let last_off := if first then Z.of_nat (proof_n_rows p) else Z.of_nat (proof_n_rows p) - 1 in
        rs <- update_regions false rest r;
        _ <- assign_single_proof p r first_off;
        Some ((last_off + 1, fun start => or_else (assign_single_proof p r (start + first_off)) []) :: rs)
    end.
  Definition assign_par (proofs : list Proof) (r : Fr) : option (list write) :=
    regions <- update_regions true proofs r; Some (place 0 regions).
  (* mpt.rs:125-163: update rows and padding.  A region that starts after the regions of assign_par *)
  Definition updates (par : bool) (proofs : list Proof) (r : Fr) (n_rows : Z) : option (list write) :=
    let n_assigned := Z.of_nat (total_rows proofs) in
    if par then
      ws <- assign_par proofs r;
      if n_assigned =? 0 then Some (ws ++ loop 1 (Z.to_nat (n_rows - 1)) padding_row)
      else
        _ <- oassert (1 + n_assigned <=? n_rows);
        Some (ws ++ loop (1 + n_assigned) (Z.to_nat (n_rows - (1 + n_assigned))) padding_row)
    else
      ws <- assign_proofs proofs r 1;
      _ <- oassert (2 + n_assigned <=? n_rows);
      Some (ws ++ loop (1 + n_assigned) (Z.to_nat (n_rows - (1 + n_assigned))) padding_row).

  (* mpt.rs:114-254.  n_rows / 32 - 1 underflows below 32 rows.  threads = available_parallelism() (parallel mode only) *)
  Definition mpt_assign (par : bool) (threads : nat) (proofs : list Proof) (n_rows : Z) (r : Fr) : option (list write) :=
    reprs <- byte_representations proofs;
    upd <- updates par proofs r n_rows;
    lookups <- key_bit_lookups H proofs;
    let keys := sort_dedup cmp_fr (mpt_update_keys H proofs) in
    _ <- oassert (1 <=? n_rows / 32);
    _ <- oassert (Z.of_nat (length keys) <=? n_rows / 32 - 1);
    tables <- (if par
               then keys_regions_par threads r (re_u32s reprs) (re_u64s reprs) (re_u128s reprs) (re_frs reprs) keys lookups n_rows
               else keys_region r (re_u32s reprs) (re_u64s reprs) (re_u128s reprs) (re_frs reprs) keys lookups n_rows);
    Some (upd ++ tables).
  (* mpt.rs:269-284 *)
  Definition mpt_n_rows_required (proofs : list Proof) : option Z :=
    reprs <- byte_representations proofs;
    lookups <- key_bit_lookups H proofs;
    Some (1 + fold_left Z.max
                [canonical_n_rows (mpt_update_keys H proofs); key_bit_n_rows lookups;
                 byte_repr_n_rows (re_u32s reprs) (re_u64s reprs) (re_u128s reprs) (re_frs reprs); byte_bit_n_rows]
                (update_n_rows proofs)).
End Hash.
