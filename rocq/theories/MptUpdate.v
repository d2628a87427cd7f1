(* Model of the constraint half of /repo/src/gadgets/mpt_update.rs (lookup 80-105, configure 107-345 and
   the configure_* functions 943-2036), gadgets/mpt_update/{segment,path}.rs, util.rs:115-145
   (lagrange_polynomial) and mpt.rs:40-112, 256-266 (the whole circuit).
   The Rust functions receive the lookups of the other gadgets as `&impl XLookup`; mpt.rs passes the
   only implementations, which are used directly here. *)
From Coq Require Import ZArith String List Bool.
From Verif Require Import Pocklington Fr Query Builder Gadgets.
Import ListNotations.
Open Scope Z_scope.
Open Scope cmd_scope.

(** * Enumerations in declaration order (strum EnumIter) and the three OneHot gadgets *)
Definition seg_eqb (a b : SegmentType) : bool :=
  match a, b with
  | SegStart, SegStart | AccountTrie, AccountTrie | AccountLeaf0, AccountLeaf0 | AccountLeaf1, AccountLeaf1
  | AccountLeaf2, AccountLeaf2 | AccountLeaf3, AccountLeaf3 | StorageTrie, StorageTrie | StorageLeaf0, StorageLeaf0 => true
  | _, _ => false end.
Definition path_eqb (a b : PathType) : bool :=
  match a, b with
  | PathStart, PathStart | Common, Common | ExtensionOld, ExtensionOld | ExtensionNew, ExtensionNew => true
  | _, _ => false end.
Definition ptype_eqb (a b : MPTProofType) : bool :=
  match a, b with
  | NonceChanged, NonceChanged | BalanceChanged, BalanceChanged | CodeHashExists, CodeHashExists
  | PoseidonCodeHashExists, PoseidonCodeHashExists | CodeSizeExists, CodeSizeExists
  | AccountDoesNotExist, AccountDoesNotExist | StorageChanged, StorageChanged
  | StorageDoesNotExist, StorageDoesNotExist | AccountDestructed, AccountDestructed => true
  | _, _ => false end.
(* segment.rs:7-16 *)
Definition seg_variants := [SegStart; AccountTrie; AccountLeaf0; AccountLeaf1; AccountLeaf2; AccountLeaf3; StorageTrie; StorageLeaf0].
(* path.rs:4-10 *)
Definition path_variants := [PathStart; Common; ExtensionOld; ExtensionNew].
(* mpt_table.rs:9-28 *)
Definition ptype_variants := [NonceChanged; BalanceChanged; CodeHashExists; PoseidonCodeHashExists; CodeSizeExists;
  AccountDoesNotExist; StorageChanged; StorageDoesNotExist; AccountDestructed].
(* mpt_update.rs:60, 63, 64 *)
Definition oh_segment : OneHot SegmentType := mkOneHot _ seg_eqb seg_variants MU_seg.
Definition oh_path : OneHot PathType := mkOneHot _ path_eqb path_variants MU_path.
Definition oh_proof : OneHot MPTProofType := mkOneHot _ ptype_eqb ptype_variants MU_proof.

(** * segment.rs *)
(* segment.rs:19-141; None = the map has no entry *)
Definition seg_transitions (proof : MPTProofType) (s : SegmentType) : option (list SegmentType) :=
  match proof with
  | NonceChanged | BalanceChanged | CodeSizeExists | CodeHashExists =>
      match s with
      | SegStart => Some [SegStart; AccountTrie; AccountLeaf0]
      | AccountTrie => Some [AccountTrie; AccountLeaf0; SegStart]
      | AccountLeaf0 => Some [AccountLeaf1]
      | AccountLeaf1 => Some [AccountLeaf2]
      | AccountLeaf2 => Some [AccountLeaf3]
      | AccountLeaf3 => Some [SegStart]
      | _ => None end
  | PoseidonCodeHashExists =>
      match s with
      | SegStart => Some [AccountTrie; AccountLeaf0]
      | AccountTrie => Some [AccountTrie; AccountLeaf0]
      | AccountLeaf0 => Some [AccountLeaf1]
      | AccountLeaf1 => Some [SegStart]
      | _ => None end
  | StorageChanged =>
      match s with
      | SegStart => Some [AccountTrie; AccountLeaf0]
      | AccountTrie => Some [AccountTrie; AccountLeaf0]
      | AccountLeaf0 => Some [AccountLeaf1]
      | AccountLeaf1 => Some [AccountLeaf2]
      | AccountLeaf2 => Some [AccountLeaf3]
      | AccountLeaf3 => Some [StorageTrie; StorageLeaf0]
      | StorageTrie => Some [StorageTrie; StorageLeaf0]
      | StorageLeaf0 => Some [SegStart] end
  | AccountDoesNotExist =>
      match s with
      | SegStart => Some [AccountTrie; SegStart]
      | AccountTrie => Some [AccountTrie; SegStart]
      | _ => None end
  | StorageDoesNotExist =>
      match s with
      | SegStart => Some [SegStart; AccountTrie; AccountLeaf0]
      | AccountTrie => Some [SegStart; AccountTrie; AccountLeaf0]
      | AccountLeaf0 => Some [AccountLeaf1]
      | AccountLeaf1 => Some [AccountLeaf2]
      | AccountLeaf2 => Some [AccountLeaf3]
      | AccountLeaf3 => Some [StorageTrie; SegStart]
      | StorageTrie => Some [StorageTrie; SegStart]
      | StorageLeaf0 => None end
  | AccountDestructed => None
  end.
(* segment.rs:143-158 *)
Definition seg_domains (s : SegmentType) : list HashDomain :=
  match s with
  | SegStart => [DPair]
  | AccountTrie | StorageTrie => [Branch0; Branch1; Branch2; Branch3]
  | AccountLeaf0 | StorageLeaf0 => [DLeaf]
  | AccountLeaf1 | AccountLeaf2 | AccountLeaf3 => [AccountFields]
  end.

(** * path.rs *)
(* path.rs:12-29 *)
Definition PATH_TRANSITIONS : list (PathType * PathType) :=
  [(PathStart, PathStart); (PathStart, Common); (PathStart, ExtensionOld); (PathStart, ExtensionNew);
   (Common, Common); (Common, ExtensionOld); (Common, ExtensionNew); (Common, PathStart);
   (ExtensionOld, ExtensionOld); (ExtensionOld, PathStart);
   (ExtensionNew, ExtensionNew); (ExtensionNew, PathStart)].
(* path.rs:31-37: `map.get(&variant).unwrap()` of the grouped map *)
Definition path_transitions (p : PathType) : list PathType :=
  map snd (filter (fun t => path_eqb p (fst t)) PATH_TRANSITIONS).

(** * util.rs:115-145 lagrange_polynomial *)
(* Iterator::reduce followed by expect; the default is never reached when the panicking cases of the
   Rust function (fewer than 2 points, duplicate x coordinates) are excluded *)
Definition reduce {A} (f : A -> A -> A) (d : A) (l : list A) : A :=
  match l with [] => d | x :: r => fold_left f r x end.
Definition lagrange_basis (argument : query) (xs : list Fr) (i : nat) (xi : Fr) : query :=
  let others := map snd (filter (fun p => negb (Nat.eqb i (fst p))) (combine (seq 0 (List.length xs)) xs)) in
  let '(numerator, denominator) :=
    reduce (fun p q => ((fst p * fst q)%q, (snd p * snd q)%fr)) (qone, f1)
      (map (fun xj => ((argument - q_of_fr xj)%q, (xi - xj)%fr)) others) in
  (numerator * q_of_fr (finv denominator))%q.
Definition lagrange_polynomial (argument : query) (points : list (Fr * query)) : query :=
  let xs := map fst points in
  let basis := map (fun p => lagrange_basis argument xs (fst p) (snd p)) (combine (seq 0 (List.length xs)) xs) in
  reduce QAdd qzero (map (fun p => (fst p * snd p)%q) (combine basis (map snd points))).

Section Config.
(* util.rs:14-16 domain_hash: the Poseidon hash of a dependency, H left right domain *)
Variable H : Fr -> Fr -> Fr -> Fr.

(* mpt_update.rs:42-46 *)
Definition ZERO_PAIR_HASH : Fr := H f0 f0 (fdom DPair).
Definition ZERO_STORAGE_ROOT_KECCAK_CODEHASH_HASH : Fr := H f0 ZERO_PAIR_HASH (fdom AccountFields).

(* mpt_update.rs:53-78 the columns of MptUpdateConfig that are single advice columns *)
Definition iv := MU_iv.
Definition sp := MU_sp.
Definition izg (i : nat) : IsZeroGadget := mkIsZero (MU_zero_value i) (MU_zero_inv i).
Definition cur_seg := current_matches oh_segment.
Definition next_seg := next_matches oh_segment.
Definition cur_path := current_matches oh_path.
Definition next_path := next_matches oh_path.

(* mpt_update.rs:943-961 *)
Definition old_left : query := (cur MU_direction * cur MU_sibling + (qone - cur MU_direction) * cur MU_old_hash)%q.
Definition old_right : query := (cur MU_direction * cur MU_old_hash + (qone - cur MU_direction) * cur MU_sibling)%q.
Definition new_left : query := (cur MU_direction * cur MU_sibling + (qone - cur MU_direction) * cur MU_new_hash)%q.
Definition new_right : query := (cur MU_direction * cur MU_new_hash + (qone - cur MU_direction) * cur MU_sibling)%q.

(* mpt_update.rs:80-105 *)
Definition mpt_update_lookup : list query :=
  let is_start := cur_seg [SegStart] in
  [ ((cur (iv 0) * QConst (fz (2 ^ 32)) + cur (iv 1)) * is_start)%q;
    (cur MU_storage_key_rlc * is_start)%q;
    (oh_current oh_proof * is_start)%q;
    (cur (sp 1) * is_start)%q;
    (cur (sp 0) * is_start)%q;
    (cur MU_new_value * is_start)%q;
    (cur MU_old_value * is_start)%q ].

(* mpt_update.rs:963-981 *)
Definition configure_segment_transitions (proof : MPTProofType) : cmd :=
  for_each seg_variants (fun variant =>
    Condition (cur_seg [variant])
      (match seg_transitions proof variant with
       | Some next_segments => assert_ "transition for current segment -> next segment" (next_seg next_segments)
       | None => assert_unreachable "unreachable segment for proof"
       end)).

(* mpt_update.rs:1018-1024 and 1101-1107 *)
Definition domain_not_branch3 : query :=
  ((cur MU_domain - qdom Branch0) * (cur MU_domain - qdom Branch1)
   * (cur MU_domain - qdom Branch2) * (cur MU_domain - qdom AccountFields))%q.
(* mpt_update.rs:1044-1067; in 1126-1149 the same with Query::from(Fr::from(..)) *)
Definition new_domain_query (qd : HashDomain -> query) : query :=
  lagrange_polynomial (cur MU_domain)
    [(fdom Branch0, bselect (cur MU_direction) (qd Branch1) (qd Branch2));
     (fdom Branch1, qd Branch3);
     (fdom Branch2, qd Branch3);
     (fdom AccountFields, qd AccountFields)].
(* mpt_update.rs:983-1180 *)
Definition configure_common_path : cmd :=
  Condition (next_path [Common; PathStart]) (
    PoseidonLookup "poseidon hash correct for old common path" old_left old_right (cur MU_domain) (prev MU_old_hash) ;;
    PoseidonLookup "poseidon hash correct for new common path" new_left new_right (cur MU_domain) (prev MU_new_hash)) ;;
  Condition (next_path [ExtensionNew]) (
    AssertZero "old domain is not HashDomain::Branch3" domain_not_branch3 ;;
    PoseidonLookup "poseidon hash correct for old common path" old_left old_right (cur MU_domain) (prev MU_old_hash) ;;
    (let is_type_2 := next_seg [AccountLeaf0; StorageLeaf0] in
     Condition (bnot is_type_2) (
       assert_equal "new domain matches direction and domain after insertion"
         (cur (iv 2)) (new_domain_query qdom) ;;
       PoseidonLookup "poseidon hash correct for new common path" new_left new_right (cur (iv 2)) (prev MU_new_hash)) ;;
     Condition is_type_2 (
       AssertZero "old hash is zero for type 2 empty account" (cur MU_old_hash) ;;
       PoseidonLookup "poseidon hash correct for new common path" new_left new_right (cur MU_domain) (prev MU_new_hash)))) ;;
  Condition (next_path [ExtensionOld]) (
    AssertZero "new domain is not HashDomain::Branch3" domain_not_branch3 ;;
    PoseidonLookup "poseidon hash correct for new common path" new_left new_right (cur MU_domain) (prev MU_new_hash) ;;
    (let is_type_2 := next_seg [AccountLeaf0; StorageLeaf0] in
     Condition (bnot is_type_2) (
       assert_equal "new domain matches direction and domain before deletion"
         (cur (iv 2)) (new_domain_query (fun d => q_of_fr (fdom d))) ;;
       PoseidonLookup "poseidon hash correct for old common path" old_left old_right (cur (iv 2)) (prev MU_old_hash)) ;;
     Condition is_type_2 (
       AssertZero "new hash is zero for type 2 empty account" (cur MU_new_hash) ;;
       PoseidonLookup "poseidon hash correct for old common path" old_left old_right (cur MU_domain) (prev MU_old_hash)))).

(* mpt_update.rs:1182-1267 *)
Definition configure_extension_old : cmd :=
  assert_ "can only delete existing storage trie nodes for storage proofs"
    (band (current_matches oh_proof [StorageChanged]) (cur_seg [StorageTrie; StorageLeaf0])) ;;
  AssertZero "new value is 0 when deleting node" (cur MU_new_value) ;;
  assert_equal "new_hash unchanged for path_type=ExtensionOld" (cur MU_new_hash) (prev MU_new_hash) ;;
  PoseidonLookup "poseidon hash correct for old path" old_left old_right (cur MU_domain) (prev MU_old_hash) ;;
  assert_ "common -> extension old switch only allowed in storage trie segments"
    (bor (previous_matches oh_path [ExtensionOld]) (cur_seg [StorageTrie; StorageLeaf0])) ;;
  Condition (cur_seg [StorageTrie]) (
    let is_final := next_seg [StorageLeaf0] in
    Condition (bnot is_final)
      (AssertZero "sibling is zero for non-final old extension path segments" (cur MU_sibling)) ;;
    Condition is_final
      (assert_equal "sibling is new leaf hash for final new extension path segments" (cur MU_sibling) (prev MU_new_hash))) ;;
  Condition (cur_seg [StorageLeaf0])
    (nonexistence_configure MU_new_value MU_key MU_other_key (izg 2) MU_new_hash (izg 3) (iv 9)).

(* mpt_update.rs:1269-1354 *)
Definition configure_extension_new : cmd :=
  assert_ "can only add new nodes for nonce, balance and storage proofs"
    (current_matches oh_proof [NonceChanged; BalanceChanged; StorageChanged]) ;;
  AssertZero "old value is 0 if old account is empty" (cur MU_old_value) ;;
  assert_equal "old_hash unchanged for path_type=New" (cur MU_old_hash) (prev MU_old_hash) ;;
  PoseidonLookup "poseidon hash correct for new extension path" new_left new_right (cur MU_domain) (prev MU_new_hash) ;;
  assert_ "common -> extension new switch only allowed in trie segments"
    (bor (previous_matches oh_path [ExtensionNew])
         (cur_seg [AccountTrie; AccountLeaf0; StorageTrie; StorageLeaf0])) ;;
  Condition (cur_seg [AccountTrie; StorageTrie]) (
    let is_final := bnot (next_seg [AccountTrie; StorageTrie]) in
    Condition (bnot is_final)
      (AssertZero "sibling is zero for non-final new extension path segments" (cur MU_sibling)) ;;
    Condition is_final
      (assert_equal "sibling is old leaf hash for final new extension path segments" (cur MU_sibling) (cur MU_old_hash))) ;;
  Condition (cur_seg [AccountLeaf0; StorageLeaf0])
    (nonexistence_configure MU_old_value MU_key MU_other_key (izg 2) MU_old_hash (izg 3) (iv 9)).

(* mpt_update.rs:1368-1397, 1494-1523, 1579-1607, 1740-1769: the empty-account part shared by four proof types, and
   2001-2028 (configure_empty_account), which differs only in the hash column given to
   nonexistence_proof::configure and in the label of its first assertion *)
Definition empty_account_part (hash : acol) : cmd :=
  Condition (next_seg [SegStart]) (
    assert_equal "old hash = new hash for empty account proof" (cur MU_old_hash) (cur MU_new_hash) ;;
    assert_equal "old value = new value for empty account proof" (cur MU_old_value) (cur MU_new_value) ;;
    nonexistence_configure MU_old_value MU_key MU_other_key (izg 2) hash (izg 3) (iv 3)).
Definition direction_is_1 : cmd := assert_equal "direction is 1" (cur MU_direction) qone.
Definition direction_is_0 : cmd := AssertZero "direction is 0" (cur MU_direction).
(* `for variant in SegmentType::iter() { cb.condition(current_matches(&[variant]), ..) }` *)
Definition by_segment (f : SegmentType -> cmd) : cmd :=
  for_each seg_variants (fun variant => Condition (cur_seg [variant]) (f variant)).
Definition is_path (p : PathType) (c : cmd) : cmd := Condition (cur_path [p]) c.
(* F::from(1 << 32).square() and its inverse *)
Definition c64 : Fr := (fz (2 ^ 32) * fz (2 ^ 32))%fr.

(* mpt_update.rs:1356-1484 *)
Definition configure_nonce : cmd :=
  assert_ "account leafs cannot be deleted" (bnot (cur_path [ExtensionOld])) ;;
  by_segment (fun variant =>
    match variant with
    | SegStart | AccountTrie => empty_account_part MU_old_hash
    | AccountLeaf0 => direction_is_1
    | AccountLeaf1 =>
        direction_is_0 ;;
        is_path ExtensionNew (AssertZero "poseidon code hash is 0 for nonce extension new at AccountLeaf1" (cur MU_sibling))
    | AccountLeaf2 =>
        direction_is_0 ;;
        is_path ExtensionNew (assert_equal "sibling is hash(0, hash(0, 0)) for nonce extension new at AccountLeaf2"
          (cur MU_sibling) (q_of_fr ZERO_STORAGE_ROOT_KECCAK_CODEHASH_HASH))
    | AccountLeaf3 =>
        direction_is_0 ;;
        (let new_code_size := ((cur MU_new_hash - cur MU_new_value) * QConst (finv c64))%q in
         AddLookup "new nonce is 8 bytes" [cur MU_new_value; qz 7] bytes_lookup ;;
         is_path Common (
           AddLookup "old nonce is 8 bytes" [cur MU_old_value; qz 7] bytes_lookup ;;
           (let old_code_size := ((cur MU_old_hash - cur MU_old_value) * QConst (finv c64))%q in
            assert_equal "old_code_size = new_code_size for nonce update" old_code_size new_code_size ;;
            AddLookup "existing code size is 8 bytes" [old_code_size; qz 7] bytes_lookup)) ;;
         is_path ExtensionNew (
           AssertZero "old nonce is 0 for ExtensionNew nonce update" (cur MU_old_value) ;;
           AssertZero "code size is 0 for ExtensionNew nonce update" new_code_size ;;
           AssertZero "balance is 0 for ExtensionNew nonce update" (cur MU_sibling)))
    | _ => Skip
    end).

(* mpt_update.rs:1486-1568 *)
Definition configure_code_size : cmd :=
  by_segment (fun variant =>
    match variant with
    | SegStart | AccountTrie => empty_account_part MU_old_hash
    | AccountLeaf0 => direction_is_1
    | AccountLeaf1 => direction_is_0
    | AccountLeaf2 => direction_is_0
    | AccountLeaf3 =>
        direction_is_0 ;;
        (let old_nonce := (cur MU_old_hash - cur MU_old_value * QConst c64)%q in
         let new_nonce := (cur MU_new_hash - cur MU_new_value * QConst c64)%q in
         AddLookup "old code size is 8 bytes" [cur MU_old_value; qz 7] bytes_lookup ;;
         AddLookup "new code size is 8 bytes" [cur MU_new_value; qz 7] bytes_lookup ;;
         assert_equal "old nonce = new nonce for code size update" old_nonce new_nonce ;;
         AddLookup "nonce is 8 bytes" [old_nonce; qz 7] bytes_lookup)
    | _ => Skip
    end).

(* mpt_update.rs:1570-1697 *)
Definition configure_balance : cmd :=
  by_segment (fun variant =>
    match variant with
    | SegStart | AccountTrie => empty_account_part MU_old_hash
    | AccountLeaf0 =>
        assert_equal "balance AccountLeaf0 domain is Leaf" (cur MU_domain) (qdom DLeaf) ;;
        direction_is_1
    | AccountLeaf1 =>
        assert_equal "balance AccountLeaf1 domain is AccountFields" (cur MU_domain) (qdom AccountFields) ;;
        direction_is_0 ;;
        is_path ExtensionNew (AssertZero "poseidon code hash is 0 for balance extension new at AccountLeaf1" (cur MU_sibling))
    | AccountLeaf2 =>
        direction_is_0 ;;
        is_path ExtensionNew (assert_equal "sibling is hash(0, hash(0, 0)) for balance extension new at AccountLeaf2"
          (cur MU_sibling) (q_of_fr ZERO_STORAGE_ROOT_KECCAK_CODEHASH_HASH))
    | AccountLeaf3 =>
        direction_is_1 ;;
        is_path Common (AddLookup "old balance is rlc(old_hash) and fits into 31 bytes"
          [cur MU_old_hash; qz 30; cur MU_old_value] rlc_lookup) ;;
        AddLookup "new balance is rlc(new_hash) and fits into 31 bytes"
          [cur MU_new_hash; qz 30; cur MU_new_value] rlc_lookup ;;
        is_path ExtensionNew (AssertZero "sibling (code_size + nonce << 64) is 0 for new account)" (cur MU_sibling)) ;;
        is_path ExtensionNew (AssertZero "nonce and code size are 0 for new account" (cur MU_sibling))
    | _ => Skip
    end).

(* mpt_update.rs:1699-1728 *)
Definition configure_poseidon_code_hash : cmd :=
  by_segment (fun variant =>
    match variant with
    | AccountLeaf0 => direction_is_1
    | AccountLeaf1 =>
        direction_is_1 ;;
        assert_equal "old_hash is old poseidon code hash" (cur MU_old_value) (cur MU_old_hash) ;;
        assert_equal "new_hash is new poseidon code hash" (cur MU_new_value) (cur MU_new_hash)
    | _ => Skip
    end).

(* mpt_update.rs:1730-1811 *)
Definition configure_keccak_code_hash : cmd :=
  by_segment (fun variant =>
    match variant with
    | SegStart | AccountTrie => empty_account_part MU_old_hash
    | AccountLeaf0 => direction_is_1
    | AccountLeaf1 => direction_is_0
    | AccountLeaf2 => direction_is_1
    | AccountLeaf3 =>
        direction_is_1 ;;
        word_rlc_configure MU_old_hash (iv 0) (iv 1) MU_old_value (sp 0) (sp 1) ;;
        word_rlc_configure MU_new_hash (iv 2) (iv 3) MU_new_value (sp 2) (sp 3)
    | _ => Skip
    end).

(* mpt_update.rs:1813-1904 *)
Definition configure_storage : cmd :=
  by_segment (fun variant =>
    match variant with
    | AccountLeaf0 => direction_is_1
    | AccountLeaf1 => direction_is_0
    | AccountLeaf2 => direction_is_1
    | AccountLeaf3 =>
        direction_is_0 ;;
        word_rlc_configure MU_key (iv 0) (iv 1) MU_storage_key_rlc (sp 0) (sp 1)
    | StorageLeaf0 =>
        direction_is_1 ;;
        is_path Common (
          word_rlc_configure MU_old_hash (iv 0) (iv 1) MU_old_value (sp 0) (sp 1) ;;
          word_rlc_configure MU_new_hash (iv 2) (iv 3) MU_new_value (sp 2) (sp 3)) ;;
        assert_equal "old_hash_minus_zero_storage_hash = old_hash - hash(0, 0)"
          (cur (iz_value (izg 0))) (cur MU_old_hash - q_of_fr ZERO_PAIR_HASH)%q ;;
        assert_equal "new_hash_minus_zero_storage_hash = new_hash - hash(0, 0)"
          (cur (iz_value (izg 1))) (cur MU_new_hash - q_of_fr ZERO_PAIR_HASH)%q ;;
        assert_ "old hash != hash(0, 0)" (bnot (iz_current (izg 0))) ;;
        assert_ "new hash != hash(0, 0)" (bnot (iz_current (izg 1)))
    | _ => Skip
    end).

(* mpt_update.rs:1906-1985 *)
Definition configure_empty_storage : cmd :=
  AssertZero "old value is 0 for empty storage" (cur MU_old_value) ;;
  AssertZero "new value is 0 for empty storage" (cur MU_new_value) ;;
  assert_ "empty storage proof does not extend trie" (cur_path [PathStart; Common]) ;;
  assert_equal "hash doesn't change for empty account" (cur MU_old_hash) (cur MU_new_hash) ;;
  Condition (next_seg [SegStart])
    (nonexistence_configure MU_old_value MU_key MU_other_key (izg 2) MU_old_hash (izg 3) (iv 3)) ;;
  by_segment (fun variant =>
    match variant with
    | AccountLeaf0 => direction_is_1
    | AccountLeaf1 => direction_is_0
    | AccountLeaf2 => direction_is_1
    | AccountLeaf3 =>
        direction_is_0 ;;
        word_rlc_configure MU_key (iv 0) (iv 1) MU_storage_key_rlc (sp 0) (sp 1)
    | _ => Skip
    end).

(* mpt_update.rs:1987-2036 *)
Definition configure_empty_account : cmd :=
  AssertZero "old value is 0" (cur MU_old_value) ;;
  AssertZero "new value is 0" (cur MU_new_value) ;;
  assert_equal "hash doesn't change for empty account" (cur MU_old_hash) (cur MU_new_hash) ;;
  by_segment (fun variant =>
    match variant with
    | SegStart | AccountTrie => empty_account_part MU_new_hash
    | _ => Skip
    end).

(* mpt_update.rs:301-342 *)
Definition configure_proof (t : MPTProofType) : cmd :=
  configure_segment_transitions t ;;
  match t with
  | NonceChanged => configure_nonce
  | BalanceChanged => configure_balance
  | CodeSizeExists => configure_code_size
  | PoseidonCodeHashExists => configure_poseidon_code_hash
  | AccountDoesNotExist => configure_empty_account
  | CodeHashExists => configure_keccak_code_hash
  | StorageChanged => configure_storage
  | StorageDoesNotExist => configure_empty_storage
  | AccountDestructed => assert_unreachable "unimplemented!"
  end.

(* mpt_update.rs:262-282 *)
Definition configure_path (p : PathType) : cmd :=
  assert_ "transition for path_type" (next_path (path_transitions p)) ;;
  match p with
  | PathStart => Skip
  | Common => configure_common_path
  | ExtensionOld => configure_extension_old
  | ExtensionNew => configure_extension_new
  end.

(* mpt_update.rs:284-299 *)
Definition configure_domain (s : SegmentType) : cmd :=
  AssertZero "domain in allowed set for segment type"
    (fold_left (fun product d => (product * (cur MU_domain - qdom d))%q) (seg_domains s) qone).

(* mpt_update.rs:139-172 *)
Definition configure_start : cmd :=
  PoseidonLookup "account mpt key = h(address_high, address_low << 96)"
    (cur (iv 0)) (cur (iv 1) * QConst (fz (2 ^ 96)))%q (qdom DPair) (cur MU_key) ;;
  AddLookup "address_high is 16 bytes" [cur (iv 0); qz 15] bytes_lookup ;;
  AddLookup "address_low is 4 bytes" [cur (iv 1); qz 3] bytes_lookup ;;
  AddLookup "rlc_old_root = rlc(old_root)" [cur MU_old_hash; cur (sp 0)] fr_rlc_lookup ;;
  AddLookup "rlc_new_root = rlc(new_root)" [cur MU_new_hash; cur (sp 1)] fr_rlc_lookup.

(* mpt_update.rs:107-345; the selector is cb.every_row_selector() *)
Definition mpt_update_configure : cmd :=
  one_hot_configure oh_proof ;;
  for_each [0; 1; 2; 3]%nat (fun i => is_zero_configure (izg i)) ;;
  one_hot_configure oh_segment ;;
  one_hot_configure oh_path ;;
  (let is_start := cur_seg [SegStart] in
   assert_equal "segment is Start iff path is Start" is_start (cur_path [PathStart]) ;;
   Condition (band is_start (fcur SEL)) configure_start ;;
   Condition (bnot is_start) (
     assert_equal "proof type does not change" (oh_current oh_proof) (oh_previous oh_proof) ;;
     assert_equal "storage_key_rlc does not change" (cur MU_storage_key_rlc) (prev MU_storage_key_rlc) ;;
     assert_equal "old_value does not change" (cur MU_old_value) (prev MU_old_value) ;;
     assert_equal "new_value does not change" (cur MU_new_value) (prev MU_new_value))) ;;
  Condition (bnot (cur_seg [SegStart; AccountLeaf3])) (
    assert_equal "key can only change on Start or AccountLeaf3 rows" (cur MU_key) (prev MU_key) ;;
    assert_equal "other_key can only change on Start or AccountLeaf3 rows" (cur MU_other_key) (prev MU_other_key)) ;;
  (let is_trie := cur_seg [AccountTrie; StorageTrie] in
   Condition is_trie (
     AddLookup "direction is correct for key and depth"
       [cur MU_key; (cur MU_depth - qone)%q; cur MU_direction] key_bit_lookup ;;
     assert_equal "depth increases by 1 in trie segments" (cur MU_depth) (prev MU_depth + qone)%q ;;
     Condition (cur_path [Common]) (
       AddLookup "direction is correct for other_key and depth"
         [cur MU_other_key; (cur MU_depth - qone)%q; cur MU_direction] key_bit_lookup)) ;;
   Condition (bnot is_trie)
     (AssertZero "depth is 0 in non-trie segments" (cur MU_depth))) ;;
  for_each path_variants (fun variant => Condition (cur_path [variant]) (configure_path variant)) ;;
  for_each seg_variants (fun variant => Condition (cur_seg [variant]) (configure_domain variant)) ;;
  for_each ptype_variants (fun t => Condition (current_matches oh_proof [t]) (configure_proof t)).

(* mpt.rs:74-98; MPTProofType::AccountDoesNotExist as u64 = 5 *)
Definition final_row_configure : cmd :=
  Condition (fcur FINAL) (
    for_each (combine [qz 0; qz 0; qz 5; qz 0; qz 0; qz 0; qz 0] mpt_update_lookup)
      (fun p => assert_equal "final mpt update is padding" (fst p) (snd p))).

(* mpt.rs:40-112 *)
Definition circuit : cmd :=
  byte_representation_configure ;;
  canonical_representation_configure ;;
  key_bit_configure ;;
  mpt_update_configure ;;
  final_row_configure.

(* mpt.rs:256-266 *)
Definition lookup_exprs : list query := fcur SEL :: mpt_update_lookup.
End Config.
