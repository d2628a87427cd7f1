(* Model of /repo/src/types.rs (Claim, ClaimKind, Proof and the conversions from traces) and of
   mpt_table.rs:30-49.  A panic (assert, unwrap, unreachable!, unimplemented!) is None.
   u64, U256 and BigUint values are integers; an Address is its list of 20 bytes.
   Proof::check (786-880, compiled for tests only) is in ProofCheck.v. *)
From Coq Require Import ZArith List Bool.
From Verif Require Import Pocklington Fr Query Builder Gadgets MptUpdate Bytes Util Serde Trie Storage.
Import ListNotations.
Open Scope Z_scope.

(* types.rs:84-112 *)
Inductive ClaimKind :=
| KNonce (old new : option Z)
| KBalance (old new : option Z)
| KCodeHash (old new : option Z)
| KCodeSize (old new : option Z)
| KPoseidonCodeHash (old new : option Fr)
| KStorage (key : Z) (old_value new_value : option Z)
| KIsEmpty (key : option Z).
(* types.rs:76-81 *)
Record Claim := mkClaim { c_old_root : Fr; c_new_root : Fr; c_address : list Z; c_kind : ClaimKind }.

(* mpt_table.rs:36-49 (30-34: From<Claim>) *)
Definition proof_type_of (k : ClaimKind) : MPTProofType :=
  match k with
  | KNonce _ _ => NonceChanged
  | KBalance _ _ => BalanceChanged
  | KPoseidonCodeHash _ _ => PoseidonCodeHashExists
  | KCodeHash _ _ => CodeHashExists
  | KCodeSize _ _ => CodeSizeExists
  | KStorage _ _ _ => StorageChanged
  | KIsEmpty None => AccountDoesNotExist
  | KIsEmpty (Some _) => StorageDoesNotExist
  end.

Definition unwrap_or_default (x : option Z) : Z := match x with Some v => v | None => 0 end.
Definition fr_or_default (x : option Fr) : Fr := match x with Some v => v | None => f0 end.
(* types.rs:115-120 *)
Definition claim_storage_key (c : Claim) : Z :=
  match c_kind c with KStorage key _ _ => key | KIsEmpty (Some key) => key | _ => 0 end.
(* types.rs:122-137 *)
Definition old_value_assignment (c : Claim) (randomness : Fr) : Fr :=
  match c_kind c with
  | KNonce old _ | KCodeSize old _ => fz (unwrap_or_default old)
  | KPoseidonCodeHash old _ => fr_or_default old
  | KBalance old _ | KCodeHash old _ => rlc (u256_to_big_endian (unwrap_or_default old)) randomness
  | KStorage _ old_value _ => rlc (u256_to_big_endian (unwrap_or_default old_value)) randomness
  | KIsEmpty _ => f0
  end.
(* types.rs:139-154 *)
Definition new_value_assignment (c : Claim) (randomness : Fr) : Fr :=
  match c_kind c with
  | KNonce _ new | KCodeSize _ new => fz (unwrap_or_default new)
  | KPoseidonCodeHash _ new => fr_or_default new
  | KBalance _ new | KCodeHash _ new => rlc (u256_to_big_endian (unwrap_or_default new)) randomness
  | KStorage _ _ new_value => rlc (u256_to_big_endian (unwrap_or_default new_value)) randomness
  | KIsEmpty _ => f0
  end.

(* types.rs:158-161 *)
Record LeafNode := mkLeafNode { ln_key : Fr; ln_value_hash : Fr }.
(* types.rs:166: one element of address_hash_traces *)
Record HashTrace := mkHT { ht_direction : bool; ht_domain : HashDomain; ht_open : Fr; ht_close : Fr; ht_sibling : Fr;
  ht_padding_open : bool; ht_padding_close : bool }.
(* [[Fr; 3]; 6] *)
Definition AccountTraces := list (list Fr).
Definition at2 (t : AccountTraces) (i j : nat) : Fr := nth j (nth i t []) f0.
(* types.rs:188-194 *)
Record EthAccount := mkEth { ea_nonce : Z; ea_code_size : Z; ea_balance : Fr; ea_keccak_codehash : Z; ea_storage_root : Fr }.
(* types.rs:228-231 *)
Record Path := mkP { pth_key : Fr; pth_leaf_data_hash : option Fr }.
(* types.rs:164-185 *)
Record Proof := mkProof {
  pf_claim : Claim;
  pf_address_hash_traces : list HashTrace;
  pf_leafs : option LeafNode * option LeafNode;
  pf_old_account_hash_traces : AccountTraces;
  pf_new_account_hash_traces : AccountTraces;
  pf_storage : StorageProof;
  pf_old : Path;
  pf_new : Path;
  pf_old_account : option EthAccount;
  pf_new_account : option EthAccount;
  pf_account_trie_rows : TrieRows }.

(* types.rs:196-206 *)
Definition eth_account_from (d : AccountData) : option EthAccount :=
  k <- u256_from_biguint (ad_code_hash d);
  Some (mkEth (ad_nonce d) (ad_code_size d) (fr_from_biguint (ad_balance d)) k f0).

(* types.rs:209-224 *)
Definition is_none {A} (x : option A) : bool := match x with None => true | Some _ => false end.
Definition proof_n_rows (p : Proof) : nat :=
  if is_none (pf_old_account p) && is_none (pf_new_account p)
  then 1 + length (pf_address_hash_traces p)
  else 1 + length (pf_address_hash_traces p)
       + (match c_kind (pf_claim p) with
          | KNonce _ _ => 4 | KCodeSize _ _ => 4 | KBalance _ _ => 4 | KPoseidonCodeHash _ _ => 2 | KCodeHash _ _ => 4
          | KStorage _ _ _ | KIsEmpty (Some _) => 4
          | KIsEmpty None => 0
          end)
       + sp_n_rows (pf_storage p).

Definition data_eqb (a b : AccountData) : bool :=
  (ad_nonce a =? ad_nonce b) && (ad_balance a =? ad_balance b) && (ad_code_hash a =? ad_code_hash b)
  && (ad_poseidon_code_hash a =? ad_poseidon_code_hash b) && (ad_code_size a =? ad_code_size b).
Definition odata_eqb (a b : option AccountData) : bool :=
  match a, b with Some a, Some b => data_eqb a b | None, None => true | _, _ => false end.
(* derived Default *)
Definition default_data : AccountData := mkAccountData 0 0 0 0 0.
Definition nonzero (v : Z) : option Z := if v =? 0 then None else Some v.

(* types.rs:257-404 *)
Definition claim_kind_from (proof_type : MPTProofType) (trace : SMTTrace) : option ClaimKind :=
  let '(account_old, account_new) := t_account_update trace in
  let from_account :=
    match account_old, account_new with
    | None, None =>                                                                           (* types.rs:303-327 *)
        match proof_type with
        | NonceChanged => Some (KNonce (Some 0) (Some 0))
        | BalanceChanged => Some (KBalance (Some 0) (Some 0))
        | AccountDoesNotExist => Some (KIsEmpty None)
        | CodeHashExists => Some (KCodeHash (Some 0) (Some 0))
        | CodeSizeExists => Some (KCodeSize (Some 0) (Some 0))
        | StorageDoesNotExist => kb <- t_state_key trace; k <- u256_from_hex kb; Some (KIsEmpty (Some k))
        | PoseidonCodeHashExists | StorageChanged | AccountDestructed => None
        end
    | None, Some new =>                                                                       (* types.rs:328-344 *)
        if negb (ad_nonce new =? 0) then
          _ <- oassert (ptype_eqb proof_type NonceChanged); Some (KNonce None (Some (ad_nonce new)))
        else if negb (ad_balance new =? 0) then
          _ <- oassert (ptype_eqb proof_type BalanceChanged);
          b <- u256_from_biguint (ad_balance new); Some (KBalance None (Some b))
        else None
    | Some old, Some new =>                                                                   (* types.rs:345-400 *)
        match proof_type with
        | NonceChanged =>
            _ <- oassert (ad_balance old =? ad_balance new); _ <- oassert (ad_code_size old =? ad_code_size new);
            _ <- oassert (ad_code_hash old =? ad_code_hash new); _ <- oassert (ad_poseidon_code_hash old =? ad_poseidon_code_hash new);
            Some (KNonce (Some (ad_nonce old)) (Some (ad_nonce new)))
        | BalanceChanged =>
            _ <- oassert (ad_nonce old =? ad_nonce new); _ <- oassert (ad_code_size old =? ad_code_size new);
            _ <- oassert (ad_code_hash old =? ad_code_hash new); _ <- oassert (ad_poseidon_code_hash old =? ad_poseidon_code_hash new);
            o <- u256_from_biguint (ad_balance old); n <- u256_from_biguint (ad_balance new);
            Some (KBalance (Some o) (Some n))
        | CodeHashExists =>
            _ <- oassert (ad_nonce old =? ad_nonce new); _ <- oassert (ad_balance old =? ad_balance new);
            _ <- oassert (ad_code_size old =? ad_code_size new); _ <- oassert (ad_poseidon_code_hash old =? ad_poseidon_code_hash new);
            o <- u256_from_biguint (ad_code_hash old); n <- u256_from_biguint (ad_code_hash new);
            Some (KCodeHash (Some o) (Some n))
        | CodeSizeExists =>
            _ <- oassert (ad_nonce old =? ad_nonce new); _ <- oassert (ad_balance old =? ad_balance new);
            _ <- oassert (ad_code_hash old =? ad_code_hash new); _ <- oassert (ad_poseidon_code_hash old =? ad_poseidon_code_hash new);
            Some (KCodeSize (Some (ad_code_size old)) (Some (ad_code_size new)))
        | PoseidonCodeHashExists =>
            _ <- oassert (ad_nonce old =? ad_nonce new); _ <- oassert (ad_balance old =? ad_balance new);
            _ <- oassert (ad_code_size old =? ad_code_size new); _ <- oassert (ad_code_hash old =? ad_code_hash new);
            Some (KPoseidonCodeHash (Some (big_uint_to_fr (ad_poseidon_code_hash old))) (Some (big_uint_to_fr (ad_poseidon_code_hash new))))
        | AccountDoesNotExist | StorageChanged | StorageDoesNotExist | AccountDestructed => None
        end
    | Some _, None => None                                                                    (* types.rs:401 *)
    end in
  match t_state_update trace with
  | None | Some (None, None) => from_account
  | Some (Some old, Some new) =>                                                              (* types.rs:265-301 *)
      _ <- oassert (odata_eqb account_old account_new || (is_none account_old && odata_eqb account_new (Some default_data)));
      old_value <- u256_from_hex (sd_value old);
      new_value <- u256_from_hex (sd_value new);
      _ <- oassert (bytes_eqb (sd_key old) (sd_key new));
      key <- u256_from_hex (sd_key old);
      if (old_value =? 0) && (new_value =? 0) then Some (KIsEmpty (Some key))
      else Some (KStorage key (nonzero old_value) (nonzero new_value))
  | Some (None, Some _) | Some (Some _, None) => None
  end.
(* types.rs:242-255 *)
Definition claim_from (proof_type : MPTProofType) (trace : SMTTrace) : option Claim :=
  old_root <- fr (p_root (fst (t_account_path trace)));
  new_root <- fr (p_root (snd (t_account_path trace)));
  kind <- claim_kind_from proof_type trace;
  _ <- oassert (ptype_eqb (proof_type_of kind) proof_type);
  Some (mkClaim old_root new_root (t_address trace) kind).

Section Hash.
  Variable H : Fr -> Fr -> Fr -> Fr.
  Notation domain_hash := (domain_hash H).

  (* types.rs:234-239 *)
  Definition path_hash (p : Path) : Fr :=
    match pth_leaf_data_hash p with None => f0 | Some data_hash => domain_hash (pth_key p) data_hash DLeaf end.

  (* types.rs:493-498 *)
  Definition get_leaf (path : SMTPath) : option (option LeafNode) :=
    match p_leaf path with
    | None => Some None
    | Some leaf => k <- fr (n_sibling leaf); v <- fr (n_value leaf); Some (Some (mkLeafNode k v))
    end.
  (* types.rs:500-506 *)
  Definition leaf_hash (path : SMTPath) : option Fr :=
    match p_leaf path with
    | Some leaf => k <- fr (n_sibling leaf); v <- fr (n_value leaf); Some (domain_hash k v DLeaf)
    | None => Some f0
    end.
  (* types.rs:508-537 *)
  Definition account_hash_traces (address : list Z) (account : AccountData) (storage_root : Fr) : AccountTraces :=
    let (codehash_hi, codehash_lo) := hi_lo (ad_code_hash account) in
    let h1 := domain_hash codehash_hi codehash_lo DPair in
    let h2 := domain_hash storage_root h1 AccountFields in
    let nonce_and_codesize := (fz (ad_nonce account) + fz (ad_code_size account) * (fz (Z.shiftl 1 32) * fz (Z.shiftl 1 32)))%fr in
    let balance := big_uint_to_fr (ad_balance account) in
    let h3 := domain_hash nonce_and_codesize balance AccountFields in
    let h4 := domain_hash h3 h2 AccountFields in
    let key := account_key H address in
    let poseidon_codehash := big_uint_to_fr (ad_poseidon_code_hash account) in
    let account_hash := domain_hash h4 poseidon_codehash AccountFields in
    [ [codehash_hi; codehash_lo; h1];
      [storage_root; h1; h2];
      [nonce_and_codesize; balance; h3];
      [h3; h2; h4];
      [h4; poseidon_codehash; account_hash];
      [key; account_hash; domain_hash key account_hash DLeaf] ].
  (* types.rs:612-622 *)
  Definition empty_account_hash_traces (leaf : option LeafNode) : AccountTraces :=
    repeat [f0; f0; f0] 5 ++
    [match leaf with
     | Some l => [ln_key l; ln_value_hash l; domain_hash (ln_key l) (ln_value_hash l) DLeaf]
     | None => [f0; f0; f0]
     end].

  (* types.rs:539-610: the body of the loop for one position; a pair of missing nodes does not occur *)
  Definition internal_hash_trace (key leaf0 leaf1 : Fr) (n_open n_close i : nat) (e : option SMTNode * option SMTNode) : option HashTrace :=
    let direction := fr_bit key i in
    match e with
    | (Some open, Some close) =>
        _ <- oassert (bytes_eqb (n_sibling open) (n_sibling close));
        open_domain <- domain_of_u64 (n_type open);
        close_domain <- domain_of_u64 (n_type close);
        domain <- (if negb (dom_eqb open_domain close_domain) then
                     _ <- oassert (negb (n_open =? n_close)%nat);
                     _ <- oassert (i =? Nat.min n_open n_close - 1)%nat;
                     if (i =? n_open - 1)%nat
                     then _ <- oassert (check_domain_consistency open_domain close_domain direction); Some open_domain
                     else _ <- oassert (check_domain_consistency close_domain open_domain direction); Some close_domain
                   else Some open_domain);
        o <- fr (n_value open); c <- fr (n_value close); s <- fr (n_sibling open);
        Some (mkHT direction domain o c s false false)
    | (Some open, None) =>
        d <- domain_of_u64 (n_type open); o <- fr (n_value open); s <- fr (n_sibling open);
        Some (mkHT direction d o leaf1 s false true)
    | (None, Some close) =>
        d <- domain_of_u64 (n_type close); c <- fr (n_value close); s <- fr (n_sibling close);
        Some (mkHT direction d leaf0 c s true false)
    | (None, None) => None
    end.
  (* Itertools::zip_longest *)
  Definition zip_longest {A} (a b : list A) : list (option A * option A) :=
    map (fun i => (nth_error a i, nth_error b i)) (seq 0 (Nat.max (length a) (length b))).
  Fixpoint omap_from {A B} (f : nat -> A -> option B) (i : nat) (l : list A) : option (list B) :=
    match l with [] => Some [] | x :: r => y <- f i x; ys <- omap_from f (S i) r; Some (y :: ys) end.
  Definition get_internal_hash_traces (key leaf0 leaf1 : Fr) (open_hash_traces close_hash_traces : list SMTNode) : option (list HashTrace) :=
    traces <- omap_from (internal_hash_trace key leaf0 leaf1 (length open_hash_traces) (length close_hash_traces)) 0
                (zip_longest open_hash_traces close_hash_traces);
    Some (rev traces).

  (* types.rs:882-961.  The domains 905-926; previous is the path type of the trace before (one level further down) *)
  Definition check_domains (previous : option PathType) (direction : bool) (d : HashDomain) : option (HashDomain * HashDomain) :=
    match previous with
    | Some ExtensionOld => None
    | Some ExtensionNew =>
        match d with
        | Branch0 => Some (Branch0, if direction then Branch1 else Branch2)
        | Branch1 => Some (Branch1, Branch3)
        | Branch2 => Some (Branch2, Branch3)
        | _ => None
        end
    | _ => Some (d, d)
    end.
  Definition ht_path_type (t : HashTrace) : option PathType :=
    match ht_padding_open t, ht_padding_close t with
    | false, false => Some Common
    | false, true => Some ExtensionOld
    | true, false => Some ExtensionNew
    | true, true => None
    end.
  Definition no_other (previous : option PathType) (p : PathType) : bool :=
    match previous with None => true | Some q => path_eqb q p end.
  Fixpoint check_hash_traces_from (previous : option PathType) (traces : list HashTrace) : option unit :=
    match traces with
    | t :: ((next :: _) as rest) =>
        p <- ht_path_type t;
        let h x d := if ht_direction t then domain_hash (ht_sibling t) x d else domain_hash x (ht_sibling t) d in
        _ <- (match p with
              | PathStart => None
              | Common =>
                  ds <- check_domains previous (ht_direction t) (ht_domain t);
                  _ <- oassert (feqb (h (ht_open t) (fst ds)) (ht_open next));
                  oassert (feqb (h (ht_close t) (snd ds)) (ht_close next))
              | ExtensionOld =>
                  _ <- oassert (no_other previous ExtensionOld);
                  oassert (feqb (h (ht_open t) (ht_domain t)) (ht_open next))
              | ExtensionNew =>
                  _ <- oassert (no_other previous ExtensionNew);
                  oassert (feqb (h (ht_close t) (ht_domain t)) (ht_close next))
              end);
        check_hash_traces_from (Some p) rest
    | _ => Some tt
    end.
  Definition check_hash_traces_new := check_hash_traces_from None.

  (* types.rs:443-457: the Path of one side *)
  Definition path_from (address : list Z) (path : SMTPath) : option Path :=
    match p_leaf path with
    | None => Some (mkP (account_key H address) None)
    | Some l => k <- fr (n_sibling l); v <- fr (n_value l); Some (mkP k (Some v))
    end.
  (* types.rs:459-474 *)
  Definition account_of (d : option AccountData) (storage_root : option Fr) : option (option EthAccount) :=
    match d with
    | None => Some None
    | Some d =>
        a <- eth_account_from d; r <- storage_root;
        Some (Some (mkEth (ea_nonce a) (ea_code_size a) (ea_balance a) (ea_keccak_codehash a) r))
    end.
  (* types.rs:432-439 *)
  Definition traces_of (address : list Z) (d : option AccountData) (storage_root : option Fr) (leaf : option LeafNode) : option AccountTraces :=
    match d with
    | None => Some (empty_account_hash_traces leaf)
    | Some account => r <- storage_root; Some (account_hash_traces address account r)
    end.
  (* types.rs:406-490 *)
  Definition proof_from (proof : MPTProofType) (trace : SMTTrace) : option Proof :=
    claim <- claim_from proof trace;
    storage <- storage_proof_from H trace;
    let key := account_key H (c_address claim) in
    trace_key <- fr (t_account_key trace);
    _ <- oassert (feqb key trace_key);
    let '(path0, path1) := t_account_path trace in
    account_trie_rows <- trie_rows_new H trace_key (p_path path0) (p_path path1) (p_leaf path0) (p_leaf path1);
    leaf0 <- get_leaf path0; leaf1 <- get_leaf path1;
    leaf_hash0 <- leaf_hash path0; leaf_hash1 <- leaf_hash path1;
    address_hash_traces <- get_internal_hash_traces key leaf_hash0 leaf_hash1 (p_path path0) (p_path path1);
    _ <- check_hash_traces_new address_hash_traces;
    let '(old_account, new_account) := t_account_update trace in
    old_account_hash_traces <- traces_of (c_address claim) old_account (sp_old_root H storage) leaf0;
    new_account_hash_traces <- traces_of (c_address claim) new_account (sp_new_root H storage) leaf1;
    _ <- oassert (feqb (at2 old_account_hash_traces 5 2) leaf_hash0);
    _ <- oassert (feqb (at2 new_account_hash_traces 5 2) leaf_hash1);
    old <- path_from (c_address claim) path0; new <- path_from (c_address claim) path1;
    old_eth <- account_of old_account (sp_old_root H storage);
    new_eth <- account_of new_account (sp_new_root H storage);
    Some (mkProof claim address_hash_traces (leaf0, leaf1) old_account_hash_traces new_account_hash_traces storage
            old new old_eth new_eth account_trie_rows).

  (* types.rs:625-667 *)
  Definition old_account_leaf_hashes (p : Proof) : option (list Fr) :=
    let t := pf_old_account_hash_traces p in
    match c_kind (pf_claim p) with
    | KNonce old _ | KCodeSize old _ => option_map (fun _ => [at2 t 5 1; at2 t 4 0; at2 t 3 0; at2 t 2 0]) old
    | KBalance old _ => option_map (fun _ => [at2 t 5 1; at2 t 4 0; at2 t 3 0; at2 t 2 1]) old
    | KPoseidonCodeHash old _ => option_map (fun _ => [at2 t 5 1; at2 t 4 1]) old
    | KCodeHash old _ => option_map (fun _ => [at2 t 5 1; at2 t 4 0; at2 t 1 2; at2 t 0 2]) old
    | KStorage _ _ _ | KIsEmpty (Some _) => option_map (fun _ => [at2 t 5 1; at2 t 4 0; at2 t 1 2; at2 t 1 0]) (pf_old_account p)
    | KIsEmpty None => option_map (fun _ => [at2 t 5 1]) (fst (pf_leafs p))
    end.
  (* types.rs:669-710 *)
  Definition new_account_leaf_hashes (p : Proof) : option (list Fr) :=
    let t := pf_new_account_hash_traces p in
    match c_kind (pf_claim p) with
    | KNonce _ new | KCodeSize _ new => option_map (fun _ => [at2 t 5 1; at2 t 4 0; at2 t 3 0; at2 t 2 0]) new
    | KBalance _ new => option_map (fun _ => [at2 t 5 1; at2 t 4 0; at2 t 3 0; at2 t 2 1]) new
    | KPoseidonCodeHash _ new => option_map (fun _ => [at2 t 5 1; at2 t 4 1]) new
    | KCodeHash _ new => option_map (fun _ => [at2 t 5 1; at2 t 4 0; at2 t 1 2; at2 t 0 2]) new
    | KStorage _ _ _ | KIsEmpty (Some _) => Some [at2 t 5 1; at2 t 4 0; at2 t 1 2; at2 t 1 0]
    | KIsEmpty None => option_map (fun _ => [at2 t 5 1]) (snd (pf_leafs p))
    end.
  (* types.rs:712-784; the traces chosen by (old, new) *)
  Definition choose_traces {A} (old new : option A) (p : Proof) : option AccountTraces :=
    match old, new with
    | Some _, _ => Some (pf_old_account_hash_traces p)
    | None, Some _ => Some (pf_new_account_hash_traces p)
    | None, None => None
    end.
  Definition account_leaf_siblings (p : Proof) : option (list Fr) :=
    let key := account_key H (c_address (pf_claim p)) in
    match c_kind (pf_claim p) with
    | KNonce old new | KCodeSize old new => t <- choose_traces old new p; Some [key; at2 t 4 1; at2 t 3 1; at2 t 2 1]
    | KBalance old new => t <- choose_traces old new p; Some [key; at2 t 4 1; at2 t 3 1; at2 t 2 0]
    | KPoseidonCodeHash old new => t <- choose_traces old new p; Some [key; at2 t 4 0]
    | KCodeHash old new => t <- choose_traces old new p; Some [key; at2 t 4 1; at2 t 3 0; at2 t 1 0]
    | KStorage _ _ _ | KIsEmpty (Some _) =>
        let o := pf_old_account_hash_traces p in let n := pf_new_account_hash_traces p in
        _ <- oassert (feqb (at2 o 4 1) (at2 n 4 1));
        _ <- oassert (feqb (at2 o 3 0) (at2 n 3 0));
        _ <- oassert (feqb (at2 o 1 1) (at2 n 1 1));
        Some [key; at2 o 4 1; at2 o 3 0; at2 o 1 1]
    | KIsEmpty None => Some []
    end.
End Hash.
