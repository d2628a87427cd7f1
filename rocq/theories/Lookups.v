(* Model of the functions of /repo/src/gadgets/mpt_update.rs:2038-2255 that collect the table contents from the proofs.
   A panic (unwrap, unreachable!, unimplemented!) is None. *)
From Coq Require Import ZArith List Bool.
From Verif Require Import Pocklington Fr Query Builder Gadgets MptUpdate Bytes Util Serde Trie Storage Types.
Import ListNotations.
Open Scope Z_scope.

(** * slice::sort and Vec::dedup (alloc): a stable sort by Ord; dedup drops an element equal to its predecessor *)
Section Sort.
  Context {X : Type} (cmp : X -> X -> comparison).
  Fixpoint insert (x : X) (l : list X) : list X :=
    match l with
    | [] => [x]
    | y :: r => match cmp x y with Gt => y :: insert x r | _ => x :: l end
    end.
  Fixpoint sort (l : list X) : list X := match l with [] => [] | x :: r => insert x (sort r) end.
  Fixpoint dedup (l : list X) : list X :=
    match l with
    | x :: ((y :: _) as r) => match cmp x y with Eq => dedup r | _ => x :: dedup r end
    | _ => l
    end.
  Definition sort_dedup (l : list X) : list X := dedup (sort l).
End Sort.
(* the derived Ord of tuples and arrays: lexicographic *)
Definition cmp_pair {A B} (ca : A -> A -> comparison) (cb : B -> B -> comparison) (x y : A * B) : comparison :=
  match ca (fst x) (fst y) with Eq => cb (snd x) (snd y) | c => c end.
(* Ord of bn256::Fr: by the canonical representative (halo2curves) *)
Definition cmp_fr (x y : Fr) : comparison := Z.compare (val x) (val y).
Definition cmp_bool (x y : bool) : comparison :=
  match x, y with false, true => Lt | true, false => Gt | _, _ => Eq end.

(* the type of a hash trace: ([left, right], domain, hash) *)
Definition Trace := ((Fr * Fr) * Fr * Fr)%type.
Definition cmp_trace : Trace -> Trace -> comparison := cmp_pair (cmp_pair (cmp_pair cmp_fr cmp_fr) cmp_fr) cmp_fr.
Definition cmp_lookup : Fr * Z * bool -> Fr * Z * bool -> comparison := cmp_pair (cmp_pair cmp_fr Z.compare) cmp_bool.

(* all results concatenated, or a panic *)
Fixpoint oconcat {A B} (f : A -> option (list B)) (l : list A) : option (list B) :=
  match l with [] => Some [] | x :: r => a <- f x; b <- oconcat f r; Some (a ++ b) end.

Section Hash.
  Variable H : Fr -> Fr -> Fr -> Fr.
  Notation domain_hash := (domain_hash H).
  Definition with_domain (t : Fr * Fr * HashDomain * Fr) : Trace :=
    let '(l, r, domain, h) := t in ((l, r), fdom domain, h).

  (* mpt_update.rs:2096-2104: one triple of account hash traces, under the first domain that gives the digest *)
  Definition account_trace (t : list Fr) : list Trace :=
    let l := nth 0 t f0 in let r := nth 1 t f0 in let digest := nth 2 t f0 in
    if feqb (domain_hash l r AccountFields) digest then [((l, r), fdom AccountFields, digest)]
    else if feqb (domain_hash l r DLeaf) digest then [((l, r), fdom DLeaf, digest)]
    else if feqb (domain_hash l r DPair) digest then [((l, r), fdom DPair, digest)]
    else [].
  (* mpt_update.rs:2078-2091 *)
  Definition leaf_trace (p : Path) : list Trace :=
    match pth_leaf_data_hash p with
    | Some data_hash => [((pth_key p, data_hash), fdom DLeaf, domain_hash (pth_key p) data_hash DLeaf)]
    | None => []
    end.
  (* mpt_update.rs:2055-2106: the body of the loop *)
  Definition proof_hash_traces (p : Proof) : option (list Trace) :=
    rows <- trie_poseidon_lookups H (pf_account_trie_rows p);
    storage <- sp_poseidon_lookups H (pf_storage p);
    let address := c_address (pf_claim p) in
    Some (map with_domain rows ++ map with_domain storage
          ++ [((fr_from_u128 (address_high address), fr_from_u128 (Z.shiftl (address_low address) 96)), fdom DPair, account_key H address)]
          ++ leaf_trace (pf_old p) ++ leaf_trace (pf_new p)
          ++ flat_map account_trace (pf_old_account_hash_traces p) ++ flat_map account_trace (pf_new_account_hash_traces p)).
  (* mpt_update.rs:2049-2110 *)
  Definition hash_traces (proofs : list Proof) : option (list Trace) :=
    l <- oconcat proof_hash_traces proofs;
    Some (sort_dedup cmp_trace (((f0, f0), fdom DPair, ZERO_PAIR_HASH H) :: l)).

  (* mpt_update.rs:2116-2140: the lookups of one hash trace; `contains` compares field elements *)
  Definition trace_key_bits (p : Proof) (i : nat) (t : HashTrace) : option (list (Fr * Z * bool)) :=
    let k x := (x, Z.of_nat i, ht_direction t) in
    match ht_padding_open t, ht_padding_close t with
    | false, false =>
        let key := account_key H (c_address (pf_claim p)) in
        let base := [pth_key (pf_old p); pth_key (pf_new p)] in
        Some (map k (if existsb (feqb key) base then base else base ++ [key]))
    | false, true => Some [k (pth_key (pf_old p))]
    | true, false => Some [k (pth_key (pf_new p))]
    | true, true => None
    end.
  Fixpoint oconcat_from {A B} (f : nat -> A -> option (list B)) (i : nat) (l : list A) : option (list B) :=
    match l with [] => Some [] | x :: r => a <- f i x; b <- oconcat_from f (S i) r; Some (a ++ b) end.
  Definition proof_key_bits (p : Proof) : option (list (Fr * Z * bool)) :=
    l <- oconcat_from (trace_key_bits p) 0 (rev (pf_address_hash_traces p));
    Some (l ++ sp_key_bit_lookups H (pf_storage p)).
  (* mpt_update.rs:2113-2146 *)
  Definition key_bit_lookups (proofs : list Proof) : option (list (Fr * Z * bool)) :=
    l <- oconcat proof_key_bits proofs;
    Some (sort_dedup cmp_lookup ((f0, 0, false) :: (f1, 0, true) :: l)).

  (* mpt_update.rs:2242-2255 *)
  Definition proof_keys (p : Proof) : list Fr :=
    [pth_key (pf_old p); pth_key (pf_new p); account_key H (c_address (pf_claim p))]
    ++ sp_key_lookups H (pf_storage p) ++ [c_old_root (pf_claim p); c_new_root (pf_claim p)].
  Definition mpt_update_keys (proofs : list Proof) : list Fr :=
    sort_dedup cmp_fr (f0 :: f1 :: flat_map proof_keys proofs).
End Hash.

(* mpt_update.rs:2148-2240 *)
Record Reprs := mkReprs { re_u32s : list Z; re_u64s : list Z; re_u128s : list Z; re_frs : list Fr }.
Definition of_account {A} (f : EthAccount -> list A) (a : option EthAccount) : list A :=
  match a with Some a => f a | None => [] end.
Definition hi_lo_list (x : Z) : list Z := [fst (u256_hi_lo x); snd (u256_hi_lo x)].
Definition proof_reprs (p : Proof) : option Reprs :=
  let high := address_high (c_address (pf_claim p)) in
  let low := address_low (c_address (pf_claim p)) in
  let skey := hi_lo_list (claim_storage_key (pf_claim p)) in
  let both {A} (f : EthAccount -> list A) := of_account f (pf_old_account p) ++ of_account f (pf_new_account p) in
  match proof_type_of (c_kind (pf_claim p)) with
  | NonceChanged | CodeSizeExists =>
      Some (mkReprs [low] (both (fun a => [ea_nonce a; ea_code_size a])) [high; high] [])
  | BalanceChanged => Some (mkReprs [low] [] [high; high] (both (fun a => [ea_balance a])))
  | PoseidonCodeHashExists => Some (mkReprs [low] [] [high; high] [])
  | CodeHashExists => Some (mkReprs [low] [] ([high; high] ++ both (fun a => hi_lo_list (ea_keccak_codehash a))) [])
  | StorageChanged =>
      match pf_storage p with
      | SRoot _ => None
      | SUpdate _ _ _ o n =>
          Some (mkReprs [low] [] ([high; high] ++ skey ++ hi_lo_list (sl_value o) ++ hi_lo_list (sl_value n)) [])
      end
  | StorageDoesNotExist => Some (mkReprs [low] [] ([high; high] ++ skey) [])
  | AccountDoesNotExist | AccountDestructed => Some (mkReprs [low] [] [high] [])
  end.
Definition byte_representations (proofs : list Proof) : option Reprs :=
  rs <- omap_from (fun _ p => proof_reprs p) 0 proofs;
  Some (mkReprs (sort_dedup Z.compare (flat_map re_u32s rs)) (sort_dedup Z.compare (flat_map re_u64s rs))
         (sort_dedup Z.compare (0 :: flat_map re_u128s rs)) (sort_dedup cmp_fr (flat_map re_frs rs))).
