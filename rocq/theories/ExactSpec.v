(* When can a block of claims be shown?  A small specification on top of BlockSpec.v, HonestSpec.v and HonestTrace.v.  Nothing here
   refers to the constraints. *)
From Coq Require Import ZArith List Bool.
From Verif Require Import Pocklington Fr Query BuilderProofs Gadgets Bytes TrieSpec TableSpec Util Serde Types Lookups Assign UpdateAssign HonestTrace HonestSpec UpdateSound UpdateProps GadgetMain PhaseSpec BlockSpec.
Import ListNotations.
Open Scope Z_scope.

Section Hash.
  Variable H : Fr -> Fr -> Fr -> Fr.
  (* the claim q is true in the state t: what it reads is there, and its roots are those of t and of the state it leads to *)
  Definition claim_true (q : request) (t : tree account) : Prop :=
    reads H q t /\ rq_old_root q = state_root H t /\ rq_new_root q = state_root H (apply H q t).
  (* the trace that is written for a claim, for the claims of a block *)
  Definition request_trace (q : request) (t : tree account) : SMTTrace :=
    match rq_kind q with
    | StorageChanged | StorageDoesNotExist => storage_trace_of H t (apply H q t) (rq_address q) (rq_slot q)
    | _ => account_trace_of H t (apply H q t) (rq_address q)
    end.
  Fixpoint block_traces (qs : list request) (t : tree account) : list (MPTProofType * SMTTrace) :=
    match qs with [] => [] | q :: l => (rq_kind q, request_trace q t) :: block_traces l (apply H q t) end.

  (* claims about fields come with slot 0, balances fit into 31 bytes, and no claim is about the address 0 (whose rows can look like padding) *)
  Record plain_request (q : request) : Prop := {
    pr_address : rq_address q <> 0;
    pr_slot : rq_kind q <> StorageChanged -> rq_kind q <> StorageDoesNotExist -> rq_slot q = 0;
    pr_balance : rq_kind q = BalanceChanged -> rq_new q < 2 ^ 248 }.
  (* empty slots are not stored *)
  Definition no_zero_slots (t : tree account) : Prop := tree_all (fun a => tree_all (fun v => v <> 0) (storage a)) t.

  (* S holds the hash inputs of all states that the claims lead through *)
  Definition covers_states (S : triple -> Prop) (qs : list request) (t : tree account) : Prop :=
    forall l1 l2, qs = l1 ++ l2 -> forall x, inputs_of H (run H l1 t) (run H l1 t) x -> S x.
  (* the honest prover's rows and hashes, if it gets that far, fit into the table, and S holds the inputs of its hashes *)
  Definition prover_fits (S : triple -> Prop) (n u : Z) (qs : list request) (t : tree account) : Prop :=
    forall proofs, all_some (fun x => proof_from H (fst x) (snd x)) (block_traces qs t) = Some proofs ->
    (forall m, mpt_n_rows_required H proofs = Some m -> m + 30 <= n) /\
    (forall hashes, hash_traces H proofs = Some hashes -> Z.of_nat (length hashes) < u /\ forall x h, In (x, h) hashes -> S x).

  (* a prover who knows hashes of inputs in S only commits to the first-phase columns e0 *)
  Definition commitment (S : triple -> Prop) (N u : Z) (e0 : env) : Prop :=
    eN e0 = N /\ eusable e0 = u /\ forall l r d h, poseidon_hit e0 l r d h -> S (l, r, d).
  (* after the challenge c it can complete e0 to an accepted table that shows all claims *)
  Definition can_show (e0 : env) (n : Z) (qs : list request) (c : Fr) : Prop :=
    exists e, commits e0 e /\ echal e = c /\ circuit_ok H e n /\ Forall (fun q => exposes e (encode c (requested c q))) qs.
End Hash.

(* The claims are in range and about what exists, their roots form a chain that starts at the root of t; t is well formed (and its
   paths are not longer than the key-bit table is reliable for); no two hash inputs in S collide, and S holds what it has to *)
Record exact_block (H : Fr -> Fr -> Fr -> Fr) (S : triple -> Prop) (n u N : Z) (qs : list request) (t : tree account) : Prop := {
  eb_requests : Forall request_ok qs;
  eb_plain : Forall plain_request qs;
  eb_few : Z.of_nat (length qs) < 2 ^ 128;
  eb_chained : exists r', chained (state_root H t) qs r';
  eb_overwrites : throughout H (overwrites H) qs t;
  eb_start : start_state n t;
  eb_state : state_wf t;
  eb_zeros : no_zero_slots t;
  eb_free : collision_free H S;
  eb_states : covers_states H S qs t;
  eb_prover : prover_fits H S n u qs t;
  eb_sizes : n <= u <= N /\ n < N < 2 ^ 64 }.
