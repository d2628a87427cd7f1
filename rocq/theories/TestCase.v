(* Examples for C58. *)
From Coq Require Import ZArith List Bool Lia.
From Verif Require Import Pocklington Fr Query Builder BuilderProofs Gadgets GadgetMain MptUpdate Bytes Util UtilProofs Serde Trie Storage Types Lookups TrieSpec HonestTrace Assign AssignRegion LookupMain UpdateSound UpdateAssign MptAssign MptModes MptRows MptCases
  HonestSpec HonestMain HonestCase TestCircuit TestProofs.
Import ListNotations.
Open Scope Z_scope.

(* the thirteen updates of HonestCase.v *)
Theorem test_case r : exists proofs ws hashes, Forall (honest_update mix) us /\ length us = 13%nat /\ Forall2 (fun u p => proof_from mix (u_kind u) (u_trace u) = Some p) us proofs /\
  mpt_n_rows_required mix proofs = Some 2050 /\ hash_traces mix proofs = Some hashes /\ Z.of_nat (length hashes) < 4090 /\
  test_circuit mix true 4 (map input us) 2080 r = Some ws /\ circuit_ok mix (env_of 4096 4090 r ws) 2080.
Proof.
  pose proof us_sizes as X. destruct (omap_from (fun _ u => proof_from mix (u_kind u) (u_trace u)) 0 us) as [proofs|] eqn:E; [|discriminate X]. cbn [obind] in X.
  destruct (mpt_n_rows_required mix proofs) as [m|] eqn:M; [|discriminate X]. cbn [obind] in X. destruct (hash_traces mix proofs) as [traces|] eqn:T; [|discriminate X]. cbn [obind checkb] in X.
  apply andb_true_iff in X. destruct X as [X _]. apply andb_true_iff in X. destruct X as [X1 X2]. apply Z.eqb_eq in X1. apply Nat.ltb_lt in X2. subst m. pose proof (omap_forall2 us 0 proofs E) as C.
  destruct (test_honest_runs mix us proofs 2050 true 4 2080 r us_ok C M ltac:(lia) ltac:(lia)) as (ws & W).
  exists proofs, ws, traces. split; [exact us_ok|]. split; [reflexivity|]. split; [exact C|]. split; [exact M|]. split; [exact T|]. split; [lia|]. split; [exact W|].
  apply (test_ok mix true 4 (map input us) 2080 r ws 4096 4090 W); [lia|lia|lia|lia|].
  apply (test_honest_accepted mix us proofs traces 2050 true 4 2080 r ws 4096 4090 us_ok C M T); [lia|exact W|lia|lia|lia|lia].
Qed.

(* the absence of k accounts from the empty state: k + 1 hashes *)
Definition absent (i : nat) : update := Update (1000 + Z.of_nat i) Empty Empty AccountDoesNotExist (account_trace_of mix Empty Empty (1000 + Z.of_nat i)).
Definition absents (k : nat) : list update := map absent (seq 0 k).
Lemma absents_ok k : (k < 1000)%nat -> Forall (honest_update mix) (absents k).
Proof.
  intros Hk. apply Forall_forall. intros u Hu. apply in_map_iff in Hu. destruct Hu as (i & <- & Hi). apply in_seq in Hi. constructor; cbn [absent u_address u_old u_new u_kind u_trace].
  - apply hon_missing; [cbn; tauto|split; reflexivity].
  - lia.
  - apply wf_check_ok. vm_compute. reflexivity.
  - apply wf_check_ok. vm_compute. reflexivity.
  - apply cf_check_ok. vm_compute. reflexivity.
Qed.
Definition absent_sizes (k : nat) : option (Z * nat) :=
  proofs <- omap_from (fun _ u => proof_from mix (u_kind u) (u_trace u)) 0 (absents k); m <- mpt_n_rows_required mix proofs; l <- hash_traces mix proofs; Some (m, length l).
Lemma absent_201 : absent_sizes 201 = Some (6498, 202%nat). Proof. vm_compute. reflexivity. Qed.
Lemma absent_0 : absent_sizes 0 = Some (2050, 1%nat). Proof. vm_compute. reflexivity. Qed.
Lemma absent_run k m len par threads n r : (k < 1000)%nat -> absent_sizes k = Some (m, len) -> (0 < threads)%nat -> m + 30 <= n ->
  exists proofs hashes ws, Forall2 (fun u p => proof_from mix (u_kind u) (u_trace u) = Some p) (absents k) proofs /\ hash_traces mix proofs = Some hashes /\ length hashes = len /\
    test_circuit mix par threads (map input (absents k)) n r = Some ws.
Proof.
  intros Hk E T Hn. unfold absent_sizes in E. ob E. ob E. ob E. injection E as -> <-. pose proof (omap_forall2 _ 0 a E0) as C.
  destruct (test_honest_runs mix (absents k) a m par threads n r (absents_ok k Hk) C E1 T Hn) as (ws & W). exists a, a1, ws. auto.
Qed.
(* more than 200 hashes: the fixed column q_enable depends on the witness *)
Theorem fixed_depend : exists us us' par threads n r ws ws', Forall (honest_update mix) us /\ Forall (honest_update mix) us' /\ (0 < threads)%nat /\
  test_circuit mix par threads (map input us) n r = Some ws /\ test_circuit mix par threads (map input us') n r = Some ws' /\ ~ (forall c i, cell ws (Fx c) i = cell ws' (Fx c) i).
Proof.
  destruct (absent_run 0 _ _ true 1 6600 f0 ltac:(lia) absent_0 ltac:(lia) ltac:(lia)) as (p0 & h0 & w0 & C0 & T0 & L0 & R0).
  destruct (absent_run 201 _ _ true 1 6600 f0 ltac:(lia) absent_201 ltac:(lia) ltac:(lia)) as (p1 & h1 & w1 & C1 & T1 & L1 & R1).
  exists (absents 0), (absents 201), true, 1%nat, 6600, f0, w0, w1. split; [apply absents_ok; lia|]. split; [apply absents_ok; lia|]. split; [lia|]. split; [exact R0|]. split; [exact R1|].
  rewrite (test_fixed mix mix true true 1 1 _ _ 6600 f0 f0 w0 w1 p0 p1 h0 h1 R0 R1 ltac:(lia) ltac:(lia) (proj2 (all_some_converts _ _ _) C0) (proj2 (all_some_converts _ _ _) C1) T0 T1).
  rewrite L0, L1. discriminate.
Qed.
