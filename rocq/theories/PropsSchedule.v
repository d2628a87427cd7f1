(* Property C57: the threads of the parallel assignment.  Only statements; proofs in Schedule.v, definitions in ScheduleSpec.v.
   [parallel_run H threads proofs n r ws]: the writes ws, in this order, are a possible run of MptCircuitConfig::assign in parallel mode. *)
From Coq Require Import ZArith List Bool Lia.
From Verif Require Import Pocklington Fr Query Builder Gadgets GadgetMain GadgetMain2 MptUpdate Assign Util Serde Trie Storage Types Lookups HonestTrace LookupMain UpdateAssign MptModes MptRows MptCases ScheduleSpec Schedule.
Import ListNotations.
Open Scope Z_scope.

(** * C57 *)
(* no task leaves the rows reserved for it, no two tasks write the same cell *)
Theorem C57_updates_apart : forall H proofs r rs, Forall (fun p => exists t tr, proof_from H t tr = Some p) proofs -> update_regions H true proofs r = Some rs ->
  Forall2 stays_within (tasks 0 rs) (reserved 0 rs) /\ race_free (tasks 0 rs).
Proof. exact updates_apart. Qed.
Theorem C57_key_bits_apart : forall threads lookups rs, key_bit_regions threads lookups = Some rs ->
  Forall2 stays_within (tasks 0 rs) (reserved 0 rs) /\ race_free (tasks 0 rs).
Proof. exact key_bits_apart. Qed.
Theorem C57_keys_apart : forall threads r keys n rs, keys_regions threads r keys n = Some rs ->
  Forall2 stays_within (tasks 0 rs) (reserved 0 rs) /\ race_free (tasks 0 rs).
Proof. exact keys_apart. Qed.
(* every schedule gives the table of the program order ([mpt_assign], used in the other properties), which is a schedule *)
Theorem C57_any_schedule : forall H threads proofs n r ws, Forall (fun p => exists t tr, proof_from H t tr = Some p) proofs -> parallel_run H threads proofs n r ws ->
  exists ws0, mpt_assign H true threads proofs n r = Some ws0 /\ forall c i, cell ws c i = cell ws0 c i.
Proof. exact any_schedule. Qed.
Theorem C57_program_order : forall H threads proofs n r ws, mpt_assign H true threads proofs n r = Some ws -> parallel_run H threads proofs n r ws.
Proof. exact sequential_run. Qed.
Theorem C57_same_table : forall H proofs n r threads ws ws', Forall (fun p => exists t tr, proof_from H t tr = Some p) proofs ->
  parallel_run H threads proofs n r ws -> parallel_run H threads proofs n r ws' -> forall c i, cell ws c i = cell ws' c i.
Proof. exact runs_agree. Qed.
(* with different numbers of threads the rows of the key bits are placed differently (C26), the verdict of the circuit is the same *)
Theorem C57_same_verdict : forall H proofs n r th th' ws ws' e e', Forall (fun p => exists t tr, proof_from H t tr = Some p) proofs ->
  (0 < th)%nat -> (0 < th')%nat -> parallel_run H th proofs n r ws -> parallel_run H th' proofs n r ws' ->
  filled e r ws -> filled e' r ws' -> same_context e' e -> room e n -> enough_rows H proofs n ->
  (sat e (circuit_of (circuit H)) <-> sat e' (circuit_of (circuit H))).
Proof. exact schedules_verdict. Qed.
Example C57_example : exists p q ws ws', proof_from toy NonceChanged ex_nonce_trace = Some p /\ proof_from toy StorageChanged ex_storage_trace = Some q /\
  parallel_run toy 2 [p; q] 2050 (fz 5) ws /\ parallel_run toy 2 [p; q] 2050 (fz 5) ws' /\ ws <> ws'.
Proof. exact other_schedule. Qed.

Print Assumptions C57_updates_apart.
Print Assumptions C57_key_bits_apart.
Print Assumptions C57_keys_apart.
Print Assumptions C57_any_schedule.
Print Assumptions C57_program_order.
Print Assumptions C57_same_table.
Print Assumptions C57_same_verdict.
