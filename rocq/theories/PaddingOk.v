(* Tables made from an assignment exist; with no proofs they satisfy the circuit. *)
From Coq Require Import ZArith List Bool Lia.
From Verif Require Import Pocklington Fr Query Builder BuilderProofs Gadgets MptUpdate Bytes Fixed GadgetProofs Util UtilProofs Serde Trie Storage Types Lookups LookupProofs
  Assign AssignProofs AssignOk AssignRegion TableSpec GadgetMain GadgetMain2 LookupMain UpdateRows UpdateSound UpdateComplete CircuitOk UpdateAssign MptAssign MptModes MptRows MptCases RowView BlockView TablesOk BlocksOk.
Import ListNotations.
Open Scope Z_scope.

Definition no_trace : Trace := (((f0, f0), f0), f0).
(* the assignment, and the traces in the first rows of the Poseidon table *)
Definition fill_env (N usable : Z) (r : Fr) (ws : list write) (traces : list Trace) : env :=
  let tr i := nth (Z.to_nat i) traces no_trace in
  let on i := i <? Z.of_nat (length traces) in
  mkEnv N usable
    (fun c i => if poseidon_col c then
       if on i then match c with P_hash => snd (tr i) | P_left => fst (fst (fst (tr i))) | P_right => snd (fst (fst (tr i))) | P_domain => snd (fst (tr i)) | P_head => f1 | _ => f0 end
       else f0
     else cell ws (A c) i)
    (fun c i => match c with P_q_enable => if on i then f1 else f0 | _ => cell ws (Fx c) i end) r.
Theorem fill_env_ok N usable r ws traces n : n <= usable <= N -> n < N -> N < 2 ^ 64 -> Z.of_nat (length traces) < usable ->
  let e := fill_env N usable r ws traces in filled e r ws /\ room e n /\ poseidon_listed e traces.
Proof.
  intros A1 A2 A3 A4 e. split; [|split].
  - split; [reflexivity| |].
    + intros c i Hc Hi. unfold e, fill_env. cbn [eadv]. rewrite Hc. reflexivity.
    + intros c i Hc Hi. unfold e, fill_env. cbn [efix]. destruct c; try reflexivity. contradiction.
  - unfold room, e, fill_env. cbn [eusable eN]. lia.
  - split.
    + intros l rr d h Hin. destruct (In_nth traces ((l, rr, d, h) : Trace) no_trace Hin) as (k & Hk & Ek).
      exists (Z.of_nat k). unfold e, fill_env. cbn [eusable efix eadv poseidon_col]. rewrite (proj2 (Z.ltb_lt (Z.of_nat k) (Z.of_nat (length traces))) (inj_lt _ _ Hk)).
      rewrite Nat2Z.id, Ek. cbn [fst snd]. pose proof (inj_lt _ _ Hk : Z.of_nat k < Z.of_nat (length traces)). repeat split; try reflexivity; lia.
    + exists (usable - 1). split; [unfold e, fill_env; cbn [eusable]; lia|].
      assert (C : forall c, poseidon_col c = true -> eval e (usable - 1) (cur c) = f0).
      { intros c Hc. rewrite eval_cur by (unfold e, fill_env; cbn [eN]; lia). unfold e, fill_env. cbn [eadv]. rewrite Hc. replace (usable - 1 <? _) with false by (symmetry; apply Z.ltb_ge; lia). reflexivity. }
      assert (Cf : eval e (usable - 1) (fcur P_q_enable) = f0).
      { rewrite eval_fcur by (unfold e, fill_env; cbn [eN]; lia). unfold e, fill_env. cbn [efix]. replace (usable - 1 <? _) with false by (symmetry; apply Z.ltb_ge; lia). reflexivity. }
      unfold poseidon_table. repeat constructor; first [exact Cf|apply C; reflexivity].
Qed.
Theorem padding_sat H par th n r ws e : (0 < th)%nat -> mpt_assign H par th [] n r = Some ws -> filled e r ws -> room e n -> enough_rows H [] n ->
  poseidon_listed e [((f0, f0), fdom DPair, H f0 f0 (fdom DPair))] -> sat e (circuit_of (circuit H)).
Proof.
  intros Ht E FL Rm En PL. destruct (assign_inv _ _ _ _ _ _ _ (fun _ => Ht) E) as (re & lk & upd & cr & kb & br & P).
  apply (glue P e FL Rm En _ eq_refl); [exact PL|constructor|constructor].
Qed.
Lemma required_empty H : mpt_n_rows_required H [] = Some 2050.
Proof. unfold mpt_n_rows_required. vm_compute. reflexivity. Qed.
Theorem padding_assigned H par th n r : (0 < th)%nat -> enough_rows H [] n -> exists ws, mpt_assign H par th [] n r = Some ws.
Proof.
  intros Ht En. apply assign_succeeds; auto. destruct En as (m & E & Hm). rewrite required_empty in E. apply some_eq in E. vm_compute (mpt_update_keys H []). cbn [length]. lia.
Qed.
Theorem padding_case H r : exists ws e, mpt_assign H true 4 [] 2050 r = Some ws /\ filled e r ws /\ room e 2050 /\ enough_rows H [] 2050 /\
  poseidon_listed e [((f0, f0), fdom DPair, H f0 f0 (fdom DPair))] /\ sat e (circuit_of (circuit H)).
Proof.
  assert (En : enough_rows H [] 2050) by (exists 2050; split; [apply required_empty|lia]).
  destruct (padding_assigned H true 4 2050 r ltac:(lia) En) as (ws & E). set (tr := [((f0, f0), fdom DPair, H f0 f0 (fdom DPair))]).
  destruct (fill_env_ok 4096 4090 r ws tr 2050) as (F & R & PL); [lia|lia|lia|cbn; lia|].
  exists ws, (fill_env 4096 4090 r ws tr). split; [exact E|]. split; [exact F|]. split; [exact R|]. split; [exact En|]. split; [exact PL|].
  apply (padding_sat H true 4 2050 r ws); auto; lia.
Qed.
