(* Proofs for C58: the test circuit. *)
From Coq Require Import ZArith List Bool Lia.
From Verif Require Import Pocklington Fr Query Builder BuilderProofs Gadgets MptUpdate Bytes Fixed GadgetProofs Util UtilProofs Serde Trie Storage Types Lookups LookupProofs TrieSpec HonestTrace
  Assign AssignProofs AssignOk AssignRegion TableSpec GadgetMain GadgetMain2 LookupMain UpdateRows UpdateSound UpdateComplete CircuitOk UpdateAssign MptAssign MptModes MptRows MptCases RowView BlockView TablesOk BlocksOk PaddingOk
  HonestSpec HonestPath HonestBlock HonestConvert HonestMain HonestCase TestCircuit.
From Verif Require Import Fixed.
Import ListNotations.
Open Scope Z_scope.

(** * The loaded Poseidon table *)
Definition poseidon_cols : list col := [A P_left; A P_right; A P_hash; A P_control; A P_domain; A P_head; Fx P_q_enable].
Section Load.
  Variables (H : Fr -> Fr -> Fr -> Fr) (traces : list Trace) (load : list write).
  Hypothesis E : poseidon_load H traces = Some load.
  Lemma load_checked : Forall (trace_ok H) traces.
  Proof.
    pose proof E as K. unfold poseidon_load in K. ob K. apply oassert_some in E0. rewrite forallb_forall in E0. apply Forall_forall. intros t Ht. specialize (E0 t Ht).
    unfold trace_checked in E0. unfold trace_ok. destruct t as [[[l r] d] h]. apply feqb_eq in E0. congruence.
  Qed.
  Lemma load_other c i : ~ In c poseidon_cols -> wfind load c i = None.
  Proof.
    intros N. pose proof E as K. unfold poseidon_load in K. ob K. apply some_eq in K. rewrite <- K. clear K. rewrite wfind_app.
    rewrite (wfind_emit_none (repeat _ _)).
    - apply wfind_emit_none. apply Forall_map, Forall_forall. intros [[[l r] d] h] _. cbn [rfind poseidon_row].
      repeat (destruct (col_eq_dec c _) as [->|_]; [exfalso; apply N; cbn; tauto|]). reflexivity.
    - apply Forall_forall. intros x Hx. apply repeat_spec in Hx. subst x. cbn [rfind]. destruct (col_eq_dec c _) as [->|_]; [exfalso; apply N; cbn; tauto|reflexivity].
  Qed.
  (* q_enable is 1 in the first max(200, length) rows *)
  Lemma load_enabled i : wfind load (Fx P_q_enable) i = if in_range 0 i (Z.of_nat (Nat.max MAX_POSEIDON_ROWS (length traces))) then Some f1 else None.
  Proof.
    pose proof E as K. unfold poseidon_load in K. ob K. apply some_eq in K. rewrite <- K. clear K. rewrite wfind_app, !wfind_emit, map_length, repeat_length.
    destruct (in_range (Z.of_nat (length traces)) i _) eqn:R2.
    - apply in_range_true in R2. replace (in_range 0 i (Z.of_nat (Nat.max _ _))) with true by (symmetry; apply in_range_true; lia).
      rewrite (nth_indep _ _ [(Fx P_q_enable, f1)]) by (rewrite repeat_length; lia). rewrite nth_repeat. reflexivity.
    - apply in_range_false in R2. destruct (in_range 0 i (0 + Z.of_nat (length traces))) eqn:R1.
      + apply in_range_true in R1. replace (in_range 0 i (Z.of_nat (Nat.max _ _))) with true by (symmetry; apply in_range_true; lia).
        assert (Y : In (nth (Z.to_nat (i - 0)) (map poseidon_row traces) []) (map poseidon_row traces)) by (apply nth_In; rewrite map_length; lia).
        apply in_map_iff in Y. destruct Y as (t & <- & _). destruct t as [[[l r] d] h]. reflexivity.
      + apply in_range_false in R1. replace (in_range 0 i (Z.of_nat (Nat.max _ _))) with false by (symmetry; apply in_range_false; lia). reflexivity.
  Qed.
  (* the advice cells: row k holds trace k, the rows below are blank *)
  Lemma load_advice c i : In (A c) poseidon_cols -> wfind load (A c) i = if in_range 0 i (Z.of_nat (length traces)) then rfind (poseidon_row (nth (Z.to_nat i) traces no_trace)) (A c) else None.
  Proof.
    intros N. pose proof E as K. unfold poseidon_load in K. ob K. apply some_eq in K. rewrite <- K. clear K. rewrite wfind_app.
    rewrite (wfind_emit_none (repeat _ _)).
    2:{ apply Forall_forall. intros x Hx. apply repeat_spec in Hx. subst x. reflexivity. }
    rewrite wfind_emit, map_length. rewrite Z.add_0_l. destruct (in_range 0 i _) eqn:R; [|reflexivity]. apply in_range_true in R. rewrite Z.sub_0_r.
    rewrite (nth_indep _ [] (poseidon_row no_trace)) by (rewrite map_length; lia). rewrite map_nth. reflexivity.
  Qed.
End Load.

(** * The assignment leaves the Poseidon columns alone *)
Lemma assign_no_poseidon H par threads proofs n r ws c i : (par = true -> (0 < threads)%nat) -> mpt_assign H par threads proofs n r = Some ws -> In c poseidon_cols -> wfind ws c i = None.
Proof.
  intros T E Hc. destruct (assign_inv _ _ _ _ _ _ _ T E) as (re & lk & upd & cr & kb & br & Q).
  assert (N0 : wfind upd c i = None) by (apply mu_none; [eapply mu_updates; apply (as_upd _ _ _ _ _ _ _ _ _ _ _ _ Q)|cbn in Hc; repeat (destruct Hc as [<-|Hc]; [reflexivity|]); destruct Hc]).
  assert (D : forall S ws', only S ws' -> (forall x, In x poseidon_cols -> ~ In x S) -> wfind ws' c i = None) by (intros S ws' O D; eapply only_none; [exact O|apply D; exact Hc]).
  assert (N1 : wfind cr c i = None) by (eapply D; [apply (as_cr _ _ _ _ _ _ _ _ _ _ _ _ Q)|intros x Hx; cbn in Hx; repeat (destruct Hx as [<-|Hx]; [not_in|]); destruct Hx]).
  assert (N2 : wfind kb c i = None) by (eapply D; [apply (as_kb _ _ _ _ _ _ _ _ _ _ _ _ Q)|intros x Hx; cbn in Hx; repeat (destruct Hx as [<-|Hx]; [not_in|]); destruct Hx]).
  assert (N3 : wfind br c i = None) by (eapply D; [eapply br_only; apply (as_br _ _ _ _ _ _ _ _ _ _ _ _ Q)|intros x Hx; cbn in Hx; repeat (destruct Hx as [<-|Hx]; [not_in|]); destruct Hx]).
  assert (N4 : wfind byte_bit_assign c i = None) by (eapply D; [apply bb_only|intros x Hx; cbn in Hx; repeat (destruct Hx as [<-|Hx]; [not_in|]); destruct Hx]).
  assert (N5 : wfind (selector_writes n) c i = None) by (eapply D; [apply sel_only|intros x Hx; cbn in Hx; repeat (destruct Hx as [<-|Hx]; [not_in|]); destruct Hx]).
  assert (N6 : wfind (final_row_write n) c i = None) by (cbn in Hc; repeat (destruct Hc as [<-|Hc]; [reflexivity|]); destruct Hc).
  destruct (as_ws _ _ _ _ _ _ _ _ _ _ _ _ Q) as [-> | ->]; rewrite !wfind_app, N0, N1, N2, N3, N4, N5, N6; reflexivity.
Qed.

(** * The table of a run *)
Section Run.
  Context {H : Fr -> Fr -> Fr -> Fr} {par : bool} {threads : nat} {proofs : list Proof} {n : Z} {r : Fr} {ws0 load : list write} {hashes : list Trace}.
  Hypothesis T : (0 < threads)%nat.
  Hypothesis E : mpt_assign H par threads proofs n r = Some ws0.
  Hypothesis ET : hash_traces H proofs = Some hashes.
  Hypothesis EL : poseidon_load H hashes = Some load.
  Let ws := ws0 ++ load.
  Variables N u : Z.
  Let e := env_of N u r ws.
  Lemma run_filled : filled e r ws0.
  Proof.
    split; [reflexivity| |].
    - intros c i Hc Hi. cbn [e env_of eadv]. unfold cell, ws. rewrite wfind_app, (load_other H hashes load EL); [reflexivity|].
      intros K. cbn in K. repeat (destruct K as [K|K]; [first [discriminate K|injection K as K; subst c; discriminate Hc]|]). exact K.
    - intros c i Hc Hi. cbn [e env_of efix]. unfold cell, ws. rewrite wfind_app, (load_other H hashes load EL); [reflexivity|].
      intros K. cbn in K. repeat (destruct K as [K|K]; [first [discriminate K|injection K as K; congruence]|]). exact K.
  Qed.
  Lemma run_advice c i : In (A c) poseidon_cols -> eadv e c i = if in_range 0 i (Z.of_nat (length hashes)) then rcell (poseidon_row (nth (Z.to_nat i) hashes no_trace)) (A c) else f0.
  Proof.
    intros Hc. cbn [e env_of eadv]. unfold cell, ws. rewrite wfind_app, (load_advice H hashes load EL c i Hc), (assign_no_poseidon _ _ _ _ _ _ _ _ i (fun _ => T) E Hc). unfold rcell.
    destruct (in_range _ _ _); [|reflexivity]. destruct (rfind _ _); reflexivity.
  Qed.
  Lemma run_enabled i : efix e P_q_enable i = if in_range 0 i (Z.of_nat (Nat.max MAX_POSEIDON_ROWS (length hashes))) then f1 else f0.
  Proof.
    cbn [e env_of efix]. unfold cell, ws. rewrite wfind_app, (load_enabled H hashes load EL), (assign_no_poseidon _ _ _ _ _ _ _ _ i (fun _ => T) E) by (cbn; tauto).
    destruct (in_range _ _ _); reflexivity.
  Qed.
  Lemma run_hashes l rr d h : poseidon_hit e l rr d h -> H l rr d = h.
  Proof.
    intros (t & Ht & Q & Eh & El & Er & _ & Ed & Hh). rewrite run_advice in Eh, El, Er, Ed, Hh by (cbn; tauto).
    destruct (in_range 0 t (Z.of_nat (length hashes))) eqn:R; [|exfalso; apply (f_equal val) in Hh; discriminate Hh]. apply in_range_true in R.
    pose proof (load_checked H hashes load EL) as F. rewrite Forall_forall in F.
    specialize (F (nth (Z.to_nat t) hashes no_trace) ltac:(apply nth_In; lia)). destruct (nth (Z.to_nat t) hashes no_trace) as [[[l0 r0] d0] h0].
    unfold trace_ok in F. vm_compute rcell in Eh, El, Er, Ed. congruence.
  Qed.
  Lemma run_listed : Z.of_nat (length hashes) < u -> Z.of_nat MAX_POSEIDON_ROWS < u -> u <= N -> poseidon_listed e hashes.
  Proof.
    intros L1 L2 L3. split.
    - intros l rr d h Hin. destruct (In_nth hashes ((l, rr, d, h) : Trace) no_trace Hin) as (k & Hk & Ek).
      exists (Z.of_nat k). split; [cbn [e env_of eusable]; lia|]. rewrite run_enabled, !run_advice by (cbn; tauto).
      replace (in_range 0 (Z.of_nat k) (Z.of_nat (Nat.max _ _))) with true by (symmetry; apply in_range_true; lia).
      replace (in_range 0 (Z.of_nat k) (Z.of_nat (length hashes))) with true by (symmetry; apply in_range_true; lia).
      rewrite Nat2Z.id, Ek. repeat split; reflexivity.
    - exists (u - 1). split; [cbn [e env_of eusable]; lia|].
      assert (C : forall c, In (A c) poseidon_cols -> eval e (u - 1) (cur c) = f0).
      { intros c Hc. rewrite eval_cur by (cbn [e env_of eN]; lia). rewrite run_advice by exact Hc. replace (in_range _ _ _) with false by (symmetry; apply in_range_false; lia). reflexivity. }
      assert (Cf : eval e (u - 1) (fcur P_q_enable) = f0).
      { rewrite eval_fcur by (cbn [e env_of eN]; lia). rewrite run_enabled. replace (in_range _ _ _) with false by (symmetry; apply in_range_false; lia). reflexivity. }
      unfold poseidon_table. repeat constructor; first [exact Cf|apply C; cbn; tauto].
  Qed.
End Run.

(** * Honest updates *)
Definition input (u : update) : MPTProofType * SMTTrace := (u_kind u, u_trace u).
Lemma account_storage_key H t t' a s : storage_proof_from H (account_trace_of H t t' a) = Some s -> storage_key_ok H s.
Proof.
  assert (TC : exists root, t_common_state_root (account_trace_of H t t' a) = Some root) by (eexists; reflexivity).
  generalize (account_trace_of H t t' a) TC. intros tr (root & K) E. clear TC.
  unfold storage_proof_from in E. rewrite K in E. ob E. apply some_eq in E. rewrite <- E. exact Logic.I.
Qed.
Lemma slot_storage_key H t t' a slot s : 0 <= slot < 2 ^ 256 -> storage_proof_from H (storage_trace_of H t t' a slot) = Some s -> storage_key_ok H s.
Proof.
  intros Sl.
  assert (G : let tr := storage_trace_of H t t' a slot in t_common_state_root tr = None /\ t_state_key tr = Some (fr_to_bytes (slot_key H slot)) /\
    (exists x y, t_state_path tr = (Some x, Some y)) /\
    exists v w, t_state_update tr = Some (Some (mkStateData (be_bytes 32 slot) v), Some (mkStateData (be_bytes 32 slot) w))).
  { split; [reflexivity|]. split; [reflexivity|]. split; eexists _, _; reflexivity. }
  cbv zeta in G. revert G. generalize (storage_trace_of H t t' a slot). intros tr (TC & TSK & (x & y & TSP) & (v & w & TSU)) E.
  destruct (storage_proof_inv H tr _ _ _ _ _ _ E TC TSK TSP TSU) as (key & sk & rows & old & new & E1 & _ & E3 & _ & _ & E6 & _).
  rewrite fr_of_bytes in E1. apply some_eq in E1. cbn [sd_key] in E3. rewrite hex_word in E3 by exact Sl. apply some_eq in E3. subst key sk. rewrite E6.
  unfold storage_key_ok. split; [exact Sl|reflexivity].
Qed.
Lemma honest_trace H u : honest_update H u ->
  (exists t t' a, u_trace u = account_trace_of H t t' a) \/ exists t t' a slot, 0 <= slot < 2 ^ 256 /\ u_trace u = storage_trace_of H t t' a slot.
Proof.
  intros [HO _ _ _ _].
  destruct HO; first [left; eexists _, _, _; reflexivity|right; eexists _, _, _, _; split; [eassumption|reflexivity]].
Qed.
Lemma honest_storage_key H u p : honest_update H u -> proof_from H (u_kind u) (u_trace u) = Some p -> storage_key_ok H (pf_storage p).
Proof.
  intros HU X. destruct (proof_from_inv _ _ _ _ X) as (p0 & p1 & l0 & l1 & FT). pose proof (ft_storage _ _ _ _ _ _ _ _ FT) as E. clear FT X.
  destruct (honest_trace H u HU) as [(t & t' & a & G)|(t & t' & a & slot & Sl & G)]; rewrite G in E.
  - exact (account_storage_key _ _ _ _ _ E).
  - exact (slot_storage_key _ _ _ _ _ _ Sl E).
Qed.
Lemma all_some_converts H us proofs : all_some (fun t => proof_from H (fst t) (snd t)) (map input us) = Some proofs <-> Forall2 (fun u p => proof_from H (u_kind u) (u_trace u) = Some p) us proofs.
Proof.
  split.
  - intros E. apply all_some_spec in E. remember (map input us) as l eqn:L. revert us L. induction E as [|x y l ys E1 E2 IH]; intros us L; destruct us as [|u us]; try discriminate L; [constructor|].
    injection L as -> ->. constructor; [exact E1|apply IH; reflexivity].
  - intros C. induction C as [|u p us ps E C IH]; [reflexivity|]. cbn [map all_some]. change (proof_from H (fst (input u)) (snd (input u))) with (proof_from H (u_kind u) (u_trace u)). rewrite E, IH. reflexivity.
Qed.
Theorem test_honest_runs H us proofs m par threads n r : Forall (honest_update H) us -> Forall2 (fun u p => proof_from H (u_kind u) (u_trace u) = Some p) us proofs ->
  mpt_n_rows_required H proofs = Some m -> (0 < threads)%nat -> m + 30 <= n -> exists ws, test_circuit H par threads (map input us) n r = Some ws.
Proof.
  intros F C M T Hn. unfold test_circuit. rewrite (proj2 (all_some_converts H us proofs) C). cbn [obind].
  destruct (honest_assigned H us proofs m par threads n r F C T M Hn) as (ws & ->). cbn [obind].
  destruct (honest_hash_traces H us proofs F C) as (l & El). rewrite El. cbn [obind]. unfold poseidon_load.
  assert (K : Forall (trace_ok H) l).
  { apply (hash_traces_ok H proofs l El). clear - F C. induction C as [|u p us ps E C IH]; [constructor|]. inversion F; subst. constructor; [eapply honest_storage_key; eassumption|apply IH; assumption]. }
  replace (forallb (trace_checked H) l) with true; [cbn [oassert obind]; eauto|]. symmetry. apply forallb_forall. intros t Ht. rewrite Forall_forall in K. specialize (K t Ht).
  destruct t as [[[x y] d] h]. unfold trace_ok in K. unfold trace_checked. apply feqb_eq. congruence.
Qed.
Lemma test_inv H par threads l n r ws : test_circuit H par threads l n r = Some ws ->
  exists proofs ws0 hashes load, all_some (fun t => proof_from H (fst t) (snd t)) l = Some proofs /\ mpt_assign H par threads proofs n r = Some ws0 /\
    hash_traces H proofs = Some hashes /\ poseidon_load H hashes = Some load /\ ws = ws0 ++ load.
Proof. intros E. unfold test_circuit in E. ob E. ob E. ob E. ob E. apply some_eq in E. exists a, a0, a1, a2. repeat split; congruence. Qed.
Theorem test_honest_accepted H us proofs hashes m par threads n r ws N u : Forall (honest_update H) us ->
  Forall2 (fun u p => proof_from H (u_kind u) (u_trace u) = Some p) us proofs -> mpt_n_rows_required H proofs = Some m -> hash_traces H proofs = Some hashes ->
  (0 < threads)%nat -> test_circuit H par threads (map input us) n r = Some ws ->
  m <= n -> Z.of_nat (length hashes) < u -> n <= u <= N -> n < N < 2 ^ 64 -> sat (env_of N u r ws) (circuit_of (circuit H)).
Proof.
  intros F C M Eh T E Hm Hh Hu HN. destruct (test_inv _ _ _ _ _ _ _ E) as (proofs' & ws0 & hashes' & load & E1 & E2 & E3 & E4 & ->).
  rewrite (proj2 (all_some_converts H us proofs) C) in E1. apply some_eq in E1. subst proofs'. rewrite Eh in E3. apply some_eq in E3. subst hashes'.
  assert (En : enough_rows H proofs n) by (exists m; split; assumption).
  assert (B : 2049 <= n). { unfold mpt_n_rows_required in M. ob M. ob M. apply some_eq in M. cbn [fold_left] in M. unfold byte_bit_n_rows in M. lia. }
  eapply (honest_accepted H F C T E2 (run_filled E4 N u)); [|exact En|exact Eh|].
  - unfold room. cbn [env_of eusable eN]. lia.
  - eapply (run_listed T E2 E4); [exact Hh|unfold MAX_POSEIDON_ROWS; lia|lia].
Qed.

(** * Whatever was loaded: an accepted table is one the soundness theorems speak about *)
Theorem test_ok H par threads l n r ws N u : test_circuit H par threads l n r = Some ws -> (0 < threads)%nat -> 2049 <= n <= u -> u <= N -> N < 2 ^ 64 ->
  sat (env_of N u r ws) (circuit_of (circuit H)) -> circuit_ok H (env_of N u r ws) n.
Proof.
  intros E T Hn Hu HN S. destruct (test_inv _ _ _ _ _ _ _ E) as (proofs & ws0 & hashes & load & E1 & E2 & E3 & E4 & ->).
  destruct (assign_inv _ _ _ _ _ _ _ (fun _ => T) E2) as (re & lk & upd & cr & kb & br & P). pose proof (run_filled (H := H) (r := r) (ws0 := ws0) E4 N u) as FL.
  pose proof (filled_fixed P _ FL Hn Hu HN) as F. constructor.
  - exact F.
  - exact S.
  - intros x y d h. apply (run_hashes T E2 E4).
  - assert (Eb : byte_repr_assign (echal (env_of N u r (ws0 ++ load))) (re_u32s re) (re_u64s re) (re_u128s re) (re_frs re) = Some br) by apply (as_br _ _ _ _ _ _ _ _ _ _ _ _ P).
    eapply (byte_repr_anchor _ _ F); [exact Eb|]. intros c i Hc Hi. apply (filled_br P _ FL); assumption.
Qed.

(** * The fixed columns *)
Theorem test_fixed H H' par par' threads threads' l l' n r r' ws ws' proofs proofs' hashes hashes' :
  test_circuit H par threads l n r = Some ws -> test_circuit H' par' threads' l' n r' = Some ws' -> (0 < threads)%nat -> (0 < threads')%nat ->
  all_some (fun t => proof_from H (fst t) (snd t)) l = Some proofs -> all_some (fun t => proof_from H' (fst t) (snd t)) l' = Some proofs' ->
  hash_traces H proofs = Some hashes -> hash_traces H' proofs' = Some hashes' ->
  (forall c i, cell ws (Fx c) i = cell ws' (Fx c) i) <-> Nat.max 200 (length hashes) = Nat.max 200 (length hashes').
Proof.
  intros E E' T T' Ep Ep' Eh Eh'. destruct (test_inv _ _ _ _ _ _ _ E) as (pr & ws0 & ha & load & E1 & E2 & E3 & E4 & ->). destruct (test_inv _ _ _ _ _ _ _ E') as (pr' & ws0' & ha' & load' & E1' & E2' & E3' & E4' & ->).
  rewrite Ep in E1. rewrite Ep' in E1'. apply some_eq in E1, E1'. subst pr pr'. rewrite Eh in E3. rewrite Eh' in E3'. apply some_eq in E3, E3'. subst ha ha'.
  assert (Q : forall i, cell (ws0 ++ load) (Fx P_q_enable) i = if in_range 0 i (Z.of_nat (Nat.max 200 (length hashes))) then f1 else f0) by (intros i; exact (run_enabled T E2 E4 0 0 i)).
  assert (Q' : forall i, cell (ws0' ++ load') (Fx P_q_enable) i = if in_range 0 i (Z.of_nat (Nat.max 200 (length hashes'))) then f1 else f0) by (intros i; exact (run_enabled T' E2' E4' 0 0 i)).
  split.
  - intros S. assert (N01 : f1 <> f0) by (intros X; apply (f_equal val) in X; discriminate X).
    destruct (Nat.lt_trichotomy (Nat.max 200 (length hashes)) (Nat.max 200 (length hashes'))) as [L|[L|L]]; [exfalso|exact L|exfalso].
    + specialize (S P_q_enable (Z.of_nat (Nat.max 200 (length hashes)))). rewrite Q, Q' in S.
      rewrite (proj2 (in_range_false _ _ _)) in S by lia. rewrite (proj2 (in_range_true _ _ _)) in S by lia. congruence.
    + specialize (S P_q_enable (Z.of_nat (Nat.max 200 (length hashes')))). rewrite Q, Q' in S.
      rewrite (proj2 (in_range_true _ _ _)) in S by lia. rewrite (proj2 (in_range_false _ _ _)) in S by lia. congruence.
  - intros L c i. destruct (fcol_eq_dec c P_q_enable) as [->|Hc]; [rewrite Q, Q', L; reflexivity|].
    assert (Nc : ~ In (Fx c) poseidon_cols) by (intros K; cbn in K; repeat (destruct K as [K|K]; [first [discriminate K|injection K as K; congruence]|]); exact K).
    unfold cell. rewrite !wfind_app, (load_other _ _ _ E4), (load_other _ _ _ E4') by exact Nc.
    exact (modes_fixed H H' _ _ n r r' par par' threads threads' ws0 ws0' c i T T' E2 E2').
Qed.

(** * The circuit without witnesses *)
Theorem default_panics H par threads r : without_witnesses H par threads r = None.
Proof.
  destruct (without_witnesses H par threads r) as [ws|] eqn:E; [|reflexivity]. exfalso. destruct (test_inv _ _ _ _ _ _ _ E) as (proofs & ws0 & hashes & load & E1 & E2 & _).
  apply some_eq in E1. subst proofs. apply assign_needs in E2. lia.
Qed.
