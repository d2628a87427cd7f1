(* Rows used by the helper gadgets, the missing rows of C28, and example inputs for C26-C28. *)
From Coq Require Import ZArith List Bool Lia.
From Verif Require Import Pocklington Fr Query Builder Gadgets MptUpdate Bytes TrieSpec Util Serde Trie Storage Types Lookups LookupProofs HonestTrace
  Fixed GadgetProofs Assign AssignProofs AssignOk AssignRegion GadgetMain GadgetMain2 LookupMain UpdateAssign MptAssign MptModes MptRows.
Import ListNotations.
Open Scope Z_scope.

(* ws writes in rows lo..hi-1 only, and in each of rows from..hi-1 *)
Definition fills_rows (lo from hi : Z) (ws : list write) : Prop := within lo hi ws /\ forall i, from <= i < hi -> row_written ws i.
Lemma emit_fills rows : Forall (fun r : row => r <> []) rows -> forall o, fills_rows o o (o + Z.of_nat (length rows)) (emit o rows).
Proof.
  intros F o. split; [apply within_emit; lia|]. revert o. induction F as [|r rows Hr F IH]; intros o i Hi; cbn [length] in Hi; [lia|]. cbn [emit].
  destruct (Z.eq_dec i o) as [->|Hne].
  - destruct r as [|x r]; [congruence|]. exists (fst x, o, snd x). split; [left; reflexivity|reflexivity].
  - destruct (IH (o + 1) i ltac:(lia)) as (w & Hw & E). exists w. split; [apply in_or_app; right; exact Hw|exact E].
Qed.
Lemma kb_row_nonempty l rw : kb_row l = Some rw -> rw <> [].
Proof.
  unfold kb_row. destruct l as [[v i] b]. destruct (i / 8 <? 32); [|discriminate]. destruct (Bool.eqb _ _); [|discriminate]. intros E. apply some_eq in E. subst rw. discriminate.
Qed.
Lemma all_some_forall {X Y} (f : X -> option Y) (Q : Y -> Prop) l ys : all_some f l = Some ys -> (forall x y, f x = Some y -> Q y) -> Forall Q ys.
Proof. intros E G. apply all_some_spec in E. induction E; constructor; eauto. Qed.
Theorem key_bit_rows lookups ws : key_bit_assign lookups = Some ws -> fills_rows 1 1 (key_bit_n_rows lookups) ws.
Proof.
  unfold key_bit_assign, key_bit_n_rows. destruct (all_some kb_row lookups) as [rows|] eqn:Q; [|discriminate]. intros E. apply some_eq in E. subst ws.
  rewrite (all_some_len _ _ _ Q). apply emit_fills. eapply all_some_forall; [exact Q|exact kb_row_nonempty].
Qed.
Lemma br_nonempty r bs : forall k v rl, Forall (fun r : row => r <> []) (br_bytes_rows r bs k v rl).
Proof. induction bs as [|b bs IH]; intros; cbn [br_bytes_rows]; constructor; [discriminate|apply IH]. Qed.
Theorem byte_repr_rows r u32s u64s u128s frs ws : byte_repr_assign r u32s u64s u128s frs = Some ws -> fills_rows 0 0 (byte_repr_n_rows u32s u64s u128s frs) ws.
Proof.
  unfold byte_repr_assign. destruct (br_strings u32s u64s u128s frs) as [ss|] eqn:Q; [|discriminate]. intros E. apply some_eq in E. subst ws.
  pose proof (rows_count (mkEnv 0 0 (fun _ _ => f0) (fun _ _ => f0) r) u32s u64s u128s frs ss Q) as R. cbn [echal] in R. rewrite <- R.
  set (rows := flat_map _ ss) in *. assert (N : Forall (fun r : row => r <> []) rows).
  { apply Forall_flat_map, Forall_forall. intros bs _. apply br_nonempty. }
  destruct (emit_fills rows N 1) as [A B]. split.
  - constructor; [cbn [fst snd]; lia|]. eapply within_le; [| |exact A]; lia.
  - intros i Hi. destruct (Z.eq_dec i 0) as [->|Hne]; [exists (Fx BR_is_first, 0, f1); split; [left|]; reflexivity|].
    destruct (B i ltac:(lia)) as (w & Hw & E). exists w. split; [right; exact Hw|exact E].
Qed.
Theorem byte_bit_rows : fills_rows 1 1 byte_bit_n_rows byte_bit_assign.
Proof.
  unfold byte_bit_assign. replace byte_bit_n_rows with (1 + Z.of_nat (length bb_rows)) by (vm_compute; reflexivity). apply emit_fills.
  unfold bb_rows. apply Forall_flat_map, Forall_forall. intros b _. apply Forall_forall. intros x Hx. apply in_map_iff in Hx. destruct Hx as (i & <- & _). discriminate.
Qed.
(* the real values of the canonical representation: 32 rows each from row 1 *)
Theorem canonical_rows r values : fills_rows 1 1 (canonical_n_rows values) (emit 1 (flat_map (cr_rows_of r) values)).
Proof.
  unfold canonical_n_rows. set (rows := flat_map _ values). assert (L : length rows = (length values * 32)%nat).
  { unfold rows. induction values as [|v vs IH]; [reflexivity|]. cbn [flat_map length]. rewrite app_length, IH.
    enough (length (cr_rows_of r v) = 32%nat) by lia. apply cr_rows_length. }
  replace (Z.of_nat (length values) * 32 + 1) with (1 + Z.of_nat (length rows)) by lia. apply emit_fills.
  unfold rows. apply Forall_flat_map, Forall_forall. intros v _. unfold cr_rows_of.
  generalize (be_bytes 32 (val v)) as bs, cr_modulus_bytes as ms, 0 as k, true as z, f0 as rl. clear.
  induction bs as [|b bs IH]; intros ms k z rl; destruct ms as [|m ms]; cbn [cr_value_rows]; constructor; [discriminate|apply IH].
Qed.

(** * n_rows_required is 30 rows short in the worst case *)
Lemma enough_keys H proofs n : enough_rows H proofs n -> 32 * (Z.of_nat (length (mpt_update_keys H proofs)) + 1) <= n + 30.
Proof.
  intros (m & E & Hm). unfold mpt_n_rows_required in E. ob E. ob E. apply some_eq in E. cbn [fold_left] in E. unfold canonical_n_rows in E. lia.
Qed.
Theorem thirty_more H par threads proofs n r : (0 < threads)%nat -> Forall (assignable H r) proofs ->
  enough_rows H proofs (n - 30) -> exists ws, mpt_assign H par threads proofs n r = Some ws.
Proof.
  intros Ht F R. pose proof (enough_keys _ _ _ R). apply assign_succeeds; auto; [|lia]. destruct R as (m & E & Hm). exists m. split; [exact E|lia].
Qed.
(* 64 proofs that the account 1000 + i is absent from the empty state: 67 keys *)
Definition absent_trace (i : nat) := account_trace_of toy Empty Empty (1000 + Z.of_nat i).
Definition many_proofs : option (list Proof) := all_some (fun i => proof_from toy AccountDoesNotExist (absent_trace i)) (seq 0 64).
Theorem rows_missing : exists proofs n, Forall (fun p => exists tr, proof_from toy AccountDoesNotExist tr = Some p) proofs /\
  mpt_n_rows_required toy proofs = Some n /\ forall par threads r, mpt_assign toy par threads proofs n r = None.
Proof.
  assert (X : checkb (proofs <- many_proofs; n <- mpt_n_rows_required toy proofs;
    Some (n <? 32 * (Z.of_nat (length (mpt_update_keys toy proofs)) + 1))) = true) by (vm_compute; reflexivity).
  destruct many_proofs as [proofs|] eqn:M; [|discriminate X]. cbn [obind] in X. exists proofs.
  destruct (mpt_n_rows_required toy proofs) as [n|]; [|discriminate X]. cbn [obind checkb] in X. exists n.
  split; [eapply all_some_forall; [exact M|]; intros i p E; exists (absent_trace i); exact E|]. split; [reflexivity|].
  intros par threads r. destruct (mpt_assign toy par threads proofs n r) as [ws|] eqn:E; [|reflexivity]. exfalso.
  apply assign_needs in E. apply Z.ltb_lt in X. lia.
Qed.

(** * An example that is assigned in both modes *)
Definition is_some {X} (o : option X) : bool := match o with Some _ => true | None => false end.
Lemma is_some_ex {X} (o : option X) : is_some o = true -> exists x, o = Some x.
Proof. destruct o; [eauto|discriminate]. Qed.
Theorem assign_case : exists p q, proof_from toy NonceChanged ex_nonce_trace = Some p /\ proof_from toy StorageChanged ex_storage_trace = Some q /\
  (total_rows [p; q] = 16)%nat /\ enough_rows toy [p; q] 2050 /\
  (exists ws, mpt_assign toy false 1 [p; q] 2050 (fz 5) = Some ws) /\ forall threads, (0 < threads)%nat -> exists ws, mpt_assign toy true threads [p; q] 2050 (fz 5) = Some ws.
Proof.
  assert (X : checkb (p <- proof_from toy NonceChanged ex_nonce_trace; q <- proof_from toy StorageChanged ex_storage_trace;
    m <- mpt_n_rows_required toy [p; q]; Some (m <=? 2050)) = true) by (vm_compute; reflexivity).
  assert (Y : checkb (p <- proof_from toy NonceChanged ex_nonce_trace; q <- proof_from toy StorageChanged ex_storage_trace;
    Some (is_some (mpt_assign toy false 1 [p; q] 2050 (fz 5)) && (total_rows [p; q] =? 16)%nat)) = true) by (lazy; reflexivity).
  destruct (proof_from toy NonceChanged ex_nonce_trace) as [p|]; [|discriminate X]. cbn [obind] in X, Y. exists p.
  destruct (proof_from toy StorageChanged ex_storage_trace) as [q|]; [|discriminate X]. cbn [obind] in X, Y. exists q.
  split; [reflexivity|]. split; [reflexivity|]. cbn [checkb] in Y. apply andb_prop in Y. destruct Y as [Y Y2]. split; [apply Nat.eqb_eq, Y2|].
  destruct (mpt_n_rows_required toy [p; q]) as [m|] eqn:M; [|discriminate X]. cbn [obind checkb] in X. apply Z.leb_le in X. split; [exists m; auto|].
  apply is_some_ex in Y. destruct Y as (ws & Y). split; [exists ws; exact Y|]. intros threads Ht. exact (par_total toy threads 1 [p; q] 2050 (fz 5) ws Ht Y).
Qed.

(** * Statements for the property file *)
(* e is the table that [ws] fills, with the columns of the Poseidon table and the sizes of e0 *)
Definition same_context (e e0 : env) : Prop :=
  eN e = eN e0 /\ eusable e = eusable e0 /\ (forall i, efix e P_q_enable i = efix e0 P_q_enable i) /\
  forall c i, poseidon_col c = true -> eadv e c i = eadv e0 c i.
(* room for n rows, fewer rows than 2^64 *)
Definition room (e : env) (n : Z) : Prop := n <= eusable e /\ eusable e <= eN e /\ n < eN e /\ eN e < 2 ^ 64.
Theorem modes_equivalent H proofs n r par par' th th' ws ws' e e' :
  (0 < th)%nat -> (0 < th')%nat -> mpt_assign H par th proofs n r = Some ws -> mpt_assign H par' th' proofs n r = Some ws' ->
  filled e r ws -> filled e' r ws' -> same_context e' e -> room e n -> enough_rows H proofs n ->
  (sat e (circuit_of (circuit H)) <-> sat e' (circuit_of (circuit H))).
Proof.
  intros T1 T2 E E' F F' (C1 & C2 & C3 & C4) (R1 & R2 & R3 & R4) R. split; intros S.
  - eapply (modes_sat (fun _ => T1) (fun _ => T2) E E' e e' F F'); eauto.
  - eapply (modes_sat (fun _ => T2) (fun _ => T1) E' E e' e F' F); rewrite ?C1, ?C2; auto. intros; symmetry; auto.
Qed.
Theorem modes_fixed H H' proofs proofs' n r r' par par' th th' ws ws' c i :
  (0 < th)%nat -> (0 < th')%nat -> mpt_assign H par th proofs n r = Some ws -> mpt_assign H' par' th' proofs' n r' = Some ws' ->
  cell ws (Fx c) i = cell ws' (Fx c) i.
Proof.
  intros T1 T2 E E'. destruct (assign_inv _ _ _ _ _ _ _ (fun _ => T1) E) as (? & ? & ? & ? & ? & ? & P). destruct (assign_inv _ _ _ _ _ _ _ (fun _ => T2) E') as (? & ? & ? & ? & ? & ? & P').
  destruct (fcol_eq_dec c P_q_enable) as [->|Hc]; [|rewrite (as_fixed P), (as_fixed P') by exact Hc; reflexivity].
  assert (G : forall H par proofs r ws re lk upd cr kb br, assigned H par proofs n r ws re lk upd cr kb br -> cell ws (Fx P_q_enable) i = f0).
  { clear. intros H par proofs r ws re lk upd cr kb br Q. unfold cell. enough (wfind ws (Fx P_q_enable) i = None) as -> by reflexivity.
    assert (N0 : wfind upd (Fx P_q_enable) i = None) by (apply mu_none; [eapply mu_updates; apply (as_upd _ _ _ _ _ _ _ _ _ _ _ _ Q)|reflexivity]).
    assert (N1 : wfind cr (Fx P_q_enable) i = None) by (eapply only_none; [apply (as_cr _ _ _ _ _ _ _ _ _ _ _ _ Q)|not_in]).
    assert (N2 : wfind kb (Fx P_q_enable) i = None) by (eapply only_none; [apply (as_kb _ _ _ _ _ _ _ _ _ _ _ _ Q)|not_in]).
    assert (N3 : wfind br (Fx P_q_enable) i = None) by (eapply only_none; [eapply br_only; apply (as_br _ _ _ _ _ _ _ _ _ _ _ _ Q)|not_in]).
    assert (N4 : wfind byte_bit_assign (Fx P_q_enable) i = None) by (eapply only_none; [apply bb_only|not_in]).
    assert (N5 : wfind (selector_writes n) (Fx P_q_enable) i = None) by (eapply only_none; [apply sel_only|not_in]).
    assert (N6 : wfind (final_row_write n) (Fx P_q_enable) i = None) by reflexivity.
    destruct (as_ws _ _ _ _ _ _ _ _ _ _ _ _ Q) as [-> | ->]; rewrite !wfind_app, N0, N1, N2, N3, N4, N5, N6; reflexivity. }
  rewrite (G _ _ _ _ _ _ _ _ _ _ _ P), (G _ _ _ _ _ _ _ _ _ _ _ P'). reflexivity.
Qed.
Theorem bits_listed H proofs n r par th ws e lookups v x b : (0 < th)%nat -> mpt_assign H par th proofs n r = Some ws -> filled e r ws -> room e n -> enough_rows H proofs n ->
  key_bit_lookups H proofs = Some lookups -> In (v, x, b) lookups -> accepts e key_bit_lookup [v; fz x; fb b].
Proof.
  intros T E F (R1 & R2 & R3 & R4) R L I. destruct (assign_inv _ _ _ _ _ _ _ (fun _ => T) E) as (re & lk & upd & cr & kb & br & P).
  pose proof (as_lookups _ _ _ _ _ _ _ _ _ _ _ _ P) as L'. rewrite L in L'. apply some_eq in L'. subst lk.
  destruct (enough_inv _ _ _ _ _ R (as_reprs _ _ _ _ _ _ _ _ _ _ _ _ P) L) as (H1 & H2 & H3 & H4).
  apply (filled_bits P e F); try exact I; lia.
Qed.
