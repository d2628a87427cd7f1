(* A concrete case for C26_without_padding: 128 nonce changes and 128 storage changes fill 2048 rows. *)
From Coq Require Import ZArith List Bool Lia Permutation.
From Verif Require Import Pocklington Fr Query Builder Gadgets GadgetMain GadgetMain2 MptUpdate Bytes TrieSpec Assign Util Serde Trie Storage Types Lookups HonestTrace LookupMain UpdateAssign MptModes MptRows MptCases
  TableSpec UtilProofs ClaimTable BatchSpec Batch FullTable.
Import ListNotations.
Open Scope Z_scope.

Lemma sequential_fails H threads ps n r : 1 + Z.of_nat (total_rows ps) = n -> (0 < threads)%nat -> mpt_assign H false threads ps n r = None.
Proof.
  intros N T. destruct (mpt_assign H false threads ps n r) as [ws|] eqn:E; [|reflexivity]. exfalso.
  destruct (proj1 (assigned_iff H false threads ps n r T) (ex_intro _ ws E)) as (_ & U & _). cbn [updates_fit] in U. lia.
Qed.
Definition table_of (ws : list write) (r : Fr) : env := mkEnv 4096 4000 (fun c i => cell ws (A c) i) (fun c i => cell ws (Fx c) i) r.
Lemma table_filled ws r : filled (table_of ws r) r ws.
Proof. constructor; reflexivity. Qed.
Lemma copies_rows (p q : Proof) k : total_rows (concat (repeat [p; q] k)) = (k * total_rows [p; q])%nat.
Proof. induction k as [|k IH]; [reflexivity|]. cbn [repeat concat]. rewrite total_app, IH. cbn [Nat.mul]. reflexivity. Qed.
Lemma copies_split (p q : Proof) k : concat (repeat [p; q] (S k)) = (concat (repeat [p; q] k) ++ [p]) ++ [q].
Proof.
  rewrite <- app_assoc. change ([p] ++ [q]) with [p; q]. generalize [p; q]. intros l. induction k as [|k IH]; [apply app_nil_r|].
  change (l ++ concat (repeat l (S k)) = (l ++ concat (repeat l k)) ++ l). rewrite <- app_assoc, <- IH. reflexivity.
Qed.
Lemma copies_same (p q : Proof) k : same_members (concat (repeat [p; q] (S k))) [p; q].
Proof.
  intros x. split; [|intros Hx; cbn [repeat concat]; apply in_or_app; left; exact Hx].
  intros Hx. apply in_concat in Hx. destruct Hx as (l & L & Hx). apply repeat_spec in L. subst l. exact Hx.
Qed.
Theorem full_case : exists ps p ws e, Forall (fun q => exists kind trace, proof_from toy kind trace = Some q) (ps ++ [p]) /\ (2 <= proof_n_rows p)%nat /\
  1 + Z.of_nat (total_rows (ps ++ [p])) = 2049 /\ mpt_assign toy true 4 (ps ++ [p]) 2049 (fz 5) = Some ws /\ filled e (fz 5) ws /\ room e 2049.
Proof.
  destruct assign_case as (p & q & P & Q & Tr & _ & (ws & W) & _). assert (Ht : (0 < 1)%nat) by constructor. assert (Ht4 : (0 < 4)%nat) by lia.
  destruct (proj1 (assigned_iff toy false 1 [p; q] 2050 (fz 5) Ht) (ex_intro _ ws W)) as (F & _ & K). clear ws W.
  assert (Q2 : (2 <= proof_n_rows q)%nat).
  { assert (X : forall x, Some q = Some x -> (2 <=? match proof_from toy StorageChanged ex_storage_trace with Some y => proof_n_rows y | None => 0 end)%nat = true -> (2 <= proof_n_rows x)%nat).
    { intros x E. apply LookupMain.some_eq in E. subst x. rewrite Q. apply Nat.leb_le. }
    apply (X q eq_refl). clear. vm_compute. reflexivity. }
  pose proof (copies_same p q 127) as S. pose proof (copies_rows p q 128) as R. rewrite Tr in R. change (128 * 16)%nat with 2048%nat in R.
  pose proof (copies_split p q 127) as C. set (ps := concat (repeat [p; q] 127) ++ [p]) in *. change (Datatypes.S 127) with 128%nat in *. rewrite C in *. clearbody ps. clear C.
  assert (N : 1 + Z.of_nat (total_rows (ps ++ [q])) = 2049) by (rewrite R; reflexivity).
  assert (X : exists ws, mpt_assign toy true 4 (ps ++ [q]) 2049 (fz 5) = Some ws).
  { apply (proj2 (assigned_iff toy true 4 (ps ++ [q]) 2049 (fz 5) Ht4)). split; [|split].
    - rewrite Forall_forall in *. intros x Hx. apply F, S, Hx.
    - right. rewrite N. apply Z.le_refl.
    - rewrite (keys_same toy _ _ S). clear - K. lia. }
  destruct X as (ws & W). exists ps, q, ws, (table_of ws (fz 5)). split; [|split; [exact Q2|split; [exact N|split; [exact W|split; [apply table_filled|]]]]].
  - apply Forall_forall. intros x Hx. apply S in Hx. destruct Hx as [<-|[<-|[]]]; eauto.
  - clear. unfold room, table_of. cbn [eusable eN]. lia.
Qed.
(* 2048 copies of the statement that account 77 is absent from the empty state *)
Definition absent77 : option Proof := proof_from toy AccountDoesNotExist (account_trace_of toy Empty Empty 77).
Lemma copies_one (p : Proof) k : proof_n_rows p = 1%nat -> total_rows (repeat p k ++ [p]) = S k.
Proof. intros R. rewrite total_app. unfold total_rows at 2. cbn [fold_right]. rewrite R. replace (total_rows (repeat p k)) with k; [lia|]. induction k as [|k IH]; [reflexivity|]. unfold total_rows in *. cbn [repeat fold_right]. rewrite R, <- IH. reflexivity. Qed.
Lemma copies_of_one (p : Proof) k : same_members (repeat p k ++ [p]) [p].
Proof. intros x. split; [intros Hx; apply in_app_or in Hx; destruct Hx as [Hx|Hx]; [left; symmetry; exact (repeat_spec _ _ _ Hx)|exact Hx]|intros Hx; apply in_or_app; right; exact Hx]. Qed.
Theorem full_case_one : exists ps p ws e, Forall (fun q => exists kind trace, proof_from toy kind trace = Some q) (ps ++ [p]) /\ address_ok (c_address (pf_claim p)) /\ proof_n_rows p = 1%nat /\
  1 + Z.of_nat (total_rows (ps ++ [p])) = 2049 /\ mpt_assign toy true 4 (ps ++ [p]) 2049 (fz 5) = Some ws /\ filled e (fz 5) ws /\ room e 2049 /\
  encode (echal e) (claim_row (echal e) (pf_claim p)) <> final_row.
Proof.
  assert (X : checkb (p <- absent77; Some ((proof_n_rows p =? 1)%nat && (length (c_address (pf_claim p)) =? 20)%nat && forallb (fun b => (0 <=? b) && (b <? 256)) (c_address (pf_claim p))
    && (be_val (c_address (pf_claim p)) =? 77))) = true) by (vm_compute; reflexivity).
  assert (Y : checkb (p <- absent77; Some (is_some (mpt_assign toy false 1 [p] 2050 (fz 5)))) = true) by (lazy; reflexivity).
  destruct absent77 as [p|] eqn:P; [|discriminate X]. cbn [obind checkb] in X, Y. unfold absent77 in P.
  apply is_some_ex in Y. destruct Y as (ws & W). assert (Ht : (0 < 1)%nat) by constructor. assert (Ht4 : (0 < 4)%nat) by lia.
  destruct (proj1 (assigned_iff toy false 1 [p] 2050 (fz 5) Ht) (ex_intro _ ws W)) as (F & _ & K). clear ws W.
  apply andb_prop in X. destruct X as [X X4]. apply andb_prop in X. destruct X as [X X3]. apply andb_prop in X. destruct X as [X1 X2]. apply Nat.eqb_eq in X1, X2. apply Z.eqb_eq in X4.
  pose proof (copies_of_one p 2047) as S. pose proof (copies_one p 2047 X1) as R.
  set (ps := repeat p 2047) in *. clearbody ps.
  assert (N : 1 + Z.of_nat (total_rows (ps ++ [p])) = 2049) by (rewrite R; reflexivity).
  assert (Q : exists ws, mpt_assign toy true 4 (ps ++ [p]) 2049 (fz 5) = Some ws).
  { apply (proj2 (assigned_iff toy true 4 (ps ++ [p]) 2049 (fz 5) Ht4)). split; [|split].
    - rewrite Forall_forall in *. intros x Hx. apply F, S, Hx.
    - right. rewrite N. apply Z.le_refl.
    - rewrite (keys_same toy _ _ S). clear - K. lia. }
  destruct Q as (ws & W). exists ps, p, ws, (table_of ws (fz 5)).
  split; [|split; [|split; [exact X1|split; [exact N|split; [exact W|split; [apply table_filled|split]]]]]].
  - apply Forall_forall. intros x Hx. apply S in Hx. destruct Hx as [<-|[]]. eauto.
  - split; [exact X2|]. clear - X3. rewrite forallb_forall in X3. apply Forall_forall. intros b Hb. specialize (X3 b Hb). unfold is_byte. apply andb_prop in X3. lia.
  - clear. unfold room, table_of. cbn [eusable eN]. lia.
  - intros Q. apply (f_equal (fun l => hd f0 l)) in Q. revert Q. unfold encode, claim_row. cbv zeta. generalize (echal (table_of ws (fz 5))). intros c Q. assert (Z : fz 77 = f0).
    { rewrite <- X4. destruct (c_kind (pf_claim p)) as [| | | | | |[?|]]; exact Q. }
    apply (f_equal val) in Z. clear - Z. vm_compute in Z. discriminate Z.
Qed.
