(* C30: honest updates are converted, assigned, accepted by the whole circuit, and the table says what they did. *)
From Coq Require Import ZArith List Bool Lia.
From Verif Require Import Pocklington Fr Query Builder BuilderProofs Gadgets MptUpdate Fixed Bytes GadgetProofs UpdateRows TrieSpec Util UtilProofs Serde Trie Storage Types TypesProofs Lookups LookupMain UpdateComplete TreeChain TrieProofs
  Assign UpdateAssign MptAssign MptModes GadgetMain GadgetMain2 HonestTrace UpdateProps RowView BlockView MptRows MptCases TablesOk BlocksOk RowsOk RowCells BlockRows PaddingOk HonestPath HonestBlock HonestUpdate HonestConvert HonestAssign TableSpec HonestSpec.
Import ListNotations.
Open Scope Z_scope.

(** * Every claim is in the table *)
(* the statement that a claim stands for; r is the RLC challenge *)
Definition claim_statement (r : Fr) (c : Claim) : statement :=
  Statement (be_val (c_address c)) (word_rlc r (claim_storage_key c)) (proof_type_of (c_kind c)) (c_new_root c) (c_old_root c) (new_value_assignment c r) (old_value_assignment c r).
Lemma block_of H r proofs p : forall o ws, Forall even_proof proofs -> assign_proofs H proofs r o = Some ws -> In p proofs ->
  exists o' w, assign_single_proof H p r o' = Some w /\ o <= o' /\ o' + Z.of_nat (proof_n_rows p) <= o + Z.of_nat (total_rows proofs) /\
    (forall j, o' <= j < o' + Z.of_nat (proof_n_rows p) -> row_at ws j = row_at w j).
Proof.
  induction proofs as [|q proofs IH]; intros o ws F E Hp; [destruct Hp|]. cbn [assign_proofs] in E. ob E. ob E. apply some_eq in E. subst ws.
  inversion F as [|? ? F1 F2]; subst. cbn [total_rows fold_right] in *. fold (total_rows proofs) in *.
  destruct (single_rows H q r o a F1 E0) as [W _]. pose proof (proofs_within H r _ _ _ F2 E1) as W2.
  destruct Hp as [->|Hp].
  - exists o, a. split; [exact E0|]. split; [lia|]. split; [lia|]. intros j Hj. rewrite row_at_app, (within_row _ _ _ _ W2), app_nil_r by lia. reflexivity.
  - destruct (IH _ _ F2 E1 Hp) as (o' & w & I1 & I2 & I3 & I4). exists o', w. split; [exact I1|]. split; [lia|]. split; [lia|].
    intros j Hj. rewrite row_at_app, (within_row _ _ _ _ W) by lia. cbn [app]. apply I4, Hj.
Qed.
Theorem claim_exposed {H par proofs n r ws reprs lookups upd cr kb br} (P : assigned H par proofs n r ws reprs lookups upd cr kb br) e p :
  filled e r ws -> room e n -> enough_rows H proofs n -> Forall even_proof proofs -> In p proofs -> address_ok (c_address (pf_claim p)) ->
  exposes e (encode (echal e) (claim_statement (echal e) (pf_claim p))).
Proof.
  intros FL Rm En Ev Hp Ad. rewrite (fl_chal _ _ _ FL). destruct (glue_sizes P En) as (S1 & S2 & _ & _). destruct (glue_rows P En Ev) as (w & Ew & RW). destruct Rm as (R1 & R2 & R3 & R4).
  destruct (block_of H r proofs p 1 w Ev Ew Hp) as (o & w' & I1 & I2 & I3 & I4). pose proof (proof_rows_pos p) as Pp. rewrite Forall_forall in Ev. assert (L := Ev p Hp).
  destruct (block_view H p r o w' L I1) as (other & data & final & B).
  assert (HR : holds_rows e w' o (o + Z.of_nat (proof_n_rows p))).
  { intros c j Hc Hj. rewrite (filled_mu P e FL c j Hc) by lia. rewrite cell_row, RW, pad_false by lia. rewrite I4 by exact Hj. reflexivity. }
  destruct (start_reads B HR) as [(m & V) Rd].
  pose proof (filled_fixed P e FL ltac:(lia) R2 R4) as Fx. exists o. split.
  - apply (proj2 (fix_enabled e n o Fx)). lia.
  - unfold table_row. rewrite (start_exposed e o (proof_type_of (c_kind (pf_claim p)))); [|lia|apply V|apply V|rewrite (rd_sg _ _ _ Rd); reflexivity|rewrite (rd_pt _ _ _ Rd); reflexivity].
    rewrite (rd_i0 _ _ _ Rd), (rd_i1 _ _ _ Rd), (rd_skr _ _ _ Rd), (rd_s0 _ _ _ Rd), (rd_s1 _ _ _ Rd), (rd_nv _ _ _ Rd), (rd_ov _ _ _ Rd). unfold start_f. cbn [f_i0 f_i1 f_skr f_s0 f_s1 f_nv f_ov].
    unfold encode, claim_statement. cbn [st_address st_slot_rlc st_kind st_new_root st_old_root st_new_value st_old_value].
    destruct (address_val _ Ad) as (-> & Hh & _). rewrite fz_add, fz_mul. reflexivity.
Qed.

(** * Honest updates *)
Section Honest.
  Variable H : Fr -> Fr -> Fr -> Fr.
  (* the conversion of u yields p *)
  Definition converts (u : update) (p : Proof) : Prop := proof_from H (u_kind u) (u_trace u) = Some p.
  Lemma tree_all_weaken {V} (P Q : V -> Prop) (t : tree V) : (forall v, P v -> Q v) -> tree_all P t -> tree_all Q t.
  Proof. intros PQ. induction t; cbn [tree_all]; intuition. Qed.
  Theorem update_converted u : honest_update H u -> exists p, converts u p.
  Proof.
    intros [HO Ad [Ft _] [Ft' _] _]. apply (honest_converted H (u_address u) (u_old u) (u_new u)); auto; (eapply tree_all_weaken; [|eassumption]); intros v [X _]; exact X.
  Qed.
  Theorem updates_converted us : Forall (honest_update H) us -> exists proofs, Forall2 converts us proofs.
  Proof. induction 1 as [|u us Hu _ (ps & IH)]; [exists []; constructor|]. destruct (update_converted u Hu) as (p & E). exists (p :: ps). constructor; assumption. Qed.
  Lemma update_ready r u p : honest_update H u -> converts u p -> ready H r p /\ proof_hash_traces H p <> None.
  Proof. intros [HO Ad (Ft & Sh & St) (Ft' & Sh' & St') CF] E. exact (honest_ready H r _ _ _ _ _ p HO E Ad CF Ft Ft' Sh Sh' St St'). Qed.
  Lemma each_ready us proofs (P : Proof -> Prop) : Forall (honest_update H) us -> Forall2 converts us proofs -> (forall u p, In u us -> honest_update H u -> converts u p -> P p) -> Forall P proofs.
  Proof.
    intros F C. revert F. induction C as [|u p us proofs E C IH]; intros F A; [constructor|]. inversion F as [|? ? F1 F2]; subst. constructor; [apply (A u p (or_introl eq_refl)); assumption|]. apply IH; [exact F2|]. intros u' p' I. apply A. right. exact I.
  Qed.
  Lemma oconcat_some {A B} (f : A -> option (list B)) l : Forall (fun x => f x <> None) l -> exists o, oconcat f l = Some o.
  Proof. induction 1 as [|x l Hx _ (o & IH)]; [exists []; reflexivity|]. cbn [oconcat]. destruct (f x); [|congruence]. rewrite IH. cbn [obind]. eauto. Qed.
  Theorem honest_hash_traces us proofs : Forall (honest_update H) us -> Forall2 converts us proofs -> exists traces, hash_traces H proofs = Some traces.
  Proof.
    intros F C. destruct (oconcat_some (proof_hash_traces H) proofs) as (o & E); [|unfold hash_traces; rewrite E; cbn [obind]; eauto].
    apply (each_ready us proofs _ F C). intros u p _ Hu E. exact (proj2 (update_ready f0 u p Hu E)).
  Qed.
  Theorem honest_rows_required us proofs : Forall (honest_update H) us -> Forall2 converts us proofs -> exists m, mpt_n_rows_required H proofs = Some m.
  Proof.
    intros F C. unfold mpt_n_rows_required.
    assert (R : Forall (ready H f0) proofs) by (apply (each_ready us proofs _ F C); intros u p _ Hu E; exact (proj1 (update_ready f0 u p Hu E))).
    assert (E1 : exists o, byte_representations proofs = Some o).
    { unfold byte_representations. assert (X : forall i, exists rs, omap_from (fun _ p => proof_reprs p) i proofs = Some rs).
      { clear - R. induction R as [|p l (_ & (o & Ho & _) & _) _ IH]; intros i; [exists []; reflexivity|]. cbn [omap_from]. rewrite Ho. destruct (IH (Datatypes.S i)) as (rs & ->). cbn [obind]. eauto. }
      destruct (X 0%nat) as (rs & ->). cbn [obind]. eauto. }
    assert (E2 : exists o, key_bit_lookups H proofs = Some o).
    { unfold key_bit_lookups. destruct (oconcat_some (proof_key_bits H) proofs) as (o & E); [|rewrite E; cbn [obind]; eauto]. eapply Forall_impl; [|exact R]. intros p (_ & _ & (o & E & _)). congruence. }
    destruct E1 as (o1 & ->). destruct E2 as (o2 & ->). cbn [obind]. eauto.
  Qed.
  Theorem honest_assigned us proofs m par threads n r : Forall (honest_update H) us -> Forall2 converts us proofs -> (0 < threads)%nat -> mpt_n_rows_required H proofs = Some m -> m + 30 <= n ->
    exists ws, mpt_assign H par threads proofs n r = Some ws.
  Proof.
    intros F C T M Hn. apply ready_assigned; auto.
    - apply (each_ready us proofs _ F C). intros u p _ Hu E. exact (proj1 (update_ready r u p Hu E)).
    - exists m. split; [exact M|lia].
    - assert (X : enough_rows H proofs (n - 30)) by (exists m; split; [exact M|lia]). pose proof (enough_keys H proofs _ X). lia.
  Qed.
  (* the claim of an honest update is the truth *)
  Lemma zero_rlc c : word_rlc c 0 = f0.
  Proof. exact (LeafOk.rlc_zero_word c). Qed.
  Lemma slot_says c p t t' address slot ty : 0 <= slot < 2 ^ 256 -> claim_kind_from ty (storage_trace_of H t t' address slot) = Some (c_kind (pf_claim p)) ->
    (forall a, get t 0 (addr_key H address) = Some a -> account_ok a) -> (forall a, get t' 0 (addr_key H address) = Some a -> account_ok a) ->
    word_rlc c (claim_storage_key (pf_claim p)) = word_rlc c slot /\ old_value_assignment (pf_claim p) c = word_rlc c (slot_value H t address slot) /\ new_value_assignment (pf_claim p) c = word_rlc c (slot_value H t' address slot).
  Proof.
    intros Sl Kd Ao An. set (K := addr_key H address) in *.
    assert (V : forall x, (forall a, get x 0 K = Some a -> account_ok a) -> slot_value_of (storage_of (get x 0 K)) (slot_key H slot) = slot_value H x address slot /\ 0 <= slot_value H x address slot < 2 ^ 256).
    { intros x A. unfold slot_value_of, slot_value. fold K. destruct (get x 0 K) as [a|]; cbn [storage_of]; [|split; [reflexivity|lia]]. split; [reflexivity|]. destruct (get (storage a) 0 (slot_key H slot)) as [w|] eqn:G; [|lia].
      destruct (A a eq_refl) as (_ & _ & _ & _ & Wd). rewrite get_end in G. destruct (tree_end (storage a) 0 (slot_key H slot)) as [|k' v|] eqn:E; try discriminate G. destruct (feqb _ k'); [|discriminate G]. apply some_eq in G. subst v. exact (HonestInputs.end_all _ _ _ _ _ _ Wd E). }
    destruct (V t Ao) as [V1 V2]. destruct (V t' An) as [V3 V4].
    destruct (claim_storage_inv _ _ _ _ _ Kd eq_refl) as (vo & vn & kk & E1 & E2 & E3 & E4). cbn [sd_value sd_key] in E1, E2, E3. fold K in E1, E2, E3. rewrite V1 in E1. rewrite V3 in E2.
    rewrite hex_word in E1, E2, E3 by assumption. apply some_eq in E1, E2, E3. subst vo vn kk. unfold claim_storage_key, old_value_assignment, new_value_assignment. rewrite E4.
    assert (N : forall v, rlc (u256_to_big_endian (unwrap_or_default (nonzero v))) c = word_rlc c v) by (intros v; unfold nonzero; destruct (Z.eqb_spec v 0) as [->|]; reflexivity).
    destruct ((slot_value H t address slot =? 0) && (slot_value H t' address slot =? 0)) eqn:Z0.
    - apply andb_true_iff in Z0. destruct Z0 as [Z1 Z2]. apply Z.eqb_eq in Z1, Z2. rewrite Z1, Z2, zero_rlc. auto.
    - rewrite !N. auto.
  Qed.
  Theorem claim_says c u p : honest_update H u -> converts u p -> says H c u (claim_statement c (pf_claim p)).
  Proof.
    intros [HO Ad (Ft & _ & _) (Ft' & _ & _) CF] PF. destruct u as [address t t' ty tr]. unfold converts in PF. cbn [u_address u_old u_new u_kind u_trace] in *. unfold says, claim_statement. cbn [u_address u_old u_new u_kind u_trace st_address st_slot_rlc st_kind st_new_root st_old_root st_new_value st_old_value].
    assert (TA : t_address tr = be_bytes 20 address) by (destruct HO; reflexivity).
    assert (TK : t_account_path tr = (trace_path H (account_hash H) t (addr_key H address), trace_path H (account_hash H) t' (addr_key H address))) by (destruct HO; reflexivity).
    assert (GA : forall (P : account -> Prop) (x : tree account) a, tree_all P x -> get x 0 (addr_key H address) = Some a -> P a).
    { intros P x a A G. rewrite get_end in G. destruct (tree_end x 0 (addr_key H address)) as [|k' v|] eqn:E; try discriminate G. destruct (feqb _ k') eqn:F; [|discriminate G]. apply some_eq in G. subst v. exact (HonestInputs.end_all P x _ k' a 0 A E). }
    assert (HPW : exists ov nv, written (addr_key H address) ov nv t t').
    { destruct HO as [a x W|a x W|a x W|a x W|a x W|x Nx W|x Nx W|ty Ty W|a slot ov nv s' Sl _ Zo Zn WS W|a slot Sl G Gs Eq|slot Sl W]; try (eexists; eexists; exact W).
      exists (Some a), (Some a). split; [exact G|]. rewrite Eq. symmetry. apply modify_same. exact G. }
    destruct HPW as (ov & nv & W). pose proof (path_of PF Ad TA TK W) as HP. destruct (hp_roots HP) as [R1 R2]. rewrite (hp_address HP), (hp_type HP), R1, R2. rewrite be_val_be_bytes by exact Ad.
    split; [reflexivity|]. split; [reflexivity|]. split; [reflexivity|]. split; [reflexivity|]. pose proof (hp_kind HP) as Kd. clear HP R1 R2 W ov nv.
    destruct HO as [a x W|a x W|a x W|a x W|a x W|x Nx W|x Nx W|ty Ty W|a slot ov nv s' Sl Nb Zo Zn WS W|a slot Sl G Gs Eq|slot Sl W].
    1-8: destruct (written_get _ _ _ t t' W) as [G G']; assert (TU : t_account_update (account_trace_of H t t' address) = (option_map data_of (get t 0 (addr_key H address)), option_map data_of (get t' 0 (addr_key H address)))) by reflexivity; rewrite G, G' in TU; rewrite G, G'; cbn [option_map] in TU.
    1-5: pose proof (kind_both _ _ _ _ _ Kd eq_refl TU) as Kb; cbv beta iota in Kb; cbn [data_of ad_nonce ad_balance ad_code_hash ad_poseidon_code_hash ad_code_size] in Kb; destruct (GA _ t _ Ft G) as [OK B]; destruct (GA _ t' _ Ft' G') as [OK' B']; pose proof OK as (A1 & A2 & A3 & A4 & _); pose proof OK' as (A1' & A2' & A3' & A4' & _).
    1-5: unfold claim_storage_key, old_value_assignment, new_value_assignment.
    - rewrite Kb. split; [apply zero_rlc|]. split; reflexivity.
    - destruct Kb as (o & n & Q1 & Q2 & ->). rewrite biguint_balance in Q1, Q2 by assumption. apply some_eq in Q1, Q2. subst o n. split; [apply zero_rlc|]. split; reflexivity.
    - rewrite Kb. split; [apply zero_rlc|]. split; reflexivity.
    - destruct Kb as (o & n & Q1 & Q2 & ->). rewrite biguint_word in Q1, Q2 by assumption. apply some_eq in Q1, Q2. subst o n. split; [apply zero_rlc|]. split; reflexivity.
    - rewrite Kb. split; [apply zero_rlc|]. rewrite !big_uint_to_fr_spec by (apply val_range). rewrite !fz_val. split; reflexivity.
    - destruct (kind_new _ _ _ _ Kd eq_refl TU) as [[N K]|(N & n & Q & K)]; [|cbn in N; congruence]. unfold claim_storage_key, old_value_assignment, new_value_assignment. rewrite K. split; [apply zero_rlc|]. split; reflexivity.
    - destruct (kind_new _ _ _ _ Kd eq_refl TU) as [[N K]|(N & n & Q & K)]; [cbn in N; congruence|]. unfold claim_storage_key, old_value_assignment, new_value_assignment. rewrite K. destruct (GA _ t' _ Ft' G') as [(_ & _ & A3' & _) _]. cbn [data_of ad_balance balance] in Q, A3'. rewrite biguint_balance in Q by exact A3'. apply some_eq in Q. subst n.
      split; [apply zero_rlc|]. split; [apply zero_rlc|reflexivity].
    - pose proof (kind_none _ _ _ Kd eq_refl TU Ty) as Kb. assert (V : claim_storage_key (pf_claim p) = 0 /\ old_value_assignment (pf_claim p) c = f0 /\ new_value_assignment (pf_claim p) c = f0).
      { unfold claim_storage_key, old_value_assignment, new_value_assignment. destruct Kb as [<-|[<-|[<-|[<-|[<-|[]]]]]]; split; try reflexivity; split; try reflexivity; apply zero_rlc. }
      destruct V as (-> & -> & ->). rewrite zero_rlc. assert (X : forall q, field_value c q None = f0) by (intros q; destruct q; reflexivity).
      destruct Ty as [<-|[<-|[<-|[<-|[<-|[]]]]]]; rewrite ?X; auto.
    - destruct (written_get _ _ _ t t' W) as [G G']. exists slot. split; [reflexivity|]. apply (slot_says c p t t' address slot _ Sl Kd); [intros a0 X; exact (proj1 (GA _ t a0 Ft X))|intros a0 X; exact (proj1 (GA _ t' a0 Ft' X))].
    - exists slot. split; [reflexivity|]. apply (slot_says c p t t' address slot _ Sl Kd); [intros a0 X; exact (proj1 (GA _ t a0 Ft X))|intros a0 X; exact (proj1 (GA _ t' a0 Ft' X))].
    - exists slot. split; [reflexivity|]. apply (slot_says c p t t' address slot _ Sl Kd); [intros a0 X; exact (proj1 (GA _ t a0 Ft X))|intros a0 X; exact (proj1 (GA _ t' a0 Ft' X))].
  Qed.
  (* whatever number of rows, number of threads and mode: what is assigned is accepted *)
  Section Accepted.
    Context {us : list update} {proofs : list Proof} {par : bool} {threads : nat} {n : Z} {r : Fr} {ws : list write} {e : env} {traces : list Trace}.
    Hypothesis F : Forall (honest_update H) us.
    Hypothesis C : Forall2 converts us proofs.
    Hypothesis T : (0 < threads)%nat.
    Hypothesis E : mpt_assign H par threads proofs n r = Some ws.
    Hypothesis FL : filled e r ws.
    Hypothesis Rm : room e n.
    Hypothesis En : enough_rows H proofs n.
    Hypothesis ET : hash_traces H proofs = Some traces.
    Hypothesis PL : poseidon_listed e traces.
    Lemma honest_even u p : honest_update H u -> converts u p -> even_proof p.
    Proof. intros _ X. exact (from_lengths H _ _ p X). Qed.
    Theorem honest_accepted : sat e (circuit_of (circuit H)).
    Proof.
      destruct (assign_inv H par threads proofs n r ws (fun _ => T) E) as (reprs & lookups & upd & cr & kb & br & P).
      assert (Ev : Forall even_proof proofs) by (apply (each_ready us proofs _ F C); intros u p _ Hu X; exact (honest_even u p Hu X)).
      apply (glue P e FL Rm En traces ET PL Ev). assert (Q : forall p, In p proofs -> exists u, honest_update H u /\ converts u p).
      { clear - F C. revert F. induction C as [|u p us proofs X C0 IH]; intros F q Hq; [destruct Hq|]. inversion F as [|? ? F1 F2]; subst. destruct Hq as [<-|Hq]; [eauto|exact (IH C0 F2 q Hq)]. }
      apply Forall_forall. intros p Hp. destruct (Q p Hp) as (u & [HO Ad (Ft & _ & _) (Ft' & _ & _) CF] & X).
      rewrite <- (fl_chal _ _ _ FL). exact (honest_ok ET (as_lookups _ _ _ _ _ _ _ _ _ _ _ _ P) (as_reprs _ _ _ _ _ _ _ _ _ _ _ _ P) (glue_tables P e FL Rm En traces PL) Hp CF Ad Ft Ft' _ _ HO X).
    Qed.
    (* and each update's true statement is a row of the exposed table *)
    Theorem honest_stated u : In u us -> exists s, says H (echal e) u s /\ exposes e (encode (echal e) s).
    Proof.
      intros Hu. destruct (assign_inv H par threads proofs n r ws (fun _ => T) E) as (reprs & lookups & upd & cr & kb & br & P).
      assert (Ev : Forall even_proof proofs) by (apply (each_ready us proofs _ F C); intros v p _ Hv X; exact (honest_even v p Hv X)).
      assert (Q : exists p, In p proofs /\ converts u p).
      { clear - C Hu. induction C as [|v p us proofs X C0 IH]; [destruct Hu|]. destruct Hu as [->|Hu]; [exists p; split; [left; reflexivity|exact X]|]. destruct (IH C0 Hu) as (q & I1 & I2). exists q. split; [right; exact I1|exact I2]. }
      destruct Q as (p & Hp & X). assert (HU : honest_update H u) by (rewrite Forall_forall in F; exact (F u Hu)). exists (claim_statement (echal e) (pf_claim p)). split; [exact (claim_says (echal e) u p HU X)|].
      apply (claim_exposed P e p FL Rm En Ev Hp). destruct HU as [HO Ad _ _ _].
      assert (TA : t_address (u_trace u) = be_bytes 20 (u_address u)) by (destruct HO; reflexivity).
      destruct (proof_from_inv _ _ _ _ X) as (p0 & p1 & l0 & l1 & FT). destruct (claim_from_inv _ _ _ (ft_claim _ _ _ _ _ _ _ _ FT)) as (ro & rn & kd & _ & _ & _ & _ & Ec). rewrite Ec. cbn [c_address]. rewrite TA. exact (proj1 (ok_address Ad)).
    Qed.
  End Accepted.
End Honest.
