(* A block of four claims for which the hypotheses of the exactness theorem are met; the old nonce in the first claim may be true or false. *)
From Coq Require Import ZArith List Bool Lia.
From Verif Require Import Pocklington Fr Query Builder BuilderProofs Gadgets MptUpdate Bytes GadgetProofs TrieSpec TableSpec Util Serde Trie Types Lookups Assign UpdateAssign HonestTrace LookupMain UpdateWalk UpdateSound UpdateProps GadgetMain HonestSpec HonestCase SoundCase History PhaseSpec Challenge BlockSpec Block BlockCase ExactSpec.
Import ListNotations.
Open Scope Z_scope.

(* the nonce of account 11 changes from v to 8; its slot 1 from 10 to 12; there is no account 3; slot 7 of account 15 is empty *)
Definition nonce_from (v : Z) : request := Request (ad 11) 0 NonceChanged (state_root mix S1) (state_root mix S0) 8 v.
Definition no_account : request := Request (ad 3) 0 AccountDoesNotExist (state_root mix S2) (state_root mix S2) 0 0.
Definition no_slot : request := Request (ad 15) 7 StorageDoesNotExist (state_root mix S2) (state_root mix S2) 0 0.
Definition four (v : Z) : list request := [nonce_from v; slot_write; no_account; no_slot].
Lemma apply_from v : apply mix (nonce_from v) S0 = S1. Proof. exact apply_nonce. Qed.

Definition case_traces : list (MPTProofType * SMTTrace) :=
  [(NonceChanged, account_trace_of mix S0 S1 (ad 11)); (StorageChanged, storage_trace_of mix S1 S2 (ad 11) 1);
   (AccountDoesNotExist, account_trace_of mix S2 S2 (ad 3)); (StorageDoesNotExist, storage_trace_of mix S2 S2 (ad 15) 7)].
Lemma traces_cons q l t t' : apply mix q t = t' -> block_traces mix (q :: l) t = (rq_kind q, match rq_kind q with StorageChanged | StorageDoesNotExist => storage_trace_of mix t t' (rq_address q) (rq_slot q)
  | _ => account_trace_of mix t t' (rq_address q) end) :: block_traces mix l t'.
Proof. intros <-. reflexivity. Qed.
Lemma apply_no_account t : apply mix no_account t = t. Proof. reflexivity. Qed.
Lemma apply_no_slot t : apply mix no_slot t = t. Proof. reflexivity. Qed.
Lemma chain_traces q1 q2 q3 q4 t0 t1 t2 t3 t4 : apply mix q1 t0 = t1 -> apply mix q2 t1 = t2 -> apply mix q3 t2 = t3 -> apply mix q4 t3 = t4 ->
  rq_kind q1 = NonceChanged -> rq_kind q2 = StorageChanged -> rq_kind q3 = AccountDoesNotExist -> rq_kind q4 = StorageDoesNotExist ->
  block_traces mix [q1; q2; q3; q4] t0 = [(NonceChanged, account_trace_of mix t0 t1 (rq_address q1)); (StorageChanged, storage_trace_of mix t1 t2 (rq_address q2) (rq_slot q2));
    (AccountDoesNotExist, account_trace_of mix t2 t3 (rq_address q3)); (StorageDoesNotExist, storage_trace_of mix t3 t4 (rq_address q4) (rq_slot q4))].
Proof.
  intros E1 E2 E3 E4 K1 K2 K3 K4. rewrite (traces_cons _ _ _ _ E1), (traces_cons _ _ _ _ E2), (traces_cons _ _ _ _ E3), (traces_cons _ _ _ _ E4), K1, K2, K3, K4. reflexivity.
Qed.
Lemma four_traces v : block_traces mix (four v) S0 = case_traces.
Proof. exact (chain_traces (nonce_from v) slot_write no_account no_slot S0 S1 S2 S2 S2 (apply_from v) apply_slot (apply_no_account S2) (apply_no_slot S2) eq_refl eq_refl eq_refl eq_refl). Qed.
Definition hashes_of (l : list (MPTProofType * SMTTrace)) : list Trace :=
  match (proofs <- all_some (fun x => proof_from mix (fst x) (snd x)) l; hash_traces mix proofs) with Some l => l | None => [] end.
Definition case_hashes : list Trace := hashes_of case_traces.
(* all hash inputs of the three states, in every domain, and those of the prover *)
Definition case_inputs : list triple := map fst (all_inputs mix S0 S1 ++ all_inputs mix S2 S2) ++ map fst case_hashes.
Definition case_set (x : triple) : Prop := In x case_inputs.
Definition sizes_ok (l : list (MPTProofType * SMTTrace)) : bool :=
  checkb (proofs <- all_some (fun x => proof_from mix (fst x) (snd x)) l; m <- mpt_n_rows_required mix proofs; hashes <- hash_traces mix proofs;
    Some ((m + 30 <=? 2081) && (Z.of_nat (length hashes) <? 4090))).
Lemma sizes_fit l : sizes_ok l = true -> forall proofs, all_some (fun x => proof_from mix (fst x) (snd x)) l = Some proofs ->
  (forall m, mpt_n_rows_required mix proofs = Some m -> m + 30 <= 2081) /\
  (forall hashes, hash_traces mix proofs = Some hashes -> Z.of_nat (length hashes) < 4090 /\ forall x h, In (x, h) hashes -> In x (map fst (hashes_of l))).
Proof.
  intros K proofs E. unfold sizes_ok in K. rewrite E in K. cbn [obind] in K. split.
  - intros m M. rewrite M in K. cbn [obind] in K. destruct (hash_traces mix proofs); [|discriminate K]. cbn [obind checkb] in K. apply andb_true_iff in K. destruct K as [K _]. apply Z.leb_le in K. exact K.
  - intros hashes Eh. destruct (mpt_n_rows_required mix proofs) as [m|]; [|discriminate K]. rewrite Eh in K. cbn [obind checkb] in K. apply andb_true_iff in K. destruct K as [_ K]. apply Z.ltb_lt in K.
    split; [exact K|]. intros x h I. unfold hashes_of. rewrite E. cbn [obind]. rewrite Eh. apply (in_map fst) in I. exact I.
Qed.
Lemma case_sizes : sizes_ok case_traces = true. Proof. vm_compute. reflexivity. Qed.
Lemma case_free : cf_check (map (fun x => (x, hash3 mix x)) case_inputs) = true. Proof. vm_compute. reflexivity. Qed.
Lemma case_wf : wf_check S0 = true. Proof. vm_compute. reflexivity. Qed.
Lemma case_zeros : all_check (fun a => all_check (fun v => negb (v =? 0)) (storage a)) S0 = true. Proof. vm_compute. reflexivity. Qed.
Lemma case_fits v : prover_fits mix case_set 2081 4090 (four v) S0.
Proof.
  unfold prover_fits. rewrite four_traces. intros proofs E. destruct (sizes_fit case_traces case_sizes proofs E) as (A & B). split; [exact A|].
  intros hashes Eh. destruct (B hashes Eh) as (B1 & B2). split; [exact B1|]. intros x h I. unfold case_set, case_inputs. apply in_or_app. right. exact (B2 x h I).
Qed.
Lemma listed t t' x : inputs_of mix t t' x -> In x (map fst (all_inputs mix t t')).
Proof.
  destruct x as [[a b] c]. intros [(d & I) (d' & D)]. cbn [fst snd] in I, D. subst c. apply in_map_iff. exists ((a, b, fdom d'), hash3 mix (a, b, fdom d')). split; [reflexivity|].
  unfold all_inputs. apply in_flat_map. exists ((a, b), d). split; [exact I|]. apply in_map_iff. exists d'. split; [reflexivity|]. destruct d'; cbn; tauto.
Qed.
Lemma old_listed t t' x : inputs_of mix t t x -> inputs_of mix t t' x.
Proof. intros [(d & I) D]. split; [exists d|exact D]. destruct I as [I|I]; [left; exact I|right]. apply in_app_or in I. apply in_or_app. left. destruct I; assumption. Qed.
Lemma new_listed t t' x : inputs_of mix t' t' x -> inputs_of mix t t' x.
Proof. intros [(d & I) D]. split; [exists d|exact D]. destruct I as [I|I]; [left; exact I|right]. apply in_app_or in I. apply in_or_app. right. destruct I; assumption. Qed.
Lemma case_covers v : covers_states mix case_set (four v) S0.
Proof.
  intros l1 l2 E x Hx. assert (D : run mix l1 S0 = S0 \/ run mix l1 S0 = S1 \/ run mix l1 S0 = S2).
  { destruct l1 as [|x1 l1]; [left; reflexivity|]. injection E as <- E. unfold run. cbn [fold_left]. rewrite apply_from. right.
    destruct l1 as [|x2 l1]; [left; reflexivity|]. injection E as <- E. cbn [fold_left]. rewrite apply_slot. right.
    destruct l1 as [|x3 l1]; [reflexivity|]. injection E as <- E. cbn [fold_left]. change (apply mix no_account S2) with S2.
    destruct l1 as [|x4 l1]; [reflexivity|]. injection E as <- E. cbn [fold_left]. change (apply mix no_slot S2) with S2.
    destruct l1 as [|x5 l1]; [reflexivity|discriminate E]. }
  unfold case_set, case_inputs. apply in_or_app. left. rewrite map_app. apply in_or_app.
  destruct D as [D|[D|D]]; rewrite D in Hx; [left; apply listed, old_listed; exact Hx|left; apply listed, new_listed; exact Hx|right; apply listed; exact Hx].
Qed.
Lemma get_S2 : get S2 0 (addr_key mix (ad 3)) = None. Proof. vm_compute. reflexivity. Qed.
Lemma get_15 : get S2 0 (addr_key mix (ad 15)) = Some A16. Proof. vm_compute. reflexivity. Qed.
Lemma slot_10 : get (storage A1) 0 (slot_key mix 1) = Some 10. Proof. vm_compute. reflexivity. Qed.
Lemma four_ok v : 0 <= v < 2 ^ 64 -> Forall request_ok (four v).
Proof.
  intros Hv. pose proof three_ok as TO. inversion TO as [|? ? O1 TO1]; subst. inversion TO1 as [|? ? _ TO2]; subst. inversion TO2 as [|? ? O3 _]; subst. clear TO TO1 TO2.
  destruct O1 as [a1 a2 a3 _]. unfold four. apply Forall_cons; [|apply Forall_cons; [exact O3|apply Forall_cons; [|apply Forall_cons; [|apply Forall_nil]]]].
  - constructor; [exact a1|exact a2|exact a3|exact Hv].
  - constructor; unfold no_account; cbn [rq_address rq_slot rq_kind rq_new rq_old value_ok]; (split; [discriminate|reflexivity]).
  - constructor; unfold no_slot; cbn [rq_address rq_slot rq_kind rq_new rq_old value_ok]; (split; [discriminate|reflexivity]).
Qed.
Lemma four_plain v : Forall plain_request (four v).
Proof.
  unfold four. apply Forall_cons; [|apply Forall_cons; [|apply Forall_cons; [|apply Forall_cons; [|apply Forall_nil]]]].
  - constructor; unfold nonce_from; cbn [rq_address rq_slot rq_kind rq_new]; [discriminate|reflexivity|discriminate].
  - constructor; unfold slot_write; cbn [rq_address rq_slot rq_kind rq_new]; [discriminate|intros N; destruct (N eq_refl)|discriminate].
  - constructor; unfold no_account; cbn [rq_address rq_slot rq_kind rq_new]; [discriminate|reflexivity|discriminate].
  - constructor; unfold no_slot; cbn [rq_address rq_slot rq_kind rq_new]; [discriminate|intros _ N; destruct (N eq_refl)|discriminate].
Qed.
Lemma four_chained v : chained (state_root mix S0) (four v) (state_root mix S2).
Proof. exact (conj eq_refl (conj eq_refl (conj eq_refl (conj eq_refl eq_refl)))). Qed.
(* what holds of the four claims in their states *)
Lemma four_throughout (P : request -> tree account -> Prop) v : P (nonce_from v) S0 -> P slot_write S1 -> P no_account S2 -> P no_slot S2 -> throughout mix P (four v) S0.
Proof.
  intros P1 P2 P3 P4. unfold four. cbn [throughout]. split; [exact P1|]. rewrite (apply_from v). split; [exact P2|]. rewrite apply_slot. split; [exact P3|]. rewrite apply_no_account. split; [exact P4|exact Logic.I].
Qed.
Lemma four_overwrites v : throughout mix (overwrites mix) (four v) S0.
Proof.
  apply four_throughout; unfold overwrites.
  - cbn [rq_kind nonce_from rq_address]. rewrite get_S0. discriminate.
  - cbn [rq_kind slot_write rq_address rq_slot rq_new]. split; [discriminate|]. exists (set_nonce 8 A1). split; [exact get_S1|exact slot_there].
  - exact Logic.I.
  - exact Logic.I.
Qed.
Lemma four_true : throughout mix (claim_true mix) (four 1) S0.
Proof.
  apply four_throughout; unfold claim_true; (split; [unfold reads|]).
  - cbn [rq_kind nonce_from rq_address rq_old field]. exists A1. split; [exact get_S0|reflexivity].
  - rewrite (apply_from 1). split; reflexivity.
  - cbn [rq_kind slot_write rq_address rq_old rq_slot]. exists (set_nonce 8 A1). split; [exact get_S1|exact slot_10].
  - rewrite apply_slot. split; reflexivity.
  - cbn [rq_kind no_account rq_address rq_old rq_new]. split; [reflexivity|split; [reflexivity|exact get_S2]].
  - rewrite apply_no_account. split; reflexivity.
  - cbn [rq_kind no_slot rq_address rq_old rq_new rq_slot]. split; [reflexivity|split; [reflexivity|]]. intros a G. rewrite get_15 in G. injection G as <-. reflexivity.
  - rewrite apply_no_slot. split; reflexivity.
Qed.
Lemma four_start : start_state 2081 S0.
Proof. destruct (sound_case2 (fz 256)) as (e & _ & _ & Tr & _). destruct (Tr S0 (or_introl eq_refl)) as (_ & T2 & T3 & T4 & _). split; assumption. Qed.
Lemma four_zeros : no_zero_slots S0.
Proof. pose proof case_zeros as K3. unfold no_zero_slots. revert K3. apply all_check_ok. intros a. apply all_check_ok. intros w E. intros ->. discriminate E. Qed.
Theorem exact_case v : 0 <= v < 2 ^ 64 -> exact_block mix case_set 2081 4090 4096 (four v) S0 /\ (throughout mix (claim_true mix) (four v) S0 <-> v = 1).
Proof.
  intros Hv. split.
  - constructor; [exact (four_ok v Hv)|exact (four_plain v)|reflexivity|exists (state_root mix S2); exact (four_chained v)|exact (four_overwrites v)|exact four_start|exact (wf_check_ok _ case_wf)|exact four_zeros
      |exact (cf_list_ok _ _ case_free)|exact (case_covers v)|exact (case_fits v)|]. split; split; first [reflexivity|discriminate].
  - split; [|intros ->; exact four_true]. intros (((a & G & V) & _) & _). unfold nonce_from in G, V. cbn [rq_kind rq_address rq_old field] in G, V. rewrite get_S0 in G. injection G as <-. symmetry. exact V.
Qed.
