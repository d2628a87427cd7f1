(* Concrete cases for Written.v and ForgeBuried.v, and two honest ways to clear a slot. *)
From Coq Require Import ZArith List Bool Lia.
From Verif Require Import Pocklington Fr Query Builder BuilderProofs Gadgets MptUpdate Fixed Bytes TrieSpec TableSpec Util Serde Trie Storage Types Lookups LookupMain
  Assign UpdateAssign MptModes UpdateSound UpdateProps GadgetMain GadgetMain2 HonestTrace MptRows MptCases TablesOk PaddingOk ChangeSpec HonestSpec HonestMain HonestCase SoundCase RefuteCase Challenge NewProps NewCase Forge Forgeries ForgeCase ForgeBuried WrittenSpec Written.
Import ListNotations.
Open Scope Z_scope.

Fixpoint compact_check {V} (t : tree V) : bool := match t with Node l r => (2 <=? leaves l + leaves r)%nat && compact_check l && compact_check r | _ => true end.
Lemma compact_check_ok {V} (t : tree V) : compact_check t = true -> compact t.
Proof. induction t as [|k v|l IHl r IHr]; cbn [compact compact_check]; [auto|auto|]. rewrite !andb_true_iff, Nat.leb_le. intuition. Qed.
(* an account is created next to three others *)
Lemma created_case : case_for BalanceChanged (fun address t t' => let K := addr_key mix address in
  get t 0 K = None /\ get t' 0 K = Some (set_balance (2 ^ 100) new_account) /\ leaves t = 3%nat /\ placed t' [] /\ compact t' /\ (forall o b, t = Leaf o b -> o = K)).
Proof.
  apply (case_of (Update (ad 14) S3 S4 BalanceChanged (account_trace_of mix S3 S4 (ad 14)))); [do 3 right; left; reflexivity|]. cbn [u_address u_old u_new]. cbv zeta.
  split; [vm_compute; reflexivity|]. split; [vm_compute; reflexivity|]. split; [vm_compute; reflexivity|]. split; [apply states_placed; cbn [states In]; auto 10|].
  split; [apply compact_check_ok; vm_compute; reflexivity|]. intros o b Q; exfalso; clear - Q; vm_compute in Q; discriminate Q.
Qed.
(* a slot is filled next to two others *)
Lemma filled_case : case_for StorageChanged (fun address t t' => exists a st', get t 0 (addr_key mix address) = Some a /\ t' = modify (set_storage st') t 0 (addr_key mix address) /\
  placed (storage a) [] /\ placed st' [] /\ compact (storage a) /\ compact st' /\ get (storage a) 0 (slot_key mix 5) = None /\ get st' 0 (slot_key mix 5) = Some (2 ^ 200) /\ leaves (storage a) = 2%nat).
Proof.
  apply (case_of (Update (ad 11) S2 S3 StorageChanged (storage_trace_of mix S2 S3 (ad 11) 5))); [do 2 right; left; reflexivity|]. cbn [u_address u_old u_new].
  exists B1, (storage C1). split; [vm_compute; reflexivity|]. split; [|do 2 (split; [apply placed_check_ok; vm_compute; reflexivity|]); do 2 (split; [apply compact_check_ok; vm_compute; reflexivity|]); do 2 (split; [vm_compute; reflexivity|]); vm_compute; reflexivity].
  assert (E : S2 = Node (Node (Node (Leaf (ac 11) B1) (Leaf (ac 15) A16)) Empty) (Leaf (ac 2) A3)) by (vm_compute; reflexivity). unfold S3. rewrite E. unfold C1. clear E. generalize B1. intros b. vm_compute. reflexivity.
Qed.
Lemma cf_buried : collision_free mix (fun y => In y (Forgeries.all_inputs mix (ad 11) (ad 11) Empty (beside (kbit (addr_key mix (ad 11)) 0) Empty (Leaf (addr_key mix (ad 11)) (set_nonce 8 new_account))))).
Proof. apply cf_list_ok. vm_compute. reflexivity. Qed.

(** * Clearing a slot: the node above is removed or not *)
Definition with_slots (s : tree Z) : tree account := Leaf (ac 11) (set_storage s A1).
Definition T0 : tree account := with_slots (Node (Leaf (sl 1) 10) (Leaf (sl 4) 11)).
Definition T1 : tree account := with_slots (Leaf (sl 4) 11).
Definition T2 : tree account := with_slots (Node Empty (Leaf (sl 4) 11)).
Definition clear (t : tree account) : update := Update (ad 11) T0 t StorageChanged (storage_trace_of mix T0 t (ad 11) 1).
Definition clears : list update := [clear T1; clear T2].
Lemma T0_wf : wf_check T0 = true. Proof. vm_compute. reflexivity. Qed.
Lemma T1_wf : wf_check T1 = true. Proof. vm_compute. reflexivity. Qed.
Lemma T2_wf : wf_check T2 = true. Proof. vm_compute. reflexivity. Qed.
Lemma T1_cf : cf_check (HonestCase.all_inputs mix T0 T1) = true. Proof. vm_compute. reflexivity. Qed.
Lemma T2_cf : cf_check (HonestCase.all_inputs mix T0 T2) = true. Proof. vm_compute. reflexivity. Qed.
Lemma slot_bit : kbit (slot_key mix 1) 0 = false. Proof. vm_compute. reflexivity. Qed.
Lemma slot_bit' : kbit (sl 4) 0 = true. Proof. vm_compute. reflexivity. Qed.
Lemma slots_written s s' : written (ac 11) (Some (set_storage s A1)) (Some (set_storage s' (set_storage s A1))) (with_slots s) (with_slots s').
Proof. unfold with_slots. split; cbn [get modify]; rewrite feqb_refl; reflexivity. Qed.
Lemma clear_honest s s' : insertion (slot_key mix 1) 10 0 s' s -> honest mix (ad 11) (with_slots s) (with_slots s') StorageChanged (storage_trace_of mix (with_slots s) (with_slots s') (ad 11) 1).
Proof.
  intros I. apply (hon_slot mix _ _ _ (set_storage s A1) 1 (Some 10) None s'); try discriminate; [lia|left; discriminate|exact I|exact (slots_written s s')].
Qed.
Lemma clear_collapse : insertion (slot_key mix 1) 10 0 (Leaf (sl 4) 11) (Node (Leaf (sl 1) 10) (Leaf (sl 4) 11)).
Proof.
  apply ins_fork. pose proof (fork_here (slot_key mix 1) 10 (sl 4) 11 0) as Q. rewrite slot_bit, slot_bit' in Q. apply Q. discriminate.
Qed.
Lemma clear_keep : insertion (slot_key mix 1) 10 0 (Node Empty (Leaf (sl 4) 11)) (Node (Leaf (sl 1) 10) (Leaf (sl 4) 11)).
Proof. apply ins_left; [exact slot_bit|exact (ins_empty (slot_key mix 1) 10 1)]. Qed.
Lemma clears_ok : Forall (honest_update mix) clears.
Proof.
  assert (Ad : 0 <= ad 11 < 2 ^ 160) by (apply ad_small; lia). apply Forall_cons; [|apply Forall_cons; [|apply Forall_nil]].
  - exact (Build_honest_update mix (clear T1) (clear_honest _ _ clear_collapse) Ad (wf_check_ok _ T0_wf) (wf_check_ok _ T1_wf) (cf_check_ok _ _ _ T1_cf)).
  - exact (Build_honest_update mix (clear T2) (clear_honest _ _ clear_keep) Ad (wf_check_ok _ T0_wf) (wf_check_ok _ T2_wf) (cf_check_ok _ _ _ T2_cf)).
Qed.
Lemma clears_sizes : checkb (proofs <- omap_from (fun _ u => proof_from mix (u_kind u) (u_trace u)) 0 clears; m <- mpt_n_rows_required mix proofs; traces <- hash_traces mix proofs; Some ((m =? 2050) && (length traces <? 4000)%nat)) = true.
Proof. vm_compute. reflexivity. Qed.
Lemma two_roots : state_root mix T1 <> state_root mix T2.
Proof. apply feqb_neq. vm_compute. reflexivity. Qed.
Lemma T0_value : slot_value mix T0 (ad 11) 1 = 10. Proof. vm_compute. reflexivity. Qed.
Theorem two_ways r : exists proofs ws e, Forall2 (fun u p => proof_from mix (u_kind u) (u_trace u) = Some p) clears proofs /\ mpt_assign mix true 4 proofs 2080 r = Some ws /\
  filled e r ws /\ room e 2080 /\ sat e (circuit_of (circuit mix)) /\
  let row root := encode r (Statement (ad 11) (word_rlc r 1) StorageChanged root (state_root mix T0) f0 (word_rlc r 10)) in
  exposes e (row (state_root mix T1)) /\ exposes e (row (state_root mix T2)).
Proof.
  pose proof clears_sizes as X. destruct (omap_from (fun _ u => proof_from mix (u_kind u) (u_trace u)) 0 clears) as [proofs|] eqn:E; [|discriminate X]. cbn [obind] in X.
  destruct (mpt_n_rows_required mix proofs) as [m|] eqn:M; [|discriminate X]. cbn [obind] in X. destruct (hash_traces mix proofs) as [traces|] eqn:T; [|discriminate X]. cbn [obind checkb] in X.
  apply andb_true_iff in X. destruct X as [X1 X2]. apply Z.eqb_eq in X1. apply Nat.ltb_lt in X2. subst m. pose proof (omap_forall2 clears 0 proofs E) as C.
  destruct (honest_assigned mix clears proofs 2050 true 4 2080 r clears_ok C ltac:(lia) M ltac:(lia)) as (ws & W).
  destruct (fill_env_ok 4096 4090 r ws traces 2080) as (F & R & PL); [lia|lia|lia|lia|]. assert (En : enough_rows mix proofs 2080) by (exists 2050; split; [exact M|lia]).
  assert (T4 : (0 < 4)%nat) by lia. exists proofs, ws, (fill_env 4096 4090 r ws traces). split; [exact C|]. split; [exact W|]. split; [exact F|]. split; [exact R|].
  split; [exact (honest_accepted mix (threads := 4%nat) clears_ok C T4 W F R En T PL)|]. cbv zeta.
  assert (Q : forall t, In (clear t) clears -> slot_value mix t (ad 11) 1 = 0 -> exposes (fill_env 4096 4090 r ws traces) (encode r (Statement (ad 11) (word_rlc r 1) StorageChanged (state_root mix t) (state_root mix T0) f0 (word_rlc r 10)))).
  { intros t Ht Z0. destruct (honest_stated mix clears_ok C T4 W F R En (clear t) Ht) as ([sa ss sk sn so snv sov] & Sy & Ex). change (echal (fill_env 4096 4090 r ws traces)) with r in *.
    destruct Sy as (Y1 & Y2 & Y3 & Y4 & slot & Y5 & Y6 & Y7 & Y8). cbn [clear u_address u_old u_new u_kind u_trace st_address st_kind st_old_root st_new_root st_slot_rlc st_old_value st_new_value] in Y1, Y2, Y3, Y4, Y5, Y6, Y7, Y8.
    apply trace_slot in Y5. destruct Y5 as [Y5 Yk].
    assert (V : forall t, slot_value mix t (ad 11) slot = slot_value mix t (ad 11) 1) by (intros t1; unfold slot_value; rewrite Yk; reflexivity). rewrite V in Y7, Y8. rewrite Z0, word_rlc_0 in Y8. rewrite T0_value in Y7.
    assert (Y9 : ss = word_rlc r 1) by (rewrite Y6; unfold word_rlc; rewrite Y5; reflexivity). clear Y6 V Yk Y5. subst sa sk so sn ss sov snv. exact Ex. }
  split; apply Q; [left; reflexivity|vm_compute; reflexivity|right; left; reflexivity|vm_compute; reflexivity].
Qed.
