(* The table of SoundCase.v meets the hypotheses of the theorems about pairs of tries. *)
From Coq Require Import ZArith List Bool Lia.
From Verif Require Import Pocklington Fr Query Builder BuilderProofs Gadgets MptUpdate Fixed Bytes GadgetProofs UpdateRows UpdateWalk UpdateSound UpdateClaims TrieSpec TableSpec Util UtilProofs Serde HonestTrace Types GadgetMain UpdateProps HonestSpec HonestCase SoundCase Address Free RefuteCase ChangeSpec NewAccount NewProps.
Import ListNotations.
Open Scope Z_scope.

Lemma states_of_us : Forall (fun u => In (u_old u) states /\ In (u_new u) states) us.
Proof. repeat (apply Forall_cons || apply Forall_nil); cbn [u_old u_new states In]; auto 20. Qed.
Lemma bits_all {V} (f : V -> nat) (t : tree V) : tree_all (fun a => bits_ok 2081 (f a)) t.
Proof. induction t as [|k v|l IHl r IHr]; cbn [tree_all]; [exact Logic.I|left; reflexivity|auto]. Qed.
Lemma change_example u : In u us -> exists e row, circuit_ok mix e 2081 /\ exposes e row /\ row <> blank_row /\ row <> final_row /\
  forall s, row = encode (echal e) s -> 0 <= st_address s < 2 ^ 160 -> st_kind s = u_kind u /\ st_address s = u_address u /\ tries_of mix e 2081 s (u_old u) (u_new u).
Proof.
  intros Hu. destruct (sound_case2 (fz 256)) as (e & OK & Ch & Tr & CF & Cl). destruct (Cl u Hu) as (s & (Q1 & Q2 & Q3 & Q4 & _) & Ex). rewrite <- Ch in Ex.
  assert (A : 0 < u_address u < 2 ^ 160).
  { assert (A : Forall (fun u => exists h, u_address u = ad h /\ 0 < h < 100) us) by (repeat (apply Forall_cons || apply Forall_nil); cbn [u_address]; eexists; (split; [reflexivity|lia])).
    rewrite Forall_forall in A. destruct (A u Hu) as (h & -> & Hh). pose proof (ad_range h ltac:(lia)) as R. assert (0 < 2 ^ 32) by reflexivity. unfold ad in *. nia. }
  assert (Z : fz (st_address s) <> f0).
  { intros Q. change f0 with (fz 0) in Q. rewrite Q1 in Q. apply fz_inj in Q; [lia|apply small_lt_modulus; lia|apply small_lt_modulus; lia]. }
  exists e, (encode (echal e) s). split; [exact OK|]. split; [exact Ex|]. split; [intros E; apply Z; exact (f_equal (fun l => nth 0 l f0) E)|]. split; [intros E; apply Z; exact (f_equal (fun l => nth 0 l f0) E)|].
  intros s' E R'. rewrite Ch in E. pose proof (encode_256 s s' E ltac:(rewrite Q1; lia) R') as Es. rewrite <- Es, Q1, Q2. split; [reflexivity|]. split; [reflexivity|].
  pose proof states_of_us as Su. rewrite Forall_forall in Su. destruct (Su u Hu) as [U1 U2].
  split; [symmetry; exact Q3|symmetry; exact Q4|exact (proj1 (proj2 (Tr _ U1)))|exact (proj1 (proj2 (Tr _ U2)))|left; reflexivity|left; reflexivity|apply bits_all|apply bits_all|exact (CF _ _ U1 U2)].
Qed.
Lemma states_placed t : In t states -> placed t [].
Proof. pose proof states_checks as Sc. rewrite forallb_forall in Sc. intros Ht. specialize (Sc t Ht). apply andb_true_iff in Sc. destruct Sc as [Sc1 _]. apply wf_check_ok in Sc1. apply Sc1. Qed.
Definition case_for (p : MPTProofType) (P : Z -> tree account -> tree account -> Prop) : Prop :=
  exists e row, circuit_ok mix e 2081 /\ exposes e row /\ row <> blank_row /\ row <> final_row /\
  forall s, row = encode (echal e) s -> 0 <= st_address s < 2 ^ 160 -> st_kind s = p /\
  exists t t', tries_of mix e 2081 s t t' /\ P (st_address s) t t'.
Lemma case_of u (P : Z -> tree account -> tree account -> Prop) : In u us -> P (u_address u) (u_old u) (u_new u) -> case_for (u_kind u) P.
Proof.
  intros Hu HP. destruct (change_example u Hu) as (e & row & A & B & C & D & E). exists e, row. do 4 (split; [assumption|]).
  intros s X R. destruct (E s X R) as (Y1 & Y2 & Y3). split; [exact Y1|]. exists (u_old u), (u_new u). split; [exact Y3|]. rewrite Y2. exact HP.
Qed.
(* a nonce that changes *)
Lemma nonce_case : case_for NonceChanged (fun address t t' => get t 0 (addr_key mix address) = Some A1 /\ get t' 0 (addr_key mix address) = Some (set_nonce 8 A1)).
Proof. apply (case_of (Update (ad 11) S0 S1 NonceChanged (account_trace_of mix S0 S1 (ad 11)))); [left; reflexivity|]. cbn [u_address u_old u_new]. split; vm_compute; reflexivity. Qed.
Lemma placed_case : case_for NonceChanged (fun address t t' => placed t [] /\ present t (addr_key mix address) /\ t <> t').
Proof.
  apply (case_of (Update (ad 11) S0 S1 NonceChanged (account_trace_of mix S0 S1 (ad 11)))); [left; reflexivity|]. cbn [u_address u_old u_new].
  split; [apply states_placed; cbn [states In]; auto|]. split; [exists A1; vm_compute; reflexivity|]. intros E. apply (f_equal (fun t => option_map nonce (get t 0 (addr_key mix (ad 11))))) in E. vm_compute in E. discriminate E.
Qed.
(* a slot that is filled next to two others *)
Lemma fill_case : case_for StorageChanged (fun address t t' => exists a st', get t 0 (addr_key mix address) = Some a /\ get t' 0 (addr_key mix address) = Some (set_storage st' a) /\
  placed (storage a) [] /\ placed st' [] /\ get (storage a) 0 (slot_key mix 5) = None /\ get st' 0 (slot_key mix 5) = Some (2 ^ 200) /\ get (storage a) 0 (slot_key mix 4) = Some 11 /\ get (storage a) 0 (slot_key mix 1) = Some 12).
Proof.
  apply (case_of (Update (ad 11) S2 S3 StorageChanged (storage_trace_of mix S2 S3 (ad 11) 5))); [do 2 right; left; reflexivity|]. cbn [u_address u_old u_new].
  exists B1, (storage C1). split; [vm_compute; reflexivity|]. split; [vm_compute; reflexivity|]. split; [apply placed_check_ok; vm_compute; reflexivity|]. split; [apply placed_check_ok; vm_compute; reflexivity|]. do 3 (split; [vm_compute; reflexivity|]). vm_compute; reflexivity.
Qed.
(* an account that is created next to three others *)
Lemma create_case : case_for BalanceChanged (fun address t t' => get t 0 (addr_key mix address) = None /\ get t' 0 (addr_key mix address) = Some (set_balance (2 ^ 100) new_account) /\
  placed t' [] /\ (forall o b, t = Leaf o b -> o = addr_key mix address) /\ present t (addr_key mix (ad 2)) /\ present t (addr_key mix (ad 11)) /\ present t (addr_key mix (ad 15))).
Proof.
  apply (case_of (Update (ad 14) S3 S4 BalanceChanged (account_trace_of mix S3 S4 (ad 14)))); [do 3 right; left; reflexivity|]. cbn [u_address u_old u_new].
  split; [vm_compute; reflexivity|]. split; [vm_compute; reflexivity|]. split; [apply states_placed; cbn [states In]; auto 10|].
  split; [intros o b Q; exfalso; clear - Q; vm_compute in Q; discriminate Q|]. unfold present. do 2 (split; [eexists; vm_compute; reflexivity|]). eexists; vm_compute; reflexivity.
Qed.
(* an account that does not exist *)
Lemma absent_case : case_for AccountDoesNotExist (fun address t t' => get t' 0 (addr_key mix address) = None).
Proof. apply (case_of (Update (ad 3) S1 S1 AccountDoesNotExist (account_trace_of mix S1 S1 (ad 3)))); [do 8 right; left; reflexivity|]. cbn [u_address u_old u_new]. exact (proj1 (proj2 no_account_3)). Qed.
