(* False storage claims that are accepted when the byte representation table is not anchored. *)
From Coq Require Import ZArith List Bool Lia.
From Verif Require Import Pocklington Fr Query Builder BuilderProofs Gadgets MptUpdate Fixed Bytes GadgetProofs UpdateRows UpdateSound TrieSpec Util UtilProofs Serde Types Assign AssignProofs AssignOk MptAssign GadgetMain GadgetMain2 GadgetMain3 HonestTrace UpdateProps TableSpec HonestSpec HonestMain HonestCase SoundCase RefuteCase ChangeSpec NewAccount HistoryCase ByteFree SlotFree.
Import ListNotations.
Open Scope Z_scope.

(* slot 1 of account 11 is overwritten, and its slot 7 is not there *)
Definition us3 : list update := [
  Update (ad 11) S1 S2 StorageChanged (storage_trace_of mix S1 S2 (ad 11) 1);
  Update (ad 11) S1 S1 StorageDoesNotExist (storage_trace_of mix S1 S1 (ad 11) 7)].
Definition states3 : list (tree account) := [S1; S2].
Lemma us3_checks : forallb (fun u => wf_check (u_old u) && wf_check (u_new u) && cf_check (HonestCase.all_inputs mix (u_old u) (u_new u))) us3 = true.
Proof. vm_compute. reflexivity. Qed.
Lemma us3_table : table_check us3 states3 1 = true.
Proof. vm_compute. reflexivity. Qed.
Lemma us3_ok : Forall (honest_update mix) us3.
Proof.
  assert (Ho : Forall (fun u => honest mix (u_address u) (u_old u) (u_new u) (u_kind u) (u_trace u)) us3).
  { pose proof us_honest as Ho. rewrite Forall_forall in Ho. apply Forall_cons; [apply Ho; right; left; reflexivity|]. apply Forall_cons; [|apply Forall_nil].
    cbn [u_address u_old u_new u_kind u_trace]. apply (hon_empty_slot mix _ _ _ (set_nonce 8 A1) 7); [lia|vm_compute; reflexivity|vm_compute; reflexivity|reflexivity]. }
  pose proof us3_checks as Ch. rewrite forallb_forall in Ch. rewrite Forall_forall in Ho |- *. intros u Hu. specialize (Ch u Hu). rewrite !andb_true_iff in Ch. destruct Ch as [[C1 C2] C3].
  constructor; [exact (Ho u Hu)| |apply wf_check_ok, C1|apply wf_check_ok, C2|apply cf_check_ok, C3].
  cbn [In us3] in Hu. intuition (subst u; cbn [u_address]; unfold ad; lia).
Qed.
Lemma says_empty r address t slot s : says mix r (Update address t t StorageDoesNotExist (storage_trace_of mix t t address slot)) s ->
  st_address s = address /\ st_kind s = StorageDoesNotExist /\ st_old_root s = state_root mix t /\ st_new_root s = state_root mix t /\ st_slot_rlc s = word_rlc r slot /\ st_old_value s = word_rlc r (slot_value mix t address slot) /\ st_new_value s = word_rlc r (slot_value mix t address slot).
Proof.
  intros (Q1 & Q2 & Q3 & Q4 & x & Q5 & Q6 & Q7 & Q8). cbn [u_address u_kind u_old u_new u_trace] in *. apply trace_slot in Q5. destruct Q5 as [Q5 Qk].
  assert (V : forall t, slot_value mix t address x = slot_value mix t address slot) by (intros t0; unfold slot_value; rewrite Qk; reflexivity). rewrite V in Q7, Q8. unfold word_rlc in Q6. rewrite <- Q5 in Q6. auto 10.
Qed.
(* the table, with the tries it is about *)
Lemma slot_table r : exists e, circuit_ok mix e 2081 /\ echal e = r /\ spare_row e 2081 BR_cols /\ (forall t, In t states3 -> trie_of mix e 2081 (state_root mix t) t) /\
  exposes e (encode r (Statement (ad 11) (word_rlc r 1) StorageChanged (state_root mix S2) (state_root mix S1) (word_rlc r 12) (word_rlc r 10))) /\
  exposes e (encode r (Statement (ad 11) (word_rlc r 7) StorageDoesNotExist (state_root mix S1) (state_root mix S1) (word_rlc r 0) (word_rlc r 0))).
Proof.
  destruct (table_case us3 states3 1 r us3_ok us3_table) as (e & traces & OK & Ch & CF & Cl & _ & _ & SP).
  destruct (Cl _ (or_introl eq_refl)) as (s1 & Y1 & X1). destruct (Cl _ (or_intror (or_introl eq_refl))) as (s2 & Y2 & X2).
  pose proof (proj1 (proj2 (proj2 Y1))) as R1. pose proof (proj1 (proj2 (proj2 (proj2 Y1)))) as R2. cbn [u_old u_new] in R1, R2.
  pose proof (storage_says _ _ _ _ _ _ Y1) as (F1 & F2 & F3 & F4 & F5). pose proof (says_empty _ _ _ _ _ Y2) as (E1 & E2 & E3 & E4 & E5 & E6 & E7).
  assert (V1 : slot_value mix S1 (ad 11) 1 = 10) by (vm_compute; reflexivity). assert (V2 : slot_value mix S2 (ad 11) 1 = 12) by (vm_compute; reflexivity). assert (V7 : slot_value mix S1 (ad 11) 7 = 0) by (vm_compute; reflexivity).
  rewrite V1 in F4. rewrite V2 in F5. rewrite V7 in E6, E7.
  exists e. split; [exact OK|]. split; [exact Ch|]. split; [exact SP|]. split; [|split].
  - intros t Ht. assert (Ht' : In t states) by (unfold states3 in Ht; cbn [In] in Ht; destruct Ht as [<-|[<-|[]]]; cbn [states In]; auto 10).
    pose proof states_checks as Sc. rewrite forallb_forall in Sc. specialize (Sc t Ht'). apply andb_true_iff in Sc. destruct Sc as [Sc1 _]. apply wf_check_ok in Sc1. destruct Sc1 as [Sf _].
    split; [reflexivity|]. split; [|split; [|split]].
    + clear - Sf. revert Sf. induction t as [|k v|l IHl rr IHr]; cbn [tree_all]; [auto|intros [A _]; exact A|intros [A B]; auto].
    + left. reflexivity.
    + clear. induction t as [|k v|l IHl rr IHr]; cbn [tree_all]; [exact Logic.I|left; reflexivity|auto].
    + apply (cf_sub mix _ (inputs2 mix e t t)); [intros x Hx; left; exact Hx|]. exact (CF t t Ht Ht).
  - rewrite <- (statement_is s1 _ _ _ _ _ _ _ F1 F3 F2 R2 R1 F5 F4). exact X1.
  - rewrite <- (statement_is s2 _ _ _ _ _ _ _ E1 E5 E2 E4 E3 E7 E6). exact X2.
Qed.
Lemma trie_kept H e e' n root t : (forall l r d h, poseidon_hit e' l r d h <-> poseidon_hit e l r d h) -> trie_of H e n root t -> trie_of H e' n root t.
Proof.
  intros P (A & B & C & D & [X Y]). split; [exact A|]. split; [exact B|]. split; [exact C|]. split; [exact D|].
  assert (I : forall x, inputs H e' t x -> inputs H e t x) by (intros x [(h & Q)|Q]; [left; exists h; apply P; exact Q|right; exact Q]).
  split; [intros x y Hx Hy; apply X; auto|intros x Hx; apply Y; auto].
Qed.
Lemma word_0 r : word_rlc r 0 = f0.
Proof. replace f0 with (rlc (repeat 0 32) r); [reflexivity|]. unfold rlc. cbn. ring. Qed.
(* the stored slot 4 is claimed to be missing *)
Theorem stored_slot_denied : exists H n t address slot,
  0 <= address < 2 ^ 160 /\ word_ok slot /\ slot_value H t address slot = 11 /\
  forall r, r <> f0 -> exists e, fixed_ok e n /\ sat e (circuit_of (circuit H)) /\ (forall a b d h, poseidon_hit e a b d h -> H a b d = h) /\ echal e = r /\ trie_of H e n (state_root H t) t /\
  exposes e (encode r (Statement address (word_rlc r slot) StorageDoesNotExist (state_root H t) (state_root H t) f0 f0)).
Proof.
  exists mix, 2081, S1, (ad 11), 4. split; [apply ad_range; lia|]. split; [apply small_word; lia|]. split; [vm_compute; reflexivity|]. intros r Hr.
  destruct (slot_table r) as (e & OK & Ch & [SU SP] & Tr & _ & X). rewrite !word_0 in X.
  assert (Hr' : echal e <> f0) by (rewrite Ch; exact Hr).
  destruct (slot_free mix e 2081 OK Hr' SU SP _ StorageDoesNotExist X ltac:(cbn; auto) eq_refl (word_rlc r 4)) as (e' & A & B & C & D & E & _).
  exists e'. split; [exact A|]. split; [exact B|]. split; [intros a b d h Hh; apply (co_poseidon mix e 2081 OK), D, Hh|]. split; [congruence|]. split; [exact (trie_kept mix e e' 2081 _ S1 D (Tr S1 (or_introl eq_refl)))|exact E].
Qed.
(* slot 4 holds 11 in both states, and is claimed to change from 10 to 12 *)
Theorem other_slot_changed : exists H n t t' address slot,
  0 <= address < 2 ^ 160 /\ word_ok slot /\ slot_value H t address slot = 11 /\ slot_value H t' address slot = 11 /\
  forall r, r <> f0 -> exists e, fixed_ok e n /\ sat e (circuit_of (circuit H)) /\ (forall a b d h, poseidon_hit e a b d h -> H a b d = h) /\ echal e = r /\ trie_of H e n (state_root H t) t /\ trie_of H e n (state_root H t') t' /\
  exposes e (encode r (Statement address (word_rlc r slot) StorageChanged (state_root H t') (state_root H t) (word_rlc r 12) (word_rlc r 10))).
Proof.
  exists mix, 2081, S1, S2, (ad 11), 4. split; [apply ad_range; lia|]. split; [apply small_word; lia|]. split; [vm_compute; reflexivity|]. split; [vm_compute; reflexivity|]. intros r Hr.
  destruct (slot_table r) as (e & OK & Ch & [SU SP] & Tr & X & _).
  assert (Hr' : echal e <> f0) by (rewrite Ch; exact Hr).
  destruct (slot_free mix e 2081 OK Hr' SU SP _ StorageChanged X ltac:(cbn; auto) eq_refl (word_rlc r 4)) as (e' & A & B & C & D & E & _).
  exists e'. split; [exact A|]. split; [exact B|]. split; [intros a b d h Hh; apply (co_poseidon mix e 2081 OK), D, Hh|]. split; [congruence|]. split; [exact (trie_kept mix e e' 2081 _ S1 D (Tr S1 (or_introl eq_refl)))|]. split; [exact (trie_kept mix e e' 2081 _ S2 D (Tr S2 (or_intror (or_introl eq_refl))))|exact E].
Qed.
(* with the challenge 1 an RLC of bytes is their sum *)
Lemma rlc_1 bs : Forall is_byte bs -> exists s, 0 <= s <= 255 * Z.of_nat (List.length bs) /\ rlc bs f1 = fz s.
Proof.
  intros F. unfold rlc. 
  assert (G : forall l a, Forall is_byte l -> 0 <= a -> exists s, a <= s <= a + 255 * Z.of_nat (List.length l) /\ fold_left (fun acc b => (f1 * acc + fz b)%fr) l (fz a) = fz s).
  { induction l as [|b l IH]; intros a Fl Ha; [exists a; split; [cbn [List.length]; lia|reflexivity]|]. inversion Fl as [|? ? Hb Fl']; subst. unfold is_byte in Hb.
    destruct (IH (a + b) Fl' ltac:(lia)) as (s & Hs & E). exists s. split; [cbn [List.length]; lia|]. cbn [fold_left]. rewrite <- E. f_equal. rewrite fz_add. ring. }
  destruct (G bs 0 F ltac:(lia)) as (s & Hs & E). exists s. split; [lia|exact E].
Qed.
Theorem word_gadget_fooled : exists H e n bs word_hash high low rlc_word rlc_high rlc_low i,
  fixed_ok e n /\ satisfied e (circuit H) /\ (forall a b d h, poseidon_hit e a b d h -> H a b d = h) /\ echal e <> f0 /\
  part_of byte_representation_configure (circuit H) /\ occurs (word_rlc_configure word_hash high low rlc_word rlc_high rlc_low) bs (circuit H) /\ enabled e i /\ GadgetMain.all_one e i bs /\
  ~ exists w, 0 <= w < 2 ^ 256 /\ eadv e word_hash i = H (fz (w / 2 ^ 128)) (fz (w mod 2 ^ 128)) (fz 512) /\ eadv e rlc_word i = rlc (be_bytes 32 w) (echal e).
Proof.
  destruct (slot_table f1) as (e & OK & Ch & [SU SP] & Tr & X & _). assert (N1 : f1 <> f0) by (intros Q; apply (f_equal val) in Q; vm_compute in Q; discriminate Q). assert (Hr' : echal e <> f0) by (rewrite Ch; exact N1).
  destruct (word_value_free mix e 2081 OK Hr' SU SP _ X eq_refl (fz 10000)) as (e' & i & A & B & C & D & E & G & V).
  exists mix, e', 2081. do 7 eexists. exists i. split; [exact A|]. split; [split; [exact (fixed_wf e' 2081 A)|exact B]|]. split; [intros a b d h Hh; apply (co_poseidon mix e 2081 OK), D, Hh|]. split; [congruence|].
  split; [apply part_left, part_here|]. split; [exact (slot_gadget mix)|]. split; [exact E|]. split; [exact G|].
  intros (w & Hw & _ & Q). rewrite V, C, Ch in Q. destruct (rlc_1 (be_bytes 32 w)) as (s & Hs & Es); [apply be_bytes_ok|]. rewrite Es in Q. rewrite be_bytes_length in Hs.
  assert (100000 < modulus) by reflexivity. apply fz_inj in Q; lia.
Qed.
