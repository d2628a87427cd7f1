(* Concrete cases for Witness.v: an account and a slot that are missing because another one stands in their place. *)
From Coq Require Import ZArith List Bool Lia.
From Verif Require Import Pocklington Fr Query Builder BuilderProofs Gadgets MptUpdate Fixed Bytes TrieSpec TableSpec Util Serde Types UpdateSound UpdateProps HonestTrace HonestSpec HonestCase SoundCase RefuteCase SlotCase ChangeSpec NewAccount NewProps NewCase.
Import ListNotations.
Open Scope Z_scope.

Lemma other_in_place : reached S1 0 (addr_key mix (ad 3)) = Some (ac 11, set_nonce 8 A1).
Proof. vm_compute. reflexivity. Qed.
Lemma other_key : ac 11 <> addr_key mix (ad 3).
Proof. intros E. apply (f_equal val) in E. vm_compute in E. discriminate E. Qed.
Theorem occupied_account : exists e row, circuit_ok mix e 2081 /\ exposes e row /\ nth 2 row f0 = fz (kind_number AccountDoesNotExist) /\ row <> final_row /\
  forall s, row = encode (echal e) s -> 0 <= st_address s < 2 ^ 160 ->
  exists t k b, trie_of mix e 2081 (st_old_root s) t /\ reached t 0 (addr_key mix (st_address s)) = Some (k, b) /\ k <> addr_key mix (st_address s).
Proof.
  destruct (sound_example (Update (ad 3) S1 S1 AccountDoesNotExist (account_trace_of mix S1 S1 (ad 3)))) as (e & row & A & B & C & _ & D & E); [do 8 right; left; reflexivity|cbn [states In u_old]; auto|].
  cbn [u_kind u_address u_old] in *. exists e, row. split; [exact A|]. split; [exact B|]. split; [exact C|]. split; [exact D|].
  intros s X R. destruct (E s X R) as [Y Z]. exists S1, (ac 11), (set_nonce 8 A1). split; [exact Z|]. rewrite Y. split; [exact other_in_place|exact other_key].
Qed.
Lemma slot_owner : reached S1 0 (addr_key mix (ad 11)) = Some (ac 11, set_nonce 8 A1).
Proof. vm_compute. reflexivity. Qed.
Definition slot_occupied : bool := match reached (storage (set_nonce 8 A1)) 0 (slot_key mix 7) with Some (k, _) => negb (feqb k (slot_key mix 7)) | None => false end.
Lemma slot_occupied_true : slot_occupied = true.
Proof. vm_compute. reflexivity. Qed.
Theorem occupied_slot : exists e row, circuit_ok mix e 2081 /\ exposes e row /\ nth 2 row f0 = fz (kind_number StorageDoesNotExist) /\
  forall s, row = encode (echal e) s -> 0 <= st_address s < 2 ^ 160 ->
  st_slot_rlc s = word_rlc (echal e) 7 /\
  exists t a k v, trie_of mix e 2081 (st_old_root s) t /\ get t 0 (addr_key mix (st_address s)) = Some a /\
    reached (storage a) 0 (slot_key mix 7) = Some (k, v) /\ k <> slot_key mix 7.
Proof.
  destruct (slot_table (fz 256)) as (e & OK & Ch & _ & Tr & _ & X). set (st := Statement (ad 11) (word_rlc (fz 256) 7) StorageDoesNotExist (state_root mix S1) (state_root mix S1) (word_rlc (fz 256) 0) (word_rlc (fz 256) 0)) in *.
  exists e, (encode (fz 256) st). split; [exact OK|]. split; [exact X|]. split; [reflexivity|]. rewrite Ch.
  intros s E R. pose proof (encode_256 st s E ltac:(unfold st; cbn [st_address]; apply ad_range; lia) R) as Q. rewrite <- Q.
  pose proof slot_occupied_true as W. unfold slot_occupied in W. destruct (reached (storage (set_nonce 8 A1)) 0 (slot_key mix 7)) as [[k v]|] eqn:G; [|discriminate W].
  split; [reflexivity|]. exists S1, (set_nonce 8 A1), k, v. unfold st. cbn [st_old_root st_address]. split; [apply Tr; left; reflexivity|]. split; [|split; [exact G|]].
  - apply reached_get. exact slot_owner.
  - intros ->. rewrite feqb_refl in W. discriminate W.
Qed.

(* an account created where another one stood, and a slot filled where another one stood *)
Definition occupied {V} (t : tree V) (k : Fr) : bool := match reached t 0 k with Some (o, _) => negb (feqb o k) | None => false end.
Lemma occupied_ok {V} (t : tree V) k : occupied t k = true -> exists o v, reached t 0 k = Some (o, v) /\ o <> k.
Proof.
  unfold occupied. destruct (reached t 0 k) as [[o v]|]; [|discriminate]. intros W. exists o, v. split; [reflexivity|].
  intros ->. rewrite feqb_refl in W. discriminate W.
Qed.
Lemma get_none {V} (t : tree V) k : get t 0 k = None -> ~ present t k.
Proof. intros G (w & W). congruence. Qed.
Lemma create_occupied : case_for BalanceChanged (fun address t t' => let K := addr_key mix address in
  ~ present t K /\ present t' K /\ exists k b, reached t 0 K = Some (k, b) /\ k <> K).
Proof.
  apply (case_of (Update (ad 14) S3 S4 BalanceChanged (account_trace_of mix S3 S4 (ad 14)))); [do 3 right; left; reflexivity|]. cbn [u_address u_old u_new].
  cbv zeta. split; [apply get_none; vm_compute; reflexivity|]. split; [exists (set_balance (2 ^ 100) new_account); vm_compute; reflexivity|].
  apply occupied_ok. vm_compute. reflexivity.
Qed.
Lemma fill_occupied : case_for StorageChanged (fun address t t' => exists a st', get t 0 (addr_key mix address) = Some a /\ get t' 0 (addr_key mix address) = Some (set_storage st' a) /\
  let sk := slot_key mix 5 in ~ present (storage a) sk /\ present st' sk /\ exists k w, reached (storage a) 0 sk = Some (k, w) /\ k <> sk).
Proof.
  apply (case_of (Update (ad 11) S2 S3 StorageChanged (storage_trace_of mix S2 S3 (ad 11) 5))); [do 2 right; left; reflexivity|]. cbn [u_address u_old u_new].
  exists B1, (storage C1). split; [vm_compute; reflexivity|]. split; [vm_compute; reflexivity|]. cbv zeta.
  split; [apply get_none; vm_compute; reflexivity|]. split; [exists (2 ^ 200); vm_compute; reflexivity|].
  apply occupied_ok. vm_compute. reflexivity.
Qed.
