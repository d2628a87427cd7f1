(* The tries of the forgeries of Forgeries.v, ForgeByte.v and ForgeBits.v exist: concrete cases for the hash function mix of
   HonestCase.v. *)
From Coq Require Import ZArith List Bool Lia.
From Verif Require Import Pocklington Fr Query Builder Gadgets MptUpdate Fixed Bytes TrieSpec TableSpec UpdateSound UpdateProps GadgetMain ChangeSpec HonestSpec HonestCase SoundCase Forge Forgeries ForgeByte ForgeBits.
Import ListNotations.
Open Scope Z_scope.

Lemma ad_small h : 0 <= h < 100 -> 0 <= ad h < 2 ^ 160.
Proof. intros Hh. unfold ad. split; [apply Z.mul_nonneg_nonneg; lia|]. apply (Z.lt_le_trans _ (100 * 2 ^ 32)); [apply Z.mul_lt_mono_pos_r; lia|vm_compute; discriminate]. Qed.
Lemma A1_ok : account_ok A1.
Proof. assert (2 ^ 248 < modulus) by reflexivity. unfold account_ok, word_ok. cbn [A1 nonce code_size balance keccak_code_hash storage tree_all]. repeat split; lia. Qed.
(* the account of address 15 is replaced by, doubled for, or inserted beside the one of address 11 *)
Notation k11 := (addr_key mix (ad 11)). Notation k15 := (addr_key mix (ad 15)).
Lemma cf_replaced : collision_free mix (fun y => In y (Forgeries.all_inputs mix (ad 11) (ad 15) (Leaf k15 A1) (Leaf k11 (set_nonce 8 new_account)))).
Proof. apply cf_list_ok. vm_compute. reflexivity. Qed.
Lemma cf_misplaced : collision_free mix (fun y => In y (Forgeries.all_inputs mix (ad 11) (ad 15) (Leaf k15 A1) (beside (kbit k11 0) (Leaf k15 A1) (Leaf k11 (set_nonce 8 new_account))))).
Proof. apply cf_list_ok. vm_compute. reflexivity. Qed.
Lemma cf_doubled : collision_free mix (fun y => In y (Forgeries.all_inputs mix (ad 11) (ad 15) (Leaf k15 A1) (Node (Leaf k15 A1) (Leaf k15 A1)))).
Proof. apply cf_list_ok. vm_compute. reflexivity. Qed.
Lemma same_side : kbit k15 0 = kbit k11 0. Proof. vm_compute. reflexivity. Qed.
Lemma cf_created : collision_free mix (fun y => In y (cr_inputs mix (ad 11) 5 77 1000 24 (2 ^ 100) (2 ^ 255) (fz 9))).
Proof. apply cf_list_ok. vm_compute. reflexivity. Qed.
Lemma cf_denied : collision_free mix (fun y => In y (dn_inputs mix (ad 11) A1 10 (2 ^ 32))).
Proof. apply cf_list_ok. vm_compute. reflexivity. Qed.
Lemma cf_hidden : collision_free mix (fun y => In y (hd_inputs mix (ad 11) A1 8)).
Proof. apply cf_list_ok. vm_compute. reflexivity. Qed.
Lemma bit_8 : kbit k11 8 = true. Proof. vm_compute. reflexivity. Qed.
Lemma rich_ok : account_ok (mkAccount 1000 24 (2 ^ 100) (2 ^ 255) (fz 9) (Leaf (slot_key mix 5) 77)).
Proof. assert (2 ^ 248 < modulus) by reflexivity. unfold account_ok, word_ok. cbn [nonce code_size balance keccak_code_hash storage tree_all]. repeat split; lia. Qed.
