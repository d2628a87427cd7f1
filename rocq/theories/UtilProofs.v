(* Facts about util.rs. *)
From Coq Require Import ZArith List Bool Lia.
From Verif Require Import Pocklington Fr Query Gadgets Bytes TrieSpec Util.
Import ListNotations.
Open Scope Z_scope.

Definition address_ok (a : list Z) : Prop := length a = 20%nat /\ bytes_ok a.

Lemma two256_gt : modulus < 2 ^ 256. Proof. reflexivity. Qed.
Lemma two253_lt : 2 ^ 253 < modulus. Proof. reflexivity. Qed.
Lemma val_256 x : 0 <= val x < 256 ^ 32.
Proof. pose proof (val_range x). pose proof two256_gt. change (256 ^ 32) with (2 ^ 256). lia. Qed.

(** ** bytes of field elements *)
Lemma le_val_fr_to_bytes x : le_val (fr_to_bytes x) = val x.
Proof. unfold le_val, fr_to_bytes. rewrite rev_involutive. apply be_val_be_bytes. apply val_256. Qed.
Lemma fr_from_to x : fr_from_bytes (fr_to_bytes x) = Some x.
Proof.
  unfold fr_from_bytes. rewrite le_val_fr_to_bytes, fz_val. pose proof (val_range x).
  replace (val x <? modulus) with true; [reflexivity|]. symmetry. apply Z.ltb_lt. lia.
Qed.
Lemma bytes_ok_rev l : bytes_ok l -> bytes_ok (rev l).
Proof. unfold bytes_ok. rewrite !Forall_forall. intros A x Hx. apply A, in_rev, Hx. Qed.
Lemma fr_to_from l x : length l = 32%nat -> bytes_ok l -> fr_from_bytes l = Some x -> fr_to_bytes x = l.
Proof.
  unfold fr_from_bytes. destruct (le_val l <? modulus) eqn:Q; [|discriminate]. intros L B E. injection E as <-.
  apply Z.ltb_lt in Q. pose proof (be_val_range (rev l) (bytes_ok_rev l B)) as R.
  unfold fr_to_bytes. rewrite val_fz_small by (unfold le_val in *; lia). unfold le_val.
  transitivity (rev (rev l)); [f_equal|apply rev_involutive].
  assert (L' : length (rev l) = 32%nat) by (rewrite rev_length; exact L).
  rewrite <- L'. apply be_bytes_be_val, bytes_ok_rev, B.
Qed.
Lemma fr_bit_testbit x i : fr_bit x i = kbit x i.
Proof.
  unfold fr_bit, kbit, fr_to_bytes. rewrite rev_involutive. pose proof (val_256 x) as V.
  assert (D0 : 0 <= Z.of_nat i / 8) by (apply Z.div_pos; lia).
  destruct (Z.of_nat i / 8 <? 32) eqn:Q.
  - apply Z.ltb_lt in Q. set (j := Z.to_nat (Z.of_nat i / 8)).
    assert (Hj : Z.of_nat j = Z.of_nat i / 8) by (unfold j; lia).
    rewrite (nth_error_nth' _ 0) by (rewrite be_bytes_length; lia).
    rewrite nth_be_bytes by lia. rewrite land_shift_testbit by (apply Z.mod_pos_bound; lia).
    rewrite (testbit_byte (val x) (Z.of_nat i)) by lia. unfold be_byte.
    replace (Z.of_nat 32 - 1 - Z.of_nat (31 - j)) with (Z.of_nat i / 8) by lia. reflexivity.
  - apply Z.ltb_ge in Q. symmetry. pose proof (Z_div_mod_eq_full (Z.of_nat i) 8). pose proof (Z.mod_pos_bound (Z.of_nat i) 8 ltac:(lia)).
    destruct (Z.eq_dec (val x) 0) as [->|Ne]; [apply Z.bits_0|].
    apply Z.bits_above_log2; [lia|]. apply Z.log2_lt_pow2; [lia|]. change (256 ^ 32) with (2 ^ 256) in V.
    eapply Z.lt_le_trans; [apply V|]. apply Z.pow_le_mono_r; lia.
Qed.

(** ** digits *)
Lemma zsize_div z b : 1 < b -> 0 < z -> (zsize (z / b) < zsize z)%nat.
Proof.
  intros Hb Hz. assert (S : forall x, 0 < x -> Z.of_nat (zsize x) = Z.log2 x + 1).
  { intros x Hx. destruct x as [|p|p]; try lia. cbn [zsize]. destruct p as [p|p|]; cbn; try lia.
    - induction p as [p IH|p IH|]; cbn in *; lia.
    - induction p as [p IH|p IH|]; cbn in *; lia. }
  destruct (Z.eq_dec (z / b) 0) as [->|Ne]; [cbn; specialize (S z Hz); pose proof (Z.log2_nonneg z); lia|].
  assert (0 <= z / b) by (apply Z.div_pos; lia).
  pose proof (S z Hz). pose proof (S (z / b) ltac:(lia)).
  assert (Z.log2 (z / b) < Z.log2 z); [|lia].
  apply Z.log2_lt_pow2; [lia|]. apply Z.div_lt_upper_bound; [lia|].
  pose proof (Z.log2_spec z Hz) as [_ L]. rewrite Z.pow_succ_r in L by apply Z.log2_nonneg.
  assert (0 < 2 ^ Z.log2 z) by (apply Z.pow_pos_nonneg; [lia|apply Z.log2_nonneg]). nia.
Qed.
(* the number with the given digits, least significant first *)
Fixpoint of_digits (b : Z) (l : list Z) : Z := match l with [] => 0 | d :: r => d + b * of_digits b r end.
Lemma digits_fuel_spec b fuel z : 1 < b -> 0 <= z -> (zsize z <= fuel)%nat -> of_digits b (digits_fuel fuel b z) = z.
Proof.
  intros Hb. revert z. induction fuel as [|f IH]; intros z Hz L.
  - destruct z as [|p|p]; cbn in *; try lia. destruct p; cbn in L; lia.
  - cbn [digits_fuel]. destruct (z =? 0) eqn:Q; [apply Z.eqb_eq in Q; subst z; reflexivity|].
    apply Z.eqb_neq in Q. cbn [of_digits]. rewrite IH; [|apply Z.div_pos; lia|pose proof (zsize_div z b Hb ltac:(lia)); lia].
    pose proof (Z_div_mod_eq_full z b). lia.
Qed.
Lemma digits_range b fuel z : 1 < b -> Forall (fun d => 0 <= d < b) (digits_fuel fuel b z).
Proof.
  intros Hb. revert z. induction fuel as [|f IH]; intros z; [constructor|]. cbn [digits_fuel]. destruct (z =? 0); constructor.
  - apply Z.mod_pos_bound. lia.
  - apply IH.
Qed.
Lemma digits_len b fuel z n : 1 < b -> 0 <= z < b ^ Z.of_nat n -> (length (digits_fuel fuel b z) <= n)%nat.
Proof.
  intros Hb. revert fuel z. induction n as [|n IH]; intros fuel z Hz.
  - assert (z = 0) by (cbn in Hz; lia). subst z. destruct fuel; cbn; lia.
  - destruct fuel as [|f]; [cbn; lia|]. cbn [digits_fuel]. destruct (z =? 0); [cbn; lia|]. cbn [length]. apply le_n_S, IH.
    rewrite Nat2Z.inj_succ, Z.pow_succ_r in Hz by lia. split; [apply Z.div_pos; lia|apply Z.div_lt_upper_bound; lia].
Qed.
Lemma digits_len_ge b fuel z n : 1 < b -> b ^ Z.of_nat n <= z -> (zsize z <= fuel)%nat -> (n < length (digits_fuel fuel b z))%nat.
Proof.
  intros Hb Hz L.
  assert (P : 0 < b ^ Z.of_nat n) by (apply Z.pow_pos_nonneg; lia).
  pose proof (digits_fuel_spec b fuel z Hb ltac:(lia) L) as S. pose proof (digits_range b fuel z Hb) as R.
  assert (U : forall l, Forall (fun d => 0 <= d < b) l -> 0 <= of_digits b l < b ^ Z.of_nat (length l)).
  { induction l as [|d l IH]; intros F; [cbn; lia|]. inversion F as [|? ? D F']; subst. specialize (IH F'). cbn [of_digits length].
    rewrite Nat2Z.inj_succ, Z.pow_succ_r by lia. nia. }
  specialize (U _ R). rewrite S in U. apply Nat2Z.inj_lt. apply (Z.pow_lt_mono_r_iff b); [lia|lia|lia].
Qed.
Lemma be_val_rev_digits l : be_val (rev l) = of_digits 256 l.
Proof. induction l as [|d l IH]; [reflexivity|]. cbn [rev of_digits]. rewrite be_val_snoc, IH. lia. Qed.
Lemma be_val_to_bytes_be z : 0 <= z -> be_val (to_bytes_be z) = z.
Proof.
  intros Hz. unfold to_bytes_be. pose proof (digits_fuel_spec 256 (zsize z) z ltac:(lia) Hz (le_n _)) as S.
  destruct (digits_fuel (zsize z) 256 z) as [|d l] eqn:Q; [cbn in *; lia|]. rewrite <- S. rewrite be_val_rev_digits. reflexivity.
Qed.
Lemma to_bytes_be_len z : 0 <= z -> (length (to_bytes_be z) <= 32)%nat <-> z < 2 ^ 256.
Proof.
  intros Hz. unfold to_bytes_be. change (2 ^ 256) with (256 ^ Z.of_nat 32). split; intros L.
  - destruct (Z_lt_dec z (256 ^ Z.of_nat 32)) as [|G]; [assumption|]. exfalso.
    pose proof (digits_len_ge 256 (zsize z) z 32 ltac:(lia) ltac:(lia) (le_n _)) as K.
    destruct (digits_fuel (zsize z) 256 z); [cbn [length] in K; lia|]. rewrite rev_length in L. lia.
  - pose proof (digits_len 256 (zsize z) z 32 ltac:(lia) ltac:(lia)). destruct (digits_fuel (zsize z) 256 z); [cbn; lia|].
    rewrite rev_length. assumption.
Qed.
Lemma u256_from_biguint_spec z : 0 <= z -> u256_from_biguint z = if z <? 2 ^ 256 then Some z else None.
Proof.
  intros Hz. unfold u256_from_biguint, u256_from_big_endian. rewrite be_val_to_bytes_be by exact Hz.
  pose proof (to_bytes_be_len z Hz) as L. destruct (length (to_bytes_be z) <=? 32)%nat eqn:Q.
  - apply Nat.leb_le in Q. apply L in Q. apply Z.ltb_lt in Q. rewrite Q. reflexivity.
  - apply Nat.leb_gt in Q. destruct (Z.ltb_spec z (2 ^ 256)); [|reflexivity]. exfalso. apply L in H. lia.
Qed.
Lemma fold_digits_rev l a : fold_left (fun a d => (a * (fz (Z.shiftl 1 32) * fz (Z.shiftl 1 32)) + fz d)%fr) (rev l) a
  = (a * fpow (fz (2 ^ 64)) (length l) + fz (of_digits (2 ^ 64) l))%fr.
Proof.
  induction l as [|d l IH]; [cbn; ring|]. cbn [rev length of_digits fpow].
  rewrite fold_left_app, IH. cbn [fold_left]. rewrite fz_add, (fz_mul (2 ^ 64)).
  change (fz (Z.shiftl 1 32) * fz (Z.shiftl 1 32))%fr with (fz (2 ^ 32) * fz (2 ^ 32))%fr. rewrite <- (fz_mul (2 ^ 32)).
  change (2 ^ 32 * 2 ^ 32) with (2 ^ 64). ring.
Qed.
Lemma fr_from_biguint_spec b : 0 <= b -> fr_from_biguint b = fz b.
Proof.
  intros Hb. unfold fr_from_biguint. rewrite fold_digits_rev. unfold to_u64_digits.
  rewrite digits_fuel_spec by (try lia; reflexivity). ring.
Qed.
Lemma big_uint_to_fr_spec b : 0 <= b -> big_uint_to_fr b = fz b.
Proof. exact (fr_from_biguint_spec b). Qed.

(** ** words *)
Lemma u256_hi_lo_spec x : 0 <= x < 2 ^ 256 -> u256_hi_lo x = (x / 2 ^ 128, x mod 2 ^ 128).
Proof.
  intros Hx. unfold u256_hi_lo, u256_words, limbs64. cbn [nth]. rewrite !Z.shiftl_mul_pow2 by lia.
  assert (A : forall y, y mod 2 ^ 64 + (y / 2 ^ 64) mod 2 ^ 64 * 2 ^ 64 = y mod 2 ^ 128).
  { intros y. change (2 ^ 128) with (2 ^ 64 * 2 ^ 64). rewrite Z.rem_mul_r by lia. lia. }
  f_equal.
  - change (2 ^ 192) with (2 ^ 128 * 2 ^ 64). rewrite <- Z.div_div by lia. rewrite Z.add_comm, A. apply Z.mod_small.
    split; [apply Z.div_pos; lia|apply Z.div_lt_upper_bound; [lia|]]. change (2 ^ 128 * 2 ^ 128) with (2 ^ 256). lia.
  - rewrite Z.add_comm. apply A.
Qed.
Lemma split_word_spec x : 0 <= x < 2 ^ 256 -> split_word x = (fz (x / 2 ^ 128), fz (x mod 2 ^ 128)).
Proof.
  intros Hx. unfold split_word, u256_to_be, uint_from_be_bytes, fr_from_u128. change 32%nat with (16 + 16)%nat. rewrite be_bytes_app.
  assert (FS : forall (a b : list Z), length a = 16%nat -> firstn 16 (a ++ b) = a /\ skipn 16 (a ++ b) = b).
  { intros a b <-. split; [rewrite firstn_app, Nat.sub_diag, firstn_all; apply app_nil_r|rewrite skipn_app, Nat.sub_diag, skipn_all; reflexivity]. }
  destruct (FS (be_bytes 16 (x / 256 ^ Z.of_nat 16)) (be_bytes 16 x) (be_bytes_length _ _)) as [-> ->].
  change (256 ^ Z.of_nat 16) with (2 ^ 128). f_equal; f_equal.
  - apply be_val_be_bytes. change (256 ^ Z.of_nat 16) with (2 ^ 128).
    split; [apply Z.div_pos; lia|apply Z.div_lt_upper_bound; [lia|]]. change (2 ^ 128 * 2 ^ 128) with (2 ^ 256). lia.
  - rewrite <- be_bytes_mod. change (256 ^ Z.of_nat 16) with (2 ^ 128). apply be_val_be_bytes.
    change (256 ^ Z.of_nat 16) with (2 ^ 128). apply Z.mod_pos_bound. lia.
Qed.
Lemma zero_digits n s : repeat 0 n = map (fun j => (0 / (2 ^ 64) ^ Z.of_nat j) mod 2 ^ 64) (seq s n).
Proof.
  revert s. induction n as [|n IHn]; intros s; [reflexivity|]. cbn [repeat seq map]. f_equal. apply IHn.
Qed.
Lemma digit4 z : 0 <= z -> resize4 (to_u64_digits z) = limbs64 z.
Proof.
  intros Hz. unfold resize4, to_u64_digits, limbs64.
  assert (G : forall k fuel y, 0 <= y -> (zsize y <= fuel)%nat -> firstn k (digits_fuel fuel (2 ^ 64) y ++ repeat 0 k) =
    map (fun j => (y / (2 ^ 64) ^ Z.of_nat j) mod 2 ^ 64) (seq 0 k)).
  { induction k as [|k IH]; intros fuel y Hy L; [reflexivity|]. destruct fuel as [|f].
    - assert (y = 0) as -> by (destruct y as [|p|p]; cbn in *; try lia; destruct p; cbn in L; lia).
      cbn [digits_fuel app]. rewrite firstn_all2 by (rewrite repeat_length; lia).
      apply zero_digits.
    - cbn [digits_fuel]. destruct (y =? 0) eqn:Q.
      + apply Z.eqb_eq in Q. subst y. cbn [app]. rewrite firstn_all2 by (rewrite repeat_length; lia).
        apply zero_digits.
      + apply Z.eqb_neq in Q. cbn [app firstn seq map]. f_equal; [cbn [Z.of_nat]; rewrite Z.pow_0_r, Z.div_1_r; reflexivity|].
        replace (firstn k (digits_fuel f (2 ^ 64) (y / 2 ^ 64) ++ repeat 0 (S k))) with (firstn k (digits_fuel f (2 ^ 64) (y / 2 ^ 64) ++ repeat 0 k)).
        * rewrite IH; [|apply Z.div_pos; lia|pose proof (zsize_div y (2 ^ 64) ltac:(lia) ltac:(lia)); lia].
          rewrite <- seq_shift, map_map. apply map_ext. intros j. f_equal. rewrite Nat2Z.inj_succ, Z.pow_succ_r by lia.
          assert (0 < (2 ^ 64) ^ Z.of_nat j) by (apply Z.pow_pos_nonneg; lia). rewrite Z.div_div by lia. reflexivity.
        * rewrite !firstn_app. f_equal. set (m := (k - length (digits_fuel f (2 ^ 64) (y / 2 ^ 64)))%nat).
          assert (Hm : (m <= k)%nat) by lia. clearbody m. replace (S k) with (k + 1)%nat by lia. rewrite repeat_app, firstn_app, repeat_length.
          replace (m - k)%nat with 0%nat by lia. cbn [firstn]. rewrite app_nil_r. reflexivity. }
  specialize (G 4%nat (zsize z) z Hz (le_n _)). cbn [repeat] in G. rewrite G. cbn [seq map].
  change (Z.of_nat 0) with 0. rewrite Z.pow_0_r, Z.div_1_r. reflexivity.
Qed.
Lemma hi_lo_spec x : 0 <= x < 2 ^ 256 -> hi_lo x = (fz (x / 2 ^ 128), fz (x mod 2 ^ 128)).
Proof.
  intros Hx. unfold hi_lo. rewrite digit4 by lia. change (limbs64 x) with (u256_words x).
  transitivity (fz (fst (u256_hi_lo x)), fz (snd (u256_hi_lo x))); [reflexivity|]. rewrite u256_hi_lo_spec by exact Hx. reflexivity.
Qed.

(** ** addresses *)
Lemma address_val a : address_ok a -> be_val a = address_high a * 2 ^ 32 + address_low a /\
  0 <= address_high a < 2 ^ 128 /\ 0 <= address_low a < 2 ^ 32.
Proof.
  intros [L B]. unfold address_high, address_low, uint_from_be_bytes.
  rewrite <- (firstn_skipn 16 a) in B. apply Forall_app in B. destruct B as [B1 B2].
  pose proof (be_val_range _ B1) as R1. pose proof (be_val_range _ B2) as R2.
  rewrite firstn_length, L in R1. rewrite skipn_length, L in R2. change (256 ^ Z.of_nat (Nat.min 16 20)) with (2 ^ 128) in R1.
  change (256 ^ Z.of_nat (20 - 16)) with (2 ^ 32) in R2.
  split; [|split; assumption]. rewrite <- (firstn_skipn 16 a) at 1. rewrite be_val_app, skipn_length, L. reflexivity.
Qed.
Lemma address_halves a : address_ok a -> address_high a = be_val a / 2 ^ 32 /\ address_low a = be_val a mod 2 ^ 32.
Proof.
  intros A. destruct (address_val a A) as (E & R1 & R2). split.
  - apply (Z.div_unique_pos _ _ _ (address_low a)); lia.
  - apply (Z.mod_unique_pos _ _ (address_high a)); lia.
Qed.
Lemma account_key_spec H a : address_ok a -> account_key H a = addr_key H (be_val a).
Proof.
  intros A. destruct (address_halves a A) as [E1 E2]. unfold account_key, addr_key, domain_hash, fr_from_u128.
  fold (address_high a) (address_low a). rewrite E1, E2, Z.shiftl_mul_pow2 by lia. reflexivity.
Qed.
Lemma storage_key_hash_spec H w : 0 <= w < 2 ^ 256 -> storage_key_hash H w = slot_key H w.
Proof. intros Hw. unfold storage_key_hash. rewrite split_word_spec by exact Hw. reflexivity. Qed.
Lemma address_inj a b : address_ok a -> address_ok b -> be_val a = be_val b -> a = b.
Proof. intros [L1 B1] [L2 B2] E. apply be_val_inj; try assumption. congruence. Qed.
Lemma u256_from_hex_spec l : length l = 32%nat -> bytes_ok l -> u256_from_hex l = Some (be_val l) /\ 0 <= be_val l < 2 ^ 256.
Proof.
  intros L B. unfold u256_from_hex, u256_from_big_endian. rewrite L. split; [reflexivity|].
  pose proof (be_val_range l B) as R. rewrite L in R. exact R.
Qed.
Lemma word_rlc_halves w r : rlc (u256_to_big_endian w) r =
  (rlc (be_bytes 16 (w / 2 ^ 128)) r * fpow r 16 + rlc (be_bytes 16 w) r)%fr.
Proof.
  unfold u256_to_big_endian, u256_to_be. change 32%nat with (16 + 16)%nat. rewrite be_bytes_app, rlc_app, be_bytes_length. reflexivity.
Qed.
