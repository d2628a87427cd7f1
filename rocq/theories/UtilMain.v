(* The statements of PropsUtil.v that need more than one lemma. *)
From Coq Require Import ZArith List Bool Lia.
From Verif Require Import Pocklington Fr Query Builder BuilderProofs Gadgets MptUpdate Fixed Bytes TrieSpec TableSpec UpdateRows UpdateSound UpdateProps Util UtilProofs RlcProofs Serde SerdeProofs.
Import ListNotations.
Open Scope Z_scope.

Lemma word_split x : 0 <= x < 2 ^ 256 ->
  exists hi lo, u256_hi_lo x = (hi, lo) /\ split_word x = (fz hi, fz lo) /\ hi_lo x = (fz hi, fz lo) /\
    hi * 2 ^ 128 + lo = x /\ 0 <= hi < 2 ^ 128 /\ 0 <= lo < 2 ^ 128 /\
    forall r, rlc (u256_to_big_endian x) r = (rlc (be_bytes 16 hi) r * fpow r 16 + rlc (be_bytes 16 lo) r)%fr.
Proof.
  intros Hx. exists (x / 2 ^ 128), (x mod 2 ^ 128). split; [apply u256_hi_lo_spec, Hx|]. split; [apply split_word_spec, Hx|]. split; [apply hi_lo_spec, Hx|].
  split; [pose proof (Z_div_mod_eq_full x (2 ^ 128)); lia|]. split; [split; [apply Z.div_pos; lia|apply Z.div_lt_upper_bound; [lia|change (2 ^ 128 * 2 ^ 128) with (2 ^ 256); lia]]|].
  split; [apply Z.mod_pos_bound; lia|]. intros r. rewrite word_rlc_halves. f_equal. f_equal. change (2 ^ 128) with (256 ^ Z.of_nat 16). symmetry. apply be_bytes_mod.
Qed.
Lemma rlc_zeros k l r : rlc (repeat 0 k ++ l) r = rlc l r.
Proof.
  rewrite rlc_app. replace (rlc (repeat 0 k) r) with f0; [ring|]. induction k as [|k IH]; [reflexivity|].
  change (repeat 0 (S k)) with ([0] ++ repeat 0 k). rewrite rlc_app, <- IH. unfold rlc. cbn [fold_left]. change (fz 0) with f0. ring.
Qed.
Lemma address_exposed H e n : circuit_ok H e n -> forall i a, 1 <= i < n -> sg e i = SegStart -> address_ok a ->
  eadv e (iv 0) i = fz (address_high a) -> eadv e (iv 1) i = fz (address_low a) ->
  nth 0 (table_row e i) f0 = fz (be_val a) /\ eadv e MU_key i = account_key H a.
Proof.
  intros OK i a Hi S A E0 E1. destruct (address_val a A) as (V & R1 & R2). split.
  - unfold table_row. rewrite (exposed0 H e n (co_fixed H e n OK) (co_sat H e n OK) i Hi), S. cbn [seg_eqb nth].
    change (eadv e (iv 0) i * fz (2 ^ 32) + eadv e (iv 1) i = fz (be_val a))%fr. rewrite E0, E1, V, fz_add, fz_mul. reflexivity.
  - destruct (r_start H e n (co_fixed H e n OK) (HD0 H e n (co_fixed H e n OK) (co_sat H e n OK)) i Hi S) as (P & _).
    apply (co_poseidon H e n OK) in P. symmetry. transitivity (H (eadv e (iv 0) i) (eadv e (iv 1) i * fz (2 ^ 96))%fr (fdom DPair)); [|exact P].
    rewrite E0, E1. unfold account_key, domain_hash, fr_from_u128. rewrite Z.shiftl_mul_pow2, fz_mul by lia. reflexivity.
Qed.
Lemma halves_inj a b : address_ok a -> address_ok b ->
  (fz (address_high a), fz (address_low a)) = (fz (address_high b), fz (address_low b)) -> a = b.
Proof.
  intros A B E. destruct (address_val a A) as (V & R1 & R2). destruct (address_val b B) as (V' & R1' & R2').
  assert (K : 2 ^ 128 < modulus) by reflexivity.
  assert (E1 : fz (address_high a) = fz (address_high b)) by congruence. assert (E2 : fz (address_low a) = fz (address_low b)) by congruence.
  apply fz_inj in E1; [|lia|lia]. apply fz_inj in E2; [|lia|lia]. apply address_inj; try assumption. rewrite V, V', E1, E2. reflexivity.
Qed.
Lemma exposed_inj a b : address_ok a -> address_ok b -> fz (be_val a) = fz (be_val b) -> a = b.
Proof.
  intros A B E. apply address_inj; try assumption. destruct (address_val a A) as (V & R1 & R2). destruct (address_val b B) as (V' & R1' & R2').
  assert (K : 2 ^ 128 * 2 ^ 32 < modulus) by reflexivity. apply fz_inj in E; [exact E|nia|nia].
Qed.
Lemma biguint_to_field b : 0 <= b -> fr_from_biguint b = fz b /\ big_uint_to_fr b = fz b /\ (b < modulus -> val (fr_from_biguint b) = b) /\
  val (fr_from_biguint b) = b mod modulus.
Proof.
  intros Hb. rewrite (fr_from_biguint_spec b Hb), (big_uint_to_fr_spec b Hb). split; [reflexivity|split; [reflexivity|split]].
  - intros L. apply val_fz_small. lia.
  - apply val_fz.
Qed.
Lemma from_bytes_accepts l : fr_from_bytes l <> None <-> le_val l < modulus.
Proof.
  unfold fr_from_bytes. destruct (Z.ltb_spec (le_val l) modulus) as [L|L]; split; intros X; try exact L; try discriminate; try congruence. lia.
Qed.
Lemma de_leading_zeros k s : s <> [] -> Forall (fun c => hex_val c <> None) s ->
  de_uint_hex (repeat 48 k ++ s) = de_uint_hex s /\ de_uint_hex ([48; 120] ++ repeat 48 k ++ s) = de_uint_hex ([48; 120] ++ s).
Proof.
  intros Ne F. assert (F' : Forall (fun c => hex_val c <> None) (repeat 48 k ++ s)).
  { apply Forall_app. split; [|exact F]. rewrite Forall_forall. intros x Hx. apply repeat_spec in Hx. subst x. discriminate. }
  assert (N : repeat 48 k ++ s <> []) by (destruct k; [exact Ne|discriminate]).
  destruct (de_hex s Ne F) as [A B]. destruct (de_hex _ N F') as [A' B']. rewrite hex_number_zeros in A', B'.
  unfold c0x in *. split; congruence.
Qed.
