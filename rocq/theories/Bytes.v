(* Byte and bit arithmetic, used by the specifications and by the models of util.rs.  [be_val],
   [be_bytes] and [rlc] are the specification-level notions of big-endian bytes and random linear
   combination. *)
From Coq Require Import ZArith List Lia Bool.
From Verif Require Import Pocklington Fr.
Import ListNotations.
Open Scope Z_scope.

Definition is_byte (b : Z) : Prop := 0 <= b < 256.
Definition bytes_ok (l : list Z) : Prop := Forall is_byte l.

(* number denoted by big-endian bytes *)
Definition be_val (l : list Z) : Z := fold_left (fun acc b => 256 * acc + b) l 0.
(* the n-byte big-endian encoding *)
Fixpoint be_bytes (n : nat) (z : Z) : list Z :=
  match n with O => [] | S m => be_bytes m (z / 256) ++ [z mod 256] end.
(* byte i (0 = most significant) of the n-byte encoding *)
Definition be_byte (n : nat) (z : Z) (i : nat) : Z := (z / 256 ^ (Z.of_nat n - 1 - Z.of_nat i)) mod 256.
(* util.rs:69-74: rlc(be_bytes, randomness) *)
Definition rlc (l : list Z) (r : Fr) : Fr := fold_left (fun acc b => (r * acc + fz b)%fr) l f0.

Lemma be_val_snoc l b : be_val (l ++ [b]) = 256 * be_val l + b.
Proof. unfold be_val. rewrite fold_left_app. reflexivity. Qed.
Lemma rlc_snoc l b r : rlc (l ++ [b]) r = (r * rlc l r + fz b)%fr.
Proof. unfold rlc. rewrite fold_left_app. reflexivity. Qed.
Lemma be_val_nil : be_val [] = 0. Proof. reflexivity. Qed.
Lemma pow256_pos n : 0 <= n -> 0 < 256 ^ n.
Proof. intros. apply Z.pow_pos_nonneg; lia. Qed.
Lemma pow256_S n : 256 ^ Z.of_nat (S n) = 256 * 256 ^ Z.of_nat n.
Proof. rewrite Nat2Z.inj_succ, Z.pow_succ_r by lia. reflexivity. Qed.

Lemma be_val_range l : bytes_ok l -> 0 <= be_val l < 256 ^ Z.of_nat (length l).
Proof.
  induction l as [|b l IH] using rev_ind; intros H; [cbn; lia|].
  apply Forall_app in H. destruct H as [H1 H2]. inversion H2; subst. unfold is_byte in *.
  specialize (IH H1). rewrite be_val_snoc, app_length, Nat.add_1_r, pow256_S. lia.
Qed.
Lemma be_bytes_length n z : length (be_bytes n z) = n.
Proof. revert z. induction n; intros z; cbn; [reflexivity|]. rewrite app_length, IHn. cbn. lia. Qed.
Lemma be_bytes_ok n z : bytes_ok (be_bytes n z).
Proof.
  revert z. induction n; intros z; cbn; [constructor|]. apply Forall_app. split; [apply IHn|].
  constructor; [|constructor]. apply Z.mod_pos_bound. lia.
Qed.
Lemma be_val_be_bytes n z : 0 <= z < 256 ^ Z.of_nat n -> be_val (be_bytes n z) = z.
Proof.
  revert z. induction n; intros z H; [cbn in *; lia|].
  cbn [be_bytes]. rewrite be_val_snoc, IHn.
  - symmetry. apply Z_div_mod_eq_full.
  - rewrite pow256_S in H. pose proof (Z_div_mod_eq_full z 256). pose proof (Z.mod_pos_bound z 256).
    split; [apply Z.div_pos; lia|]. apply Z.div_lt_upper_bound; lia.
Qed.
Lemma be_bytes_be_val l : bytes_ok l -> be_bytes (length l) (be_val l) = l.
Proof.
  induction l as [|b l IH] using rev_ind; intros H; [reflexivity|].
  apply Forall_app in H. destruct H as [H1 H2]. inversion H2; subst. unfold is_byte in *.
  rewrite app_length, Nat.add_1_r. cbn [be_bytes]. rewrite be_val_snoc.
  replace (256 * be_val l + b) with (b + be_val l * 256) by lia.
  rewrite Z_div_plus, Z_mod_plus_full, Z.div_small, Z.mod_small by lia.
  rewrite Z.add_0_l, IH by exact H1. reflexivity.
Qed.
Lemma be_val_inj l l' : bytes_ok l -> bytes_ok l' -> length l = length l' -> be_val l = be_val l' -> l = l'.
Proof. intros H1 H2 Hl E. rewrite <- (be_bytes_be_val l), <- (be_bytes_be_val l'), Hl, E by auto. reflexivity. Qed.

Lemma be_val_cons_acc l a : fold_left (fun acc b => 256 * acc + b) l a
  = a * 256 ^ Z.of_nat (length l) + be_val l.
Proof.
  induction l as [|b l IH] using rev_ind; [cbn; lia|].
  rewrite fold_left_app, be_val_snoc, IH, app_length, Nat.add_1_r, pow256_S. cbn [fold_left]. ring.
Qed.
Lemma be_val_app a b : be_val (a ++ b) = be_val a * 256 ^ Z.of_nat (length b) + be_val b.
Proof. unfold be_val at 1. rewrite fold_left_app. apply be_val_cons_acc. Qed.
Lemma be_val_cons x l : be_val (x :: l) = x * 256 ^ Z.of_nat (length l) + be_val l.
Proof. apply (be_val_app [x] l). Qed.

Lemma be_bytes_app m n z : be_bytes (m + n) z = be_bytes m (z / 256 ^ Z.of_nat n) ++ be_bytes n z.
Proof.
  revert z. induction n; intros z.
  - rewrite Nat.add_0_r. cbn. rewrite Z.div_1_r, app_nil_r. reflexivity.
  - rewrite Nat.add_succ_r. cbn [be_bytes]. rewrite IHn, app_assoc. do 2 f_equal.
    rewrite pow256_S, Z.div_div by (try lia; apply pow256_pos; lia). f_equal.
Qed.
Lemma be_bytes_mod n z : be_bytes n (z mod 256 ^ Z.of_nat n) = be_bytes n z.
Proof.
  revert z. induction n; intros z; [reflexivity|]. cbn [be_bytes]. rewrite pow256_S.
  pose proof (pow256_pos (Z.of_nat n) ltac:(lia)).
  rewrite Z.rem_mul_r by lia. f_equal.
  - rewrite <- (IHn (z / 256)). f_equal.
    rewrite (Z.mul_comm 256), Z.div_add by lia. rewrite Z.div_small by (apply Z.mod_pos_bound; lia). lia.
  - f_equal. rewrite Z.mul_comm, Z.mod_add, Z.mod_mod by lia. reflexivity.
Qed.
Lemma nth_be_bytes n z i : (i < n)%nat -> nth i (be_bytes n z) 0 = be_byte n z i.
Proof.
  revert z. induction n; intros z H; [lia|]. cbn [be_bytes].
  destruct (Nat.eq_dec i n) as [->|Hne].
  - rewrite app_nth2 by (rewrite be_bytes_length; lia). rewrite be_bytes_length, Nat.sub_diag. cbn [nth].
    unfold be_byte. replace (Z.of_nat (S n) - 1 - Z.of_nat n) with 0 by lia. rewrite Z.pow_0_r, Z.div_1_r.
    reflexivity.
  - rewrite app_nth1 by (rewrite be_bytes_length; lia). rewrite IHn by lia. unfold be_byte.
    f_equal. replace (Z.of_nat (S n) - 1 - Z.of_nat i) with (1 + (Z.of_nat n - 1 - Z.of_nat i)) by lia.
    rewrite Z.pow_add_r by lia. rewrite Z.div_div by (try lia; apply pow256_pos; lia). f_equal.
Qed.

(* the random linear combination *)
Lemma rlc_acc l r a : fold_left (fun acc b => (r * acc + fz b)%fr) l a = (a * fpow r (length l) + rlc l r)%fr.
Proof.
  induction l as [|b l IH] using rev_ind; [cbn; ring|].
  rewrite fold_left_app, rlc_snoc, IH, app_length, Nat.add_1_r. cbn [fold_left fpow]. ring.
Qed.
Lemma rlc_app a b r : rlc (a ++ b) r = (rlc a r * fpow r (length b) + rlc b r)%fr.
Proof. unfold rlc at 1. rewrite fold_left_app. apply rlc_acc. Qed.
Lemma rlc_256 l : rlc l (fz 256) = fz (be_val l).
Proof.
  induction l as [|b l IH] using rev_ind; [reflexivity|].
  rewrite rlc_snoc, be_val_snoc, IH, fz_add, fz_mul. reflexivity.
Qed.
Lemma fpow_add x a b : fpow x (a + b) = (fpow x a * fpow x b)%fr.
Proof. induction a; cbn; [ring|]. rewrite IHa. ring. Qed.

(* bit i of z through bytes *)
Lemma testbit_byte z i : 0 <= i -> Z.testbit z i = Z.testbit ((z / 256 ^ (i / 8)) mod 256) (i mod 8).
Proof.
  intros Hi. pose proof (Z.mod_pos_bound i 8 ltac:(lia)) as Hm. pose proof (Z_div_mod_eq_full i 8) as Hd.
  pose proof (Z.div_pos i 8 Hi ltac:(lia)).
  change 256 with (2 ^ 8) at 2. rewrite Z.mod_pow2_bits_low by lia.
  replace (256 ^ (i / 8)) with (2 ^ (8 * (i / 8))).
  - rewrite Z.div_pow2_bits by lia. f_equal. lia.
  - rewrite Z.pow_mul_r by lia. reflexivity.
Qed.
Lemma land_shift_testbit b i : 0 <= i -> negb (Z.land b (Z.shiftl 1 i) =? 0) = Z.testbit b i.
Proof.
  intros Hi. rewrite Z.shiftl_1_l. destruct (Z.testbit b i) eqn:E.
  - apply negb_true_iff, Z.eqb_neq. intros H.
    assert (Z.testbit (Z.land b (2 ^ i)) i = true).
    { rewrite Z.land_spec, E, Z.pow2_bits_true by lia. reflexivity. }
    rewrite H, Z.bits_0 in H0. discriminate.
  - apply negb_false_iff, Z.eqb_eq. apply Z.bits_inj'. intros n Hn.
    rewrite Z.land_spec, Z.bits_0, Z.pow2_bits_eqb by lia.
    destruct (Z.eqb_spec i n) as [<-|]; [rewrite E; reflexivity|apply andb_false_r].
Qed.
