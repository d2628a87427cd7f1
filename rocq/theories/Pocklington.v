(* Pocklington's primality criterion and the proof that the bn256 scalar field modulus
   (halo2curves::bn256::Fr, used throughout /repo/src) is prime.  Supporting mathematics. *)
From Coq Require Import ZArith Znumtheory Zpow_facts Lia List.
From Verif Require Import Flt.
Import ListNotations.
Open Scope Z_scope.

Lemma prime_divisor_exists n : 1 < n -> exists p, prime p /\ (p | n).
Proof.
  intros Hn. assert (H0 : 0 <= n) by lia. revert Hn. pattern n.
  apply Z_lt_induction; [|exact H0]. clear n H0. intros n IH Hn.
  destruct (prime_dec n) as [Hp|Hp].
  - exists n. split; [exact Hp|exists 1; lia].
  - destruct (not_prime_divide n Hn Hp) as (d & Hd & Hdn).
    destruct (IH d ltac:(lia) ltac:(lia)) as (p & Hp' & Hpd).
    exists p. split; [exact Hp'|]. eapply Z.divide_trans; eauto.
Qed.

Lemma prime_by_large_divisors n F : 1 < n -> 0 < F -> n < F * F ->
  (forall p, prime p -> (p | n) -> F < p) -> prime n.
Proof.
  intros Hn HF HFF Hdiv.
  destruct (prime_dec n) as [Hp|Hp]; [exact Hp|exfalso].
  destruct (not_prime_divide n Hn Hp) as (d & Hd & [c Hc]).
  destruct (prime_divisor_exists d ltac:(lia)) as (p & Hp1 & Hp2).
  assert (1 < c) by nia.
  destruct (prime_divisor_exists c ltac:(lia)) as (q & Hq1 & Hq2).
  assert (F < p).
  { apply Hdiv; auto. rewrite Hc. apply Z.divide_mul_r. exact Hp2. }
  assert (F < q).
  { apply Hdiv; auto. rewrite Hc. apply Z.divide_mul_l. exact Hq2. }
  pose proof (Z.divide_pos_le p d ltac:(lia) Hp2).
  pose proof (Z.divide_pos_le q c ltac:(lia) Hq2).
  nia.
Qed.

Section Order.
  Variable p b : Z.
  Hypothesis Hp : prime p.

  Lemma p_ge_2 : 2 <= p. Proof. exact (prime_ge_2 _ Hp). Qed.

  Lemma pow_mul_one m n : 0 <= m -> 0 <= n -> (b ^ n) mod p = 1 ->
    (b ^ (n * m)) mod p = 1.
  Proof.
    intros Hm Hn H. rewrite Z.pow_mul_r by lia.
    rewrite Zpower_mod by (pose proof p_ge_2; lia). rewrite H.
    rewrite Z.pow_1_l by lia. apply Z.mod_1_l. pose proof p_ge_2. lia.
  Qed.

  Lemma pow_gcd_one : forall n m, 0 <= n -> 0 <= m -> (b ^ m) mod p = 1 -> (b ^ n) mod p = 1 ->
    (b ^ (Z.gcd m n)) mod p = 1.
  Proof.
    intros n m Hn. revert m. pattern n. apply Z_lt_induction; [|exact Hn].
    clear n Hn. intros n IH m Hm H1 H2.
    destruct (Z.eq_dec n 0) as [->|Hn0].
    - rewrite Z.gcd_0_r, Z.abs_eq by lia. exact H1.
    - destruct (Z_lt_dec n 0) as [Hneg|Hnn].
      { rewrite Z.pow_neg_r in H2 by lia. rewrite Z.mod_0_l in H2 by (pose proof p_ge_2; lia). lia. }
      rewrite Z.gcd_comm, <- Z.gcd_mod by lia.
      rewrite Z.gcd_comm.
      pose proof (Z.mod_pos_bound m n ltac:(lia)).
      apply IH; [lia|lia|exact H2|].
      rewrite (Z.div_mod m n) in H1 by lia.
      rewrite Z.pow_add_r in H1 by (try apply Z.mul_nonneg_nonneg; try apply Z.div_pos; lia).
      rewrite Zmult_mod in H1.
      rewrite pow_mul_one in H1; [|apply Z.div_pos; lia|lia|exact H2].
      rewrite Z.mul_1_l, Z.mod_mod in H1 by (pose proof p_ge_2; lia). exact H1.
  Qed.

  Lemma order_prime_power q e : prime q -> 1 <= e -> 0 <= b ->
    (b ^ (q ^ e)) mod p = 1 -> (b ^ (q ^ (e - 1))) mod p <> 1 -> (q ^ e | p - 1).
  Proof.
    intros Hq He Hb H1 H2. pose proof p_ge_2. pose proof (prime_ge_2 _ Hq).
    assert (Hqe : 0 < q ^ e) by (apply Z.pow_pos_nonneg; lia).
    assert (Hbp : (b ^ (p - 1)) mod p = 1).
    { assert (Hrel : rel_prime b p).
      { apply rel_prime_sym, prime_rel_prime; [exact Hp|]. intros [k Hk].
        rewrite Zpower_mod in H1 by lia. rewrite Hk, Z_mod_mult, Z.pow_0_l in H1 by lia.
        rewrite Z.mod_0_l in H1; lia. }
      pose proof (fermat_Z p b Hp Hb) as HF.
      assert (Hd : (p | b * (b ^ (p - 1) - 1))).
      { apply Z.mod_divide; [lia|].
        replace (b * (b ^ (p - 1) - 1)) with (b ^ p - b).
        - rewrite Zminus_mod, HF, Z.sub_diag. apply Z.mod_0_l. lia.
        - replace p with (Z.succ (p - 1)) at 1 by lia. rewrite Z.pow_succ_r by lia. ring. }
      apply Gauss in Hd; [|apply rel_prime_sym; exact Hrel].
      apply Z.mod_divide in Hd; [|lia].
      replace (b ^ (p - 1)) with ((b ^ (p - 1) - 1) + 1) by ring.
      rewrite Zplus_mod, Hd, Z.add_0_l, Z.mod_mod by lia. apply Z.mod_1_l. lia. }
    pose proof (pow_gcd_one (p - 1) (q ^ e) ltac:(lia) ltac:(lia) H1 Hbp) as Hg.
    set (g := Z.gcd (q ^ e) (p - 1)) in *.
    assert (Hgd : (g | q ^ e)) by apply Z.gcd_divide_l.
    assert (Hgp : (g | p - 1)) by apply Z.gcd_divide_r.
    destruct (Zdivide_power_2 g q e ltac:(lia) (Z.gcd_nonneg _ _) Hq Hgd) as [f Hf].
    assert (Hf0 : 0 <= f).
    { destruct (Z_lt_dec f 0) as [Hneg|]; [|lia].
      rewrite Z.pow_neg_r in Hf by lia.
      assert (g <> 0); [|lia]. intros Hg0. rewrite Hg0 in Hgd. destruct Hgd as [k Hk]. lia. }
    assert (Hfe : f <= e).
    { apply Z.nlt_ge. intros Hlt.
      assert (q ^ e < q ^ f) by (apply Z.pow_lt_mono_r; lia).
      pose proof (Z.divide_pos_le _ _ Hqe Hgd). lia. }
    destruct (Z.eq_dec f e) as [->|Hne].
    - rewrite Hf in Hgp. exact Hgp.
    - exfalso. apply H2.
      replace (q ^ (e - 1)) with (q ^ f * q ^ (e - 1 - f)).
      + apply pow_mul_one; [apply Z.pow_nonneg; lia|apply Z.pow_nonneg; lia|].
        rewrite <- Hf. exact Hg.
      + rewrite <- Z.pow_add_r by lia. f_equal. lia.
  Qed.
End Order.

(* one certificate entry: (q, e, a) with q prime, q^e | n-1 *)
Definition cert_ok (n : Z) (c : Z * Z * Z) : bool :=
  let '(q, e, a) := c in
  (1 <=? e) && (0 <=? a) && (2 <=? q) && ((n - 1) mod (q ^ e) =? 0)
  && (let b := Zpow_mod a ((n - 1) / q) n in
      (Zpow_mod b q n =? 1) && (Z.gcd (b - 1) n =? 1)).

Lemma cert_divides n c p : 1 < n -> cert_ok n c = true -> prime (fst (fst c)) ->
  prime p -> (p | n) -> (fst (fst c) ^ snd (fst c) | p - 1).
Proof.
  destruct c as [[q e] a]. cbn [fst snd]. unfold cert_ok. intros Hn H Hq Hp Hpn.
  cbv zeta in H. repeat rewrite Bool.andb_true_iff in H. destruct H as [[[[He Ha] _] Hd] [H1 H2]].
  apply Z.leb_le in He, Ha. apply Z.eqb_eq in Hd, H1, H2.
  pose proof (prime_ge_2 _ Hp) as Hp2. pose proof (prime_ge_2 _ Hq) as Hq2.
  assert (Hqe : 0 < q ^ e) by (apply Z.pow_pos_nonneg; lia).
  apply Z.mod_divide in Hd; [|lia]. destruct Hd as [k Hk].
  assert (Hk0 : 0 <= k) by nia.
  rewrite !Zpow_mod_correct in H1 by lia. rewrite Zpow_mod_correct in H2 by lia.
  rewrite <- Zpower_mod in H1 by lia. rewrite <- Z.pow_mul_r in H1 by (try apply Z.div_pos; lia).
  replace ((n - 1) / q * q) with (n - 1) in H1.
  2:{ rewrite Hk. replace (q ^ e) with (q ^ (e - 1) * q).
      - rewrite Z.mul_assoc, Z.div_mul by lia. ring.
      - rewrite Z.mul_comm, <- Z.pow_succ_r by lia. f_equal. lia. }
  assert (Hmodp : forall x, (x mod n) mod p = x mod p).
  { intros x. symmetry. apply Zmod_div_mod; lia || exact Hpn. }
  assert (Hdivq : (n - 1) / q = k * q ^ (e - 1)).
  { rewrite Hk. replace (q ^ e) with (q ^ (e - 1) * q).
    - rewrite Z.mul_assoc. apply Z.div_mul. lia.
    - rewrite Z.mul_comm, <- Z.pow_succ_r by lia. f_equal. lia. }
  apply (order_prime_power p (a ^ k) Hp q e Hq He (Z.pow_nonneg a k Ha)).
  - rewrite <- Z.pow_mul_r by lia. rewrite <- Hk.
    rewrite <- Hmodp, H1. apply Z.mod_1_l. lia.
  - rewrite <- Z.pow_mul_r by (try apply Z.pow_nonneg; lia). rewrite <- Hdivq. intros Hone.
    assert (Hpd : (p | (a ^ ((n - 1) / q)) mod n - 1)).
    { apply Z.mod_divide; [lia|]. rewrite Zminus_mod, Hmodp, Hone.
      rewrite (Z.mod_small 1) by lia. reflexivity. }
    pose proof (Z.gcd_greatest _ _ _ Hpd Hpn) as Hg. rewrite H2 in Hg.
    apply Z.divide_1_r_nonneg in Hg; lia.
Qed.

Fixpoint cert_prod (l : list (Z * Z * Z)) : Z :=
  match l with [] => 1 | (q, e, _) :: r => q ^ e * cert_prod r end.
Fixpoint cert_coprime (l : list (Z * Z * Z)) : bool :=
  match l with [] => true
  | (q, e, _) :: r => (Z.gcd (q ^ e) (cert_prod r) =? 1) && cert_coprime r end.

Theorem pocklington n l : 1 < n -> n < cert_prod l * cert_prod l -> 0 < cert_prod l ->
  forallb (cert_ok n) l = true -> cert_coprime l = true ->
  Forall (fun c => prime (fst (fst c))) l -> prime n.
Proof.
  intros Hn Hsq Hpos Hok Hcop Hprimes.
  apply (prime_by_large_divisors n (cert_prod l) Hn Hpos Hsq).
  intros p Hp Hpn. pose proof (prime_ge_2 _ Hp).
  assert (Hd : (cert_prod l | p - 1)).
  { clear Hsq Hpos. induction l as [|c l IH].
    - exists (p - 1). cbn. ring.
    - cbn [forallb] in Hok. apply Bool.andb_true_iff in Hok. destruct Hok as [Hc Hok].
      inversion Hprimes as [|? ? Hpc Hpl]; subst.
      pose proof (cert_divides n c p Hn Hc Hpc Hp Hpn) as Hdc.
      destruct c as [[q e] a]. cbn [cert_prod cert_coprime fst snd] in *.
      apply Bool.andb_true_iff in Hcop. destruct Hcop as [Hg Hcop].
      apply Z.eqb_eq in Hg.
      specialize (IH Hok Hcop Hpl). destruct Hdc as [k Hk]. rewrite Hk in IH.
      rewrite Z.mul_comm in IH. apply Gauss in IH.
      + destruct IH as [j Hj]. exists j. rewrite Hk, Hj. ring.
      + apply rel_prime_sym. apply Zgcd_1_rel_prime. exact Hg. }
  pose proof (Z.divide_pos_le (cert_prod l) (p - 1) ltac:(lia) Hd). lia.
Qed.

(* trial division for the small factors *)
Fixpoint no_div (fuel : nat) (d n : Z) : bool :=
  match fuel with
  | O => false
  | S f => if n <? d * d then true else if n mod d =? 0 then false else no_div f (d + 1) n
  end.
Lemma no_div_ok fuel : forall d n, 2 <= d -> no_div fuel d n = true ->
  (forall p, prime p -> (p | n) -> p < d -> False) ->
  forall p, prime p -> (p | n) -> n < p * p.
Proof.
  induction fuel as [|f IH]; intros d n Hd H Hsm p Hp Hpn; [discriminate|].
  cbn [no_div] in H. destruct (Z.ltb_spec n (d * d)) as [Hlt|Hge].
  - destruct (Z_lt_dec p d) as [Hpd|Hpd]; [exfalso; eauto|]. nia.
  - destruct (Z.eqb_spec (n mod d) 0) as [E|E]; [discriminate|].
    apply (IH (d + 1) n ltac:(lia) H); auto.
    intros p' Hp' Hpn' Hlt. destruct (Z.eq_dec p' d) as [->|Hne].
    + apply E. apply Z.mod_divide; [lia|exact Hpn'].
    + apply (Hsm p' Hp' Hpn'). lia.
Qed.
Lemma trial_prime fuel n : 1 < n -> no_div fuel 2 n = true -> prime n.
Proof.
  intros Hn H.
  destruct (prime_dec n) as [Hp|Hp]; [exact Hp|exfalso].
  destruct (not_prime_divide n Hn Hp) as (d & Hd & [c Hc]).
  pose proof (no_div_ok fuel 2 n ltac:(lia) H) as Hbig.
  assert (Hsm : forall p, prime p -> (p | n) -> p < 2 -> False).
  { intros p Hpp _ Hlt. pose proof (prime_ge_2 _ Hpp). lia. }
  destruct (prime_divisor_exists d ltac:(lia)) as (p & Hp1 & Hp2).
  destruct (prime_divisor_exists c ltac:(clear - Hc Hd Hn; nia)) as (q & Hq1 & Hq2).
  assert (Hpn : (p | n)) by (rewrite Hc; apply Z.divide_mul_r; exact Hp2).
  assert (Hqn : (q | n)) by (rewrite Hc; apply Z.divide_mul_l; exact Hq2).
  pose proof (Hbig Hsm p Hp1 Hpn). pose proof (Hbig Hsm q Hq1 Hqn).
  pose proof (Z.divide_pos_le p d ltac:(lia) Hp2).
  assert (q <= c) by (apply Z.divide_pos_le; [nia|exact Hq2]).
  pose proof (prime_ge_2 _ Hp1). pose proof (prime_ge_2 _ Hq1). assert (Hpq : p * q <= c * d) by nia.
  destruct (Z.le_ge_cases p q); nia.
Qed.

Ltac by_trial := apply (trial_prime (Z.to_nat 200000)); [lia|vm_compute; reflexivity].
Lemma prime_11003 : prime 11003. Proof. by_trial. Qed.
Lemma prime_237073 : prime 237073. Proof. by_trial. Qed.
Lemma prime_405928799 : prime 405928799. Proof. by_trial. Qed.
Lemma prime_93001 : prime 93001. Proof. by_trial. Qed.
Lemma prime_661 : prime 661. Proof. by_trial. Qed.

Ltac by_cert l := apply (pocklington _ l);
  [lia | vm_compute; reflexivity | vm_compute; reflexivity | vm_compute; reflexivity
  | vm_compute; reflexivity | repeat (apply Forall_cons || apply Forall_nil); cbn [fst snd]].

Lemma prime_12048837557 : prime 12048837557.
Proof. by_cert [(93001, 1, 2); (661, 1, 2)]; [exact prime_93001|exact prime_661]. Qed.
Lemma prime_5156902474397 : prime 5156902474397.
Proof. by_cert [(12048837557, 1, 2)]. exact prime_12048837557. Qed.
Lemma prime_1670836401704629 : prime 1670836401704629.
Proof. by_cert [(5156902474397, 1, 2)]. exact prime_5156902474397. Qed.

(* halo2curves::bn256::Fr::MODULUS *)
Definition modulus : Z := 0x30644e72e131a029b85045b68181585d2833e84879b9709143e1f593f0000001.

Theorem modulus_prime : prime modulus.
Proof.
  unfold modulus. by_cert [(2, 28, 5); (1670836401704629, 1, 2); (405928799, 1, 2); (237073, 1, 2); (11003, 1, 2)];
   first [exact prime_2 | exact prime_1670836401704629 | exact prime_405928799
         | exact prime_237073 | exact prime_11003].
Qed.
