(* Fermat's little theorem over Z, by permuting 1..p-1.  Supporting mathematics: models no file of
   /repo. *)
From Coq Require Import ZArith Znumtheory Zpow_facts Lia List Permutation.
Import ListNotations.
Open Scope Z_scope.

Definition zprod (l : list Z) : Z := fold_right Z.mul 1 l.
Lemma zprod_perm l l' : Permutation l l' -> zprod l = zprod l'.
Proof. unfold zprod. induction 1 as [|x l l2 H IH|x y l|l1 l2 l3 H1 IH1 H2 IH2]; cbn in *; [reflexivity|rewrite IH; reflexivity|ring|congruence]. Qed.

(* 1 .. n *)
Definition range1 (n : nat) : list Z := map Z.of_nat (seq 1 n).
Lemma in_range1 n x : In x (range1 n) <-> 1 <= x <= Z.of_nat n.
Proof.
  unfold range1. rewrite in_map_iff. split.
  - intros (k & <- & Hk). apply in_seq in Hk. lia.
  - intros H. exists (Z.to_nat x). split; [lia|]. apply in_seq. lia.
Qed.
Lemma NoDup_map_on {A B} (f : A -> B) l :
  (forall x y, In x l -> In y l -> f x = f y -> x = y) -> NoDup l -> NoDup (map f l).
Proof.
  intros Hf Hn. induction Hn as [|x l Hx Hn IH]; cbn; constructor.
  - intros H. apply in_map_iff in H. destruct H as (y & Hy & Hin).
    apply Hx. replace x with y; [exact Hin|]. apply Hf; cbn; auto.
  - apply IH. intros a b Ha Hb. apply Hf; cbn; auto.
Qed.
Lemma NoDup_range1 n : NoDup (range1 n).
Proof. apply NoDup_map_on; [intros; lia|apply seq_NoDup]. Qed.

Lemma zprod_rel p l : prime p -> Forall (fun x => 1 <= x < p) l -> rel_prime (zprod l) p.
Proof.
  intros Hp H. induction H as [|x l Hx Hl IH]; cbn; [apply rel_prime_1|].
  apply rel_prime_sym, rel_prime_mult; apply rel_prime_sym; [apply rel_prime_le_prime; auto; lia|].
  exact IH.
Qed.
Lemma zprod_map_mul p a l : 0 < p ->
  zprod (map (fun x => (a * x) mod p) l) mod p = (a ^ Z.of_nat (length l) * zprod l) mod p.
Proof.
  intros Hp. induction l as [|x l IH]; [reflexivity|].
  cbn [map zprod fold_right length]. fold (zprod (map (fun x => (a * x) mod p) l)). fold (zprod l).
  rewrite Zmult_mod, IH, Zmod_mod, <- Zmult_mod.
  rewrite Nat2Z.inj_succ, Z.pow_succ_r by lia. f_equal. ring.
Qed.

Theorem fermat_Z (p a : Z) : prime p -> 0 <= a -> (a ^ p) mod p = a mod p.
Proof.
  intros Hp Ha. pose proof (prime_ge_2 _ Hp) as H2.
  destruct (Z.eq_dec (a mod p) 0) as [H0|H0].
  - rewrite H0. rewrite Zpower_mod, H0 by lia. rewrite Z.pow_0_l by lia. apply Zmod_0_l.
  - set (n := Z.to_nat (p - 1)). set (l := range1 n).
    assert (Hn : Z.of_nat n = p - 1) by lia.
    assert (Hra : rel_prime a p).
    { apply rel_prime_sym, prime_rel_prime; [exact Hp|]. intros D. apply H0.
      apply Zdivide_mod. exact D. }
    set (f := fun x => (a * x) mod p).
    assert (Hf : forall x, 1 <= x <= p - 1 -> 1 <= f x <= p - 1).
    { intros x Hx. unfold f. pose proof (Z.mod_pos_bound (a * x) p ltac:(lia)).
      enough ((a * x) mod p <> 0) by lia. intros E. apply Zmod_divide in E; [|lia].
      apply Gauss in E; [|apply rel_prime_sym; exact Hra]. apply Z.divide_pos_le in E; lia. }
    assert (P : Permutation (map f l) l).
    { apply NoDup_Permutation_bis.
      - apply NoDup_map_on; [|apply NoDup_range1]. intros x y Hx Hy E.
        apply in_range1 in Hx, Hy. unfold f in E.
        assert (D : (p | a * (x - y))).
        { apply Zmod_divide; [lia|]. replace (a * (x - y)) with (a * x - a * y) by ring.
          rewrite Zminus_mod, E, Z.sub_diag. apply Zmod_0_l. }
        apply Gauss in D; [|apply rel_prime_sym; exact Hra].
        destruct D as [k Hk].
        assert (-p < k * p < p) by lia. assert (k = 0) by nia. subst k. lia.
      - rewrite map_length. lia.
      - intros y Hy. apply in_map_iff in Hy. destruct Hy as (x & <- & Hx).
        apply in_range1 in Hx. apply in_range1. specialize (Hf x). lia. }
    pose proof (zprod_map_mul p a l ltac:(lia)) as E. fold f in E. rewrite (zprod_perm _ _ P) in E.
    assert (El : length l = n) by (unfold l, range1; rewrite map_length, seq_length; reflexivity).
    rewrite El, Hn in E.
    assert (D : (p | zprod l * (a ^ (p - 1) - 1))).
    { apply Zmod_divide; [lia|].
      replace (zprod l * (a ^ (p - 1) - 1)) with (a ^ (p - 1) * zprod l - zprod l) by ring.
      rewrite Zminus_mod, <- E, Z.sub_diag. apply Zmod_0_l. }
    apply Gauss in D.
    + destruct D as [k Hk].
      replace p with (Z.succ (p - 1)) at 1 by lia. rewrite Z.pow_succ_r by lia.
      replace (a ^ (p - 1)) with (1 + k * p) by lia.
      replace (a * (1 + k * p)) with (a + (a * k) * p) by ring. apply Z_mod_plus_full.
    + apply rel_prime_sym, zprod_rel; [exact Hp|]. apply Forall_forall. intros x Hx.
      apply in_range1 in Hx. lia.
Qed.
