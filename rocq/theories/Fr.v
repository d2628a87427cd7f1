(* The bn256 scalar field halo2curves::bn256::Fr (used as F everywhere in /repo/src): integers modulo
   [modulus], as a subset type so that Leibniz equality is field equality and everything computes. *)
From Coq Require Import ZArith Znumtheory Zpow_facts Lia Bool Eqdep_dec Field.
From Verif Require Import Pocklington.
Open Scope Z_scope.

Record Fr : Type := mkFr { val : Z; val_ok : (0 <=? val) && (val <? modulus) = true }.

Lemma Fr_eq (x y : Fr) : val x = val y -> x = y.
Proof.
  destruct x as [x Hx], y as [y Hy]. cbn. intros ->. f_equal.
  apply UIP_dec. exact bool_dec.
Qed.

Lemma modulus_pos : 0 < modulus. Proof. reflexivity. Qed.
Lemma modulus_gt_1 : 1 < modulus. Proof. reflexivity. Qed.

Lemma mod_ok z : (0 <=? z mod modulus) && (z mod modulus <? modulus) = true.
Proof.
  pose proof (Z.mod_pos_bound z modulus modulus_pos) as [H1 H2].
  apply andb_true_iff. split; [apply Z.leb_le|apply Z.ltb_lt]; assumption.
Qed.

(* Fr::from(u64), Fr::from_u128: the residue of an integer *)
Definition fz (z : Z) : Fr := mkFr (z mod modulus) (mod_ok z).

Lemma val_range x : 0 <= val x < modulus.
Proof.
  destruct x as [x Hx]. cbn. apply andb_true_iff in Hx. destruct Hx as [H1 H2].
  apply Z.leb_le in H1. apply Z.ltb_lt in H2. lia.
Qed.
Lemma val_fz z : val (fz z) = z mod modulus. Proof. reflexivity. Qed.
Lemma fz_val x : fz (val x) = x.
Proof. apply Fr_eq. rewrite val_fz. apply Z.mod_small, val_range. Qed.
Lemma val_fz_small z : 0 <= z < modulus -> val (fz z) = z.
Proof. intros H. rewrite val_fz. apply Z.mod_small, H. Qed.
Lemma fz_eq_mod a b : a mod modulus = b mod modulus -> fz a = fz b.
Proof. intros H. apply Fr_eq. rewrite !val_fz. exact H. Qed.
Lemma fz_inj_mod a b : fz a = fz b -> a mod modulus = b mod modulus.
Proof. intros H. apply (f_equal val) in H. rewrite !val_fz in H. exact H. Qed.
Lemma fz_inj a b : 0 <= a < modulus -> 0 <= b < modulus -> fz a = fz b -> a = b.
Proof. intros Ha Hb H. apply fz_inj_mod in H. rewrite !Z.mod_small in H by assumption. exact H. Qed.

Definition f0 : Fr := fz 0.
Definition f1 : Fr := fz 1.
Definition fadd (x y : Fr) : Fr := fz (val x + val y).
Definition fmul (x y : Fr) : Fr := fz (val x * val y).
Definition fopp (x : Fr) : Fr := fz (- val x).
Definition fsub (x y : Fr) : Fr := fz (val x - val y).
(* Field::invert; 0 on 0, which is what Assigned::invert evaluates to *)
Definition finv (x : Fr) : Fr := fz (Zpow_mod (val x) (modulus - 2) modulus).
Definition fdiv (x y : Fr) : Fr := fmul x (finv y).
Definition feqb (x y : Fr) : bool := val x =? val y.

Declare Scope fr_scope.
Delimit Scope fr_scope with fr.
Bind Scope fr_scope with Fr.
Infix "+" := fadd : fr_scope.
Infix "-" := fsub : fr_scope.
Infix "*" := fmul : fr_scope.
Infix "/" := fdiv : fr_scope.
Notation "- x" := (fopp x) : fr_scope.
Notation "0" := f0 : fr_scope.
Notation "1" := f1 : fr_scope.
Infix "=?" := feqb : fr_scope.

Lemma feqb_eq x y : feqb x y = true <-> x = y.
Proof.
  unfold feqb. split; intros H.
  - apply Fr_eq, Z.eqb_eq, H.
  - subst. apply Z.eqb_refl.
Qed.
Lemma feqb_neq x y : feqb x y = false <-> x <> y.
Proof.
  split; intros H.
  - intros E. apply feqb_eq in E. congruence.
  - destruct (feqb x y) eqn:E; [|reflexivity]. apply feqb_eq in E. contradiction.
Qed.
Lemma feqb_refl x : feqb x x = true. Proof. apply feqb_eq. reflexivity. Qed.
Lemma Fr_eq_dec (x y : Fr) : {x = y} + {x <> y}.
Proof. destruct (feqb x y) eqn:E; [left; apply feqb_eq, E|right; apply feqb_neq, E]. Defined.
Lemma feqb_spec x y : reflect (x = y) (feqb x y).
Proof. destruct (feqb x y) eqn:E; constructor; [apply feqb_eq|apply feqb_neq]; exact E. Qed.

Lemma fz_add a b : fz (a + b) = (fz a + fz b)%fr.
Proof. apply fz_eq_mod. rewrite !val_fz. apply Zplus_mod. Qed.
Lemma fz_mul a b : fz (a * b) = (fz a * fz b)%fr.
Proof. apply fz_eq_mod. rewrite !val_fz. apply Zmult_mod. Qed.
Lemma fz_sub a b : fz (a - b) = (fz a - fz b)%fr.
Proof. apply fz_eq_mod. rewrite !val_fz. apply Zminus_mod. Qed.
Lemma fz_opp a : fz (- a) = (- fz a)%fr.
Proof.
  apply fz_eq_mod. rewrite !val_fz. rewrite <- (Z.sub_0_l a), <- (Z.sub_0_l (a mod modulus)).
  rewrite Zminus_mod, (Zminus_mod 0 (a mod modulus)). rewrite Zmod_mod. reflexivity.
Qed.

Lemma f1_neq_f0 : f1 <> f0. Proof. intros H. apply (f_equal val) in H. discriminate H. Qed.

Ltac fr_lift := intros; repeat match goal with x : Fr |- _ => rewrite <- (fz_val x); generalize (val x); clear x; intros x end;
  unfold f0, f1; rewrite <- ?fz_add, <- ?fz_mul, <- ?fz_sub, <- ?fz_opp.

Lemma Fr_ring : ring_theory f0 f1 fadd fmul fsub fopp (@eq Fr).
Proof.
  constructor.
  - intros x. rewrite <- (fz_val x). unfold f0. rewrite <- fz_add. f_equal.
  - intros x y. rewrite <- (fz_val x), <- (fz_val y), <- !fz_add. f_equal. ring.
  - intros x y z. rewrite <- (fz_val x), <- (fz_val y), <- (fz_val z), <- !fz_add. f_equal. ring.
  - intros x. rewrite <- (fz_val x). unfold f1. rewrite <- fz_mul. f_equal. ring.
  - intros x y. rewrite <- (fz_val x), <- (fz_val y), <- !fz_mul. f_equal. ring.
  - intros x y z. rewrite <- (fz_val x), <- (fz_val y), <- (fz_val z), <- !fz_mul. f_equal. ring.
  - intros x y z. rewrite <- (fz_val x), <- (fz_val y), <- (fz_val z), <- !fz_add, <- !fz_mul, <- fz_add.
    f_equal. ring.
  - intros x y. rewrite <- (fz_val x), <- (fz_val y), <- fz_opp, <- fz_sub, <- fz_add. f_equal.
  - intros x. rewrite <- (fz_val x). unfold f0. rewrite <- fz_opp, <- fz_add. f_equal. ring.
Qed.

Opaque modulus.
Lemma finv_l x : x <> f0 -> (finv x * x = 1)%fr.
Proof.
  intros Hx. unfold finv. rewrite Zpow_mod_correct by (pose proof modulus_gt_1; lia).
  apply Fr_eq. unfold fmul. rewrite !val_fz.
  rewrite Zmod_mod, Zmult_mod_idemp_l.
  pose proof (val_range x) as Hr.
  assert (Hnz : val x <> 0) by (intros E; apply Hx, Fr_eq; rewrite E; reflexivity).
  pose proof (Flt.fermat_Z modulus (val x) modulus_prime ltac:(lia)) as HF.
  replace (val x ^ (modulus - 2) * val x) with (val x ^ (modulus - 1)).
  2:{ replace (modulus - 1) with (Z.succ (modulus - 2)) by lia.
      rewrite Z.pow_succ_r by (pose proof modulus_gt_1; lia). ring. }
  assert (Hd : (modulus | val x * (val x ^ (modulus - 1) - 1))).
  { apply Z.mod_divide; [pose proof modulus_pos; lia|].
    replace (val x * (val x ^ (modulus - 1) - 1)) with (val x ^ modulus - val x).
    - rewrite Zminus_mod, HF, Z.sub_diag. apply Z.mod_0_l. pose proof modulus_pos; lia.
    - replace modulus with (Z.succ (modulus - 1)) at 1 by lia.
      rewrite Z.pow_succ_r by (pose proof modulus_gt_1; lia). ring. }
  apply Gauss in Hd.
  2:{ apply prime_rel_prime; [exact modulus_prime|]. intros Hdv.
      apply Z.divide_pos_le in Hdv; lia. }
  apply Z.mod_divide in Hd; [|pose proof modulus_pos; lia].
  replace (val x ^ (modulus - 1)) with ((val x ^ (modulus - 1) - 1) + 1) by ring.
  rewrite Zplus_mod, Hd. change (val f1) with (1 mod modulus). rewrite Z.add_0_l. apply Zmod_mod.
Qed.
Transparent modulus.

Lemma Fr_field : field_theory f0 f1 fadd fmul fsub fopp fdiv finv (@eq Fr).
Proof.
  constructor.
  - exact Fr_ring.
  - exact f1_neq_f0.
  - reflexivity.
  - exact finv_l.
Qed.

Lemma fz_morph : ring_morph f0 f1 fadd fmul fsub fopp (@eq Fr)
                            0%Z 1%Z Z.add Z.mul Z.sub Z.opp Zeq_bool fz.
Proof.
  constructor; try reflexivity.
  - exact fz_add.
  - exact fz_sub.
  - exact fz_mul.
  - exact fz_opp.
  - intros x y H. f_equal. apply Zeq_bool_eq, H.
Qed.

Ltac is_Zconst z := match z with
  | Z0 => constr:(true) | Zpos ?p => is_pconst p | Zneg ?p => is_pconst p | _ => constr:(false) end
with is_pconst p := match p with
  | xH => constr:(true) | xO ?q => is_pconst q | xI ?q => is_pconst q | _ => constr:(false) end.
Ltac fr_const t := match t with
  | f0 => constr:(Z0) | f1 => constr:(Zpos xH)
  | fz ?z => match is_Zconst z with true => z | _ => constr:(InitialRing.NotConstant) end
  | _ => constr:(InitialRing.NotConstant) end.

Add Field FrFld : Fr_field (morphism fz_morph, constants [fr_const]).

Lemma fmul_eq0 x y : (x * y = 0)%fr -> x = f0 \/ y = f0.
Proof.
  intros H. destruct (Fr_eq_dec x f0) as [E|E]; [left; exact E|right].
  assert (E2 : (y = finv x * (x * y))%fr).
  { transitivity ((finv x * x) * y)%fr; [rewrite finv_l by exact E; ring|ring]. }
  rewrite E2, H. ring.
Qed.
Lemma fmul_neq0 x y : x <> f0 -> y <> f0 -> (x * y <> 0)%fr.
Proof. intros Hx Hy H. apply fmul_eq0 in H. tauto. Qed.
Lemma fsub_eq0 x y : (x - y = 0)%fr <-> x = y.
Proof.
  split; intros H.
  - transitivity ((x - y) + y)%fr; [ring|rewrite H; ring].
  - subst. ring.
Qed.
Lemma fadd_0_l x : (0 + x = x)%fr. Proof. ring. Qed.
Lemma finv_0 : finv f0 = f0. Proof. vm_compute. apply Fr_eq. reflexivity. Qed.

(* boolean as field element: F::from(value as u64), bool::into *)
Definition fb (b : bool) : Fr := if b then f1 else f0.
Lemma fb_inj a b : fb a = fb b -> a = b.
Proof. destruct a, b; cbn; intros H; try reflexivity; exfalso; [apply f1_neq_f0|symmetry in H; apply f1_neq_f0]; exact H. Qed.

Fixpoint fpow (x : Fr) (n : nat) : Fr := match n with O => f1 | S m => (x * fpow x m)%fr end.
