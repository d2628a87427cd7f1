(* C13 and C14: the word and non-existence gadgets, wherever they are called. *)
From Coq Require Import ZArith String List Bool Lia.
From Verif Require Import Pocklington Fr Query Builder BuilderProofs Bytes Gadgets MptUpdate GadgetProofs Fixed CanonProofs Assign AssignProofs AssignOk AssignRegion GadgetMain GadgetMain2.
Import ListNotations.
Open Scope Z_scope.

(* [occurs g bs c]: while building c, g was called inside the conditions bs (outermost first) *)
Inductive occurs (g : cmd) : list query -> cmd -> Prop :=
| occ_here : occurs g [] g
| occ_left bs a b : occurs g bs a -> occurs g bs (a ;; b)
| occ_right bs a b : occurs g bs b -> occurs g bs (a ;; b)
| occ_cond bs q c : occurs g bs c -> occurs g (q :: bs) (Condition q c).

Lemma occurs_den e c g bs i : satisfied e c -> occurs g bs c -> enabled e i -> all_one e i bs -> den e i g.
Proof.
  intros [W S] O [Hi Si]. pose proof (sat_den e c W S i Hi Si) as D. clear S. revert D.
  induction O as [|bs a b O IH|bs a b O IH|bs q c O IH]; cbn [den]; intros D A; try tauto.
  unfold all_one in A. inversion A as [|? ? A1 A2]; subst. apply IH; [apply D; exact A1|exact A2].
Qed.
Lemma occurs_for_each {X} g bs l (x : X) f : In x l -> occurs g bs (f x) -> occurs g bs (for_each l f).
Proof.
  intros Hin O. induction l as [|y l IH]; [destruct Hin|]. cbn [for_each fold_right].
  destruct Hin as [->|Hin]; [apply occ_left; exact O|apply occ_right; apply IH; exact Hin].
Qed.

Section G.
  Variables (H : Fr -> Fr -> Fr -> Fr) (e : env) (n : Z) (c : cmd).
  Hypothesis F : fixed_ok e n.
  Hypothesis S : satisfied e c.
  Hypothesis PT : forall l r d h, poseidon_hit e l r d h -> H l r d = h.

  (** * C13 *)
  Lemma word_gadget_sound bs word_hash high low rlc_word rlc_high rlc_low i :
    part_of byte_representation_configure c -> eadv e BR_index 1 = f0 ->
    occurs (word_rlc_configure word_hash high low rlc_word rlc_high rlc_low) bs c -> enabled e i -> all_one e i bs ->
    exists w, 0 <= w < 2 ^ 256 /\
      eadv e word_hash i = H (fz (w / 2 ^ 128)) (fz (w mod 2 ^ 128)) (fz 512) /\
      eadv e rlc_word i = rlc (be_bytes 32 w) (echal e).
  Proof.
    intros P A1 O En Al. pose proof (occurs_den e c _ bs i S O En Al) as D. pose proof (enabled_lt e c i S En) as Hi.
    destruct D as (D1 & D2 & D3 & D4 & D5 & D6). cbn [den] in D3. rewrite !eval_cur in D3 by exact Hi.
    apply (proj1 (den_assert_equal e i _ _ _)) in D6. rewrite eval_cur in D6 by exact Hi.
    change (eval e i (cur rlc_high * qsquare (qsquare (qsquare (qsquare randomness))) + cur rlc_low)%q)
      with (eval e i (cur rlc_high) * eval e i (qsquare (qsquare (qsquare (qsquare randomness)))) + eval e i (cur rlc_low))%fr in D6.
    rewrite !eval_cur in D6 by exact Hi.
    assert (Q : forall q x, lookup_hit e i [cur q; qz 15; cur x] rlc_lookup ->
      val (eadv e q i) < 2 ^ 128 /\ eadv e x i = rlc (be_bytes 16 (val (eadv e q i))) (echal e)).
    { intros q x L. apply (rlc_sound e n F c S P A1 (eadv e q i) 15 (eadv e x i)); [lia|].
      apply (accepts_hit e i). cbn [map]. destruct L as (t & Ht & St & M). exists t. split; [exact Ht|]. split; [exact St|].
      inversion M as [|? ? ? ? M1 R1]; subst. inversion R1 as [|? ? ? ? M2 R2]; subst. inversion R2 as [|? ? ? ? M3 R3]; subst.
      rewrite eval_cur in M1, M3 by exact Hi. constructor; [exact M1|]. constructor; [exact M2|]. constructor; [exact M3|constructor]. }
    destruct (Q _ _ (D4 eq_refl)) as [V1 E1]. destruct (Q _ _ (D5 eq_refl)) as [V2 E2].
    pose proof (val_range (eadv e high i)) as R1. pose proof (val_range (eadv e low i)) as R2.
    set (a := val (eadv e high i)) in *. set (b := val (eadv e low i)) in *.
    exists (a * 2 ^ 128 + b).
    assert (Dv : (a * 2 ^ 128 + b) / 2 ^ 128 = a) by (rewrite Z.add_comm, Z.div_add, Z.div_small by lia; lia).
    assert (Md : (a * 2 ^ 128 + b) mod 2 ^ 128 = b) by (rewrite Z.add_comm, Z.mod_add, Z.mod_small by lia; lia).
    split; [change (2 ^ 256) with (2 ^ 128 * 2 ^ 128); nia|]. split.
    - rewrite Dv, Md. unfold a, b. rewrite !fz_val. symmetry. apply PT. exact D3.
    - rewrite D6, E1, E2. change 32%nat with (16 + 16)%nat. rewrite be_bytes_app, rlc_app, be_bytes_length.
      change (256 ^ Z.of_nat 16) with (2 ^ 128). rewrite Dv.
      rewrite <- (be_bytes_mod 16 (a * 2 ^ 128 + b)). change (256 ^ Z.of_nat 16) with (2 ^ 128). rewrite Md.
      f_equal. f_equal. unfold randomness, qsquare. cbn [eval fpow]. ring.
  Qed.

  (** * C14 *)
  Lemma nonexistence_sound bs value key other_key kg hash hg data i :
    occurs (is_zero_configure kg) [] c -> occurs (is_zero_configure hg) [] c ->
    occurs (nonexistence_configure value key other_key kg hash hg data) bs c -> enabled e i -> all_one e i bs ->
    eadv e value i = f0 /\
    ((eadv e hash i = f0 /\ eadv e other_key i = eadv e key i) \/
     (eadv e hash i <> f0 /\ eadv e other_key i <> eadv e key i /\
      eadv e hash i = H (eadv e other_key i) (eadv e data i) (fz 4))).
  Proof.
    intros Ok Oh O En Al. pose proof (enabled_lt e c i S En) as Hi.
    pose proof (occurs_den e c _ bs i S O En Al) as D. pose proof (occurs_den e c _ [] i S Ok En ltac:(constructor)) as Dk.
    pose proof (occurs_den e c _ [] i S Oh En ltac:(constructor)) as Dh.
    pose proof (iz_current_sound e i kg Hi Dk) as Ek. pose proof (iz_current_sound e i hg Hi Dh) as Eh.
    destruct D as (D1 & D2 & D3 & D4 & D5). cbn [den] in D1. rewrite eval_cur in D1 by exact Hi. split; [exact D1|].
    apply (proj1 (den_assert_equal e i _ _ _)) in D2, D3, D4.
    rewrite eval_sub in D2. rewrite !eval_cur in D2 by exact Hi. rewrite !eval_cur in D3 by exact Hi.
    change (eval e i (bnot (iz_current kg) + iz_current hg)%q) with (eval e i (bnot (iz_current kg)) + eval e i (iz_current hg))%fr in D4.
    cbn [den] in D5. rewrite eval_bnot, Ek in D4, D5. rewrite Eh in D4. change (eval e i qone) with f1 in D4.
    rewrite D2 in D4, D5. rewrite D3 in D4.
    destruct (feqb_spec (eadv e key i - eadv e other_key i)%fr f0) as [K|K]; destruct (feqb_spec (eadv e hash i) f0) as [Z0|Z0]; cbn [fb] in D4, D5.
    - left. split; [exact Z0|]. transitivity (eadv e key i - (eadv e key i - eadv e other_key i))%fr; [ring|]. rewrite K. ring.
    - exfalso. apply f1_neq_f0. rewrite D4. ring.
    - exfalso. apply f1_neq_f0. transitivity ((f1 - f0 + f1) - f1)%fr; [ring|]. rewrite <- D4. ring.
    - right. split; [exact Z0|]. split; [intros E; apply K; rewrite E; ring|].
      assert (D5' : poseidon_hit e (eval e i (cur other_key)) (eval e i (cur data)) (eval e i (qdom DLeaf)) (eval e i (cur hash))) by (apply D5; ring).
      rewrite !eval_cur in D5' by exact Hi. symmetry. apply PT. exact D5'.
  Qed.
End G.
