(* Accepted updates as honest writes: in tries whose leaves lie where their keys say and which have no superfluous nodes, the
   changes that the circuit lets through are those of HonestSpec.v. *)
From Coq Require Import ZArith String List Bool Lia.
From Verif Require Import Pocklington Fr Query Builder BuilderProofs Gadgets MptUpdate Bytes GadgetProofs LagrangeProofs Fixed CanonProofs UpdateRows TrieSpec TableSpec UpdateWalk UpdateAccount UpdateSound UpdateClaims UpdateProps GadgetMain ChangeSpec TwoTries NewSide NewAccount NewClaims NewStorage NewSlots NewProps NewPlaced HonestSpec WrittenSpec.
Import ListNotations.
Open Scope Z_scope.

(** * Tries *)
Section Trees.
  Context {V : Type}.
  Lemma single_get (u : tree V) d d' K : single u -> get u d K = get u d' K.
  Proof. destruct u; [reflexivity..|intros []]. Qed.
  Lemma compact_sub d : forall (t u : tree V) K d0, sub t K d0 d = Some u -> compact t -> compact u.
  Proof.
    induction d as [|d IH]; intros t u K d0 E C; cbn [sub] in E; [injection E as <-; exact C|].
    destruct t as [|k v|l r]; try discriminate E. destruct C as (_ & Cl & Cr). apply (IH _ _ _ _ E). destruct (kbit K d0); assumption.
  Qed.
  Lemma chain_leaves K (u v : tree V) m : forall d, leaves (chain K d (S m) u v) = (leaves u + leaves v)%nat.
  Proof.
    induction m as [|m IH]; intros d.
    - cbn [chain]. destruct (kbit K d); cbn [leaves]; lia.
    - assert (Q : chain K d (S (S m)) u v = if kbit K d then Node Empty (chain K (S d) (S m) u v) else Node (chain K (S d) (S m) u v) Empty) by reflexivity.
      rewrite Q. destruct (kbit K d); cbn [leaves]; rewrite IH; lia.
  Qed.
  Lemma chain_compact K (u v : tree V) m d : compact (chain K d (S m) u v) -> (2 <= leaves u + leaves v)%nat.
  Proof. intros C. rewrite <- (chain_leaves K u v m d). cbn [chain] in *. destruct (kbit K d); apply C. Qed.
  (* a new leaf beside another one, both where their keys say *)
  Lemma chain_fork K o (b v : V) m : forall d, (forall i, (i < m)%nat -> kbit o (d + i) = kbit K (d + i)) -> kbit o (d + m) = negb (kbit K (d + m)) ->
    fork K v o b d (chain K d (S m) (Leaf o b) (Leaf K v)).
  Proof.
    induction m as [|m IH]; intros d A B.
    - rewrite Nat.add_0_r in B. cbn [chain]. assert (N : kbit K d <> kbit o d) by (rewrite B; destruct (kbit K d); discriminate).
      exact (fork_here K v o b d N).
    - assert (E : kbit K d = kbit o d) by (specialize (A O ltac:(lia)); rewrite Nat.add_0_r in A; symmetry; exact A).
      assert (Fk : fork K v o b (S d) (chain K (S d) (S m) (Leaf o b) (Leaf K v))).
      { apply IH; [intros i Hi; specialize (A (S i) ltac:(lia)); rewrite <- Nat.add_succ_comm in A; exact A|rewrite <- Nat.add_succ_comm in B; exact B]. }
      exact (fork_below K v o b d _ E Fk).
  Qed.
  Lemma repl_insertion K (v : V) d : forall (t u u' : tree V) d0, sub t K d0 d = Some u -> insertion K v (d0 + d) u u' -> insertion K v d0 t (repl t K d0 d u').
  Proof.
    induction d as [|d IH]; intros t u u' d0 E I; cbn [sub repl] in *.
    - injection E as <-. rewrite Nat.add_0_r in I. exact I.
    - destruct t as [|k w|l r]; try discriminate E. rewrite <- Nat.add_succ_comm in I. specialize (IH _ _ _ _ E I).
      destruct (kbit K d0) eqn:B; [apply ins_right|apply ins_left]; assumption.
  Qed.
  (* a leaf hung up below the end of the path of K is inserted *)
  Lemma chain_inserted K (t u : tree V) v d m : sub t K 0 d = Some u -> single u -> (m = O -> u = Empty) -> placed (repl t K 0 d (chain K d m u (Leaf K v))) [] ->
    compact (repl t K 0 d (chain K d m u (Leaf K v))) -> insertion K v 0 t (repl t K 0 d (chain K d m u (Leaf K v))).
  Proof.
    intros A Su Hm Pl Co. pose proof (sub_repl d t K 0 u (chain K d m u (Leaf K v)) A) as A'.
    apply (repl_insertion K v d t u _ 0 A). cbn [Nat.add]. destruct m as [|m].
    - rewrite (Hm eq_refl). apply ins_empty.
    - apply (compact_sub d _ _ _ _ A') in Co. apply chain_compact in Co. pose proof (sub_placed d _ K 0 _ [] A' Pl) as Pu. cbn [app] in Pu.
      destruct u as [|o b|l r]; [cbn [leaves] in Co; lia| |contradiction Su].
      apply ins_fork. destruct (chain_bits K o b (Leaf K v) m d (kbits K 0 d) (kbits_length K 0 d) Pu) as [X Y]. apply chain_fork; assumption.
  Qed.
  Lemma sub_leaf_get d (t : tree V) K k v : sub t K 0 d = Some (Leaf k v) -> get t 0 K = if feqb K k then Some v else None.
  Proof. intros E. rewrite (sub_get d t K 0 _ E). reflexivity. Qed.
  Lemma sub_leaf_foreign d (t : tree V) K k v : sub t K 0 d = Some (Leaf k v) -> k <> K -> foreign_leaf t K k.
  Proof. intros E N. split; [exact N|]. exists v. rewrite (sub_reached d t K 0 _ E). reflexivity. Qed.
  Lemma chain_end_get K (u : tree V) k v d m t : sub t K 0 d = Some u -> get (repl t K 0 d (chain K d m u (Leaf k v))) 0 K = if feqb K k then Some v else None.
  Proof. intros A. rewrite (sub_get d _ K 0 _ (sub_repl d t K 0 u _ A)). cbn [Nat.add]. rewrite chain_get. reflexivity. Qed.
  Lemma chain_end_foreign K (u : tree V) k v d m t : sub t K 0 d = Some u -> k <> K -> foreign_leaf (repl t K 0 d (chain K d m u (Leaf k v))) K k.
  Proof. intros A N. split; [exact N|]. exists v. rewrite (sub_reached d _ K 0 _ (sub_repl d t K 0 u _ A)). cbn [Nat.add]. apply chain_ends. Qed.

  (** ** insertion *)
  Lemma fork_unique K (v : V) o b d t1 : fork K v o b d t1 -> forall t2, fork K v o b d t2 -> t1 = t2.
  Proof.
    induction 1 as [d N|d t E F1 IH]; intros t2 F2.
    - inversion F2 as [d' N' E1 E2|d' t' E' F' E1 E2]; subst; [reflexivity|congruence].
    - inversion F2 as [d' N' E1 E2|d' t' E' F' E1 E2]; subst; [congruence|]. rewrite (IH _ F'). reflexivity.
  Qed.
  Lemma insertion_unique K (v : V) d t t1 : insertion K v d t t1 -> forall t2, insertion K v d t t2 -> t1 = t2.
  Proof.
    induction 1 as [d|d k' v' t Fk|d l r r' B I1 IH|d l r l' B I1 IH]; intros t2 I2; inversion I2; subst.
    - reflexivity.
    - eapply fork_unique; eassumption.
    - f_equal. apply IH. assumption.
    - congruence.
    - congruence.
    - f_equal. apply IH. assumption.
  Qed.
  Lemma fork_leaves K (v : V) o b d t : fork K v o b d t -> leaves t = 2%nat /\ compact t.
  Proof. induction 1 as [d N|d t E F1 [IH1 IH2]]; destruct (kbit K d); cbn [leaves compact]; rewrite ?IH1; repeat split; try exact IH2; lia. Qed.
  Lemma insertion_leaves K (v : V) d t t' : insertion K v d t t' -> leaves t' = S (leaves t).
  Proof.
    induction 1 as [d|d k' v' t Fk|d l r r' B I1 IH|d l r l' B I1 IH]; cbn [leaves]; [reflexivity| |lia|lia]. apply fork_leaves in Fk. apply Fk.
  Qed.
  Lemma insertion_compact K (v : V) d t t' : insertion K v d t t' -> compact t -> compact t'.
  Proof.
    induction 1 as [d|d k' v' t Fk|d l r r' B I1 IH|d l r l' B I1 IH]; cbn [compact]; [auto| | |].
    - intros _. apply fork_leaves in Fk. apply Fk.
    - intros (L & Cl & Cr). apply insertion_leaves in I1. split; [lia|]. auto.
    - intros (L & Cl & Cr). apply insertion_leaves in I1. split; [lia|]. auto.
  Qed.
  Lemma fork_get K (v : V) o b d t : fork K v o b d t -> get t d K = Some v.
  Proof. induction 1 as [d N|d t E F1 IH]; destruct (kbit K d) eqn:B; cbn [get]; rewrite B; try exact IH; cbn [get]; rewrite feqb_refl; reflexivity. Qed.
  Lemma insertion_get K (v : V) d t t' : insertion K v d t t' -> get t' d K = Some v.
  Proof.
    induction 1 as [d|d k' v' t Fk|d l r r' B I1 IH|d l r l' B I1 IH]; [cbn [get]; rewrite feqb_refl; reflexivity|exact (fork_get K v k' v' d t Fk)|cbn [get]; rewrite B; exact IH..].
  Qed.
  Lemma fork_neq K (v : V) o b d t : fork K v o b d t -> o <> K.
  Proof. induction 1 as [d N|d t E F1 IH]; [congruence|exact IH]. Qed.
  Lemma insertion_absent K (v : V) d t t' : insertion K v d t t' -> get t d K = None.
  Proof.
    induction 1 as [d|d k' v' t Fk|d l r r' B I1 IH|d l r l' B I1 IH]; [reflexivity| |cbn [get]; rewrite B; exact IH..].
    apply fork_neq in Fk. cbn [get]. rewrite (proj2 (feqb_neq K k')) by congruence. reflexivity.
  Qed.
  (* the trie before an insertion is determined by the one after it, if it has no superfluous nodes *)
  Lemma fork_above K (v : V) o b d t : fork K v o b d t -> forall l r, t = Node l r ->
    match (if kbit K d then r else l) with Leaf k w => k = K /\ w = v /\ (if kbit K d then l else r) = Leaf o b | Node _ _ => (if kbit K d then l else r) = Empty | Empty => False end.
  Proof.
    destruct 1 as [d N|d t E F1]; intros l r Q; destruct (kbit K d) eqn:B; injection Q as <- <-; auto; destruct F1 as [d' N'|d' t' E' F']; destruct (kbit K d'); reflexivity.
  Qed.
  Lemma insertion_leaf K (v : V) d t k w : insertion K v d t (Leaf k w) -> t = Empty /\ k = K /\ w = v.
  Proof.
    intros I. inversion I as [d'|d' k' v' t' Fk|d' l r r' B I1|d' l r l' B I1]; subst; [auto|]. exfalso. remember (Leaf k w) as z. destruct Fk as [d' N|d' t' E F1]; destruct (kbit K d'); discriminate Heqz.
  Qed.
  Lemma insertion_no_empty K (v : V) d t : ~ insertion K v d t Empty.
  Proof. intros I. apply insertion_leaves in I. discriminate I. Qed.
  Lemma fork_from K (v : V) o b d t : fork K v o b d t -> forall t2, insertion K v d t2 t -> compact t2 -> t2 = Leaf o b.
  Proof.
    induction 1 as [d N|d t E F1 IH]; intros t2 I C.
    - pose proof (insertion_leaves K v d t2 _ I) as Le.
      destruct (kbit K d) eqn:B; inversion I as [d'|d' k' v' t' Fk|d' l r r' B' I1|d' l r l' B' I1]; subst; try congruence;
        try (pose proof (insertion_leaf K v _ _ _ _ I1) as (-> & _); cbn [compact leaves] in C; lia).
      + pose proof (fork_above K v k' v' d _ Fk _ _ eq_refl) as X. rewrite B in X. destruct X as (_ & _ & X). congruence.
      + pose proof (fork_above K v k' v' d _ Fk _ _ eq_refl) as X. rewrite B in X. destruct X as (_ & _ & X). congruence.
    - destruct (kbit K d) eqn:B; inversion I as [d'|d' k' v' t' Fk|d' l r r' B' I1|d' l r l' B' I1]; subst; try congruence.
      + inversion Fk as [d' N' E1 E2|d' t' E' F' E1 E2]; rewrite B in E2; [congruence|]. injection E2 as ->. 
        apply (IH (Leaf k' v')); [apply ins_fork; exact F'|exact Logic.I].
      + destruct C as (L & _ & Cr). specialize (IH _ I1 Cr). subst r. cbn [leaves] in L. lia.
      + inversion Fk as [d' N' E1 E2|d' t' E' F' E1 E2]; rewrite B in E2; [congruence|]. injection E2 as ->.
        apply (IH (Leaf k' v')); [apply ins_fork; exact F'|exact Logic.I].
      + destruct C as (L & Cl & _). specialize (IH _ I1 Cl). subst l. cbn [leaves] in L. lia.
  Qed.
  Lemma removal_unique K (v : V) d t1 t : insertion K v d t1 t -> compact t1 -> forall t2, insertion K v d t2 t -> compact t2 -> t1 = t2.
  Proof.
    induction 1 as [d|d k' v' t Fk|d l r r' B I1 IH|d l r l' B I1 IH]; intros C1 t2 I2 C2.
    - symmetry. apply (insertion_leaf K v d t2 K v I2).
    - symmetry. exact (fork_from K v k' v' d t Fk t2 I2 C2).
    - assert (W : insertion K v d (Node l r) (Node l r')) by (apply ins_right; assumption).
      inversion I2 as [d'|d' k' v' t' Fk|d' l2 r2 r2' B' I2'|d' l2 r2 l2' B' I2']; subst; [| |congruence].
      + pose proof (fork_from K v k' v' d _ Fk _ W C1). discriminate.
      + f_equal. apply IH; [apply C1|exact I2'|apply C2].
    - assert (W : insertion K v d (Node l r) (Node l' r)) by (apply ins_left; assumption).
      inversion I2 as [d'|d' k' v' t' Fk|d' l2 r2 r2' B' I2'|d' l2 r2 l2' B' I2']; subst; [|congruence|].
      + pose proof (fork_from K v k' v' d _ Fk _ W C1). discriminate.
      + f_equal. apply IH; [apply C1|exact I2'|apply C2].
  Qed.
  Lemma written_unique K (t t1 t2 : tree V) ov nv : written K ov nv t t1 -> written K ov nv t t2 -> compact t1 -> compact t2 -> t1 = t2.
  Proof.
    unfold written. destruct ov as [v|], nv as [v'|].
    - intros (_ & ->) (_ & ->) _ _. reflexivity.
    - intros I1 I2 C1 C2. exact (removal_unique K v 0 t1 t I1 C1 t2 I2 C2).
    - intros I1 I2 _ _. exact (insertion_unique K v' 0 t t1 I1 t2 I2).
    - intros (_ & ->) (_ & ->) _ _. reflexivity.
  Qed.
End Trees.

(** * Changes of the state *)
Lemma change_written p K (t t' : tree account) : state_change p K t t' -> placed t' [] -> compact t' -> (forall o b, t = Leaf o b -> o = K) ->
  present t K \/ present t' K \/ (forall k', ~ foreign_leaf t' K k') -> written K (get t 0 K) (get t' 0 K) t t'.
Proof.
  intros Ch Pl Co Sl Ex. destruct Ch as [E G0|d k a a' A Rep|d m u A Su G0 Pt Rep|d m u k a' A Su G0 Pt Hm Rep].
  - rewrite E, G0. split; auto.
  - pose proof (sub_leaf_get d t K k a A) as G. pose proof (sub_repl d t K 0 _ (Leaf k a') A) as A'. rewrite <- Rep in A'. pose proof (sub_leaf_get d t' K k a' A') as G'.
    destruct (feqb_spec K k) as [Q|N].
    + subst k. rewrite G, G'. split; [exact G|]. rewrite (sub_modify (fun _ => a') d t K 0 _ A). cbn [modify]. rewrite feqb_refl. exact Rep.
    + exfalso. destruct Ex as [(x & X)|[(x & X)|Fo]]; [congruence|congruence|]. apply (Fo k). exact (sub_leaf_foreign d t' K k a' A' (not_eq_sym N)).
  - exfalso. pose proof (sub_repl d t K 0 _ (chain K d (S m) u u) A) as A'. rewrite <- Rep in A'.
    apply (compact_sub d _ _ _ _ A') in Co. apply chain_compact in Co. pose proof (sub_placed d _ K 0 _ [] A' Pl) as Pu. cbn [app] in Pu.
    destruct u as [|o b|l r]; [cbn [leaves] in Co; lia| |contradiction Su].
    destruct (chain_bits K o b (Leaf o b) m d (kbits K 0 d) (kbits_length K 0 d) Pu) as [_ Y].
    destruct Ex as [(x & X)|[(x & X)|Fo]].
    + congruence.
    + rewrite (sub_get d t' K 0 _ A') in X. cbn [Nat.add] in X. rewrite chain_get in X. rewrite (sub_get d t K 0 _ A) in G0. cbn [get] in *. congruence.
    + rewrite Rep in Fo. apply (Fo o). apply (chain_end_foreign K (Leaf o b) o b d (S m) t A). intros ->. destruct (kbit K (d + m)); discriminate Y.
  - pose proof (chain_end_get K u k a' d m t A) as G'. rewrite <- Rep in G'. destruct (feqb_spec K k) as [Q|N].
    + subst k. rewrite G0, G'. rewrite Rep in Pl, Co |- *. apply chain_inserted; try assumption.
      intros M. destruct (Hm M) as [Q|Q]; [|exact Q]. subst d. cbn [sub] in A. injection A as A. destruct u as [|o b|l r]; [reflexivity| |contradiction Su].
      exfalso. specialize (Sl o b A). subst o. rewrite A in G0. cbn [get] in G0. rewrite feqb_refl in G0. discriminate G0.
    + exfalso. destruct Ex as [(x & X)|[(x & X)|Fo]]; [congruence|congruence|]. rewrite Rep in Fo. exact (Fo k (chain_end_foreign K u k a' d m t A (not_eq_sym N))).
Qed.

(** * Storage *)
(* how the storage trie differs, without the values *)
Inductive slot_shape (K : Fr) (s s' : tree Z) : Prop :=
| sh_leaf : forall d k w w', sub s K 0 d = Some (Leaf k w) -> s' = repl s K 0 d (Leaf k w') -> slot_shape K s s'
| sh_new : forall d m u k w', sub s K 0 d = Some u -> single u -> get s 0 K = None -> (m = O -> u = Empty) -> s' = repl s K 0 d (chain K d m u (Leaf k w')) -> slot_shape K s s'
| sh_old : forall d m u k w, sub s' K 0 d = Some u -> single u -> get s' 0 K = None -> (m = O -> u = Empty) -> s = repl s' K 0 d (chain K d m u (Leaf k w)) -> slot_shape K s s'.
Lemma repl_back {V} d : forall (t u u' : tree V) K d0, sub t K d0 d = Some u -> repl (repl t K d0 d u') K d0 d u = t.
Proof.
  induction d as [|d IH]; intros t u u' K d0 E; cbn [sub repl] in *; [congruence|]. destruct t as [|k v|l r]; try discriminate E.
  destruct (kbit K d0) eqn:B; cbn [repl]; rewrite ?B; f_equal; apply IH; exact E.
Qed.
Lemma diff_shape e l s s' d u u' : sub s (eadv e MU_key l) 0 d = Some u -> sub s' (eadv e MU_key l) 0 d = Some u' -> s' = repl s (eadv e MU_key l) 0 d u' ->
  slot_diff e l d u u' -> slot_shape (eadv e MU_key l) s s'.
Proof.
  set (K := eadv e MU_key l). intros A A' Rep Df.
  pose proof (sub_get d s K 0 u A) as G. pose proof (sub_get d s' K 0 u' A') as G'. cbn [Nat.add] in G, G'.
  destruct Df as [k v v' Eu Eu' Z Z' _ _ Vo Vn|m k v' Su G0 V0 Hm E|m k v Su G0 V0 Hm E]; unfold adv in *; try fold K in G0; try fold K in E.
  - apply (sh_leaf K s s' d k v v'); [rewrite <- Eu; exact A|rewrite <- Eu'; exact Rep].
  - apply (sh_new K s s' d m u k v' A Su); [rewrite G; exact G0|exact Hm|rewrite <- E; exact Rep].
  - apply (sh_old K s s' d m u' k v A' Su); [rewrite G'; exact G0|exact Hm|rewrite <- E, Rep; symmetry; exact (repl_back d s u u' K 0 A)].
Qed.
Lemma shape_written K (s s' : tree Z) : slot_shape K s s' -> placed s [] -> placed s' [] -> compact s -> compact s' ->
  present s K \/ present s' K \/ (forall k', ~ foreign_leaf s K k' /\ ~ foreign_leaf s' K k') -> written K (get s 0 K) (get s' 0 K) s s'.
Proof.
  intros Sh Pl Pl' Co Co' Ex. destruct Sh as [d k a a' A Rep|d m u k a' A Su G0 Hm Rep|d m u k a A Su G0 Hm Rep].
  - pose proof (sub_leaf_get d s K k a A) as G. pose proof (sub_repl d s K 0 _ (Leaf k a') A) as A'. rewrite <- Rep in A'. pose proof (sub_leaf_get d s' K k a' A') as G'.
    destruct (feqb_spec K k) as [Q|N].
    + subst k. rewrite G, G'. split; [exact G|]. rewrite (sub_modify (fun _ => a') d s K 0 _ A). cbn [modify]. rewrite feqb_refl. exact Rep.
    + exfalso. destruct Ex as [(x & X)|[(x & X)|Fo]]; [congruence|congruence|]. apply (proj2 (Fo k)). exact (sub_leaf_foreign d s' K k a' A' (not_eq_sym N)).
  - pose proof (chain_end_get K u k a' d m s A) as G'. rewrite <- Rep in G'. destruct (feqb_spec K k) as [Q|N].
    + subst k. rewrite G0, G'. rewrite Rep in Pl', Co' |- *. apply chain_inserted; assumption.
    + exfalso. destruct Ex as [(x & X)|[(x & X)|Fo]]; [congruence|congruence|]. rewrite Rep in Fo. exact (proj2 (Fo k) (chain_end_foreign K u k a' d m s A (not_eq_sym N))).
  - pose proof (chain_end_get K u k a d m s' A) as G. rewrite <- Rep in G. destruct (feqb_spec K k) as [Q|N].
    + subst k. rewrite G0, G. rewrite Rep in Pl, Co |- *. apply chain_inserted; assumption.
    + exfalso. destruct Ex as [(x & X)|[(x & X)|Fo]]; [congruence|congruence|]. rewrite Rep in Fo. exact (proj1 (Fo k) (chain_end_foreign K u k a d m s' A (not_eq_sym N))).
Qed.

Section Slots.
  Variables (H : Fr -> Fr -> Fr -> Fr) (e : env) (n : Z).
  Hypothesis OK : circuit_ok H e n.
  Let F : fixed_ok e n := co_fixed H e n OK.
  Let HD := HD H e n OK.
  Let HL := HL H e n OK.
  Notation adv := (adv e). Notation sg := (sg e). Notation pa := (pa e). Notation pt := (pt e).
  Variables (t t' : tree account) (i : Z).
  Hypothesis Hi : 1 <= i /\ i + 1 < n.
  Hypothesis Hst : sg i = SegStart.
  Hypothesis Hroot : state_root H t = adv MU_old_hash i.
  Hypothesis Hroot' : state_root H t' = adv MU_new_hash i.
  Hypothesis Hbits : bits_ok n (height t).
  Hypothesis Hbits' : bits_ok n (height t').
  Hypothesis Hsb : tree_all (fun a => bits_ok n (height (storage a))) t.
  Hypothesis Hsb' : tree_all (fun a => bits_ok n (height (storage a))) t'.
  Hypothesis Hacc : tree_all account_ok t.
  Hypothesis Hacc' : tree_all account_ok t'.
  Notation S := (inputs2 H e t t').
  Hypothesis CF : collision_free H S.
  Let K := adv MU_key i.
  Notation kacc := (kacc H S).
  Notation of_update := (of_update e n i).

  Lemma slot_pair_shape j a a' : pt i = StorageChanged -> of_update j -> sg j = AccountLeaf0 -> pa j = Common -> kacc a -> kacc a' -> account_ok a -> account_ok a' ->
    bits_ok n (height (storage a)) -> bits_ok n (height (storage a')) ->
    account_hash H a = adv MU_old_hash j -> account_hash H a' = adv MU_new_hash j ->
    a' = set_storage (storage a') a /\ exists slot, word_ok slot /\ adv MU_storage_key_rlc i = word_rlc (echal e) slot /\
      slot_change (echal e) (slot_key H slot) (storage a) (storage a') (adv MU_old_value i) (adv MU_new_value i) /\ slot_shape (slot_key H slot) (storage a) (storage a').
  Proof.
    intros T Uj S0 P0 Ka Ka' Oa Oa' Ba Ba' Ea Ea'. pose proof Uj as (Hj & Tj & Vj & Wj & _).
    destruct (leaf_rows H e n F HD HL j ltac:(lia) S0 P0) as (L2 & _ & S1 & P1 & T1 & Alt).
    assert (U1 : of_update (j + 1)) by (apply (upd_next H e n OK i Hi); [exact Uj|lia|rewrite S1; discriminate]).
    rewrite Tj, T in *.
    destruct Alt as [(Tp & _)|(Fr4 & L4 & b2 & b3 & S2 & S3 & P3 & T3 & D2 & D3 & B1 & B2 & B3)]; [discriminate Tp|].
    destruct B1 as [O1 N1]. destruct B2 as [O2 N2]. destruct B3 as [O3 N3].
    replace (j + 1 - 1) with j in * by lia. replace (j + 2 - 1) with (j + 1) in * by lia. replace (j + 3 - 1) with (j + 2) in * by lia.
    destruct (four_side H e n OK t t' CF (adv MU_old_hash) a j b2 b3 Ka Ea O1 O2 O3) as (X3 & Xp & X2 & Xs).
    destruct (four_side H e n OK t t' CF (adv MU_new_hash) a' j b2 b3 Ka' Ea' N1 N2 N3) as (Y3 & Yp & Y2 & Ys).
    rewrite Xp in Yp. rewrite X2 in Y2. rewrite Xs in Ys.
    cbn [leaf_dir] in D2, D3. injection D2 as <-. injection D3 as <-. cbn [comp negb] in X3, Y3, Ys, Y2.
    destruct (inj3 H S CF _ _ _ _ _ _ (i1 H S a Ka) (i1 H S a' Ka') Y2) as (C3 & C4 & _).
    destruct (cx_inj a a' Oa Oa' C3) as [M1 M2]. apply (cy_inj a a' Oa Oa') in C4. apply (ck_inj H S CF a a' Oa Oa' Ka Ka') in Ys.
    split; [apply account_is; cbn; congruence|].
    assert (U3 : of_update (j + 3)).
    { replace (j + 3) with (j + 1 + 1 + 1) by lia. apply (upd_next H e n OK i Hi); [apply (upd_next H e n OK i Hi); [exact U1|lia|]|lia|].
      - replace (j + 1 + 1) with (j + 2) by lia. rewrite S2. discriminate.
      - replace (j + 1 + 1 + 1) with (j + 3) by lia. rewrite S3. discriminate. }
    destruct U3 as (_ & _ & V3 & W3 & R3).
    destruct (l3_hashed H e n OK (j + 3)) as (slot & Q1 & Q2 & Q3 & Q4); [lia|exact S3|exact T3|].
    exists slot. split; [exact Q1|]. split; [congruence|]. rewrite <- Q2.
    destruct (storage_two H e n OK S CF (HT2 H e t t') (storage a) (storage a') (j + 3) ltac:(lia) S3 P3 T3
      (kacc_sto H S a Ka) (kacc_sto H S a' Ka') ltac:(apply Oa) ltac:(apply Oa') (eq_sym X3) (eq_sym Y3) Ba Ba') as (d & u & u' & A & A' & Rep & Df).
    split; [apply slot_change_of; exact (diff_change e (j + 3) _ _ d u u' _ _ A A' Rep Df V3 W3)|exact (diff_shape e (j + 3) _ _ d u u' A A' Rep Df)].
  Qed.
  Lemma existing_shape a : pt i = StorageChanged -> get t 0 K = Some a ->
    exists s' slot, t' = modify (set_storage s') t 0 K /\ word_ok slot /\ adv MU_storage_key_rlc i = word_rlc (echal e) slot /\
      slot_change (echal e) (slot_key H slot) (storage a) s' (adv MU_old_value i) (adv MU_new_value i) /\ slot_shape (slot_key H slot) (storage a) s'.
  Proof.
    intros T G. destruct (account_two H e n OK t t' i Hi Hst Hroot Hroot' Hbits Hbits' Hacc Hacc' CF) as (d & u & u' & A & A' & Rep & Df). fold K in A, A', Rep.
    rewrite (sub_get d t K 0 u A) in G. cbn [Nat.add] in G.
    destruct Df as [E G0 V0 V1|j k b b' Uj S0 P0 -> -> Kb Kb' Ob Ob' Eb Eb'|m Su G0 V0 V1 _ E|m j k b' Su G0 V0 Hm Uj S0 P0 E Kb' Ob' Eb'];
      try (change (get u d K = None) in G0; congruence).
    cbn in G. destruct (feqb_spec K k) as [<-|]; [|discriminate G]. injection G as ->.
    destruct (slot_pair_shape j a b' T Uj S0 P0 Kb Kb' Ob Ob' (sub_bits n d t _ K 0 A Hsb) (sub_bits n d t' _ K 0 A' Hsb') Eb Eb') as (Ea & slot & Q).
    exists (storage b'), slot. split; [|exact Q].
    rewrite (sub_modify (set_storage (storage b')) d t K 0 _ A). cbn [modify]. rewrite feqb_refl, <- Ea. exact Rep.
  Qed.
End Slots.

Section Rows.
  Variables (H : Fr -> Fr -> Fr -> Fr) (e : env) (n : Z).
  Hypothesis OK : circuit_ok H e n.
  Theorem accounts_written : forall row, exposes e row -> row <> blank_row -> row <> final_row ->
    exists s, row = encode (echal e) s /\ 0 <= st_address s < 2 ^ 160 /\ forall t t', tries_of H e n s t t' ->
    let K := addr_key H (st_address s) in
    placed t' [] -> compact t' -> (forall o b, t = Leaf o b -> o = K) -> present t K \/ present t' K \/ (forall k', ~ foreign_leaf t' K k') ->
    written K (get t 0 K) (get t' 0 K) t t'.
  Proof. apply (lift_row H e n OK). intros i s t t' Hi R T. exact (change_written _ _ t t' (row_shape H e n OK i s t t' Hi R T)). Qed.
  Theorem slots_written : forall row, exposes e row -> row <> blank_row -> row <> final_row ->
    exists s, row = encode (echal e) s /\ 0 <= st_address s < 2 ^ 160 /\ forall t t', tries_of H e n s t t' ->
    let K := addr_key H (st_address s) in
    st_kind s = StorageChanged -> forall a, get t 0 K = Some a ->
    exists st' slot, t' = modify (set_storage st') t 0 K /\ word_ok slot /\ st_slot_rlc s = word_rlc (echal e) slot /\
      slot_change (echal e) (slot_key H slot) (storage a) st' (st_old_value s) (st_new_value s) /\
      let k := slot_key H slot in
      (placed (storage a) [] -> placed st' [] -> compact (storage a) -> compact st' ->
       present (storage a) k \/ present st' k \/ (forall k', ~ foreign_leaf (storage a) k k' /\ ~ foreign_leaf st' k k') ->
       written k (get (storage a) 0 k) (get st' 0 k) (storage a) st').
  Proof.
    apply (lift_row H e n OK). cbv zeta. intros i s t t' Hi R T.
    rewrite <- (rs_key _ _ _ _ R), (rs_kind _ _ _ _ R), (rs_old _ _ _ _ R), (rs_new _ _ _ _ R), (rs_slot _ _ _ _ R). intros P a G.
    assert (r1 : state_root H t = adv e MU_old_hash i) by (rewrite (to_old _ _ _ _ _ _ T); apply R).
    assert (r2 : state_root H t' = adv e MU_new_hash i) by (rewrite (to_new _ _ _ _ _ _ T); apply R).
    destruct (existing_shape H e n OK t t' i Hi (rs_seg _ _ _ _ R) r1 r2 (to_bits _ _ _ _ _ _ T) (to_bits' _ _ _ _ _ _ T) (to_sbits _ _ _ _ _ _ T) (to_sbits' _ _ _ _ _ _ T) (to_ok _ _ _ _ _ _ T) (to_ok' _ _ _ _ _ _ T) (to_free _ _ _ _ _ _ T) a P G)
      as (st' & slot & A & B & C & D & E). exists st', slot. do 4 (split; [assumption|]). exact (shape_written _ _ _ E).
  Qed.
End Rows.

(* the new root is a function of the old state and of the new account *)
Theorem root_determined H e1 n1 e2 n2 : circuit_ok H e1 n1 -> circuit_ok H e2 n2 -> forall row1 row2, exposes e1 row1 -> row1 <> blank_row -> row1 <> final_row -> exposes e2 row2 -> row2 <> blank_row -> row2 <> final_row ->
  exists s1 s2, row1 = encode (echal e1) s1 /\ 0 <= st_address s1 < 2 ^ 160 /\ row2 = encode (echal e2) s2 /\ 0 <= st_address s2 < 2 ^ 160 /\
  forall t t1 t2, tries_of H e1 n1 s1 t t1 -> tries_of H e2 n2 s2 t t2 -> st_address s1 = st_address s2 ->
  let K := addr_key H (st_address s1) in
  get t1 0 K = get t2 0 K -> placed t1 [] -> placed t2 [] -> compact t1 -> compact t2 -> (forall o b, t = Leaf o b -> o = K) ->
  present t K \/ present t1 K \/ (forall k', ~ foreign_leaf t1 K k' /\ ~ foreign_leaf t2 K k') ->
  t1 = t2 /\ st_new_root s1 = st_new_root s2.
Proof.
  intros OK1 OK2 row1 row2 X1 Y1 Z1 X2 Y2 Z2.
  destruct (accounts_written H e1 n1 OK1 row1 X1 Y1 Z1) as (s1 & E1 & R1 & W1). destruct (accounts_written H e2 n2 OK2 row2 X2 Y2 Z2) as (s2 & E2 & R2 & W2).
  exists s1, s2. do 4 (split; [assumption|]). cbv zeta. intros t t1 t2 T1 T2 Ad G P1 P2 C1 C2 Sl Ex.
  specialize (W1 t t1 T1 P1 C1 Sl). specialize (W2 t t2 T2 P2 C2). rewrite <- Ad in W2. specialize (W2 Sl).
  assert (t1 = t2) as <-.
  { apply (written_unique (addr_key H (st_address s1)) t t1 t2 (get t 0 (addr_key H (st_address s1))) (get t1 0 (addr_key H (st_address s1)))); [| |exact C1|exact C2].
    - apply W1. destruct Ex as [Ex|[Ex|Fo]]; [auto|auto|]. right. right. intros k'. apply Fo.
    - rewrite G. apply W2. destruct Ex as [Ex|[(x & Ex)|Fo]]; [auto|right; left; exists x; congruence|]. right. right. intros k'. apply Fo. }
  split; [reflexivity|]. rewrite <- (to_new _ _ _ _ _ _ T1). exact (to_new _ _ _ _ _ _ T2).
Qed.
