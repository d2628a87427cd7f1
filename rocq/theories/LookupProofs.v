(* sort, dedup and the contents of the collected lists. *)
From Coq Require Import ZArith List Bool Lia Sorted.
From Verif Require Import Pocklington Fr Query Builder Gadgets MptUpdate Bytes Util Serde Trie Storage Types Lookups.
Import ListNotations.
Open Scope Z_scope.

Record cmp_ok {X} (cmp : X -> X -> comparison) : Prop := {
  cmp_eq : forall x y, cmp x y = Eq <-> x = y;
  cmp_sym : forall x y, cmp y x = CompOpp (cmp x y);
  cmp_trans : forall x y z, cmp x y = Lt -> cmp y z = Lt -> cmp x z = Lt }.
Lemma cmp_ok_z : cmp_ok Z.compare.
Proof.
  split; [apply Z.compare_eq_iff|intros; apply Z.compare_antisym|].
  intros x y z A B. change (x < y) in A. change (y < z) in B. change (x < z). lia.
Qed.
Lemma cmp_ok_fr : cmp_ok cmp_fr.
Proof.
  unfold cmp_fr. split.
  - intros x y. rewrite Z.compare_eq_iff. split; [apply Fr_eq|congruence].
  - intros. apply Z.compare_antisym.
  - intros x y z A B. change (val x < val y) in A. change (val y < val z) in B. change (val x < val z). lia.
Qed.
Lemma cmp_ok_bool : cmp_ok cmp_bool.
Proof. split; [intros [] []; cbn; split; congruence|intros [] []; reflexivity|intros [] [] []; cbn; congruence]. Qed.
Lemma cmp_ok_pair {A B} (ca : A -> A -> comparison) (cb : B -> B -> comparison) : cmp_ok ca -> cmp_ok cb -> cmp_ok (cmp_pair ca cb).
Proof.
  intros [E1 S1 T1] [E2 S2 T2]. unfold cmp_pair. split.
  - intros [a b] [a' b']. cbn [fst snd]. destruct (ca a a') eqn:Q.
    + apply E1 in Q. subst a'. rewrite E2. split; [intros ->; reflexivity|congruence].
    + split; [discriminate|]. intros E. injection E as -> ->. rewrite (proj2 (E1 a' a') eq_refl) in Q. discriminate Q.
    + split; [discriminate|]. intros E. injection E as -> ->. rewrite (proj2 (E1 a' a') eq_refl) in Q. discriminate Q.
  - intros [a b] [a' b']. cbn [fst snd]. rewrite (S1 a a'). destruct (ca a a'); cbn [CompOpp]; auto.
  - intros [a b] [a' b'] [a'' b'']. cbn [fst snd]. destruct (ca a a') eqn:Q; try discriminate.
    + apply E1 in Q. subst a'. destruct (ca a a''); try discriminate; auto. apply T2.
    + intros _. destruct (ca a' a'') eqn:Q2; try discriminate.
      * apply E1 in Q2. subst a''. rewrite Q. reflexivity.
      * rewrite (T1 _ _ _ Q Q2). reflexivity.
Qed.
Lemma cmp_ok_trace : cmp_ok cmp_trace.
Proof. repeat apply cmp_ok_pair; apply cmp_ok_fr. Qed.
Lemma cmp_ok_lookup : cmp_ok cmp_lookup.
Proof. apply cmp_ok_pair; [apply cmp_ok_pair|]; [apply cmp_ok_fr|apply cmp_ok_z|apply cmp_ok_bool]. Qed.

Section Sort.
  Context {X : Type} (cmp : X -> X -> comparison) (C : cmp_ok cmp).
  Let ceq := cmp_eq cmp C. Let csym := cmp_sym cmp C. Let ctrans := cmp_trans cmp C.
  Lemma insert_in x y l : In y (insert cmp x l) <-> y = x \/ In y l.
  Proof.
    induction l as [|z l IH]; [cbn; intuition congruence|]. cbn [insert]. destruct (cmp x z); cbn [In]; rewrite ?IH; intuition congruence.
  Qed.
  Lemma sort_in y l : In y (sort cmp l) <-> In y l.
  Proof. induction l as [|x l IH]; [tauto|]. cbn [sort In]. rewrite insert_in, IH. intuition congruence. Qed.
  Definition le x y := cmp x y <> Gt.
  Definition lt x y := cmp x y = Lt.
  Lemma le_trans x y z : le x y -> le y z -> le x z.
  Proof.
    unfold le. intros A B. destruct (cmp x y) eqn:Q; [apply ceq in Q; subst; exact B| |congruence].
    destruct (cmp y z) eqn:Q2; [apply ceq in Q2; subst; congruence| |congruence]. rewrite (ctrans _ _ _ Q Q2). discriminate.
  Qed.
  Lemma insert_sorted x l : StronglySorted le l -> StronglySorted le (insert cmp x l).
  Proof.
    induction 1 as [|z l S IH F]; [repeat constructor|]. cbn [insert]. destruct (cmp x z) eqn:Q.
    - constructor; [constructor; assumption|]. constructor; [unfold le; congruence|]. apply ceq in Q. subst. exact F.
    - constructor; [constructor; assumption|]. assert (L : le x z) by (unfold le; congruence). constructor; [exact L|].
      eapply Forall_impl; [|exact F]. intros a Ha. exact (le_trans _ _ _ L Ha).
    - constructor; [exact IH|]. apply Forall_forall. intros a Ha. apply (proj1 (insert_in x a l)) in Ha. destruct Ha as [->|Ha].
      + unfold le. rewrite csym, Q. discriminate.
      + rewrite Forall_forall in F. apply F, Ha.
  Qed.
  Lemma sort_sorted l : StronglySorted le (sort cmp l).
  Proof. induction l; [constructor|apply insert_sorted; assumption]. Qed.
  Lemma dedup_cons x y l : dedup cmp (x :: y :: l) = match cmp x y with Eq => dedup cmp (y :: l) | _ => x :: dedup cmp (y :: l) end.
  Proof. reflexivity. Qed.
  Lemma dedup_in y l : In y (dedup cmp l) <-> In y l.
  Proof.
    induction l as [|x [|z l] IH]; [tauto|tauto|]. rewrite dedup_cons. destruct (cmp x z) eqn:Q.
    - apply ceq in Q. subst z. rewrite IH. cbn [In]. tauto.
    - cbn [In] in *. rewrite IH. tauto.
    - cbn [In] in *. rewrite IH. tauto.
  Qed.
  Lemma dedup_sorted l : StronglySorted le l -> StronglySorted lt (dedup cmp l).
  Proof.
    induction 1 as [|x l S IH F]; [constructor|]. destruct l as [|z l]; [repeat constructor|]. rewrite dedup_cons. destruct (cmp x z) eqn:Q; [exact IH| |].
    - constructor; [exact IH|]. apply Forall_forall. intros a Ha. apply (proj1 (dedup_in a _)) in Ha. destruct Ha as [<-|Ha]; [exact Q|].
      inversion S as [|? ? S1 F1]; subst. rewrite Forall_forall in F1. specialize (F1 a Ha). unfold lt, le in *.
      destruct (cmp z a) eqn:Q2; [apply ceq in Q2; subst; exact Q|exact (ctrans _ _ _ Q Q2)|congruence].
    - inversion F as [|? ? F1 F2]; subst. unfold le in F1. congruence.
  Qed.
  Theorem sort_dedup_in y l : In y (sort_dedup cmp l) <-> In y l.
  Proof. unfold sort_dedup. rewrite dedup_in, sort_in. reflexivity. Qed.
  Theorem sort_dedup_sorted l : StronglySorted lt (sort_dedup cmp l).
  Proof. apply dedup_sorted, sort_sorted. Qed.
  Lemma lt_irrefl x : ~ lt x x.
  Proof. unfold lt. rewrite (proj2 (ceq x x) eq_refl). discriminate. Qed.
  Theorem sort_dedup_nodup l : NoDup (sort_dedup cmp l).
  Proof.
    pose proof (sort_dedup_sorted l) as S. induction S as [|x m S IH F]; constructor; [|exact IH].
    intros Hx. rewrite Forall_forall in F. exact (lt_irrefl _ (F x Hx)).
  Qed.
  (* a strictly increasing list is left alone *)
  Lemma sort_id l : StronglySorted lt l -> sort cmp l = l.
  Proof.
    induction 1 as [|x l S IH F]; [reflexivity|]. cbn [sort]. rewrite IH. destruct l as [|y l]; [reflexivity|]. cbn [insert].
    inversion F as [|? ? F1 F2]; subst. unfold lt in F1. rewrite F1. reflexivity.
  Qed.
  Lemma dedup_id l : StronglySorted lt l -> dedup cmp l = l.
  Proof.
    induction 1 as [|x l S IH F]; [reflexivity|]. destruct l as [|y l]; [reflexivity|]. rewrite dedup_cons.
    inversion F as [|? ? F1 F2]; subst. unfold lt in F1. rewrite F1, IH. reflexivity.
  Qed.
  Theorem sort_dedup_twice l : sort_dedup cmp (sort_dedup cmp l) = sort_dedup cmp l.
  Proof. unfold sort_dedup at 1. rewrite sort_id by apply sort_dedup_sorted. apply dedup_id, sort_dedup_sorted. Qed.
  Lemma insert_length x l : length (insert cmp x l) = S (length l).
  Proof. induction l as [|z l IH]; [reflexivity|]. cbn [insert]. destruct (cmp x z); cbn [length]; rewrite ?IH; reflexivity. Qed.
  Lemma sort_length l : length (sort cmp l) = length l.
  Proof. induction l as [|x l IH]; [reflexivity|]. cbn [sort length]. rewrite insert_length, IH. reflexivity. Qed.
  Lemma dedup_length l : (length (dedup cmp l) <= length l)%nat.
  Proof. induction l as [|x [|y l] IH]; [cbn; lia|cbn; lia|]. rewrite dedup_cons. destruct (cmp x y); cbn [length] in *; lia. Qed.
  Lemma sort_dedup_length l : (length (sort_dedup cmp l) <= length l)%nat.
  Proof. unfold sort_dedup. pose proof (dedup_length (sort cmp l)). rewrite sort_length in *. lia. Qed.
  (* the least element comes first *)
  Lemma sort_dedup_hd m l : In m l -> (forall x, In x l -> cmp m x <> Gt) -> hd_error (sort_dedup cmp l) = Some m.
  Proof.
    intros Hm Hmin. pose proof (sort_dedup_sorted l) as S. apply (proj2 (sort_dedup_in m l)) in Hm.
    assert (Hmin' : forall x, In x (sort_dedup cmp l) -> cmp m x <> Gt) by (intros x Hx; apply Hmin, (proj1 (sort_dedup_in x l)), Hx).
    destruct S as [|x s S F]; [contradiction|]. destruct Hm as [->|Hm]; [reflexivity|].
    exfalso. rewrite Forall_forall in F. specialize (F m Hm). apply (Hmin' x (or_introl eq_refl)). rewrite csym. unfold lt in F. rewrite F. reflexivity.
  Qed.
End Sort.

Lemma oconcat_in {A B} (f : A -> option (list B)) l out y : oconcat f l = Some out ->
  (In y out <-> exists x o, In x l /\ f x = Some o /\ In y o).
Proof.
  revert out. induction l as [|x l IH]; intros out E; cbn [oconcat] in E.
  - assert (out = []) as -> by congruence. split; [intros []|intros (x & o & [] & _)].
  - destruct (f x) as [a|] eqn:Q; [|discriminate E]. cbn [obind] in E. destruct (oconcat f l) as [b|] eqn:Q2; [|discriminate E].
    cbn [obind] in E. assert (out = a ++ b) as -> by congruence. rewrite in_app_iff, (IH b eq_refl). split.
    + intros [Hy|(x' & o & A1 & A2 & A3)]; [exists x, a; cbn; auto|exists x', o; cbn; auto].
    + intros (x' & o & [->|A1] & A2 & A3); [left; congruence|right; exists x', o; auto].
Qed.
Lemma oconcat_some {A B} (f : A -> option (list B)) l out x : oconcat f l = Some out -> In x l -> exists o, f x = Some o /\ incl o out.
Proof.
  revert out. induction l as [|y l IH]; intros out E Hx; [contradiction|]. cbn [oconcat] in E.
  destruct (f y) as [a|] eqn:Q; [|discriminate E]. cbn [obind] in E. destruct (oconcat f l) as [b|] eqn:Q2; [|discriminate E].
  cbn [obind] in E. assert (out = a ++ b) as -> by congruence. destruct Hx as [->|Hx].
  - exists a. split; [exact Q|apply incl_appl, incl_refl].
  - destruct (IH b eq_refl Hx) as (o & A1 & A2). exists o. split; [exact A1|apply incl_appr, A2].
Qed.
