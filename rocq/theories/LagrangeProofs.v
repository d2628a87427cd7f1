(* Query::from(Fr) and lagrange_polynomial *)
From Coq Require Import ZArith String List Bool Lia.
From Verif Require Import Pocklington Fr Query Builder BuilderProofs Gadgets MptUpdate.
Import ListNotations.
Open Scope Z_scope.

Lemma limbs_sum z : 0 <= z < 2 ^ 256 ->
  fold_right (fun l acc => acc * 2 ^ 64 + l) 0 (limbs64 z) = z.
Proof.
  intros Hz. unfold limbs64. cbn [fold_right].
  assert (E : (z / 2 ^ 192) mod 2 ^ 64 = z / 2 ^ 192).
  { apply Z.mod_small. split; [apply Z.div_pos; lia|]. apply Z.div_lt_upper_bound; lia. }
  rewrite E.
  pose proof (Z.div_mod z (2 ^ 64) ltac:(lia)) as A.
  pose proof (Z.div_mod (z / 2 ^ 64) (2 ^ 64) ltac:(lia)) as B.
  pose proof (Z.div_mod (z / 2 ^ 128) (2 ^ 64) ltac:(lia)) as C.
  rewrite Z.div_div in B by lia. rewrite Z.div_div in C by lia.
  change (2 ^ 64 * 2 ^ 64) with (2 ^ 128) in *. change (2 ^ 128 * 2 ^ 64) with (2 ^ 192) in *.
  lia.
Qed.

Lemma eval_q_of_fr e i x : eval e i (q_of_fr x) = x.
Proof.
  unfold q_of_fr.
  assert (G : forall l, eval e i (fold_right (fun limb result => (result * two_to_the_64th + qz limb)%q) qzero l)
    = fz (fold_right (fun l acc => acc * 2 ^ 64 + l) 0 l)).
  { induction l as [|a l IH]; cbn [fold_right]; [reflexivity|].
    cbn [eval]. rewrite IH. unfold two_to_the_64th, qsquare. cbn [eval]. rewrite !eval_qz.
    rewrite fz_add, fz_mul. f_equal. }
  rewrite G, limbs_sum, fz_val; [reflexivity|].
  pose proof (val_range x) as R. assert (modulus < 2 ^ 256) by (unfold modulus; lia). lia.
Qed.

Lemma eval_pair_fold e i l : forall p,
  eval e i (fst (fold_left (fun p q => ((fst p * fst q)%q, (snd p * snd q)%fr)) l p))
    = (eval e i (fst p) * prodF (map (fun q => eval e i (fst q)) l))%fr /\
  snd (fold_left (fun p q => ((fst p * fst q)%q, (snd p * snd q)%fr)) l p)
    = (snd p * prodF (map snd l))%fr.
Proof.
  induction l as [|x l IH]; intros p; cbn [fold_left map prodF].
  - split; ring.
  - destruct (IH ((fst p * fst x)%q, (snd p * snd x)%fr)) as [A B]. rewrite A, B. cbn [fst snd eval].
    split; ring.
Qed.
Lemma prodF_neq0 l : Forall (fun x => x <> f0) l -> prodF l <> f0.
Proof. induction 1; cbn; [apply f1_neq_f0|]. apply fmul_neq0; assumption. Qed.

Definition idx (xs : list Fr) (s : nat) := combine (seq s (List.length xs)) xs.
Lemma idx_in xs : forall s k x, In (k, x) (idx xs s) <-> (s <= k)%nat /\ nth_error xs (k - s) = Some x.
Proof.
  induction xs as [|y xs IH]; intros s k x; unfold idx in *; cbn.
  - split; [tauto|]. intros [_ H]. destruct (k - s)%nat; discriminate.
  - rewrite IH. split.
    + intros [E|[A B]].
      * injection E as -> ->. rewrite Nat.sub_diag. auto.
      * split; [lia|]. replace (k - s)%nat with (S (k - S s)) by lia. exact B.
    + intros [A B]. destruct (Nat.eq_dec s k) as [->|E].
      * rewrite Nat.sub_diag in B. cbn in B. injection B as ->. auto.
      * right. split; [lia|]. replace (k - s)%nat with (S (k - S s)) in B by lia. exact B.
Qed.

Lemma eval_basis e i q xs k j xj xk : NoDup xs ->
  nth_error xs k = Some xk -> nth_error xs j = Some xj -> eval e i q = xk ->
  eval e i (lagrange_basis q xs j xj) = if Nat.eqb j k then f1 else f0.
Proof.
  intros Hn Hk Hj Hq. unfold lagrange_basis. cbv zeta.
  set (others := map snd (filter (fun p => negb (Nat.eqb j (fst p))) (combine (seq 0 (List.length xs)) xs))).
  assert (Ho : forall x, In x others <-> exists m, m <> j /\ nth_error xs m = Some x).
  { intros x. unfold others. rewrite in_map_iff. split.
    - intros ((m & y) & E & F). cbn in E. subst y. apply filter_In in F. destruct F as [F G].
      apply (idx_in xs 0) in F. rewrite Nat.sub_0_r in F. cbn in G. exists m.
      apply negb_true_iff, Nat.eqb_neq in G. split; [lia|apply F].
    - intros (m & A & B). exists (m, x). split; [reflexivity|]. apply filter_In. split.
      + apply (idx_in xs 0). rewrite Nat.sub_0_r. split; [lia|exact B].
      + cbn. apply negb_true_iff, Nat.eqb_neq. lia. }
  clearbody others.
  set (pl := map (fun xj0 => ((q - q_of_fr xj0)%q, (xj - xj0)%fr)) others).
  assert (E : eval e i (fst (reduce (fun p q => ((fst p * fst q)%q, (snd p * snd q)%fr)) (qone, f1) pl))
     = prodF (map (fun x => (xk - x)%fr) others) /\
     snd (reduce (fun p q => ((fst p * fst q)%q, (snd p * snd q)%fr)) (qone, f1) pl)
     = prodF (map (fun x => (xj - x)%fr) others)).
  { unfold pl. clear pl Ho. destruct others as [|y l]; cbn [map reduce].
    - split; reflexivity.
    - destruct (eval_pair_fold e i (map (fun xj0 => ((q - q_of_fr xj0)%q, (xj - xj0)%fr)) l)
         ((q - q_of_fr y)%q, (xj - y)%fr)) as [A B].
      rewrite A, B. cbn [fst snd]. rewrite eval_sub, eval_q_of_fr, Hq. cbn [prodF]. split.
      + f_equal. rewrite map_map. cbn [fst]. f_equal. apply map_ext. intros z.
        rewrite eval_sub, eval_q_of_fr, Hq. reflexivity.
      + f_equal. rewrite map_map. cbn [snd]. reflexivity. }
  destruct (reduce _ _ pl) as [num den]. cbn [fst snd] in E. destruct E as [E1 E2].
  cbn [eval]. rewrite eval_q_of_fr, E1, E2.
  destruct (Nat.eqb_spec j k) as [->|Hjk].
  - assert (xj = xk) by congruence. subst xj.
    assert (N : prodF (map (fun x => (xk - x)%fr) others) <> f0).
    { apply prodF_neq0. apply Forall_map, Forall_forall. intros x Hx. apply Ho in Hx.
      destruct Hx as (m & A & B). intros Z. apply (proj1 (fsub_eq0 _ _)) in Z. apply A.
      assert (Hlt : (m < List.length xs)%nat) by (apply nth_error_Some; congruence).
      apply (proj1 (NoDup_nth_error xs) Hn m k Hlt). congruence. }
    transitivity (finv (prodF (map (fun x => (xk - x)%fr) others)) * prodF (map (fun x => (xk - x)%fr) others))%fr; [ring|].
    apply finv_l. exact N.
  - assert (Z : prodF (map (fun x => (xk - x)%fr) others) = f0).
    { apply prodF_zero. apply in_map_iff. exists xk. split; [ring|]. apply Ho. exists k. auto. }
    rewrite Z. ring.
Qed.

Fixpoint sumF (l : list Fr) : Fr := match l with [] => f0 | x :: r => (x + sumF r)%fr end.
Lemma eval_reduce_add e i l : eval e i (reduce QAdd qzero l) = sumF (map (eval e i) l).
Proof.
  destruct l as [|x l]; [reflexivity|]. cbn [reduce map sumF].
  revert x. induction l as [|y l IH]; intros x; cbn [fold_left map sumF]; [ring|].
  rewrite IH. cbn [eval]. ring.
Qed.

Theorem lagrange_interpolates e i q points k x y :
  NoDup (map fst points) -> nth_error points k = Some (x, y) -> eval e i q = x ->
  eval e i (lagrange_polynomial q points) = eval e i y.
Proof.
  intros Hn Hk Hq. unfold lagrange_polynomial. cbv zeta. rewrite eval_reduce_add.
  set (xs := map fst points).
  assert (Hkx : nth_error xs k = Some x) by (unfold xs; rewrite (map_nth_error fst k points Hk); reflexivity).
  assert (G : forall (ps : list (Fr * query)) s, (forall j p, nth_error ps j = Some p -> nth_error points (s + j) = Some p) ->
    sumF (map (eval e i) (map (fun p => (fst p * snd p)%q)
      (combine (map (fun p => lagrange_basis q xs (fst p) (snd p)) (combine (seq s (List.length (map fst ps))) (map fst ps))) (map snd ps))))
    = if (s <=? k)%nat then match nth_error ps (k - s) with Some p => eval e i (snd p) | None => f0 end else f0).
  { induction ps as [|[px py] ps IH]; intros s Hs; cbn [map List.length seq combine sumF fst snd].
    - destruct (s <=? k)%nat; [|reflexivity]. destruct (k - s)%nat; reflexivity.
    - rewrite IH.
      2:{ intros j p Hj. rewrite Nat.add_succ_comm. apply Hs. exact Hj. }
      cbn [eval]. specialize (Hs 0%nat (px, py) eq_refl). rewrite Nat.add_0_r in Hs.
      assert (Hsx : nth_error xs s = Some px) by (unfold xs; rewrite (map_nth_error fst s points Hs); reflexivity).
      rewrite (eval_basis e i q xs k s px x Hn Hkx Hsx Hq).
      destruct (Nat.eqb_spec s k) as [->|E].
      + rewrite Nat.leb_refl, Nat.sub_diag. destruct (Nat.leb_spec (S k) k); [lia|]. cbn. ring.
      + destruct (Nat.leb_spec s k).
        * destruct (Nat.leb_spec (S s) k); [|lia]. replace (k - s)%nat with (S (k - S s)) by lia. cbn [nth_error]. ring.
        * destruct (Nat.leb_spec (S s) k); [lia|]. ring. }
  specialize (G points 0%nat ltac:(intros; assumption)). fold xs in G.
  etransitivity; [exact G|]. rewrite Nat.sub_0_r, Hk. reflexivity.
Qed.
