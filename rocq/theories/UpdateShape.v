(* The segment and path types along one update. *)
From Coq Require Import ZArith String List Bool Lia.
From Verif Require Import Pocklington Fr Query Builder BuilderProofs Gadgets MptUpdate Fixed UpdateRows UpdateSound GadgetMain TableSpec UpdateProps.
Import ListNotations.

Fixpoint chain (p : MPTProofType) (s : SegmentType) (l : list SegmentType) : Prop :=
  match l with
  | [] => exists tr, seg_transitions p s = Some tr /\ In SegStart tr
  | x :: l' => (exists tr, seg_transitions p s = Some tr /\ In x tr) /\ x <> SegStart /\ chain p x l'
  end.
Fixpoint pchain (s : PathType) (l : list PathType) : Prop :=
  match l with [] => True | x :: l' => In x (path_transitions s) /\ x <> PathStart /\ pchain x l' end.

Lemma chain_storage_changed : forall l s, s = StorageTrie \/ s = AccountLeaf3 -> chain StorageChanged s l -> exists d, l = repeat StorageTrie d ++ [StorageLeaf0].
Proof.
  induction l as [|x l IH]; intros s Hs C; cbn in C.
  - exfalso. destruct C as (tr & T & I). destruct Hs; subst s; cbn in T; injection T as <-; cbn in I; intuition discriminate.
  - destruct C as (T & Nx & C).
    assert (X : x = StorageTrie \/ x = StorageLeaf0).
    { destruct T as (tr & T & I). destruct Hs; subst s; cbn in T; injection T as <-; cbn in I; intuition auto. }
    destruct X as [->| ->].
    + destruct (IH StorageTrie (or_introl eq_refl) C) as (d & ->). exists (S d). reflexivity.
    + destruct l as [|y l]; [exists O; reflexivity|]. exfalso. cbn in C. destruct C as ((tr & T1 & I) & N & _).
      injection T1 as <-. cbn in I. destruct I as [<-|[]]. congruence.
Qed.
Lemma chain_storage_missing : forall l s, s = StorageTrie \/ s = AccountLeaf3 -> chain StorageDoesNotExist s l -> exists d, l = repeat StorageTrie d.
Proof.
  induction l as [|x l IH]; intros s Hs C; cbn in C.
  - exists O. reflexivity.
  - destruct C as (T & Nx & C).
    assert (X : x = StorageTrie).
    { destruct T as (tr & T & I). destruct Hs; subst s; cbn in T; injection T as <-; cbn in I; intuition congruence. }
    subst x. destruct (IH StorageTrie (or_introl eq_refl) C) as (d & ->). exists (S d). reflexivity.
Qed.
Lemma chain_leaf3 p l : match p with NonceChanged | BalanceChanged | CodeSizeExists | CodeHashExists => True | _ => False end -> chain p AccountLeaf3 l -> l = [].
Proof.
  intros P. destruct l as [|x l]; [reflexivity|]. cbn. intros ((tr & T & I) & N & _).
  destruct p; try contradiction; cbn in T; injection T as <-; cbn in I; destruct I as [<-|[]]; congruence.
Qed.
Ltac leafstep p l C := 
  destruct l as [|? l]; cbn in C;
  [exfalso; destruct C as (tr & T & I); cbn in T; injection T as <-; cbn in I; intuition discriminate|
   let I := fresh "I" in destruct C as ((tr & T & I) & _ & C); cbn in T; injection T as <-; cbn in I; destruct I as [<-|[]]].

Lemma chain_rows p : forall l s, s = SegStart \/ s = AccountTrie -> chain p s l -> update_rows p l.
Proof.
  induction l as [|x l IH]; intros s Hs C; cbn in C.
  - destruct C as (tr & T & I). unfold update_rows. exists O. cbn [repeat].
    destruct p; destruct Hs; subst s; cbn in T; try discriminate T; injection T as <-; cbn in I; try (exfalso; intuition discriminate); cbn; auto.
  - destruct C as ((tr & T & I) & N & C).
    assert (X : x = AccountTrie \/ (x = AccountLeaf0 /\ p <> AccountDoesNotExist)).
    { destruct p; destruct Hs; subst s; cbn in T; try discriminate T; injection T as <-; cbn in I;
      repeat destruct I as [<-|I]; try contradiction; try congruence; auto; right; split; auto; discriminate. }
    destruct X as [->|[-> Np]].
    + destruct (IH AccountTrie (or_intror eq_refl) C) as (d & D). exists (S d). cbn [repeat app].
      destruct p; try (destruct D as [-> | ->]; [left|right]; reflexivity); try (rewrite D; reflexivity); try contradiction.
      * destruct D as (d' & ->). exists d'. reflexivity.
      * destruct D as [-> | (d' & ->)]; [left; reflexivity|right; exists d'; reflexivity].
    + clear IH T I tr. exists O. cbn [repeat app]. unfold account_leaf_rows.
      destruct p; try congruence; try (exfalso; destruct l; cbn in C; destruct C as ((? & ? & _) & _) || destruct C as (? & ? & _); discriminate).
      * do 3 leafstep p l C. rewrite (chain_leaf3 NonceChanged l I C). right. reflexivity.
      * do 3 leafstep p l C. rewrite (chain_leaf3 BalanceChanged l I C). right. reflexivity.
      * do 3 leafstep p l C. rewrite (chain_leaf3 CodeHashExists l I C). right. reflexivity.
      * leafstep p l C. destruct l as [|y l]; [reflexivity|]. exfalso. cbn in C. destruct C as ((tr & T & I) & N1 & _).
        injection T as <-. cbn in I. destruct I as [<-|[]]. congruence.
      * do 3 leafstep p l C. rewrite (chain_leaf3 CodeSizeExists l I C). right. reflexivity.
      * do 3 leafstep p l C. destruct (chain_storage_changed l AccountLeaf3 (or_intror eq_refl) C) as (d & ->). exists d. reflexivity.
      * do 3 leafstep p l C. destruct (chain_storage_missing l AccountLeaf3 (or_intror eq_refl) C) as (d & ->). right. exists d. reflexivity.
Qed.
Lemma pchain_ext x : x = ExtensionOld \/ x = ExtensionNew -> forall l, pchain x l -> l = repeat x (List.length l).
Proof.
  intros Hx. induction l as [|y l IH]; intros C; [reflexivity|]. cbn in C. destruct C as (I & N & C).
  assert (y = x) by (destruct Hx; subst x; cbn in I; intuition congruence). subst y. cbn. f_equal. apply IH. exact C.
Qed.
Lemma pchain_rows : forall l s, s = PathStart \/ s = Common -> pchain s l -> path_rows l.
Proof.
  induction l as [|x l IH]; intros s Hs C; [exists O, O; left; reflexivity|]. cbn in C. destruct C as (I & N & C).
  destruct x; [congruence| | |].
  - destruct (IH Common (or_intror eq_refl) C) as (a & b & D). exists (S a), b. cbn. destruct D as [-> | ->]; [left|right]; reflexivity.
  - exists O, (S (List.length l)). left. cbn. f_equal. apply pchain_ext; auto.
  - exists O, (S (List.length l)). right. cbn. f_equal. apply pchain_ext; auto.
Qed.

Open Scope Z_scope.
Definition rows_between (i m : Z) : list Z := map (fun k => i + Z.of_nat k) (seq 1 (Z.to_nat m - 1)).

Section Shape.
  Variables (H : Fr -> Fr -> Fr -> Fr) (e : env) (n : Z).
  Hypothesis F : fixed_ok e n.
  Hypothesis SAT : sat e (circuit_of (circuit H)).
  Notation sg := (sg e). Notation pa := (pa e). Notation pt := (pt e).

  Theorem update_shape i : 1 <= i -> i + 1 < n -> sg i = SegStart ->
    exists m, 1 <= m /\ i + m < n /\ sg (i + m) = SegStart /\
      update_rows (pt i) (map sg (rows_between i m)) /\ path_rows (map pa (rows_between i m)) /\
      (forall j, i < j < i + m -> pt j = pt i /\ eadv e MU_old_value j = eadv e MU_old_value i /\
         eadv e MU_new_value j = eadv e MU_new_value i /\ eadv e MU_storage_key_rlc j = eadv e MU_storage_key_rlc i).
  Proof.
    intros H1 H2 Es. destruct (update_complete H e n F SAT i H1 H2 Es) as (m & M1 & M2 & M3 & M4 & M5 & C & T).
    exists m. split; [exact M1|]. split; [exact M2|]. split; [exact M3|].
    assert (G : forall f a, (1 <= a)%nat -> (a + f = Z.to_nat m)%nat ->
      chain (pt i) (sg (i + Z.of_nat a - 1)) (map sg (map (fun k => i + Z.of_nat k) (seq a f))) /\
      pchain (pa (i + Z.of_nat a - 1)) (map pa (map (fun k => i + Z.of_nat k) (seq a f)))).
    { induction f as [|f IH]; intros a Ha Hf; cbn [seq map chain pchain].
      - split; [|exact I]. destruct (T (Z.of_nat a - 1) ltac:(lia)) as (_ & l & L1 & L2).
        exists l. replace (i + Z.of_nat a - 1) with (i + (Z.of_nat a - 1)) by lia. split; [exact L1|].
        replace (i + (Z.of_nat a - 1) + 1) with (i + m) in L2 by lia. rewrite M3 in L2. exact L2.
      - destruct (T (Z.of_nat a - 1) ltac:(lia)) as (P & l & L1 & L2).
        destruct (C (Z.of_nat a) ltac:(lia)) as (N1 & N2 & _).
        replace (i + Z.of_nat a - 1) with (i + (Z.of_nat a - 1)) by lia.
        replace (i + (Z.of_nat a - 1) + 1) with (i + Z.of_nat a) in * by lia.
        destruct (IH (S a)) as (IH1 & IH2); [lia|lia|]. replace (i + Z.of_nat (S a) - 1) with (i + Z.of_nat a) in * by lia.
        repeat split; auto. exists l. auto. }
    destruct (Z.eq_dec m 1) as [->|Ne].
    - clear G. unfold rows_between. cbn [Z.to_nat Pos.to_nat Pos.iter_op Nat.sub seq map].
      split; [|split; [exists O, O; left; reflexivity|intros j Hj; lia]].
      apply (chain_rows _ _ SegStart (or_introl eq_refl)). cbn [chain].
      destruct (T 0 ltac:(lia)) as (_ & l & L1 & L2). replace (i + 0) with i in * by lia. rewrite Es in L1. rewrite M3 in L2.
      exists l. auto.
    - destruct (G (Z.to_nat m - 1)%nat 1%nat) as (G1 & G2); [lia|lia|].
      replace (i + Z.of_nat 1 - 1) with i in * by lia. rewrite Es in G1. rewrite M5 in G2.
      split; [apply (chain_rows _ _ SegStart (or_introl eq_refl) G1)|].
      split; [apply (pchain_rows _ PathStart (or_introl eq_refl) G2)|].
      intros j Hj. destruct (C (j - i) ltac:(lia)) as (_ & _ & X). replace (i + (j - i)) with j in X by lia. exact X.
  Qed.
End Shape.
