(* Old trie and new trie side by side: what the rows of one trie segment say about how they differ. *)
From Coq Require Import ZArith String List Bool Lia.
From Verif Require Import Pocklington Fr Query Builder BuilderProofs Gadgets MptUpdate Bytes GadgetProofs LagrangeProofs Fixed CanonProofs UpdateRows TrieSpec UpdateWalk.
Import ListNotations.
Open Scope Z_scope.

(** * Trees *)
Section Trees.
  Context {V : Type}.
  (* the subtree [v] hangs m levels down the path of K, with [u] next to it and nothing else on the way *)
  Fixpoint chain (K : Fr) (d m : nat) (u v : tree V) : tree V :=
    match m with
    | O => v
    | S m' => let s := match m' with O => u | _ => Empty end in let c := chain K (S d) m' u v in
              if kbit K d then Node s c else Node c s
    end.
  Lemma chain_get K u v m : forall d, get (chain K d m u v) d K = get v (d + m) K.
  Proof.
    induction m as [|m IH]; intros d; [rewrite Nat.add_0_r; reflexivity|].
    cbn [chain]. destruct (kbit K d) eqn:B; cbn [get]; rewrite B, IH; f_equal; lia.
  Qed.
  Lemma sub_repl d : forall (t : tree V) K d0 u u', sub t K d0 d = Some u -> sub (repl t K d0 d u') K d0 d = Some u'.
  Proof.
    induction d as [|d IH]; intros t K d0 u u' E; cbn in *; [reflexivity|].
    destruct t as [|k v|l r]; try discriminate E. destruct (kbit K d0) eqn:B; cbn; rewrite ?B; eapply IH; exact E.
  Qed.
  Lemma repl_get d : forall (t : tree V) K d0 u u' k, sub t K d0 d = Some u -> get u' (d0 + d) k = get u (d0 + d) k ->
    get (repl t K d0 d u') d0 k = get t d0 k.
  Proof.
    induction d as [|d IH]; intros t K d0 u u' k E G; cbn [sub repl] in *.
    - injection E as ->. rewrite Nat.add_0_r in G. exact G.
    - destruct t as [|k0 v|l r]; try discriminate E. rewrite <- Nat.add_succ_comm in G.
      destruct (kbit K d0) eqn:B; cbn [get]; destruct (kbit k d0); try reflexivity; eapply IH; eauto.
  Qed.
  (* the bits of K, from d0, d of them *)
  Definition kbits (K : Fr) (d0 d : nat) : list bool := map (fun i => kbit K (d0 + i)) (seq 0 d).
  Lemma kbits_S K d0 d : kbits K d0 (S d) = kbit K d0 :: kbits K (S d0) d.
  Proof.
    unfold kbits. cbn [seq map]. rewrite Nat.add_0_r. f_equal. rewrite <- seq_shift, map_map. apply map_ext. intros i. f_equal. lia.
  Qed.
  Lemma sub_placed d : forall (t : tree V) K d0 u p, sub t K d0 d = Some u -> placed t p -> placed u (p ++ kbits K d0 d).
  Proof.
    induction d as [|d IH]; intros t K d0 u p E P.
    - cbn in E. injection E as ->. cbn. rewrite app_nil_r. exact P.
    - cbn [sub] in E. destruct t as [|k v|l r]; try discriminate E. destruct P as [P1 P2].
      rewrite kbits_S. change (kbit K d0 :: kbits K (S d0) d) with ([kbit K d0] ++ kbits K (S d0) d). rewrite app_assoc.
      apply (IH _ _ _ _ _ E). destruct (kbit K d0); assumption.
  Qed.
  (* a key whose leaf lies at the end of a prefix has the bits of the prefix *)
  Lemma prefix_bit (k : Fr) p q b : (forall i x, nth_error (p ++ b :: q) i = Some x -> kbit k i = x) -> kbit k (List.length p) = b.
  Proof. intros A. apply A. rewrite nth_error_app2, Nat.sub_diag by lia. reflexivity. Qed.

  (* a chain with correctly placed leaves changes nothing but what is at its end *)
  Definition single (u : tree V) := match u with Node _ _ => False | _ => True end.
  Lemma chain_bits K o b v m : forall d p, List.length p = d -> placed (chain K d (S m) (Leaf o b) v) p ->
    (forall i, (i < m)%nat -> kbit o (d + i) = kbit K (d + i)) /\ kbit o (d + m) = negb (kbit K (d + m)).
  Proof.
    induction m as [|m IH]; intros d p L P.
    - split; [lia|]. rewrite Nat.add_0_r. cbn in P. destruct (kbit K d); cbn [placed] in P; destruct P as [P1 P2];
        rewrite <- L; [apply (prefix_bit o p [] false P1)|apply (prefix_bit o p [] true P2)].
    - remember (S m) as m1. cbn [chain] in P.
      assert (Q : placed (chain K (S d) m1 (Leaf o b) v) (p ++ [kbit K d])).
      { destruct (kbit K d); apply P. }
      assert (B : kbit o d = kbit K d).
      { clear IH P. subst m1. revert Q. rewrite <- L. generalize (kbit K (List.length p)) as x. clear - L. intros x.
        assert (G : forall n d q, placed (chain K d (S n) (Leaf o b) v) (p ++ x :: q) -> kbit o (List.length p) = x).
        { induction n as [|n IH]; intros d' q P.
          - cbn in P. destruct (kbit K d'); cbn [placed] in P; destruct P as [P1 P2]; [revert P1|revert P2];
              rewrite <- app_assoc; cbn [app]; intros P; eapply prefix_bit; exact P.
          - remember (S n) as n1. cbn [chain] in P.
            assert (Q : placed (chain K (S d') n1 (Leaf o b) v) (p ++ x :: (q ++ [kbit K d']))).
            { rewrite app_comm_cons, app_assoc. destruct (kbit K d'); apply P. }
            subst n1. eapply IH. exact Q. }
        intros Q. eapply G. exact Q. }
      subst m1. apply IH in Q; [|rewrite app_length, L; cbn; lia]. destruct Q as [Q1 Q2].
      replace (d + S m)%nat with (S d + m)%nat by lia. split; [|exact Q2].
      intros i Hi. destruct i as [|i]; [rewrite Nat.add_0_r; exact B|].
      replace (d + S i)%nat with (S d + i)%nat by lia. apply Q1. lia.
  Qed.
  Lemma chain_other K u v m k : forall d, (single u) -> (single v) ->
    (forall x, get v x k = None) \/ v = u ->
    (forall o b, u = Leaf o b -> (forall i, (i < m)%nat -> kbit o (d + i) = kbit K (d + i)) /\ kbit o (d + m) = negb (kbit K (d + m))) ->
    get (chain K d (S m) u v) d k = get u d k.
  Proof.
    assert (GE : forall x y, single u -> get u x k = get u y k) by (destruct u; cbn; tauto).
    induction m as [|m IH]; intros d Su Sv Hv Ho.
    - cbn [chain]. destruct (kbit K d) eqn:B; cbn [get]; destruct (kbit k d) eqn:Bk; try (apply GE; exact Su).
      + destruct Hv as [Hv| ->]; [|apply GE; exact Su]. rewrite Hv. destruct u as [|o b|]; cbn; [reflexivity| |contradiction].
        destruct (Ho o b eq_refl) as [_ O]. rewrite Nat.add_0_r in O. destruct (feqb_spec k o); [|reflexivity]. subst k. exfalso. rewrite B, Bk in O. discriminate.
      + destruct Hv as [Hv| ->]; [|apply GE; exact Su]. rewrite Hv. destruct u as [|o b|]; cbn; [reflexivity| |contradiction].
        destruct (Ho o b eq_refl) as [_ O]. rewrite Nat.add_0_r in O. destruct (feqb_spec k o); [|reflexivity]. subst k. exfalso. rewrite B, Bk in O. discriminate.
    - assert (N : kbit k d <> kbit K d -> get u d k = None).
      { intros Nb. destruct u as [|o b|]; cbn; [reflexivity| |contradiction]. destruct (Ho o b eq_refl) as [O _]. specialize (O 0%nat ltac:(lia)). rewrite Nat.add_0_r in O.
        destruct (feqb_spec k o); [|reflexivity]. subst k. contradiction. }
      assert (I : get (chain K (S d) (S m) u v) (S d) k = get u d k).
      { rewrite IH; auto. intros o b E. destruct (Ho o b E) as [O1 O2]. replace (S d + m)%nat with (d + S m)%nat by lia. split; [|exact O2].
        intros i Hi. replace (S d + i)%nat with (d + S i)%nat by lia. apply O1. lia. }
      remember (S m) as m1. cbn [chain]. subst m1.
      destruct (kbit K d) eqn:B; cbn [get]; destruct (kbit k d) eqn:Bk; try exact I; rewrite N by discriminate; reflexivity.
  Qed.
End Trees.

(** * Rows *)
Section Two.
  Variables (H : Fr -> Fr -> Fr -> Fr) (e : env) (n : Z).
  Hypothesis F : fixed_ok e n.
  Hypothesis HD : forall i, 1 <= i < n -> den e i (mpt_update_configure H).
  Hypothesis HB : forall i, 1 <= i < n -> den e i canonical_representation_configure.
  Hypothesis HB' : forall i, 1 <= i < n -> den e i key_bit_configure.
  Hypothesis HP : forall l r d h, poseidon_hit e l r d h -> H l r d = h.
  Let Hn := fo_rows e n F.
  Let Hu := fo_usable e n F.
  Let Hs := fo_small e n F.
  Notation adv := (adv e). Notation sg := (sg e). Notation pa := (pa e). Notation pt := (pt e).
  Notation PH := (PH e). Notation oldP := (oldP e). Notation newP := (newP e).

  Variable S : triple -> Prop.
  Hypothesis CF : collision_free H S.
  Hypothesis HT : forall l r d h, poseidon_hit e l r d h -> S (l, r, d).

  Context {V : Type} (hv : V -> Fr) (vin : V -> list triple) (P : V -> Prop).
  (* values are determined by their hash *)
  Hypothesis Hinj : forall v v', P v -> P v' -> (forall x, In x (vin v) -> S x) -> (forall x, In x (vin v') -> S x) -> hv v = hv v' -> v = v'.
  Notation known := (known H S hv vin).
  Notation th := (thash H hv).

  Lemma s_inj x y : S x -> S y -> H (fst (fst x)) (snd (fst x)) (snd x) = H (fst (fst y)) (snd (fst y)) (snd y) -> x = y.
  Proof. apply CF. Qed.
  Lemma tri (a b c a' b' c' : Fr) : (a, b, c) = (a', b', c') -> a = a' /\ b = b' /\ c = c'.
  Proof. intros Q. injection Q. auto. Qed.
  Lemma tree_inj : forall u u' : tree V, known u -> known u' -> tree_all P u -> tree_all P u' -> th u = th u' -> u = u'.
  Proof.
    assert (BD : forall a b : tree V, fdom (branch_domain a b) <> fdom DLeaf).
    { intros a b E. apply fdom_inj in E. unfold branch_domain in E. destruct (is_node a), (is_node b); discriminate. }
    induction u as [|k v|l IHl r IHr]; intros u' K1 K2 P1 P2 E.
    - cbn in E. symmetry in E. symmetry. apply (zero_step H S CF hv vin u' K2 E).
    - assert (X : S (k, hv v, fdom DLeaf)) by (apply K1; left; reflexivity).
      destruct u' as [|k' v'|l' r']; cbn [thash] in E.
      + exfalso. destruct CF as [_ C]. apply (C _ X). exact E.
      + assert (Y : S (k', hv v', fdom DLeaf)) by (apply K2; left; reflexivity).
        destruct (tri _ _ _ _ _ _ (s_inj _ _ X Y E)) as (-> & Q & _).
        rewrite (Hinj v v' P1 P2); auto; intros x Hx; [apply K1|apply K2]; right; exact Hx.
      + exfalso. assert (Y : S (th l', th r', fdom (branch_domain l' r'))) by (apply K2; left; reflexivity).
        destruct (tri _ _ _ _ _ _ (s_inj _ _ X Y E)) as (_ & _ & Q). apply (BD l' r'). symmetry. exact Q.
    - assert (X : S (th l, th r, fdom (branch_domain l r))) by (apply K1; left; reflexivity).
      destruct u' as [|k' v'|l' r']; cbn [thash] in E.
      + exfalso. destruct CF as [_ C]. apply (C _ X). exact E.
      + exfalso. assert (Y : S (k', hv v', fdom DLeaf)) by (apply K2; left; reflexivity).
        destruct (tri _ _ _ _ _ _ (s_inj _ _ X Y E)) as (_ & _ & Q). apply (BD l r). exact Q.
      + assert (Y : S (th l', th r', fdom (branch_domain l' r'))) by (apply K2; left; reflexivity).
        destruct (tri _ _ _ _ _ _ (s_inj _ _ X Y E)) as (Q1 & Q2 & _). destruct P1 as [P1 P1']. destruct P2 as [P2 P2'].
        rewrite (IHl l'), (IHr r'); auto.
        * exact (known_child H S hv vin l r true K1).
        * exact (known_child H S hv vin l' r' true K2).
        * exact (known_child H S hv vin l r false K1).
        * exact (known_child H S hv vin l' r' false K2).
  Qed.

  Variables (tr : SegmentType) (i0 : Z) (K : Fr).
  Hypothesis Htr : is_trie_seg tr = true.
  Hypothesis Hi0 : 1 <= i0.
  Hypothesis Hd0 : is_trie_seg (sg i0) = false.
  Hypothesis HK0 : adv MU_key i0 = K.
  Notation row k := (i0 + Z.of_nat k).
  Notation in_trie := (in_trie e tr i0).

  (* one side of a row; hc is the column of old or new hashes *)
  Definition side (hc : Z -> Fr) (i : Z) (dm : HashDomain) : Prop :=
    PH (lc (adv MU_direction i) (adv MU_sibling i) (hc i)) (rc (adv MU_direction i) (adv MU_sibling i) (hc i)) (fdom dm) (hc (i - 1)).
  Definition branches : list HashDomain := [Branch0; Branch1; Branch2; Branch3].

  Lemma side_dir hc (t : tree V) d u dm : bits_ok n (height t) -> in_trie (Datatypes.S d) -> row (Datatypes.S d) < n ->
    sub t K 0 d = Some u -> known u -> th u = hc (row d) -> side hc (row (Datatypes.S d)) dm -> In dm branches ->
    adv MU_direction (row (Datatypes.S d)) = fb (kbit K d) /\
    exists a b, u = Node a b /\ th (if kbit K d then a else b) = adv MU_sibling (row (Datatypes.S d)) /\
      th (if kbit K d then b else a) = hc (row (Datatypes.S d)).
  Proof.
    intros Hb Ht Hd Es Ku Eu Sd Dm. unfold side in Sd. replace (row (Datatypes.S d) - 1) with (row d) in Sd by lia.
    destruct (node_step H e n F HP S CF HT hv vin u _ _ dm _ Ku Eu Sd Dm) as (a & b & -> & Xa & Xb & _).
    pose proof (sub_height _ _ _ _ _ _ Es) as Hh.
    pose proof (trie_dir H e n F HD HB HB' tr i0 K Htr Hi0 Hd0 HK0 _ _ Hb Ht Hd d ltac:(lia) Hh) as Ed.
    split; [exact Ed|]. exists a, b. split; [reflexivity|]. rewrite Ed in Xa, Xb. rewrite lc_fb in Xa. rewrite rc_fb in Xb.
    destruct (kbit K d); split; congruence.
  Qed.

  Variables (t t' : tree V).
  Hypothesis Hb : bits_ok n (height t).
  Hypothesis Hb2 : bits_ok n (height t').
  Hypothesis Kt : known t.
  Hypothesis Kt' : known t'.
  Hypothesis Pt : tree_all P t.
  Hypothesis Pt' : tree_all P t'.
  Hypothesis Et : th t = adv MU_old_hash i0.
  Hypothesis Et' : th t' = adv MU_new_hash i0.

  (* rows 1..d lie on the common path: the tries agree except below *)
  Lemma common_two d : in_trie d -> (forall k, (1 <= k <= d)%nat -> pa (row k) = Common) -> row d + 1 < n ->
    exists u u', sub t K 0 d = Some u /\ sub t' K 0 d = Some u' /\ known u /\ known u' /\ tree_all P u /\ tree_all P u' /\
      th u = adv MU_old_hash (row d) /\ th u' = adv MU_new_hash (row d) /\ t' = repl t K 0 d u'.
  Proof.
    induction d as [|d IH]; intros Ht Hp Hd.
    - exists t, t'. rewrite Z.add_0_r. repeat split; auto.
    - destruct IH as (u & u' & A & A' & Ku & Ku' & Pu & Pu' & Eu & Eu' & R); [intros k Hk; apply Ht; lia|intros k Hk; apply Hp; lia|lia|].
      destruct (trie_dom H e n F HD tr i0 Htr Hi0 _ Ht ltac:(lia) (Datatypes.S d) ltac:(lia)) as (dm & Dm & Edm).
      pose proof (r_common H e n F HD (row (Datatypes.S d)) ltac:(lia) Hd (Hp (Datatypes.S d) ltac:(lia))) as C. unfold common_facts in C. rewrite Edm in C.
      assert (Lt : row (Datatypes.S d) < n) by lia.
      assert (X : exists do dn, In do branches /\ In dn branches /\ side (adv MU_old_hash) (row (Datatypes.S d)) do /\ side (adv MU_new_hash) (row (Datatypes.S d)) dn).
      { assert (Up : forall right, In dm [Branch0; Branch1; Branch2; AccountFields] -> exists d', upgrade right dm = Some d' /\ In d' branches).
        { intros right Q. clear - Q Dm. cbn in Q, Dm. destruct right, dm; cbn; try (eexists; split; [reflexivity|cbn; auto]); intuition discriminate. }
        destruct (pa (row (Datatypes.S d) + 1)).
        - exists dm, dm. destruct C. auto.
        - exists dm, dm. destruct C. auto.
        - destruct C as ((d1 & D1 & D2) & C1 & C2). apply fdom_inj in D2. subst d1.
          destruct (is_leaf0 (sg (row (Datatypes.S d) + 1))); destruct C2 as [C2 C3]; [exists dm, dm; auto|].
          destruct (side_dir (adv MU_new_hash) t' d u' dm Hb2 Ht Lt A' Ku' Eu' C1 Dm) as (Ed & _).
          destruct (Up (kbit K d) D1) as (d' & U1 & U2). exists d', dm. rewrite (C3 dm d' (kbit K d) eq_refl Ed U1) in C2. auto.
        - destruct C as ((d1 & D1 & D2) & C1 & C2). apply fdom_inj in D2. subst d1.
          destruct (is_leaf0 (sg (row (Datatypes.S d) + 1))); destruct C2 as [C2 C3]; [exists dm, dm; auto|].
          destruct (side_dir (adv MU_old_hash) t d u dm Hb Ht Lt A Ku Eu C1 Dm) as (Ed & _).
          destruct (Up (kbit K d) D1) as (d' & U1 & U2). exists dm, d'. rewrite (C3 dm d' (kbit K d) eq_refl Ed U1) in C2. auto. }
      destruct X as (do & dn & Do & Dn & So & Sn).
      destruct (side_dir (adv MU_old_hash) t d u do Hb Ht Lt A Ku Eu So Do) as (_ & a & b & -> & S1 & S2).
      destruct (side_dir (adv MU_new_hash) t' d u' dn Hb2 Ht Lt A' Ku' Eu' Sn Dn) as (_ & a' & b' & -> & S1' & S2').
      assert (Sib : (if kbit K d then a else b) = (if kbit K d then a' else b')).
      { destruct Pu as [Pa Pb]. destruct Pu' as [Pa' Pb']. apply tree_inj; [| | | |congruence].
        - pose proof (known_child H S hv vin a b (negb (kbit K d)) Ku) as X. destruct (kbit K d); exact X.
        - pose proof (known_child H S hv vin a' b' (negb (kbit K d)) Ku') as X. destruct (kbit K d); exact X.
        - destruct (kbit K d); assumption.
        - destruct (kbit K d); assumption. }
      exists (if kbit K d then b else a), (if kbit K d then b' else a'). rewrite !sub_snoc, A, A'. cbn [Nat.add].
      split; [reflexivity|]. split; [reflexivity|]. split; [apply known_child; exact Ku|]. split; [apply known_child; exact Ku'|].
      destruct Pu as [Pa Pb]. destruct Pu' as [Pa' Pb'].
      split; [destruct (kbit K d); assumption|]. split; [destruct (kbit K d); assumption|]. split; [exact S2|]. split; [exact S2'|].
      rewrite (repl_snoc d t K 0 a b _ A). cbn [Nat.add]. rewrite R. f_equal. destruct (kbit K d); congruence.
  Qed.

  (* rows d+1 .. d+m lie on one side only *)
  Lemma chain_one hc (t1 : tree V) (u : tree V) : bits_ok n (height t1) -> tree_all P u -> known u ->
    forall m d u1, in_trie (d + m) -> row (d + m) < n ->
    sub t1 K 0 d = Some u1 -> known u1 -> tree_all P u1 -> th u1 = hc (row d) ->
    (forall k, (1 <= k <= m)%nat -> (exists dm, In dm branches /\ side hc (row (d + k)) dm) /\
       adv MU_sibling (row (d + k)) = if (k =? m)%nat then th u else f0) ->
    exists v, sub t1 K 0 (d + m) = Some v /\ known v /\ tree_all P v /\ th v = hc (row (d + m)) /\ u1 = chain K d m u v.
  Proof.
    intros Hb1 Pu Ku. induction m as [|m IH]; intros d u1 Ht Hd A Ku1 Pu1 Eu1 Hr.
    - exists u1. rewrite Nat.add_0_r. auto.
    - destruct (Hr 1%nat ltac:(lia)) as ((dm & Dm & Sd) & Sb). replace (d + 1)%nat with (Datatypes.S d) in * by lia.
      destruct (side_dir hc t1 d u1 dm Hb1) as (_ & a & b & -> & S1 & S2); auto; [intros k Hk; apply Ht; lia|lia|].
      destruct Pu1 as [Pa Pb].
      destruct (IH (Datatypes.S d) (if kbit K d then b else a)) as (v & B1 & B2 & B3 & B4 & B5).
      + replace (Datatypes.S d + m)%nat with (d + Datatypes.S m)%nat by lia. exact Ht.
      + replace (Datatypes.S d + m)%nat with (d + Datatypes.S m)%nat by lia. exact Hd.
      + rewrite sub_snoc, A. reflexivity.
      + apply known_child. exact Ku1.
      + destruct (kbit K d); assumption.
      + exact S2.
      + intros k Hk. replace (Datatypes.S d + k)%nat with (d + Datatypes.S k)%nat by lia. destruct (Hr (Datatypes.S k) ltac:(lia)) as [X Y].
        split; [exact X|exact Y].
      + exists v. replace (d + Datatypes.S m)%nat with (Datatypes.S d + m)%nat by lia. split; [exact B1|]. split; [exact B2|]. split; [exact B3|]. split; [exact B4|].
        assert (Sib : (if kbit K d then a else b) = match m with O => u | _ => Empty end).
        { rewrite Sb in S1.
          assert (Kc : known (if kbit K d then a else b)) by (pose proof (known_child H S hv vin a b (negb (kbit K d)) Ku1) as X; destruct (kbit K d); exact X).
          destruct m as [|m']; cbn [Nat.eqb] in S1.
          - apply tree_inj; auto. destruct (kbit K d); assumption.
          - apply (zero_step H S CF hv vin _ Kc S1). }
        cbn [chain]. rewrite <- Sib, <- B5. destruct (kbit K d); reflexivity.
  Qed.
End Two.
