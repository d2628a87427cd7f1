(* Walking down a trie along the rows of one update. *)
From Coq Require Import ZArith String List Bool Lia.
From Verif Require Import Pocklington Fr Query Builder BuilderProofs Gadgets MptUpdate Bytes GadgetProofs LagrangeProofs Fixed CanonProofs UpdateRows TrieSpec.
Import ListNotations.
Open Scope Z_scope.

(** * Subtrees along a key *)
Section Sub.
  Context {V : Type}.
  Fixpoint sub (t : tree V) (K : Fr) (d0 d : nat) {struct d} : option (tree V) :=
    match d with
    | O => Some t
    | S d' => match t with Node l r => sub (if kbit K d0 then r else l) K (S d0) d' | _ => None end
    end.
  Fixpoint repl (t : tree V) (K : Fr) (d0 d : nat) (u : tree V) {struct d} : tree V :=
    match d with
    | O => u
    | S d' => match t with
              | Node l r => if kbit K d0 then Node l (repl r K (S d0) d' u) else Node (repl l K (S d0) d' u) r
              | _ => t end
    end.
  Lemma sub_snoc d : forall t K d0, sub t K d0 (S d) =
    match sub t K d0 d with Some (Node l r) => Some (if kbit K (d0 + d) then r else l) | _ => None end.
  Proof.
    induction d as [|d IH]; intros t K d0.
    - rewrite Nat.add_0_r. destruct t; reflexivity.
    - destruct t as [|k v|l r]; try reflexivity.
      change (sub (if kbit K d0 then r else l) K (S d0) (S d) =
        match sub (if kbit K d0 then r else l) K (S d0) d with
        | Some (Node l r) => Some (if kbit K (d0 + S d) then r else l) | _ => None end).
      rewrite IH, Nat.add_succ_comm. reflexivity.
  Qed.
  Lemma repl_snoc d : forall t K d0 l r u, sub t K d0 d = Some (Node l r) ->
    repl t K d0 (S d) u = repl t K d0 d (if kbit K (d0 + d) then Node l u else Node u r).
  Proof.
    induction d as [|d IH]; intros t K d0 l r u E.
    - cbn in E. injection E as ->. rewrite Nat.add_0_r. cbn. reflexivity.
    - cbn [sub] in E. destruct t as [|k v|a b]; try discriminate E.
      change ((if kbit K d0 then Node a (repl b K (S d0) (S d) u) else Node (repl a K (S d0) (S d) u) b) =
        let w := if kbit K (d0 + S d) then Node l u else Node u r in
        if kbit K d0 then Node a (repl b K (S d0) d w) else Node (repl a K (S d0) d w) b).
      cbv zeta. rewrite <- Nat.add_succ_comm.
      destruct (kbit K d0); rewrite (IH _ K (S d0) l r u E); reflexivity.
  Qed.
  Lemma repl_self d : forall t K d0 u, sub t K d0 d = Some u -> repl t K d0 d u = t.
  Proof.
    induction d as [|d IH]; intros t K d0 u E; cbn in *; [congruence|].
    destruct t as [|k v|l r]; try discriminate E. destruct (kbit K d0); rewrite (IH _ _ _ _ E); reflexivity.
  Qed.
  Lemma sub_get d : forall t K d0 u, sub t K d0 d = Some u -> get t d0 K = get u (d0 + d) K.
  Proof.
    induction d as [|d IH]; intros t K d0 u E; cbn in E.
    - injection E as ->. rewrite Nat.add_0_r. reflexivity.
    - destruct t as [|k v|l r]; try discriminate E. cbn [get]. rewrite (IH _ _ _ _ E), Nat.add_succ_comm. reflexivity.
  Qed.
  Lemma sub_modify f d : forall t K d0 u, sub t K d0 d = Some u ->
    modify f t d0 K = repl t K d0 d (modify f u (d0 + d) K).
  Proof.
    induction d as [|d IH]; intros t K d0 u E; cbn in E.
    - injection E as ->. rewrite Nat.add_0_r. reflexivity.
    - destruct t as [|k v|l r]; try discriminate E. cbn [modify repl].
      destruct (kbit K d0); rewrite (IH _ _ _ _ E), Nat.add_succ_comm; reflexivity.
  Qed.
  Lemma sub_height d : forall t K d0 l r, sub t K d0 d = Some (Node l r) -> (d < height t)%nat.
  Proof.
    induction d as [|d IH]; intros t K d0 l r E; cbn in E.
    - injection E as ->. cbn. lia.
    - destruct t as [|k v|a b]; try discriminate E. apply IH in E. cbn. destruct (kbit K d0); lia.
  Qed.
  Lemma sub_all (P : V -> Prop) d : forall t K d0 u, sub t K d0 d = Some u -> tree_all P t -> tree_all P u.
  Proof.
    induction d as [|d IH]; intros t K d0 u E A; cbn in E; [congruence|].
    destruct t as [|k v|l r]; try discriminate E. cbn in A. apply (IH _ _ _ _ E). destruct (kbit K d0); tauto.
  Qed.
End Sub.

(* [bits_ok n h]: with n rows the key-bit table is reliable for the first h bits of every key *)
Definition bits_ok (n : Z) (h : nat) : Prop := n mod 32 = 1 \/ (n mod 32 <> 0 /\ (h <= 248)%nat).

Section Walk.
  Variables (H : Fr -> Fr -> Fr -> Fr) (e : env) (n : Z).
  Hypothesis F : fixed_ok e n.
  Hypothesis HD : forall i, 1 <= i < n -> den e i (mpt_update_configure H).
  Hypothesis HB : forall i, 1 <= i < n -> den e i canonical_representation_configure.
  Hypothesis HB' : forall i, 1 <= i < n -> den e i key_bit_configure.
  (* the Poseidon table holds only correct hashes *)
  Hypothesis HP : forall l r d h, poseidon_hit e l r d h -> H l r d = h.
  Let Hn := fo_rows e n F.
  Let Hu := fo_usable e n F.
  Let Hs := fo_small e n F.
  Notation adv := (adv e). Notation sg := (sg e). Notation pa := (pa e). Notation pt := (pt e).
  Notation PH := (PH e). Notation oldP := (oldP e). Notation newP := (newP e).

  Section Hash.
    Variable S : triple -> Prop.
    Hypothesis CF : collision_free H S.
    Hypothesis HT : forall l r d h, poseidon_hit e l r d h -> S (l, r, d).

    Lemma hash_inj l r d l' r' d' h : PH l r d h -> S (l', r', d') -> H l' r' d' = h -> l = l' /\ r = r' /\ d = d'.
    Proof.
      intros A B E. pose proof (HP _ _ _ _ A) as E'. apply HT in A.
      destruct CF as [C _]. specialize (C _ _ A B). cbn in C. rewrite E', E in C. specialize (C eq_refl).
      injection C as -> -> ->. auto.
    Qed.
    Lemma hash_nz l r d h : PH l r d h -> h <> f0.
    Proof. intros A. pose proof (HP _ _ _ _ A) as E. apply HT in A. destruct CF as [_ C]. specialize (C _ A). cbn in C. congruence. Qed.

    Context {V : Type} (hv : V -> Fr) (vin : V -> list triple).
    Definition known (u : tree V) : Prop := forall x, In x (tree_inputs H hv vin u) -> S x.

    Lemma node_step u l r d h : known u -> thash H hv u = h -> PH l r (fdom d) h -> In d [Branch0; Branch1; Branch2; Branch3] ->
      exists a b, u = Node a b /\ thash H hv a = l /\ thash H hv b = r /\ branch_domain a b = d.
    Proof.
      intros Ku E P Hd. destruct u as [|k v|a b]; cbn [thash] in E.
      - exfalso. apply (hash_nz _ _ _ _ P). congruence.
      - destruct (hash_inj _ _ _ k (hv v) (fdom DLeaf) _ P) as (_ & _ & X); [apply Ku; left; reflexivity|exact E|].
        apply fdom_inj in X. subst d. cbn in Hd. intuition discriminate.
      - destruct (hash_inj _ _ _ (thash H hv a) (thash H hv b) (fdom (branch_domain a b)) _ P) as (X & Y & Z);
          [apply Ku; left; reflexivity|exact E|]. apply fdom_inj in Z. exists a, b. auto.
    Qed.
    Lemma leaf_step u k x h : known u -> thash H hv u = h -> PH k x (fdom DLeaf) h -> exists v, u = Leaf k v /\ hv v = x.
    Proof.
      intros Ku E P. destruct u as [|k' v|a b]; cbn [thash] in E.
      - exfalso. apply (hash_nz _ _ _ _ P). congruence.
      - destruct (hash_inj _ _ _ k' (hv v) (fdom DLeaf) _ P) as (X & Y & _); [apply Ku; left; reflexivity|exact E|].
        exists v. subst. auto.
      - destruct (hash_inj _ _ _ (thash H hv a) (thash H hv b) (fdom (branch_domain a b)) _ P) as (_ & _ & Z);
          [apply Ku; left; reflexivity|exact E|]. apply fdom_inj in Z. unfold branch_domain in Z.
        destruct (is_node a), (is_node b); discriminate.
    Qed.
    Lemma zero_step u : known u -> thash H hv u = f0 -> u = Empty.
    Proof.
      intros Ku E. destruct u as [|k v|a b]; cbn [thash] in E; [reflexivity| |]; exfalso.
      - destruct CF as [_ C]. apply (C (k, hv v, fdom DLeaf)); [apply Ku; left; reflexivity|exact E].
      - destruct CF as [_ C]. apply (C (thash H hv a, thash H hv b, fdom (branch_domain a b))); [apply Ku; left; reflexivity|exact E].
    Qed.
    Lemma known_child a b (c : bool) : known (Node a b) -> known (if c then b else a).
    Proof.
      intros K x Hx. apply K. cbn. right. apply in_or_app. destruct c; auto.
    Qed.
    (* a non-existence row pins the subtree it is about *)
    Lemma nonex_get u v K other data d : known u -> nonex e v (thash H hv u) K other data -> get u d K = None.
    Proof.
      intros Ku [_ [[A B]|(A & B & C)]].
      - rewrite (zero_step u Ku B). reflexivity.
      - destruct (leaf_step u _ _ _ Ku eq_refl C) as (w & -> & _). cbn.
        destruct (feqb_spec K other); [contradiction|reflexivity].
    Qed.

    Lemma lc_fb b s h : lc (fb b) s h = if b then s else h. Proof. unfold lc. destruct b; cbn [fb]; ring. Qed.
    Lemma rc_fb b s h : rc (fb b) s h = if b then h else s. Proof. unfold rc. destruct b; cbn [fb]; ring. Qed.

    (* rows i0+1 .. i0+d of a trie segment whose root sits at row i0 *)
    Variables (tr : SegmentType) (i0 : Z) (K : Fr).
    Hypothesis Htr : is_trie_seg tr = true.
    Hypothesis Hi0 : 1 <= i0.
    Hypothesis Hd0 : is_trie_seg (sg i0) = false.
    Hypothesis HK0 : adv MU_key i0 = K.
    Notation row k := (i0 + Z.of_nat k).
    Definition in_trie (d : nat) := forall k, (1 <= k <= d)%nat -> sg (row k) = tr.

    Lemma trie_key d : in_trie d -> row d < n -> adv MU_key (row d) = K.
    Proof.
      induction d as [|d IH]; intros Ht Hd; [rewrite Z.add_0_r; exact HK0|].
      assert (Hsg : sg (row (Datatypes.S d)) = tr) by (apply Ht; lia).
      destruct (r_key H e n F HD (row (Datatypes.S d))) as [A _]; try lia.
      - rewrite Hsg. intros ->. discriminate.
      - rewrite Hsg. intros ->. discriminate.
      - rewrite A. replace (row (Datatypes.S d) - 1) with (row d) by lia. apply IH; [|lia]. intros k Hk. apply Ht. lia.
    Qed.
    Lemma trie_depth d : in_trie d -> row d < n -> adv MU_depth (row d) = fz (Z.of_nat d).
    Proof.
      induction d as [|d IH]; intros Ht Hd.
      - rewrite Z.add_0_r. apply (r_depth0 H e n F HD); [lia|exact Hd0].
      - destruct (r_trie H e n F HD (row (Datatypes.S d))) as (_ & A & _); [lia|rewrite Ht by lia; exact Htr|].
        rewrite A. replace (row (Datatypes.S d) - 1) with (row d) by lia.
        rewrite IH; [|intros k Hk; apply Ht; lia|lia]. rewrite Nat2Z.inj_succ. unfold Z.succ. rewrite fz_add. reflexivity.
    Qed.
    Lemma trie_dir h d : bits_ok n h -> in_trie d -> row d < n -> forall k, (k < d)%nat -> (k < h)%nat -> adv MU_direction (row (Datatypes.S k)) = fb (kbit K k).
    Proof.
      intros Hb Ht Hd k Hk Hh.
      assert (Ht' : in_trie (Datatypes.S k)) by (intros j Hj; apply Ht; lia).
      destruct (r_trie H e n F HD (row (Datatypes.S k))) as (A & _ & _); [lia|rewrite Ht by lia; exact Htr|].
      assert (Hmod : n mod 32 <> 0) by (destruct Hb; lia).
      apply (key_bit_hit_gen e n F HB _ _ _ _ Hmod HB') in A. destruct A as (j & Hj & A & B).
      rewrite eval_sub in A. rewrite (ev_cur e n F) in A by lia. rewrite !(ev_cur e n F) in B by lia.
      rewrite (trie_depth _ Ht') in A by lia. rewrite (trie_key _ Ht') in B by lia.
      change (eval e (row (Datatypes.S k)) qone) with (fz 1) in A. rewrite <- fz_sub in A.
      apply fz_inj in A; [|apply small_lt_modulus; lia|apply small_lt_modulus; lia].
      assert (Ej : j = Z.of_nat k) by lia. rewrite Ej in B. apply B. destruct Hb; lia.
    Qed.
    Lemma trie_dom d : in_trie d -> row d < n -> forall k, (1 <= k <= d)%nat ->
      exists dm, In dm [Branch0; Branch1; Branch2; Branch3] /\ adv MU_domain (row k) = fdom dm.
    Proof.
      intros Ht Hd k Hk. destruct (r_domain H e n F HD (row k)) as (dm & A & B); [lia|].
      rewrite (Ht k Hk) in A. exists dm. split; [|exact B]. destruct tr; try discriminate Htr; exact A.
    Qed.

    (* the old side: every row hashes its two children with its own domain *)
    Lemma walk_old t d : bits_ok n (height t) -> in_trie d -> row d < n -> known t -> thash H hv t = adv MU_old_hash i0 ->
      (forall k, (1 <= k <= d)%nat -> oldP (row k) (adv MU_domain (row k))) ->
      exists u, sub t K 0 d = Some u /\ known u /\ thash H hv u = adv MU_old_hash (row d) /\
        (forall k, (1 <= k <= d)%nat -> exists a b, sub t K 0 (k - 1) = Some (Node a b) /\
           adv MU_domain (row k) = fdom (branch_domain a b) /\
           adv MU_sibling (row k) = thash H hv (if kbit K (k - 1) then a else b) /\
           adv MU_old_hash (row k) = thash H hv (if kbit K (k - 1) then b else a)).
    Proof.
      intros Hb Ht Hd Kt Et HO. induction d as [|d IH].
      - exists t. rewrite Z.add_0_r. repeat split; auto. intros k Hk. lia.
      - assert (Ht' : in_trie d) by (intros k Hk; apply Ht; lia).
        destruct IH as (u & A & B & C & D); auto; [lia|intros k Hk; apply HO; lia|].
        specialize (HO (Datatypes.S d) ltac:(lia)).
        destruct (trie_dom _ Ht Hd (Datatypes.S d) ltac:(lia)) as (dm & Dm & Edm).
        unfold UpdateRows.oldP in HO. rewrite Edm in HO.
        replace (row (Datatypes.S d) - 1) with (row d) in HO by lia.
        destruct (node_step u _ _ dm _ B C HO Dm) as (a & b & -> & Xa & Xb & Xd).
        pose proof (sub_height _ _ _ _ _ _ A) as Hh.
        pose proof (trie_dir _ _ Hb Ht Hd d ltac:(lia) Hh) as Ed. rewrite Ed in Xa, Xb. rewrite lc_fb in Xa. rewrite rc_fb in Xb.
        exists (if kbit K d then b else a). rewrite sub_snoc, A. cbn [Nat.add].
        split; [reflexivity|]. split; [apply known_child; exact B|]. split; [destruct (kbit K d); congruence|].
        intros k Hk. destruct (Nat.eq_dec k (Datatypes.S d)) as [->|Ne]; [|apply D; lia].
        exists a, b. replace (Datatypes.S d - 1)%nat with d by lia. rewrite A, Edm, Xd.
        split; [reflexivity|]. split; [reflexivity|]. destruct (kbit K d); split; congruence.
    Qed.
    (* the new side: replacing the subtree at row d by any tree of the same kind with the new hash *)
    Lemma walk_new t d u : bits_ok n (height t) -> in_trie d -> row d < n -> known t -> thash H hv t = adv MU_old_hash i0 ->
      (forall k, (1 <= k <= d)%nat -> oldP (row k) (adv MU_domain (row k)) /\ newP (row k) (adv MU_domain (row k))) ->
      sub t K 0 d = Some u ->
      forall u', is_node u' = is_node u -> thash H hv u' = adv MU_new_hash (row d) ->
      thash H hv (repl t K 0 d u') = adv MU_new_hash i0.
    Proof.
      intros Hb Ht Hd Kt Et HO. revert u. induction d as [|d IH]; intros u Eu u' Nu Hu'.
      - cbn. rewrite Hu', Z.add_0_r. reflexivity.
      - assert (Ht' : in_trie d) by (intros k Hk; apply Ht; lia).
        destruct (walk_old t (Datatypes.S d) Hb Ht Hd Kt Et) as (_ & _ & _ & _ & D); [intros k Hk; apply HO; exact Hk|].
        destruct (D (Datatypes.S d) ltac:(lia)) as (a & b & A1 & A2 & A3 & A4).
        replace (Datatypes.S d - 1)%nat with d in * by lia.
        rewrite sub_snoc, A1 in Eu. cbn [Nat.add] in Eu. injection Eu as <-.
        rewrite (repl_snoc d t K 0 a b u' A1). cbn [Nat.add].
        apply IH with (u := Node a b); auto; [lia|intros k Hk; apply HO; lia|destruct (kbit K d); reflexivity|].
        destruct (HO (Datatypes.S d) ltac:(lia)) as [_ N].
        pose proof (trie_dir _ _ Hb Ht Hd d ltac:(lia) (sub_height _ _ _ _ _ _ A1)) as Ed.
        unfold UpdateRows.newP in N. rewrite Ed, lc_fb, rc_fb, A2, A3 in N.
        replace (row (Datatypes.S d) - 1) with (row d) in N by lia.
        apply HP in N. rewrite <- N, <- Hu'.
        destruct (kbit K d); cbn [thash]; f_equal; unfold branch_domain; rewrite Nu; reflexivity.
    Qed.
  End Hash.
End Walk.
