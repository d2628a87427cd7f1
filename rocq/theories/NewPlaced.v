(* The complete list of the ways in which an accepted update changes a state trie, and when the leaves stay where they belong. *)
From Coq Require Import ZArith String List Bool Lia.
From Verif Require Import Pocklington Fr Query Builder BuilderProofs Gadgets MptUpdate Bytes GadgetProofs LagrangeProofs Fixed CanonProofs UpdateRows TrieSpec TableSpec UpdateWalk UpdateAccount UpdateSound UpdateClaims UpdateProps GadgetMain ChangeSpec TwoTries NewSide NewAccount NewClaims NewProps.
Import ListNotations.
Open Scope Z_scope.

(* t' differs from t only below depth d on the path of K; there
   - nothing changes, and K is not in t; or
   - there is a leaf before and a leaf with the same key afterwards; or
   - there is no node, the claim is about a nonce or balance, and afterwards what was there hangs twice under new nodes; or
   - there is no node, and afterwards there is a leaf, with what was there before hanging next to it under new nodes; without new
     nodes only if there was nothing before, or at the root.  Only nonce, balance and storage claims do that. *)
Inductive state_change (p : MPTProofType) (K : Fr) (t t' : tree account) : Prop :=
| ch_same : t' = t -> get t 0 K = None -> state_change p K t t'
| ch_leaf : forall d k a a', sub t K 0 d = Some (Leaf k a) -> t' = repl t K 0 d (Leaf k a') -> state_change p K t t'
| ch_padded : forall d m u, sub t K 0 d = Some u -> single u -> get t 0 K = None -> In p [NonceChanged; BalanceChanged] ->
    t' = repl t K 0 d (chain K d (S m) u u) -> state_change p K t t'
| ch_created : forall d m u k a', sub t K 0 d = Some u -> single u -> get t 0 K = None -> In p [NonceChanged; BalanceChanged; StorageChanged] ->
    (m = O -> d = O \/ u = Empty) -> t' = repl t K 0 d (chain K d m u (Leaf k a')) -> state_change p K t t'.

Section Trees.
  Context {V : Type}.
  Lemma repl_placed d : forall (t : tree V) K d0 u u' p, sub t K d0 d = Some u -> placed t p -> placed u' (p ++ kbits K d0 d) -> placed (repl t K d0 d u') p.
  Proof.
    induction d as [|d IH]; intros t K d0 u u' p E P P'.
    - cbn in P'. rewrite app_nil_r in P'. exact P'.
    - cbn [sub repl] in *. destruct t as [|k v|l r]; try discriminate E. destruct P as [P1 P2].
      rewrite kbits_S in P'. change (kbit K d0 :: kbits K (Datatypes.S d0) d) with ([kbit K d0] ++ kbits K (Datatypes.S d0) d) in P'. rewrite app_assoc in P'.
      destruct (kbit K d0); cbn [placed]; split; try assumption; eapply IH; eauto.
  Qed.
  Lemma chain_empty_placed K (v : tree V) m : forall d p, List.length p = d -> placed v (p ++ kbits K d m) -> placed (chain K d m Empty v) p.
  Proof.
    induction m as [|m IH]; intros d p L P.
    - cbn in P. rewrite app_nil_r in P. exact P.
    - rewrite kbits_S in P. change (kbit K d :: kbits K (Datatypes.S d) m) with ([kbit K d] ++ kbits K (Datatypes.S d) m) in P. rewrite app_assoc in P.
      apply IH in P; [|rewrite app_length, L; cbn [List.length]; lia]. cbn [chain]. destruct m; destruct (kbit K d); cbn [placed]; auto.
  Qed.
  Lemma kbits_bits K d : forall i b, nth_error (kbits K 0 d) i = Some b -> kbit K i = b.
  Proof.
    intros i b E. unfold kbits in E. rewrite nth_error_map in E. destruct (nth_error (seq 0 d) i) as [x|] eqn:X; [|discriminate E]. cbn in E. injection E as <-.
    assert (L : (i < d)%nat) by (rewrite <- (seq_length d 0); apply nth_error_Some; congruence). rewrite (nth_error_nth' _ O) in X by (rewrite seq_length; exact L). rewrite seq_nth in X by exact L. injection X as <-. reflexivity.
  Qed.
  Lemma kbits_app K d m : kbits K 0 d ++ kbits K d m = kbits K 0 (d + m).
  Proof.
    unfold kbits. rewrite seq_app, map_app. f_equal. cbn [Nat.add]. replace (seq d m) with (map (fun i => (d + i)%nat) (seq 0 m)); [rewrite map_map; reflexivity|].
    clear. revert d. induction m as [|m IH]; intros d; [reflexivity|]. cbn [seq map]. rewrite Nat.add_0_r. f_equal. rewrite <- (IH (Datatypes.S d)), <- seq_shift, map_map. apply map_ext. intros i. lia.
  Qed.
  Lemma leaf_placed K (v : V) m : placed (Leaf K v) (kbits K 0 m). Proof. exact (kbits_bits K m). Qed.
  Lemma sub_reached d : forall (t : tree V) K d0 u, sub t K d0 d = Some u -> reached t d0 K = reached u (d0 + d) K.
  Proof.
    induction d as [|d IH]; intros t K d0 u E; cbn [sub] in E; [injection E as ->; rewrite Nat.add_0_r; reflexivity|].
    destruct t as [|k v|l r]; try discriminate E. cbn [reached]. rewrite <- Nat.add_succ_comm. destruct (kbit K d0); apply IH; exact E.
  Qed.
  Lemma chain_ends K m u k (a : V) : forall d, reached (chain K d m u (Leaf k a)) d K = Some (k, a).
  Proof. induction m as [|m IH]; intros d; [reflexivity|]. cbn [chain]. destruct (kbit K d) eqn:B; cbn [reached]; rewrite B; apply IH. Qed.
End Trees.

Section Placed.
  Variables (H : Fr -> Fr -> Fr -> Fr) (e : env) (n : Z).
  Hypothesis OK : circuit_ok H e n.
  Section Row.
    Variables (i : Z) (s : statement) (t t' : tree account).
    Hypothesis Hi : 1 <= i /\ i + 1 < n.
    Hypothesis R : row_statement H e i s.
    Hypothesis T : tries_of H e n s t t'.
    Notation K := (addr_key H (st_address s)).
    Let r1 : state_root H t = adv e MU_old_hash i. Proof. rewrite (to_old _ _ _ _ _ _ T). apply R. Qed.
    Let r2 : state_root H t' = adv e MU_new_hash i. Proof. rewrite (to_new _ _ _ _ _ _ T). apply R. Qed.
    Lemma row_shape : state_change (st_kind s) K t t'.
    Proof.
      rewrite <- (rs_key _ _ _ _ R), (rs_kind _ _ _ _ R).
      destruct (account_two H e n OK t t' i Hi (rs_seg _ _ _ _ R) r1 r2 (to_bits _ _ _ _ _ _ T) (to_bits' _ _ _ _ _ _ T) (to_ok _ _ _ _ _ _ T) (to_ok' _ _ _ _ _ _ T) (to_free _ _ _ _ _ _ T))
        as (d & u & u' & A & A' & Rep & Df).
      pose proof (sub_get d t _ 0 u A) as G. cbn [Nat.add] in G.
      destruct Df as [E G0 V0 V1|j k b b' Uj S0 P0 Eu Eu' Kb Kb' Ob Ob' Eb Eb'|m Su G0 V0 V1 Pt E|m j k b' Su G0 V0 Hm Uj S0 P0 E Kb' Ob' Eb'].
      - apply ch_same; [|rewrite G; exact G0]. rewrite Rep, E. exact (repl_self d t _ 0 u A).
      - apply (ch_leaf _ _ _ _ d k b b'); [rewrite <- Eu; exact A|rewrite <- Eu'; exact Rep].
      - apply (ch_padded _ _ _ _ d m u A Su); [rewrite G; exact G0|cbn [In]; intuition|rewrite <- E; exact Rep].
      - apply (ch_created _ _ _ _ d m u k b' A Su); [rewrite G; exact G0| |exact Hm|rewrite <- E; exact Rep].
        destruct (leaf_created H e n OK t t' i Hi (to_free _ _ _ _ _ _ T) j b' Uj S0 P0 Kb' Ob' Eb') as [[(X & _)|(X & _)]|X]; rewrite X; cbn [In]; auto.
    Qed.
    Lemma row_placed : placed t [] -> present t K \/ ~ In (st_kind s) [NonceChanged; BalanceChanged; StorageChanged] \/ (reached t 0 K = None /\ forall k', ~ foreign_leaf t' K k') -> placed t' [].
    Proof.
      intros P Ex. destruct row_shape as [E _|d k a a' A Rep|d m u A Su G0 Pt Rep|d m u k a' A Su G0 Pt Hm Rep].
      - rewrite E. exact P.
      - rewrite Rep. apply (repl_placed d t K 0 _ _ [] A P). exact (sub_placed d t K 0 _ [] A P).
      - destruct Ex as [(a & G)|[Ex|[Ex _]]]; [congruence|contradiction Ex; cbn [In] in *; intuition|]. rewrite (sub_reached d t K 0 u A) in Ex.
        assert (u = Empty) as -> by (destruct u; [reflexivity|discriminate Ex|contradiction Su]).
        rewrite Rep. apply (repl_placed d t K 0 _ _ [] A P). apply chain_empty_placed; [unfold kbits; cbn [app]; rewrite map_length, seq_length; reflexivity|exact Logic.I].
      - destruct Ex as [(a & G)|[Ex|[Ex Fo]]]; [congruence|contradiction|]. rewrite (sub_reached d t K 0 u A) in Ex.
        assert (u = Empty) as -> by (destruct u; [reflexivity|discriminate Ex|contradiction Su]).
        assert (k = K) as ->.
        { destruct (feqb_spec k K) as [X|X]; [exact X|]. exfalso. apply (Fo k). split; [exact X|]. exists a'. rewrite Rep. rewrite (sub_reached d _ K 0 _ (sub_repl d t K 0 _ _ A)). apply chain_ends. }
        rewrite Rep. apply (repl_placed d t K 0 _ _ [] A P). cbn [app]. apply chain_empty_placed; [unfold kbits; cbn [app]; rewrite map_length, seq_length; reflexivity|]. rewrite kbits_app. apply leaf_placed.
    Qed.
  End Row.
  Theorem changes : forall row, exposes e row -> row <> blank_row -> row <> final_row ->
    exists s, row = encode (echal e) s /\ 0 <= st_address s < 2 ^ 160 /\ forall t t', tries_of H e n s t t' -> state_change (st_kind s) (addr_key H (st_address s)) t t'.
  Proof. apply (lift_row H e n OK). intros i s t t' Hi R T. exact (row_shape i s t t' Hi R T). Qed.
  Theorem stays_placed : forall row, exposes e row -> row <> blank_row -> row <> final_row ->
    exists s, row = encode (echal e) s /\ 0 <= st_address s < 2 ^ 160 /\ forall t t', tries_of H e n s t t' ->
    let K := addr_key H (st_address s) in
    placed t [] -> present t K \/ ~ In (st_kind s) [NonceChanged; BalanceChanged; StorageChanged] \/ (reached t 0 K = None /\ forall k', ~ foreign_leaf t' K k') -> placed t' [].
  Proof. apply (lift_row H e n OK). cbv zeta. exact row_placed. Qed.
End Placed.
