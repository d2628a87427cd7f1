(* What a storage update proves about the old and the new storage trie of the account. *)
From Coq Require Import ZArith String List Bool Lia.
From Verif Require Import Pocklington Fr Query Builder BuilderProofs Gadgets MptUpdate Bytes GadgetProofs LagrangeProofs Fixed CanonProofs UpdateRows TrieSpec UpdateWalk UpdateAccount UpdateSound UpdateClaims UpdateStorage TableSpec ChangeSpec TwoTries NewSide NewAccount NewClaims NewStorage.
Import ListNotations.
Open Scope Z_scope.

(** * Trees *)
Section Trees.
  Context {V : Type}.
  Lemma sub_reach d : forall (t u : tree V) K d0, sub t K d0 d = Some u -> reached t d0 K = reached u (d0 + d) K.
  Proof.
    induction d as [|d IH]; intros t u K d0 E; cbn in E; [injection E as ->; rewrite Nat.add_0_r; reflexivity|].
    destruct t as [|a b|l r]; try discriminate E. cbn [reached]. rewrite (IH _ _ _ _ E), Nat.add_succ_comm. reflexivity.
  Qed.
  Lemma chain_reach K m u k (v : V) : forall d, reached (chain K d m u (Leaf k v)) d K = Some (k, v).
  Proof.
    induction m as [|m IH]; intros d; [reflexivity|]. cbn [chain]. destruct (kbit K d) eqn:B; cbn [reached]; rewrite B; apply IH.
  Qed.
  Lemma kbits_length K d0 d : List.length (kbits K d0 d) = d.
  Proof. unfold kbits. rewrite map_length, seq_length. reflexivity. Qed.
  (* the keys other than k that a chain ending in the leaf k holds are those of the tree beside it *)
  Lemma chain_kept K d m u k (v : V) k' : single u -> (m = O -> u = Empty) -> placed (chain K d m u (Leaf k v)) (kbits K 0 d) -> k' <> k ->
    get (chain K d m u (Leaf k v)) d k' = get u d k'.
  Proof.
    intros Su Hm Pl N.
    assert (Gv : forall x, get (Leaf k v) x k' = None) by (intros x; cbn; destruct (feqb_spec k' k); [contradiction|reflexivity]).
    destruct m as [|m].
    - rewrite (Hm eq_refl). cbn [chain]. rewrite Gv. reflexivity.
    - apply (chain_other K u (Leaf k v) m k' d Su Logic.I (or_introl Gv)).
      intros o b ->. apply (chain_bits K o b (Leaf k v) m d (kbits K 0 d) (kbits_length K 0 d) Pl).
  Qed.
End Trees.

Record slot_change0 (c : Fr) (sk : Fr) (s s' : tree Z) (old new : Fr) : Prop := {
  sc_both0 : forall w w', get s 0 sk = Some w -> get s' 0 sk = Some w' -> w <> 0 /\ w' <> 0 /\ old = word_rlc c w /\ new = word_rlc c w';
  sc_before0 : get s 0 sk = None -> old = f0 \/ exists k w, reached s 0 sk = Some (k, w) /\ k <> sk;
  sc_after0 : get s' 0 sk = None -> new = f0 \/ exists k w, reached s' 0 sk = Some (k, w) /\ k <> sk;
  sc_fill0 : forall w', get s 0 sk = None -> get s' 0 sk = Some w' -> old = f0;
  sc_clear0 : forall w, get s 0 sk = Some w -> get s' 0 sk = None -> new = f0;
  sc_others0 : placed s [] -> placed s' [] -> forall k', k' <> sk ->
    (exists w, get s 0 sk = Some w) \/ (exists w, get s' 0 sk = Some w) \/ ((forall w, reached s 0 sk <> Some (k', w)) /\ (forall w, reached s' 0 sk <> Some (k', w))) ->
    get s' 0 k' = get s 0 k' }.
Lemma slot_change_of c sk s s' old new : slot_change0 c sk s s' old new -> slot_change c sk s s' old new.
Proof.
  intros [A B C Fi Cl D].
  assert (Np : forall x : tree Z, ~ present x sk -> get x 0 sk = None).
  { intros x N. destruct (get x 0 sk) as [w|] eqn:G; [|reflexivity]. exfalso. apply N. exists w. exact G. }
  constructor.
  - exact A.
  - intros N. destruct (B (Np s N)) as [X|(k & w & X & Y)]; [left; exact X|]. right. exists k. split; [exact Y|]. exists w. exact X.
  - intros N. destruct (C (Np s' N)) as [X|(k & w & X & Y)]; [left; exact X|]. right. exists k. split; [exact Y|]. exists w. exact X.
  - intros N (w & Y). exact (Fi w (Np s N) Y).
  - intros (w & Y) N. exact (Cl w Y (Np s' N)).
  - intros P P' k' Nk Ex. apply (D P P' k' Nk). destruct Ex as [Ex|[Ex|[E1 E2]]]; [auto|auto|]. right; right.
    split; intros w Q; [apply E1|apply E2]; (split; [exact Nk|exists w; exact Q]).
Qed.
Lemma diff_change e l s s' d u u' old new : sub s (eadv e MU_key l) 0 d = Some u -> sub s' (eadv e MU_key l) 0 d = Some u' -> s' = repl s (eadv e MU_key l) 0 d u' ->
  slot_diff e l d u u' -> adv e MU_old_value l = old -> adv e MU_new_value l = new -> slot_change0 (echal e) (adv e MU_key l) s s' old new.
Proof.
  unfold adv. set (K := eadv e MU_key l). intros A A' Rep Df Eo En.
  pose proof (sub_get d s K 0 u A) as G. pose proof (sub_get d s' K 0 u' A') as G'. cbn [Nat.add] in G, G'.
  pose proof (sub_reach d s u K 0 A) as R. pose proof (sub_reach d s' u' K 0 A') as R'. cbn [Nat.add] in R, R'.
  constructor; rewrite ?G, ?G', ?R, ?R'.
  - intros w w' X X'.
    destruct Df as [k v v' Eu Eu' Z Z' _ _ Vo Vn|m k v' Su G0 V0 Hm E|m k v Su G0 V0 Hm E]; unfold adv in *; try fold K in G0; try fold K in E.
    + rewrite Eu in X. rewrite Eu' in X'. cbn in X, X'. destruct (feqb K k); [|discriminate X].
      assert (v = w) by congruence. assert (v' = w') by congruence. subst v v'. repeat split; congruence || assumption.
    + change (get u d K = None) in G0. congruence.
    + change (get u' d K = None) in G0. congruence.
  - intros X. destruct Df as [k v v' Eu Eu' Z Z' _ _ Vo Vn|m k v' Su G0 V0 Hm E|m k v Su G0 V0 Hm E]; unfold adv in *; try fold K in G0; try fold K in E.
    + right. exists k, v. rewrite Eu in *. split; [reflexivity|]. intros ->. cbn in X. rewrite feqb_refl in X. discriminate X.
    + left. congruence.
    + right. exists k, v. rewrite E in *. split; [apply chain_reach|]. intros ->. fold K in X. rewrite chain_get in X. cbn in X. rewrite feqb_refl in X. discriminate X.
  - intros X. destruct Df as [k v v' Eu Eu' Z Z' _ _ Vo Vn|m k v' Su G0 V0 Hm E|m k v Su G0 V0 Hm E]; unfold adv in *; try fold K in G0; try fold K in E.
    + right. exists k, v'. rewrite Eu' in *. split; [reflexivity|]. intros ->. cbn in X. rewrite feqb_refl in X. discriminate X.
    + right. exists k, v'. rewrite E in *. split; [apply chain_reach|]. intros ->. fold K in X. rewrite chain_get in X. cbn in X. rewrite feqb_refl in X. discriminate X.
    + left. congruence.
  - intros w' X Y. destruct Df as [k v v' Eu Eu' Z Z' _ _ Vo Vn|m k v' Su G0 V0 Hm E|m k v Su G0 V0 Hm E]; unfold adv in *; try fold K in G0; try fold K in E.
    + rewrite Eu in X. rewrite Eu' in Y. cbn in X, Y. destruct (feqb K k); [discriminate X|discriminate Y].
    + congruence.
    + change (get u' d K = None) in G0. congruence.
  - intros w X Y. destruct Df as [k v v' Eu Eu' Z Z' _ _ Vo Vn|m k v' Su G0 V0 Hm E|m k v Su G0 V0 Hm E]; unfold adv in *; try fold K in G0; try fold K in E.
    + rewrite Eu in X. rewrite Eu' in Y. cbn in X, Y. destruct (feqb K k); [discriminate Y|discriminate X].
    + change (get u d K = None) in G0. congruence.
    + congruence.
  - intros Pl Pl' k' Nk Ex. rewrite Rep at 1. apply (repl_get d s K 0 u u' k' A). cbn [Nat.add].
    pose proof (sub_placed d s K 0 u [] A Pl) as Pu. pose proof (sub_placed d s' K 0 u' [] A' Pl') as Pu'. cbn [app] in Pu, Pu'.
    destruct Df as [k v v' Eu Eu' Z Z' _ _ Vo Vn|m k v' Su G0 V0 Hm E|m k v Su G0 V0 Hm E]; unfold adv in *; try fold K in G0; try fold K in E.
    + rewrite Eu, Eu' in *. assert (N : k' <> k).
      { destruct Ex as [(x & Ex)|[(x & Ex)|(N1 & N2)]].
        - cbn in Ex. destruct (feqb_spec K k); [congruence|discriminate Ex].
        - cbn in Ex. destruct (feqb_spec K k); [congruence|discriminate Ex].
        - intros ->. apply (N1 v). reflexivity. }
      cbn. destruct (feqb_spec k' k); [contradiction|reflexivity].
    + change (get u d K = None) in G0. rewrite E in *. apply chain_kept; auto.
      destruct Ex as [(x & Ex)|[(x & Ex)|(N1 & N2)]].
      * congruence.
      * rewrite chain_get in Ex. cbn in Ex. destruct (feqb_spec K k); [congruence|discriminate Ex].
      * intros ->. apply (N2 v'). apply chain_reach.
    + change (get u' d K = None) in G0. rewrite E in *. symmetry. apply chain_kept; auto.
      destruct Ex as [(x & Ex)|[(x & Ex)|(N1 & N2)]].
      * rewrite chain_get in Ex. cbn in Ex. destruct (feqb_spec K k); [congruence|discriminate Ex].
      * congruence.
      * intros ->. apply (N1 v). apply chain_reach.
Qed.

Section Slots.
  Variables (H : Fr -> Fr -> Fr -> Fr) (e : env) (n : Z).
  Hypothesis OK : circuit_ok H e n.
  Let F : fixed_ok e n := co_fixed H e n OK.
  Let HD := HD H e n OK.
  Let HL := HL H e n OK.
  Let Hn := fo_rows e n F.
  Let HP := co_poseidon H e n OK.
  Notation adv := (adv e). Notation sg := (sg e). Notation pa := (pa e). Notation pt := (pt e).
  Variables (t t' : tree account) (i : Z).
  Hypothesis Hi : 1 <= i /\ i + 1 < n.
  Hypothesis Hst : sg i = SegStart.
  Hypothesis Hroot : state_root H t = adv MU_old_hash i.
  Hypothesis Hroot' : state_root H t' = adv MU_new_hash i.
  Hypothesis Hbits : bits_ok n (height t).
  Hypothesis Hbits' : bits_ok n (height t').
  Hypothesis Hsb : tree_all (fun a => bits_ok n (height (storage a))) t.
  Hypothesis Hsb' : tree_all (fun a => bits_ok n (height (storage a))) t'.
  Hypothesis Hacc : tree_all account_ok t.
  Hypothesis Hacc' : tree_all account_ok t'.
  Notation S := (inputs2 H e t t').
  Hypothesis CF : collision_free H S.
  Let K := adv MU_key i.
  Notation kacc := (kacc H S).
  Notation of_update := (of_update e n i).

  Lemma l3_hashed l : 1 <= l < n -> sg l = AccountLeaf3 -> pt l = StorageChanged ->
    exists slot, word_ok slot /\ adv MU_key l = slot_key H slot /\ adv MU_storage_key_rlc l = word_rlc (echal e) slot /\ slot_hashed H e slot.
  Proof.
    intros Hl S3 T. pose proof (den_proof H e n F HD l Hl) as D. rewrite T in D. destruct D as [_ D].
    assert (W : word_facts e l MU_key (iv 0) (iv 1) MU_storage_key_rlc (sp 0) (sp 1)).
    { apply (r_word e n F l); [exact Hl|]. apply (den_by_segment H e n F HD l _ Hl) in D. rewrite S3 in D. exact (proj2 D). }
    apply (word_sound H e n OK l) in W; [|exact Hl]. destruct W as (w & A & B & C & E). exists w.
    split; [exact A|]. split; [exact B|]. split; [exact E|]. unfold slot_hashed. rewrite B in C. exact C.
  Qed.
  Lemma slot_pair j a a' : pt i = StorageChanged -> of_update j -> sg j = AccountLeaf0 -> pa j = Common -> kacc a -> kacc a' -> account_ok a -> account_ok a' ->
    bits_ok n (height (storage a)) -> bits_ok n (height (storage a')) ->
    account_hash H a = adv MU_old_hash j -> account_hash H a' = adv MU_new_hash j ->
    a' = set_storage (storage a') a /\ exists slot, word_ok slot /\ adv MU_storage_key_rlc i = word_rlc (echal e) slot /\ slot_hashed H e slot /\
      slot_change (echal e) (slot_key H slot) (storage a) (storage a') (adv MU_old_value i) (adv MU_new_value i).
  Proof.
    intros T Uj S0 P0 Ka Ka' Oa Oa' Ba Ba' Ea Ea'. pose proof Uj as (Hj & Tj & Vj & Wj & _).
    destruct (leaf_rows H e n F HD HL j ltac:(lia) S0 P0) as (L2 & _ & S1 & P1 & T1 & Alt).
    assert (U1 : of_update (j + 1)) by (apply (upd_next H e n OK i Hi); [exact Uj|lia|rewrite S1; discriminate]).
    rewrite Tj, T in *.
    destruct Alt as [(Tp & _)|(Fr4 & L4 & b2 & b3 & S2 & S3 & P3 & T3 & D2 & D3 & B1 & B2 & B3)]; [discriminate Tp|].
    destruct B1 as [O1 N1]. destruct B2 as [O2 N2]. destruct B3 as [O3 N3].
    replace (j + 1 - 1) with j in * by lia. replace (j + 2 - 1) with (j + 1) in * by lia. replace (j + 3 - 1) with (j + 2) in * by lia.
    destruct (four_side H e n OK t t' CF (adv MU_old_hash) a j b2 b3 Ka Ea O1 O2 O3) as (X3 & Xp & X2 & Xs).
    destruct (four_side H e n OK t t' CF (adv MU_new_hash) a' j b2 b3 Ka' Ea' N1 N2 N3) as (Y3 & Yp & Y2 & Ys).
    rewrite Xp in Yp. rewrite X2 in Y2. rewrite Xs in Ys.
    cbn [leaf_dir] in D2, D3. injection D2 as <-. injection D3 as <-. cbn [comp negb] in X3, Y3, Ys, Y2.
    destruct (inj3 H S CF _ _ _ _ _ _ (i1 H S a Ka) (i1 H S a' Ka') Y2) as (C3 & C4 & _).
    destruct (cx_inj a a' Oa Oa' C3) as [M1 M2]. apply (cy_inj a a' Oa Oa') in C4. apply (ck_inj H S CF a a' Oa Oa' Ka Ka') in Ys.
    split; [apply account_is; cbn; congruence|].
    assert (U3 : of_update (j + 3)).
    { replace (j + 3) with (j + 1 + 1 + 1) by lia. apply (upd_next H e n OK i Hi); [apply (upd_next H e n OK i Hi); [exact U1|lia|]|lia|].
      - replace (j + 1 + 1) with (j + 2) by lia. rewrite S2. discriminate.
      - replace (j + 1 + 1 + 1) with (j + 3) by lia. rewrite S3. discriminate. }
    destruct U3 as (_ & _ & V3 & W3 & R3).
    destruct (l3_hashed (j + 3)) as (slot & Q1 & Q2 & Q3 & Q4); [lia|exact S3|exact T3|].
    exists slot. split; [exact Q1|]. split; [congruence|]. split; [exact Q4|]. rewrite <- Q2.
    destruct (storage_two H e n OK S CF (HT2 H e t t') (storage a) (storage a') (j + 3) ltac:(lia) S3 P3 T3
      (kacc_sto H S a Ka) (kacc_sto H S a' Ka') ltac:(apply Oa) ltac:(apply Oa') (eq_sym X3) (eq_sym Y3) Ba Ba') as (d & u & u' & A & A' & Rep & Df).
    apply slot_change_of. exact (diff_change e (j + 3) _ _ d u u' _ _ A A' Rep Df V3 W3).
  Qed.

  Lemma sub_bits d : forall (t0 u : tree account) k d0, sub t0 k d0 d = Some u -> tree_all (fun a => bits_ok n (height (storage a))) t0 -> tree_all (fun a => bits_ok n (height (storage a))) u.
  Proof. intros t0 u k d0 E A. exact (sub_all _ d t0 k d0 u E A). Qed.
  Theorem existing_storage a : pt i = StorageChanged -> get t 0 K = Some a ->
    exists s' slot, t' = modify (set_storage s') t 0 K /\ get t' 0 K = Some (set_storage s' a) /\
      word_ok slot /\ adv MU_storage_key_rlc i = word_rlc (echal e) slot /\ slot_hashed H e slot /\
      slot_change (echal e) (slot_key H slot) (storage a) s' (adv MU_old_value i) (adv MU_new_value i).
  Proof.
    intros T G. destruct (account_two H e n OK t t' i Hi Hst Hroot Hroot' Hbits Hbits' Hacc Hacc' CF) as (d & u & u' & A & A' & Rep & Df). fold K in A, A', Rep.
    rewrite (sub_get d t K 0 u A) in G. cbn [Nat.add] in G.
    destruct Df as [E G0 V0 V1|j k b b' Uj S0 P0 -> -> Kb Kb' Ob Ob' Eb Eb'|m Su G0 V0 V1 _ E|m j k b' Su G0 V0 Hm Uj S0 P0 E Kb' Ob' Eb'];
      try (change (get u d K = None) in G0; congruence).
    cbn in G. destruct (feqb_spec K k) as [<-|]; [|discriminate G]. injection G as ->.
    destruct (slot_pair j a b' T Uj S0 P0 Kb Kb' Ob Ob' (sub_bits d t _ K 0 A Hsb) (sub_bits d t' _ K 0 A' Hsb') Eb Eb') as (Ea & slot & Q1 & Q2 & Q3 & Q4).
    exists (storage b'), slot. split; [|split; [|auto]].
    - rewrite (sub_modify (set_storage (storage b')) d t K 0 _ A). cbn [modify]. rewrite feqb_refl, <- Ea. exact Rep.
    - rewrite (sub_get d t' K 0 _ A'). cbn. rewrite feqb_refl, <- Ea. reflexivity.
  Qed.
End Slots.
