(* What one exposed row of a satisfied circuit proves about the state trie. *)
From Coq Require Import ZArith String List Bool Lia.
From Verif Require Import Pocklington Fr Query Builder BuilderProofs Gadgets MptUpdate Bytes GadgetProofs LagrangeProofs Fixed CanonProofs UpdateRows TrieSpec UpdateWalk UpdateAccount.
Import ListNotations.
Open Scope Z_scope.

(** * Specification side *)
Fixpoint modify_reached {V} (f : V -> V) (t : tree V) (d : nat) (k : Fr) : tree V :=
  match t with
  | Empty => Empty
  | Leaf k' v => Leaf k' (f v)
  | Node l r => if kbit k d then Node l (modify_reached f r (S d) k) else Node (modify_reached f l (S d) k) r
  end.
Lemma get_reached {V} (t : tree V) : forall d k v, get t d k = Some v -> reached t d k = Some (k, v).
Proof.
  induction t as [|k' v'|l IHl r IHr]; intros d k v; cbn; [discriminate| |].
  - destruct (feqb_spec k k') as [->|]; congruence.
  - destruct (kbit k d); auto.
Qed.
Lemma reached_get {V} (t : tree V) : forall d k v, reached t d k = Some (k, v) -> get t d k = Some v.
Proof.
  induction t as [|k' v'|l IHl r IHr]; intros d k v; cbn; [discriminate| |].
  - intros E. injection E as -> ->. rewrite feqb_refl. reflexivity.
  - destruct (kbit k d); auto.
Qed.
Lemma reached_none {V} (t : tree V) : forall d k, reached t d k = None -> get t d k = None.
Proof.
  induction t as [|k' v'|l IHl r IHr]; intros d k; cbn; [reflexivity|discriminate|].
  destruct (kbit k d); auto.
Qed.
Lemma reached_other {V} (t : tree V) : forall d k k' v, reached t d k = Some (k', v) -> k <> k' -> get t d k = None.
Proof.
  induction t as [|k' v'|l IHl r IHr]; intros d k k0 v; cbn; [discriminate| |].
  - intros E N. injection E as -> ->. destruct (feqb_spec k k0); [contradiction|reflexivity].
  - destruct (kbit k d); eauto.
Qed.
Lemma modify_reached_get {V} (f : V -> V) (t : tree V) : forall d k v, get t d k = Some v -> modify_reached f t d k = modify f t d k.
Proof.
  induction t as [|k' v'|l IHl r IHr]; intros d k v; cbn; [reflexivity| |].
  - destruct (feqb k k'); [reflexivity|discriminate].
  - destruct (kbit k d); intros E; erewrite ?IHl, ?IHr by exact E; reflexivity.
Qed.
Lemma sub_reached {V} d : forall (t : tree V) K d0 k v, sub t K d0 d = Some (Leaf k v) -> reached t d0 K = Some (k, v).
Proof.
  induction d as [|d IH]; intros t K d0 k v E; cbn in E.
  - injection E as ->. reflexivity.
  - destruct t as [|k' v'|l r]; try discriminate E. cbn. apply IH. exact E.
Qed.
Lemma sub_modify_reached {V} f d : forall (t : tree V) K d0 k v, sub t K d0 d = Some (Leaf k v) ->
  modify_reached f t d0 K = repl t K d0 d (Leaf k (f v)).
Proof.
  induction d as [|d IH]; intros t K d0 k v E; cbn in E.
  - injection E as ->. reflexivity.
  - destruct t as [|k' v'|l r]; try discriminate E. cbn [modify_reached repl].
    destruct (kbit K d0); rewrite (IH _ _ _ _ _ E); reflexivity.
Qed.

(** * Circuit side *)
(* [circuit_ok H e n]: e is a satisfying assignment of the complete circuit configured for n rows, the
   Poseidon table (filled by another circuit) holds only correct hashes *)
Record circuit_ok (H : Fr -> Fr -> Fr -> Fr) (e : env) (n : Z) : Prop := {
  co_fixed : fixed_ok e n;
  co_sat : sat e (run (circuit H) (builder_new SEL));
  co_poseidon : forall l r d h, poseidon_hit e l r d h -> H l r d = h;
  co_anchor : eadv e BR_index 1 = f0 }.

(* facts that need neither the Poseidon table nor the anchor *)
Section Sat.
  Variables (H : Fr -> Fr -> Fr -> Fr) (e : env) (n : Z).
  Hypothesis F : fixed_ok e n.
  Hypothesis SAT : sat e (run (circuit H) (builder_new SEL)).
  Let Hn := fo_rows e n F.
  Let Hu := fo_usable e n F.
  Let Hs := fo_small e n F.

  Lemma D_all0 i : 1 <= i < n -> den e i (circuit H).
  Proof.
    intros Hi. apply (sat_den e (circuit H) (fixed_wf e n F) SAT); [lia|apply (sel_on e n F); exact Hi].
  Qed.
  Lemma DBR0 i : 1 <= i < n -> den e i byte_representation_configure. Proof. intros Hi. exact (proj1 (D_all0 i Hi)). Qed.
  Lemma DCR0 i : 1 <= i < n -> den e i canonical_representation_configure. Proof. intros Hi. exact (proj1 (proj2 (D_all0 i Hi))). Qed.
  Lemma DKB0 i : 1 <= i < n -> den e i key_bit_configure. Proof. intros Hi. exact (proj1 (proj2 (proj2 (D_all0 i Hi)))). Qed.
  Lemma HD0 i : 1 <= i < n -> den e i (mpt_update_configure H). Proof. intros Hi. exact (proj1 (proj2 (proj2 (proj2 (D_all0 i Hi))))). Qed.
  Lemma DFR0 i : 1 <= i < n -> den e i final_row_configure. Proof. intros Hi. exact (proj2 (proj2 (proj2 (proj2 (D_all0 i Hi))))). Qed.

  Notation adv := (adv e). Notation sg := (sg e). Notation pa := (pa e). Notation pt := (pt e).
  Notation PH := (PH e). Notation oldP := (oldP e). Notation newP := (newP e).

  (* the seven exposed0 values of an enabled row *)
  Lemma exposed0 i : 1 <= i < n -> map (eval e i) mpt_update_lookup =
    if seg_eqb (sg i) SegStart
    then [(adv (iv 0) i * fz (2 ^ 32) + adv (iv 1) i)%fr; adv MU_storage_key_rlc i; eval e i (oh_current oh_proof);
          adv (sp 1) i; adv (sp 0) i; adv MU_new_value i; adv MU_old_value i]
    else repeat f0 7.
  Proof.
    intros Hi.
    assert (E : eval e i (cur_seg [SegStart]) = fb (seg_eqb (sg i) SegStart)).
    { unfold cur_seg, current_matches. rewrite (ev_seg H e n F HD0) by (try lia; repeat constructor; cbn; tauto).
      rewrite Z.add_0_r. destruct (sg i); reflexivity. }
    set (s := cur_seg [SegStart]) in *.
    unfold mpt_update_lookup. fold s. cbn [map].
    change (eval e i ((cur (iv 0) * QConst (fz (2 ^ 32)) + cur (iv 1)) * s)%q)
      with ((eval e i (cur (iv 0)) * fz (2 ^ 32) + eval e i (cur (iv 1))) * eval e i s)%fr.
    change (eval e i (oh_current oh_proof * s)%q) with (eval e i (oh_current oh_proof) * eval e i s)%fr.
    assert (G : forall c, eval e i (cur c * s)%q = (adv c i * eval e i s)%fr).
    { intros c. change (eval e i (cur c * s)%q) with (eval e i (cur c) * eval e i s)%fr. rewrite (ev_cur e n F) by exact Hi. reflexivity. }
    rewrite !G, !(ev_cur e n F), E by exact Hi.
    destruct (seg_eqb (sg i) SegStart); cbn [fb repeat]; repeat (apply f_equal2; [ring|]); reflexivity.
  Qed.
  Lemma last_start0 : sg (n - 1) = SegStart /\ map (eval e (n - 1)) mpt_update_lookup = [f0; f0; fz 5; f0; f0; f0; f0].
  Proof.
    assert (Hi : 1 <= n - 1 < n) by lia.
    pose proof (DFR0 (n - 1) Hi) as D. unfold final_row_configure in D.
    assert (E : eval e (n - 1) (fcur FINAL) = f1).
    { rewrite eval_fcur by lia. rewrite (fo_cells e n F) by (try discriminate; lia). cbn [fixed_cell]. rewrite Z.eqb_refl. reflexivity. }
    specialize (D E). pose proof (exposed0 (n - 1) Hi) as X.
    set (L := mpt_update_lookup) in *. assert (LL : List.length L = 7%nat) by reflexivity. clearbody L.
    do 8 (destruct L as [|? L]; try discriminate LL).
    cbn [combine for_each fold_right] in D. destruct D as (D0 & D1 & D2 & D3 & D4 & D5 & D6 & _).
    apply (proj1 (den_assert_equal e (n - 1) _ _ _)) in D0, D1, D2, D3, D4, D5, D6. cbn [fst snd] in *.
    rewrite eval_qz in D0, D1, D2, D3, D4, D5, D6.
    cbn [map] in X |- *. rewrite <- D0, <- D1, <- D2, <- D3, <- D4, <- D5, <- D6 in X |- *.
    split; [|reflexivity].
    destruct (seg_eqb (sg (n - 1)) SegStart) eqn:Q; [destruct (sg (n - 1)); cbn in Q; congruence|].
    exfalso. cbn [repeat] in X. apply (f_equal (fun l => nth 2 l f0)) in X. cbn [nth] in X.
    apply (f_equal val) in X. vm_compute in X. discriminate X.
  Qed.
  Lemma HL0 : sg (n - 1) = SegStart. Proof. apply last_start0. Qed.

End Sat.

Section Sound.
  Variables (H : Fr -> Fr -> Fr -> Fr) (e : env) (n : Z).
  Hypothesis OK : circuit_ok H e n.
  Let F : fixed_ok e n := co_fixed H e n OK.
  Let Hn := fo_rows e n F.
  Let Hu := fo_usable e n F.
  Let Hs := fo_small e n F.
  Let SAT := co_sat H e n OK.
  Lemma DBR i : 1 <= i < n -> den e i byte_representation_configure. Proof. exact (DBR0 H e n F SAT i). Qed.
  Lemma DCR i : 1 <= i < n -> den e i canonical_representation_configure. Proof. exact (DCR0 H e n F SAT i). Qed.
  Lemma DKB i : 1 <= i < n -> den e i key_bit_configure. Proof. exact (DKB0 H e n F SAT i). Qed.
  Lemma HD i : 1 <= i < n -> den e i (mpt_update_configure H). Proof. exact (HD0 H e n F SAT i). Qed.
  Lemma DFR i : 1 <= i < n -> den e i final_row_configure. Proof. exact (DFR0 H e n F SAT i). Qed.
  Lemma BR i : 1 <= i < n -> br_row e i. Proof. apply (br_rows e n F DBR (co_anchor H e n OK)). Qed.

  Notation adv := (adv e). Notation sg := (sg e). Notation pa := (pa e). Notation pt := (pt e).
  Notation PH := (PH e). Notation oldP := (oldP e). Notation newP := (newP e).

  Lemma exposed i : 1 <= i < n -> map (eval e i) mpt_update_lookup =
    if seg_eqb (sg i) SegStart
    then [(adv (iv 0) i * fz (2 ^ 32) + adv (iv 1) i)%fr; adv MU_storage_key_rlc i; eval e i (oh_current oh_proof);
          adv (sp 1) i; adv (sp 0) i; adv MU_new_value i; adv MU_old_value i]
    else repeat f0 7.
  Proof. exact (exposed0 H e n F SAT i). Qed.
  Lemma last_start : sg (n - 1) = SegStart /\ map (eval e (n - 1)) mpt_update_lookup = [f0; f0; fz 5; f0; f0; f0; f0].
  Proof. exact (last_start0 H e n F SAT). Qed.
  Lemma HL : sg (n - 1) = SegStart. Proof. apply last_start. Qed.

  (** ** bytes and words *)
  Lemma bytes8 i q : 1 <= i < n -> lookup_hit e i [q; qz 7] bytes_lookup -> exists v, 0 <= v < 2 ^ 64 /\ eval e i q = fz v.
  Proof.
    intros Hi D. apply (br_bytes_hit e n F i _ _ 7 BR) in D; [|lia|reflexivity]. exact D.
  Qed.
  Lemma word_sound i wh h l rw rh rl : 1 <= i < n -> word_facts e i wh h l rw rh rl ->
    exists w, word_ok w /\ adv wh i = word_hash H w /\ PH (fz (w / 2 ^ 128)) (fz (w mod 2 ^ 128)) (fdom DPair) (adv wh i) /\
      adv rw i = word_rlc (echal e) w.
  Proof.
    intros Hi (A & B & C & D).
    apply (br_rlc_hit e n F i _ _ _ 15 BR) in A; [|lia|reflexivity].
    apply (br_rlc_hit e n F i _ _ _ 15 BR) in B; [|lia|reflexivity].
    destruct A as (hi & Rh & Eh & Qh). destruct B as (lo & Rl & El & Ql).
    rewrite !(ev_cur e n F) in * by exact Hi.
    change (256 ^ (15 + 1)) with (2 ^ 128) in *. change (Z.to_nat (15 + 1)) with 16%nat in *.
    assert (Q : (hi * 2 ^ 128 + lo) / 2 ^ 128 = hi /\ (hi * 2 ^ 128 + lo) mod 2 ^ 128 = lo).
    { rewrite Z.add_comm, Z.div_add, Z.mod_add by lia. rewrite Z.div_small, Z.mod_small by lia. lia. }
    destruct Q as [Q1 Q2].
    exists (hi * 2 ^ 128 + lo). split; [unfold word_ok; change (2 ^ 256) with (2 ^ 128 * 2 ^ 128); nia|].
    unfold word_hash. rewrite Q1, Q2, <- Eh, <- El. split; [symmetry; apply (co_poseidon H e n OK); exact C|].
    split; [exact C|]. rewrite D, Qh, Ql. unfold word_rlc.
    change 32%nat with (16 + 16)%nat. rewrite be_bytes_app, rlc_app, be_bytes_length.
    rewrite <- (be_bytes_mod 16 (hi * 2 ^ 128 + lo)). change (256 ^ Z.of_nat 16) with (2 ^ 128). rewrite Q1, Q2. reflexivity.
  Qed.
  Lemma be_bytes_lead k z : 0 <= z < 256 ^ Z.of_nat k -> be_bytes (S k) z = 0 :: be_bytes k z.
  Proof.
    intros Hz. change (S k) with (1 + k)%nat. rewrite be_bytes_app, Z.div_small by exact Hz. reflexivity.
  Qed.
  Lemma rlc_lead l c : rlc (0 :: l) c = rlc l c.
  Proof. change (0 :: l) with ([0] ++ l). rewrite rlc_app. unfold rlc at 1. cbn [fold_left]. change (fz 0) with f0. ring. Qed.

  (** ** the start row *)
  Lemma start_row i : 1 <= i < n -> sg i = SegStart -> exists address, 0 <= address < 2 ^ 160 /\
    (adv (iv 0) i * fz (2 ^ 32) + adv (iv 1) i)%fr = fz address /\ adv MU_key i = addr_key H address /\
    adv (sp 0) i = root_rlc (echal e) (adv MU_old_hash i) /\ adv (sp 1) i = root_rlc (echal e) (adv MU_new_hash i).
  Proof.
    intros Hi E. destruct (r_start H e n F HD i Hi E) as (A & B & C & D & G).
    apply (br_bytes_hit e n F i _ _ 15 BR) in B; [|lia|reflexivity].
    apply (br_bytes_hit e n F i _ _ 3 BR) in C; [|lia|reflexivity].
    apply (fr_rlc_hit e n F DCR) in D. apply (fr_rlc_hit e n F DCR) in G.
    rewrite !(ev_cur e n F) in * by exact Hi.
    destruct B as (hi & Rh & Eh). destruct C as (lo & Rl & El).
    change (256 ^ (15 + 1)) with (2 ^ 128) in *. change (256 ^ (3 + 1)) with (2 ^ 32) in *.
    exists (hi * 2 ^ 32 + lo). split; [change (2 ^ 160) with (2 ^ 128 * 2 ^ 32); nia|].
    rewrite Eh, El in *. rewrite <- fz_mul, <- fz_add. split; [reflexivity|]. unfold root_rlc. split; [clear D G|split; [exact D|exact G]].
    apply (co_poseidon H e n OK) in A. rewrite <- A. unfold addr_key.
    assert (Q1 : (hi * 2 ^ 32 + lo) / 2 ^ 32 = hi) by (rewrite Z.add_comm, Z.div_add by lia; rewrite Z.div_small by lia; lia).
    assert (Q2 : (hi * 2 ^ 32 + lo) mod 2 ^ 32 = lo) by (rewrite Z.add_comm, Z.mod_add by lia; rewrite Z.mod_small by lia; lia).
    rewrite Q1, Q2, <- fz_mul. reflexivity.
  Qed.

  (** ** one account-level update against a trie *)
  Section Trie.
    Variable t : tree account.
    Variable i : Z.
    Hypothesis Hi : 1 <= i /\ i + 1 < n.
    Hypothesis Hst : sg i = SegStart.
    Hypothesis Hroot : state_root H t = adv MU_old_hash i.
    Hypothesis Hbits : bits_ok n (height t).
    Definition inputs (x : triple) : Prop :=
      (exists h, poseidon_hit e (fst (fst x)) (snd (fst x)) (snd x) h) \/ In x (state_inputs H t).
    Hypothesis CF : collision_free H inputs.
    Let K := adv MU_key i.
    Let HP := co_poseidon H e n OK.
    Lemma HT l r d h : poseidon_hit e l r d h -> inputs (l, r, d).
    Proof. intros X. left. exists h. exact X. Qed.
    Notation known_acc := (known H inputs (account_hash H) (account_inputs H)).
    Lemma known_t : known_acc t. Proof. intros x Hx. right. exact Hx. Qed.

    (* the components of an account hash *)
    Definition acc_hash5 (x y s k p : Fr) : Fr :=
      H (H (H x y (fdom AccountFields)) (H s k (fdom AccountFields)) (fdom AccountFields)) p (fdom AccountFields).
    Definition cx (a : account) := fz (nonce a + code_size a * 2 ^ 64).
    Definition cy (a : account) := fz (balance a).
    Definition cs (a : account) := storage_root H (storage a).
    Definition ck (a : account) := word_hash H (keccak_code_hash a).
    Lemma account_hash5 a : account_hash H a = acc_hash5 (cx a) (cy a) (cs a) (ck a) (poseidon_code_hash a).
    Proof. reflexivity. Qed.
    Definition comp (b2 b3 : bool) (a : account) : Fr :=
      if b2 then (if b3 then ck a else cs a) else (if b3 then cy a else cx a).
    Definition with_comp (b2 b3 : bool) (a : account) (z : Fr) : Fr :=
      acc_hash5 (if b2 then cx a else if b3 then cx a else z) (if b2 then cy a else if b3 then z else cy a)
                (if b2 then if b3 then cs a else z else cs a) (if b2 then if b3 then z else ck a else ck a) (poseidon_code_hash a).
    Definition known_a (a : account) := forall x, In x (account_inputs H a) -> inputs x.

    Lemma hinj l r d h l' r' d' : PH l r d h -> inputs (l', r', d') -> H l' r' d' = h -> l = l' /\ r = r' /\ d = d'.
    Proof. apply (hash_inj H e HP inputs CF HT). Qed.

    Lemma acc_four a l b2 b3 : known_a a -> account_hash H a = adv MU_old_hash l ->
      both e (l + 1) false AccountFields -> both e (l + 2) b2 AccountFields -> both e (l + 3) b3 AccountFields ->
      adv MU_old_hash (l + 3) = comp b2 b3 a /\ adv MU_new_hash l = with_comp b2 b3 a (adv MU_new_hash (l + 3)).
    Proof.
      intros Ka E [O1 N1] [O2 N2] [O3 N3]. unfold sideP in *.
      replace (l + 1 - 1) with l in * by lia. replace (l + 2 - 1) with (l + 1) in * by lia. replace (l + 3 - 1) with (l + 2) in * by lia.
      assert (I1 : inputs (cx a, cy a, fdom AccountFields)) by (apply Ka; cbn; auto).
      assert (I2 : inputs (cs a, ck a, fdom AccountFields)) by (apply Ka; cbn; auto).
      assert (I3 : inputs (H (cx a) (cy a) (fdom AccountFields), H (cs a) (ck a) (fdom AccountFields), fdom AccountFields)) by (apply Ka; cbn; auto).
      assert (I4 : inputs (H (H (cx a) (cy a) (fdom AccountFields)) (H (cs a) (ck a) (fdom AccountFields)) (fdom AccountFields), poseidon_code_hash a, fdom AccountFields)) by (apply Ka; cbn; auto).
      destruct (hinj _ _ _ _ _ _ _ O1 I4 E) as (P1 & P2 & _).
      apply HP in N1. rewrite P2 in N1. rewrite <- N1. unfold with_comp, comp, acc_hash5.
      destruct b2.
      - destruct (hinj _ _ _ _ _ _ _ O2 I3 (eq_sym P1)) as (Q1 & Q2 & _). apply HP in N2. rewrite Q1 in N2. rewrite <- N2.
        destruct b3.
        + destruct (hinj _ _ _ _ _ _ _ O3 I2 (eq_sym Q2)) as (R1 & R2 & _). apply HP in N3. rewrite R1 in N3. rewrite <- N3. auto.
        + destruct (hinj _ _ _ _ _ _ _ O3 I2 (eq_sym Q2)) as (R1 & R2 & _). apply HP in N3. rewrite R2 in N3. rewrite <- N3. auto.
      - destruct (hinj _ _ _ _ _ _ _ O2 I3 (eq_sym P1)) as (Q1 & Q2 & _). apply HP in N2. rewrite Q2 in N2. rewrite <- N2.
        destruct b3.
        + destruct (hinj _ _ _ _ _ _ _ O3 I1 (eq_sym Q1)) as (R1 & R2 & _). apply HP in N3. rewrite R1 in N3. rewrite <- N3. auto.
        + destruct (hinj _ _ _ _ _ _ _ O3 I1 (eq_sym Q1)) as (R1 & R2 & _). apply HP in N3. rewrite R2 in N3. rewrite <- N3. auto.
    Qed.

    (* the run of common account-trie rows below the start row *)
    Variable d : nat.
    Hypothesis Hrun : acc_run e i d.
    Let j := i + Z.of_nat d.
    Hypothesis Hj : j + 1 < n.
    Lemma run_trie : in_trie e AccountTrie i d. Proof. intros k Hk. apply Hrun. exact Hk. Qed.
    Lemma start_not_trie : is_trie_seg (sg i) = false. Proof. rewrite Hst. reflexivity. Qed.
    Lemma run_hashes : pa (j + 1) = Common \/ pa (j + 1) = PathStart -> forall k, (1 <= k <= d)%nat ->
      oldP (i + Z.of_nat k) (adv MU_domain (i + Z.of_nat k)) /\ newP (i + Z.of_nat k) (adv MU_domain (i + Z.of_nat k)).
    Proof.
      intros Hp k Hk. destruct (Hrun k Hk) as [_ Pk].
      pose proof (r_common H e n F HD (i + Z.of_nat k) ltac:(lia) ltac:(unfold j in Hj; lia) Pk) as C. unfold common_facts in C.
      assert (Pn : pa (i + Z.of_nat k + 1) = Common \/ pa (i + Z.of_nat k + 1) = PathStart).
      { destruct (Nat.eq_dec k d) as [->|Ne]; [exact Hp|]. left.
        destruct (Hrun (S k) ltac:(lia)) as [_ X]. replace (i + Z.of_nat k + 1) with (i + Z.of_nat (S k)) by lia. exact X. }
      destruct Pn as [Pn|Pn]; rewrite Pn in C; exact C.
    Qed.
    (* old side only, also when the path branches off below *)
    Lemma run_hashes_old : pa (j + 1) <> ExtensionOld -> forall k, (1 <= k <= d)%nat ->
      oldP (i + Z.of_nat k) (adv MU_domain (i + Z.of_nat k)).
    Proof.
      intros Hp k Hk. destruct (Hrun k Hk) as [_ Pk].
      pose proof (r_common H e n F HD (i + Z.of_nat k) ltac:(lia) ltac:(unfold j in Hj; lia) Pk) as C. unfold common_facts in C.
      assert (Pn : pa (i + Z.of_nat k + 1) <> ExtensionOld).
      { destruct (Nat.eq_dec k d) as [->|Ne]; [exact Hp|].
        destruct (Hrun (S k) ltac:(lia)) as [_ X]. replace (i + Z.of_nat k + 1) with (i + Z.of_nat (S k)) by lia. rewrite X. discriminate. }
      destruct (pa (i + Z.of_nat k + 1)); try congruence; apply C.
    Qed.
    Lemma acc_old : pa (j + 1) <> ExtensionOld ->
      exists u, sub t K 0 d = Some u /\ known_acc u /\ thash H (account_hash H) u = adv MU_old_hash j.
    Proof.
      intros Hp.
      destruct (walk_old H e n F HD DCR DKB HP inputs CF HT (account_hash H) (account_inputs H)
        AccountTrie i K eq_refl ltac:(lia) start_not_trie eq_refl t d Hbits run_trie ltac:(fold j; lia) known_t Hroot (run_hashes_old Hp))
        as (u & A & B & C & _).
      exists u. auto.
    Qed.
    Lemma acc_key : adv MU_key j = K.
    Proof. apply (trie_key H e n F HD AccountTrie i K eq_refl ltac:(lia) eq_refl d run_trie). fold j. lia. Qed.
    Lemma acc_new u u' : pa (j + 1) = Common \/ pa (j + 1) = PathStart -> sub t K 0 d = Some u ->
      is_node u' = is_node u -> thash H (account_hash H) u' = adv MU_new_hash j ->
      state_root H (repl t K 0 d u') = adv MU_new_hash i.
    Proof.
      intros Hp Hsub. apply (walk_new H e n F HD DCR DKB HP inputs CF HT (account_hash H) (account_inputs H)
        AccountTrie i K eq_refl ltac:(lia) start_not_trie eq_refl t d u Hbits run_trie ltac:(fold j; lia) known_t Hroot (run_hashes Hp) Hsub).
    Qed.
    (* nothing under the key *)
    Lemma acc_absent_empty : has_empty_part (pt j) = true -> sg (j + 1) = SegStart ->
      adv MU_new_hash i = adv MU_old_hash i /\ adv MU_old_value j = f0 /\ adv MU_new_value j = f0 /\ get t 0 K = None.
    Proof.
      intros Hp Hnx.
      assert (Pn : pa (j + 1) = PathStart) by (apply (pa_start H e n F HD); [unfold j in *; lia|exact Hnx]).
      assert (Sj : sg j = SegStart \/ sg j = AccountTrie).
      { unfold j. destruct d as [|d']; [left; rewrite Z.add_0_r; exact Hst|right; apply Hrun; lia]. }
      destruct (r_empty H e n F HD j ltac:(unfold j; lia) Hj Hp Sj Hnx) as (A & B & C & data & N).
      destruct acc_old as (u & U1 & U2 & U3); [rewrite Pn; discriminate|].
      split; [|split; [exact B|split; [exact C|]]].
      - rewrite <- Hroot. rewrite <- (acc_new u u (or_intror Pn) U1 eq_refl); [|rewrite U3; exact A].
        f_equal. apply repl_self. exact U1.
      - rewrite (sub_get d t K 0 u U1). rewrite acc_key, <- U3 in N.
        apply (nonex_get H e HP inputs CF HT (account_hash H) (account_inputs H) u _ _ _ _ _ U2 N).
    Qed.
    Lemma acc_absent_new : (sg (j + 1) = AccountTrie \/ sg (j + 1) = AccountLeaf0) -> pa (j + 1) = ExtensionNew ->
      get t 0 K = None /\ adv MU_old_value (j + 1) = f0.
    Proof.
      intros Sg Pn. destruct acc_old as (u & U1 & U2 & U3); [rewrite Pn; discriminate|].
      destruct (ext_new_nonex H e n F HD HL (Z.to_nat n) (j + 1)) as (o & data & N & Z0); [lia|unfold j in *; lia|exact Pn|exact Sg|].
      replace (j + 1 - 1) with j in N by lia. rewrite acc_key, <- U3 in N. split; [|exact Z0].
      rewrite (sub_get d t K 0 u U1).
      apply (nonex_get H e HP inputs CF HT (account_hash H) (account_inputs H) u _ _ _ _ _ U2 N).
    Qed.
    (* a common leaf: the reached account has the old hash, and updating it to any account with the new hash gives the new root *)
    Lemma acc_leaf : sg (j + 1) = AccountLeaf0 -> pa (j + 1) = Common ->
      exists k a, reached t 0 K = Some (k, a) /\ known_a a /\ account_hash H a = adv MU_old_hash (j + 1) /\
        forall f, account_hash H (f a) = adv MU_new_hash (j + 1) -> state_root H (modify_reached f t 0 K) = adv MU_new_hash i.
    Proof.
      intros S0 P0. destruct acc_old as (u & U1 & U2 & U3); [rewrite P0; discriminate|].
      destruct (leaf_rows H e n F HD HL (j + 1) ltac:(unfold j in *; lia) S0 P0) as (_ & [Bo Bn] & _).
      unfold sideP in Bo, Bn. replace (j + 1 - 1) with j in * by lia.
      destruct (leaf_step H e HP inputs CF HT (account_hash H) (account_inputs H) u _ _ _ U2 U3 Bo) as (a & -> & Ha).
      exists (adv MU_sibling (j + 1)), a. split; [apply (sub_reached d t K 0 _ _ U1)|]. split; [|split; [exact Ha|]].
      - intros x Hx. apply U2. cbn. right. exact Hx.
      - intros f Hf. rewrite (sub_modify_reached f d t K 0 _ _ U1).
        apply (acc_new (Leaf (adv MU_sibling (j + 1)) a)); [left; exact P0|exact U1|reflexivity|].
        cbn [thash]. rewrite Hf. apply HP. exact Bn.
    Qed.
  End Trie.
End Sound.
