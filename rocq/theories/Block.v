(* For all but a few challenges a block of chained claims computes the state transition. *)
From Coq Require Import ZArith String List Bool Lia.
From Verif Require Import Pocklington Fr Query Builder BuilderProofs Gadgets MptUpdate Bytes GadgetProofs LagrangeProofs Fixed CanonProofs UpdateRows TrieSpec TableSpec UpdateWalk UpdateAccount UpdateSound UpdateClaims UpdateStorage UpdateProps GadgetMain ChangeSpec NewClaims NewProps HistorySpec History RlcProofs UtilProofs UtilMain PhaseSpec Challenge BlockSpec.
Import ListNotations.
Open Scope Z_scope.

(** * modify *)
Lemma modify_ext {V} (f g : V -> V) (t : tree V) : forall d k, (forall v, get t d k = Some v -> f v = g v) -> modify f t d k = modify g t d k.
Proof.
  induction t as [|k' v'|l IHl r IHr]; intros d k E; cbn [modify get] in *; [reflexivity| |].
  - destruct (feqb k k'); [rewrite (E _ eq_refl)|]; reflexivity.
  - destruct (kbit k d); f_equal; auto.
Qed.
Lemma modify_height {V} (f : V -> V) (t : tree V) : forall d k, height (modify f t d k) = height t.
Proof. induction t as [|k' v'|l IHl r IHr]; intros d k; cbn [modify height]; [reflexivity|destruct (feqb k k'); reflexivity|]. destruct (kbit k d); cbn [height]; rewrite ?IHl, ?IHr; reflexivity. Qed.
Lemma modify_all {V} (P : V -> Prop) (f : V -> V) (t : tree V) : forall d k, tree_all P t -> (forall v, get t d k = Some v -> P v -> P (f v)) -> tree_all P (modify f t d k).
Proof.
  induction t as [|k' v'|l IHl r IHr]; intros d k A E; cbn [modify get tree_all] in *; [exact A| |].
  - destruct (feqb k k'); cbn [tree_all]; [apply E; auto|exact A].
  - destruct A as [A B]. destruct (kbit k d); cbn [tree_all]; split; auto.
Qed.

Section Step.
  Variables (H : Fr -> Fr -> Fr -> Fr) (e0 : env) (n : Z) (q : request) (t : tree account).
  (* the words the new value must not be confused with *)
  Definition new_pairs : list (Z * Z) :=
    map (fun j => (hashed_word e0 j mod 2 ^ 256, rq_new q)) (seq 0 (Z.to_nat (eusable e0))) ++
    map (fun i => (val (eadv e0 MU_new_hash (Z.of_nat i)), rq_new q)) (seq 0 (Z.to_nat n)).
  Definition step_pairs : list (Z * Z) := pairs H e0 n q t t ++ new_pairs.
  Lemma step_pairs_length : 2 <= n -> 0 <= eusable e0 -> length step_pairs = Z.to_nat (3 * n + 2 * eusable e0).
  Proof.
    intros A B. pose proof (pairs_length H e0 n q t t A B) as L. unfold step_pairs, new_pairs. rewrite !app_length, !map_length, !seq_length. lia.
  Qed.
  Lemma step_pairs_ok : request_ok q -> Forall pair_ok step_pairs.
  Proof.
    intros R. pose proof (value_word _ _ (ro_new _ R)) as W. apply Forall_app; split; [apply pairs_ok; exact R|].
    apply Forall_app; split; apply Forall_forall; intros p Hp; apply in_map_iff in Hp; destruct Hp as (j & <- & _); split; cbn [fst snd]; try exact W; [apply mod_word|apply val_word].
  Qed.

  Variable e : env.
  Hypothesis Co : commits e0 e.
  Hypothesis OK : circuit_ok H e n.
  Hypothesis RO : request_ok q.
  Notation c := (echal e).
  Hypothesis NC : Forall (fun p => ~ clash c p) step_pairs.
  Notation s := (requested c q).
  Hypothesis Ex : exposes e (encode c s).
  Hypothesis Nb : encode c s <> blank_row.
  Hypothesis Nf : encode c s <> final_row.
  Hypothesis St : start_state n t.
  Hypothesis Root : rq_old_root q = state_root H t.
  Hypothesis CF : collision_free H (inputs H e0 t).
  Hypothesis Ow : overwrites H q t.
  Notation K := (addr_key H (rq_address q)).

  Lemma NCp : Forall (fun p => ~ clash c p) (pairs H e0 n q t t).
  Proof. apply Forall_app in NC. apply NC. Qed.
  Lemma new_agree w : In (w, rq_new q) new_pairs -> word_rlc c (rq_new q) = word_rlc c w -> rq_new q = w.
  Proof.
    intros I E. apply Forall_app in NC. destruct NC as [_ N]. rewrite Forall_forall in N. specialize (N _ I). unfold clash in N. cbn [fst snd] in N.
    destruct (Z.eq_dec w (rq_new q)) as [Q|Q]; [symmetry; exact Q|exfalso; apply N; split; [exact Q|symmetry; exact E]].
  Qed.
  Lemma word_hashed w d h : word_ok w -> poseidon_hit e (fz (w / 2 ^ 128)) (fz (w mod 2 ^ 128)) d h -> In (w, rq_new q) new_pairs.
  Proof.
    intros W (j & Hj & _ & _ & Lf & Rt & _). apply in_or_app; left. apply in_map_iff.
    exists (Z.to_nat j). rewrite (cm_usable _ _ Co) in Hj. split; [|apply in_seq; lia]. f_equal. unfold hashed_word. rewrite Z2Nat.id by lia.
    rewrite (cm_first _ _ Co) in Lf, Rt by reflexivity. rewrite Lf, Rt.
    unfold word_ok in W. assert (D : 0 <= w / 2 ^ 128 < 2 ^ 128) by (split; [apply Z.div_pos; lia|apply Z.div_lt_upper_bound; lia]).
    assert (M : 0 <= w mod 2 ^ 128 < 2 ^ 128) by (apply Z.mod_pos_bound; lia).
    rewrite !val_fz_small by (apply small_lt_modulus; lia). rewrite Z.mul_comm, <- Z_div_mod_eq_full. apply Z.mod_small. exact W.
  Qed.
  Lemma cell_listed l : 0 <= l < n -> In (val (eadv e MU_new_hash l), rq_new q) new_pairs.
  Proof.
    intros Hl. apply in_or_app; right. apply in_map_iff. exists (Z.to_nat l). split; [|apply in_seq; lia]. rewrite (cm_first _ _ Co) by reflexivity. rewrite Z2Nat.id by lia. reflexivity.
  Qed.
  Lemma hit_committed l r d h : poseidon_hit e l r d h -> poseidon_hit e0 l r d h.
  Proof.
    intros (j & Hj & A). exists j. rewrite <- (cm_usable _ _ Co). split; [exact Hj|]. rewrite <- (cm_fixed _ _ Co). rewrite !(cm_first _ _ Co) in A by reflexivity. exact A.
  Qed.
  Lemma CFe : collision_free H (inputs H e t).
  Proof.
    assert (Sub : forall x, inputs H e t x -> inputs H e0 t x) by (intros x [(h & X)|X]; [left; exists h; apply hit_committed; exact X|right; exact X]).
    destruct CF as [P Q]. split; [intros x y X Y; apply P; apply Sub; assumption|intros x X; apply Q, Sub, X].
  Qed.

  Theorem step_true : reads H q t /\ rq_new_root q = state_root H (apply H q t) /\ start_state n (apply H q t).
  Proof.
    destruct (row_is H e0 n q t t e Co OK RO NCp Ex Nb Nf) as (i & I1 & I2 & R). pose proof (conj I1 I2) as Hi.
    pose proof CFe as CF'. destruct St as [T2 T3 T4]. pose proof (ro_new _ RO) as On. pose proof (ro_old _ RO) as Oo.
    pose proof (old_read H e0 n q t t e NCp) as Rd. pose proof (old_zero H e0 n q t t e NCp) as Z0. pose proof (new_zero H e0 n q t t e NCp) as Z1.
    pose proof (never_destructed H e n (co_fixed H e n OK) (co_sat H e n OK) i ltac:(apply (fix_enabled e n i (co_fixed H e n OK)); lia)) as ND.
    assert (Ab : st_kind s = AccountDoesNotExist -> account_absent H s t).
    { intros Q. apply (absent_sound H e n OK i s t I1 I2 R Q). cbn [st_old_root requested]. rewrite Root. repeat split; try assumption; apply CF'. }
    destruct R as [Rs Ra Rk Rsl Rp Rn Ro Rnv Rov].
    cbn [st_kind requested st_old_value st_new_value st_address st_old_root st_new_root st_slot_rlc] in *.
    assert (T1 : state_root H t = UpdateRows.adv e MU_old_hash i) by (rewrite <- Root; exact Ro).
    assert (Fld : is_field (rq_kind q) -> reads H q t /\ rq_new_root q = state_root H (apply H q t) /\ start_state n (apply H q t)).
    { intros Fk. assert (Fp : field_proof (pt e i) = true) by (rewrite <- Rp; clear - Fk; unfold is_field in Fk; cbn [In] in Fk; destruct Fk as [<-|[<-|[<-|[<-|[<-|[]]]]]]; reflexivity).
      assert (G : exists a, get t 0 K = Some a).
      { unfold overwrites in Ow. unfold is_field in Fk. cbn [In] in Fk. destruct (get t 0 K) as [a|]; [exists a; reflexivity|]. exfalso. destruct Fk as [Q|[Q|[Q|[Q|[Q|[]]]]]]; rewrite <- Q in Ow; apply Ow; reflexivity. }
      destruct G as (a & G). pose proof (get_all _ _ _ _ _ T2 G) as Oa. pose proof (get_all _ _ _ _ _ T4 G) as Ha.
      assert (Ea : apply H q t = modify (set_field (rq_kind q) (rq_new q)) t 0 K) by (unfold apply; unfold is_field in Fk; cbn [In] in Fk; destruct Fk as [Q|[Q|[Q|[Q|[Q|[]]]]]]; rewrite <- Q; reflexivity).
      assert (Fin : field (rq_kind q) a = rq_old q -> rq_new_root q = state_root H (modify (fun _ => set_field (rq_kind q) (rq_new q) a) t 0 K) -> account_ok (set_field (rq_kind q) (rq_new q) a) ->
        reads H q t /\ rq_new_root q = state_root H (apply H q t) /\ start_state n (apply H q t)).
      { intros F1 F2 F3. split; [|split].
        - unfold reads. unfold is_field in Fk. cbn [In] in Fk. destruct Fk as [Q|[Q|[Q|[Q|[Q|[]]]]]]; rewrite <- Q in F1 |- *; exists a; split; assumption.
        - rewrite Ea, (modify_const (set_field (rq_kind q) (rq_new q)) t 0 K a G). exact F2.
        - rewrite Ea. constructor; [|rewrite modify_height; exact T3|].
          + apply modify_all; [exact T2|]. intros v Gv _. rewrite G in Gv. injection Gv as <-. exact F3.
          + apply modify_all; [exact T4|]. intros v _ Hv. assert (X : storage (set_field (rq_kind q) (rq_new q) v) = storage v) by (destruct (rq_kind q); reflexivity). rewrite X. exact Hv. }
      destruct (account_claim_sourced H e n OK t i Hi Rs T1 T3 T2 CF' Fp) as [(k & b & a' & A & (B & So) & C)|(A & _)]; rewrite Rk in A; [|congruence]. rewrite Rk in C.
      rewrite (get_reached t _ _ _ G) in A. injection A as <- <-. rewrite (modify_reached_get _ t 0 K a G) in C. rewrite <- Rn in C. rewrite <- Rov, <- Rnv, <- Rp in B. rewrite <- Rp in So.
      unfold reading in Rd. rewrite G in Rd.
      destruct Oa as (O1 & O2 & O3 & O4 & O5).
      unfold is_field in Fk. cbn [In] in Fk. destruct Fk as [Q|[Q|[Q|[Q|[Q|[]]]]]]; rewrite <- Q in *; cbn [field_claim sourced field set_field value_ok value_column] in *.
      - destruct B as (w & Hw & V1 & V2 & ->). apply fz_inj in V1; [|apply lt64; exact Oo|apply lt64; exact O1]. apply fz_inj in V2; [|apply lt64; exact On|apply lt64, Hw].
        apply Fin; [symmetry; exact V1|rewrite V2; symmetry; exact C|]. exact (conj On (conj O2 (conj O3 (conj O4 O5)))).
      - destruct B as (w & Hw & V1 & V2 & ->). destruct So as (l & Hl & So). cbn [balance set_balance] in So.
        assert (Ew : rq_new q = w) by (apply new_agree; [rewrite So; apply cell_listed; lia|exact V2]).
        apply Fin; [symmetry; apply Rd; [apply balance_word; exact (conj O1 (conj O2 (conj O3 (conj O4 O5))))|exact V1]|rewrite Ew; symmetry; exact C|].
        assert (Rw : 0 <= rq_new q < modulus) by (rewrite Ew, So; apply val_range). exact (conj O1 (conj O2 (conj Rw (conj O4 O5)))).
      - destruct B as (w & Hw & V1 & V2 & ->). apply fz_inj in V1; [|apply lt64; exact Oo|apply lt64; exact O2]. apply fz_inj in V2; [|apply lt64; exact On|apply lt64, Hw].
        apply Fin; [symmetry; exact V1|rewrite V2; symmetry; exact C|]. exact (conj O1 (conj On (conj O3 (conj O4 O5)))).
      - destruct B as (w & Hw & V1 & V2 & ->). destruct So as (_ & So). cbn [keccak_code_hash set_keccak] in So.
        assert (Ew : rq_new q = w) by (apply new_agree; [exact (word_hashed w _ _ Hw So)|exact V2]).
        apply Fin; [symmetry; apply Rd; [exact O4|exact V1]|rewrite Ew; symmetry; exact C|]. exact (conj O1 (conj O2 (conj O3 (conj On O5)))).
      - destruct B as (V1 & ->). apply Fin; [rewrite <- V1; apply val_fz_small; exact Oo|symmetry; exact C|]. exact (conj O1 (conj O2 (conj O3 (conj O4 O5)))). }
    destruct (rq_kind q) eqn:Q; try (apply Fld; cbn; auto 6; fail).
    - destruct (Ab eq_refl) as (X & V1 & V2 & V3). cbn [requested st_old_value st_new_value st_address st_old_root st_new_root value_column] in *. rewrite Q in V1, V2. cbn [value_column] in V1, V2.
      unfold reads, apply. rewrite Q. split; [exact (conj (Z0 V1) (conj (Z1 V2) X))|]. split; [rewrite <- Root; exact V3|constructor; assumption].
    - destruct (storage_claim_hashed H e n OK t i Hi Rs T1 T3 T4 T2 CF' (eq_sym Rp)) as [(A & _)|(k & b & slot & A & Hs & Es & C)]; rewrite Rk in A.
      { unfold overwrites in Ow. rewrite Q in Ow. destruct Ow as (_ & a & G & _). congruence. }
      unfold overwrites in Ow. rewrite Q in Ow. destruct Ow as (N0 & a & G & G2). rewrite (get_reached t _ _ _ G) in A. injection A as <- <-. cbn [value_column value_ok] in *.
      assert (slot = rq_slot q) as -> by (apply (same_slot H e0 n q t t e Co NCp); [apply Hs|apply Hs|rewrite Rsl; exact Es]).
      cbv zeta in C. destruct C as (x & _ & _ & [(_ & k' & w & w' & B1 & B2 & B3 & B4 & B5 & B6 & B7)|[(_ & B & _)|(_ & B)]]); [|congruence|exfalso; apply N0, Z1; congruence].
      destruct (get (storage a) 0 (slot_key H (rq_slot q))) as [x'|] eqn:G3; [|congruence]. pose proof (get_reached _ _ _ _ G3) as G3'. rewrite B1 in G3'. injection G3' as -> <-.
      pose proof (get_all _ _ _ _ _ T2 G) as Oa. destruct Oa as (O1 & O2 & O3 & O4 & O5). pose proof (get_all _ _ _ _ _ T4 G) as Ha.
      assert (Ew : rq_new q = w') by (apply new_agree; [destruct B3 as [W3 B3]; exact (word_hashed w' _ _ W3 B3)|congruence]).
      unfold reading in Rd. rewrite G, G3, Q in Rd. rewrite <- Rov in B5.
      unfold reads, apply. rewrite Q. split; [exists a; split; [exact G|rewrite G3; f_equal; symmetry; apply Rd; [exact (get_all _ _ _ _ _ O5 G3)|exact B5]]|]. split.
      + rewrite Rn, <- B7, Rk. f_equal. rewrite (modify_reached_get _ t 0 K a G), (modify_reached_get _ (storage a) 0 _ w G3), Ew.
        apply modify_ext. intros v Gv. rewrite G in Gv. injection Gv as <-. reflexivity.
      + constructor; [|rewrite modify_height; exact T3|].
        * apply modify_all; [exact T2|]. intros v Gv _. rewrite G in Gv. injection Gv as <-. refine (conj O1 (conj O2 (conj O3 (conj O4 _)))).
          cbn [storage set_storage]. apply modify_all; [exact O5|]. intros _ _ _. exact On.
        * apply modify_all; [exact T4|]. intros v _ Hv. cbn [storage set_storage]. rewrite modify_height. exact Hv.
    - destruct (storage_missing_hashed H e n OK t i Hi Rs T1 T3 T4 CF' (eq_sym Rp)) as (V1 & V2 & V3 & V4). cbn [value_column value_ok] in *.
      unfold reads, apply. rewrite Q. split; [|split; [rewrite <- Root, Rn, Ro; exact V3|constructor; assumption]].
      split; [apply Z0; rewrite Rov; exact V1|]. split; [apply Z1; rewrite Rnv; exact V2|].
      intros a G. rewrite Rk in V4. destruct V4 as [V4|(slot & [W Hs] & E & V4)]; [congruence|].
      assert (slot = rq_slot q) as -> by (apply (same_slot H e0 n q t t e Co NCp); [exact W|exact Hs|rewrite Rsl; exact E]). exact (V4 a G).
    - exfalso. apply ND. symmetry. exact Rp.
  Qed.
End Step.

(** * Blocks *)
Section Block.
  Variables (H : Fr -> Fr -> Fr -> Fr) (e0 : env) (n : Z).
  Fixpoint block_pairs (qs : list request) (t : tree account) : list (Z * Z) :=
    match qs with [] => [] | q :: l => step_pairs H e0 n q t ++ block_pairs l (apply H q t) end.
  Lemma block_pairs_length qs : 2 <= n -> 0 <= eusable e0 -> forall t, length (block_pairs qs t) = (Z.to_nat (3 * n + 2 * eusable e0) * length qs)%nat.
  Proof.
    intros A B. induction qs as [|q l IH]; intros t; [cbn; lia|]. cbn [block_pairs length]. rewrite app_length, (step_pairs_length H e0 n q t A B), IH. lia.
  Qed.
  Lemma block_pairs_ok qs : Forall request_ok qs -> forall t, Forall pair_ok (block_pairs qs t).
  Proof.
    induction 1 as [|q l R _ IH]; intros t; [apply Forall_nil|]. cbn [block_pairs]. apply Forall_app. split; [apply step_pairs_ok; exact R|apply IH].
  Qed.
  Theorem block_true e (Co : commits e0 e) (OK : circuit_ok H e n) qs : Forall request_ok qs ->
    Forall (fun q => let row := encode (echal e) (requested (echal e) q) in exposes e row /\ row <> blank_row /\ row <> final_row) qs ->
    forall t r', Forall (fun p => ~ clash (echal e) p) (block_pairs qs t) -> start_state n t -> chained (state_root H t) qs r' ->
    (forall l1 q l2, qs = l1 ++ q :: l2 -> collision_free H (inputs H e0 (run H l1 t))) -> throughout H (overwrites H) qs t ->
    throughout H (reads H) qs t /\ r' = state_root H (run H qs t).
  Proof.
    induction 1 as [|q l R _ IH]; intros Ex t r' NC St Ch CF Ow; [cbn in *; auto|].
    inversion Ex as [|? ? (E1 & E2 & E3) Ex']; subst. cbn [block_pairs] in NC. apply Forall_app in NC. destruct NC as [N1 N2].
    cbn [chained throughout] in *. destruct Ch as [C1 C2]. destruct Ow as [O1 O2].
    destruct (step_true H e0 n q t e Co OK R N1 E1 E2 E3 St C1 (CF [] q l eq_refl) O1) as (X & Y & Z).
    rewrite Y in C2. destruct (IH Ex' (apply H q t) r' N2 Z C2) as (U & V); [|exact O2|split; [split; assumption|exact V]].
    intros l1 q' l2 E. apply (CF (q :: l1) q' l2). rewrite E. reflexivity.
  Qed.
  Theorem few_bad_blocks qs t r' : Forall request_ok qs -> start_state n t -> chained (state_root H t) qs r' -> throughout H (overwrites H) qs t ->
    (forall l1 q l2, qs = l1 ++ q :: l2 -> collision_free H (inputs H e0 (run H l1 t))) ->
    exists bad : list Fr, (length bad <= 31 * Z.to_nat (3 * n + 2 * eusable e0) * length qs)%nat /\
    forall e, commits e0 e -> circuit_ok H e n -> ~ In (echal e) bad ->
      Forall (fun q => let row := encode (echal e) (requested (echal e) q) in exposes e row /\ row <> blank_row /\ row <> final_row) qs ->
      throughout H (reads H) qs t /\ r' = state_root H (run H qs t).
  Proof.
    intros RO St Ch Ow CF. destruct (Z_lt_dec n 2) as [Hn|Hn].
    { exists []. split; [apply Nat.le_0_l|]. intros e _ OK. pose proof (fo_rows _ _ (co_fixed _ _ _ OK)). lia. }
    destruct (Z_lt_dec (eusable e0) 0) as [Hu|Hu].
    { exists []. split; [apply Nat.le_0_l|]. intros e Co OK. pose proof (fo_rows _ _ (co_fixed _ _ _ OK)) as R. rewrite (cm_usable _ _ Co) in R. lia. }
    destruct (few_bad (block_pairs qs t) (block_pairs_ok qs RO t)) as (bad & B1 & B2). rewrite block_pairs_length, Nat.mul_assoc in B1 by lia.
    exists bad. split; [exact B1|]. intros e Co OK Hb Ex. exact (block_true e Co OK qs RO Ex t r' (B2 _ Hb) St Ch CF Ow).
  Qed.
  Theorem few_lucky_blocks qs t r' : Forall request_ok qs -> start_state n t -> chained (state_root H t) qs r' -> throughout H (overwrites H) qs t ->
    (forall l1 q l2, qs = l1 ++ q :: l2 -> collision_free H (inputs H e0 (run H l1 t))) ->
    forall cs, NoDup cs -> (forall c, In c cs -> block_fooled H e0 n qs t r' c) ->
    (length cs <= 31 * Z.to_nat (3 * n + 2 * eusable e0) * length qs)%nat.
  Proof.
    intros RO St Ch Ow CF cs N F. destruct cs as [|c0 cs0] eqn:Ecs; [apply Nat.le_0_l|].
    assert (Hn : 2 <= n /\ 0 <= eusable e0).
    { destruct (F c0 (or_introl eq_refl)) as (e & Co & _ & OK & _). pose proof (fo_rows _ _ (co_fixed _ _ _ OK)) as R. rewrite (cm_usable _ _ Co) in R. lia. }
    rewrite <- Ecs in *. clear Ecs c0 cs0. destruct Hn as [Hn Hu].
    rewrite <- Nat.mul_assoc, <- (block_pairs_length qs Hn Hu t). apply clashes; [apply block_pairs_ok; exact RO|exact N|].
    intros c Hc. destruct (F c Hc) as (e & Co & <- & OK & Ex & Fl).
    destruct (Exists_dec (clash (echal e)) (block_pairs qs t) (clash_dec (echal e))) as [Y|Y]; [exact Y|].
    exfalso. apply Fl. apply Forall_Exists_neg in Y. exact (block_true e Co OK qs RO Ex t r' Y St Ch CF Ow).
  Qed.
End Block.
