(* A block of claims can be shown exactly if it is true. *)
From Coq Require Import ZArith List Bool Lia.
From Verif Require Import Pocklington Fr Query Builder BuilderProofs Gadgets MptUpdate Bytes Fixed GadgetProofs Util UtilProofs Serde Trie Storage Types Lookups LookupProofs TrieSpec HonestTrace
  Assign AssignProofs AssignOk AssignRegion TableSpec GadgetMain GadgetMain2 LookupMain UpdateRows UpdateSound UpdateProps UpdateComplete CircuitOk UpdateAssign MptAssign MptModes MptRows MptCases RowView BlockView TablesOk BlocksOk PaddingOk
  HonestSpec HonestPath HonestBlock HonestConvert HonestMain ClaimTable RefuteCase TestCircuit TestProofs History PhaseSpec PhaseOk Challenge BlockSpec Block ExactSpec.
Import ListNotations.
Open Scope Z_scope.

(** * Soundness: what is shown is true, roots included *)
Section Sound.
  Variables (H : Fr -> Fr -> Fr -> Fr) (e0 : env) (n : Z).
  Theorem block_true_claims e (Co : commits e0 e) (OK : circuit_ok H e n) qs : Forall request_ok qs ->
    Forall (fun q => let row := encode (echal e) (requested (echal e) q) in exposes e row /\ row <> blank_row /\ row <> final_row) qs ->
    forall t r', Forall (fun p => ~ clash (echal e) p) (block_pairs H e0 n qs t) -> start_state n t -> chained (state_root H t) qs r' ->
    (forall l1 q l2, qs = l1 ++ q :: l2 -> collision_free H (inputs H e0 (run H l1 t))) -> throughout H (overwrites H) qs t ->
    throughout H (claim_true H) qs t.
  Proof.
    induction 1 as [|q l R _ IH]; intros Ex t r' NC St Ch CF Ow; [exact Logic.I|].
    inversion Ex as [|? ? (E1 & E2 & E3) Ex']; subst. cbn [block_pairs] in NC. apply Forall_app in NC. destruct NC as [N1 N2].
    cbn [chained throughout] in *. destruct Ch as [C1 C2]. destruct Ow as [O1 O2].
    destruct (step_true H e0 n q t e Co OK R N1 E1 E2 E3 St C1 (CF [] q l eq_refl) O1) as (X & Y & Z).
    split; [split; [exact X|split; [exact C1|exact Y]]|]. rewrite Y in C2. apply (IH Ex' (apply H q t) r' N2 Z C2); [|exact O2].
    intros l1 q' l2 E. apply (CF (q :: l1) q' l2). rewrite E. reflexivity.
  Qed.
End Sound.

(** * Completeness: what is true can be shown *)
Lemma modify_placed {V} (f : V -> V) (t : tree V) : forall d k p, placed t p -> placed (modify f t d k) p.
Proof.
  induction t as [|k' v'|l IHl r IHr]; intros d k p P; cbn [modify]; [exact P| |].
  - destruct (feqb k k'); exact P.
  - cbn [placed] in P. destruct P as [P1 P2]. destruct (kbit k d); cbn [placed]; split; auto.
Qed.
Lemma modify_shaped {V} (f : V -> V) (t : tree V) d k : shaped t -> shaped (modify f t d k).
Proof. intros [P Q]. split; [apply modify_placed; exact P|rewrite modify_height; exact Q]. Qed.

Section Complete.
  Variable H : Fr -> Fr -> Fr -> Fr.
  Definition block_update (q : request) (t : tree account) : update := Update (rq_address q) t (apply H q t) (rq_kind q) (request_trace H q t).
  Fixpoint block_updates (qs : list request) (t : tree account) : list update :=
    match qs with [] => [] | q :: l => block_update q t :: block_updates l (apply H q t) end.
  Lemma block_inputs qs : forall t, map input (block_updates qs t) = block_traces H qs t.
  Proof. induction qs as [|q l IH]; intros t; [reflexivity|]. cbn [map block_updates block_traces]. rewrite IH. reflexivity. Qed.

  (* a good state: in range, well shaped, no zeros stored *)
  Definition good (t : tree account) : Prop := state_wf t /\ no_zero_slots t.
  Lemma field_good q t : request_ok q -> plain_request q -> is_field (rq_kind q) -> good t -> good (modify (set_field (rq_kind q) (rq_new q)) t 0 (addr_key H (rq_address q))).
  Proof.
    intros RO PR Fk [(W1 & W2 & W3) Z]. pose proof (ro_new _ RO) as On. pose proof (pr_balance _ PR) as Pb.
    assert (Es : forall a, storage (set_field (rq_kind q) (rq_new q) a) = storage a) by (intros a; destruct (rq_kind q); reflexivity).
    split; [split; [|split]|].
    - apply modify_all; [exact W1|]. intros a _ [(A1 & A2 & A3 & A4 & A5) A6].
      unfold is_field in Fk. cbn [In] in Fk. destruct Fk as [Q|[Q|[Q|[Q|[Q|[]]]]]]; rewrite <- Q in *; unfold fits, account_ok; cbn [set_field set_nonce set_balance set_code_size set_keccak set_poseidon nonce balance code_size keccak_code_hash storage value_ok] in *;
        try (repeat split; solve [apply A1|apply A2|apply A3|apply A4|apply A5|apply A6|apply On]).
      specialize (Pb eq_refl). assert (2 ^ 248 < modulus) by reflexivity. unfold word_ok in On. repeat split; try solve [apply A1|apply A2|apply A4|exact A5]; lia.
    - apply modify_shaped. exact W2.
    - apply modify_all; [exact W3|]. intros a _ A. rewrite Es. exact A.
    - apply modify_all; [exact Z|]. intros a _ A. rewrite Es. exact A.
  Qed.
  Lemma slot_good q t : request_ok q -> rq_kind q = StorageChanged -> rq_new q <> 0 -> good t ->
    good (modify (fun a => set_storage (modify (fun _ => rq_new q) (storage a) 0 (slot_key H (rq_slot q))) a) t 0 (addr_key H (rq_address q))).
  Proof.
    intros RO Q N0 [(W1 & W2 & W3) Z]. pose proof (ro_new _ RO) as On. rewrite Q in On. cbn [value_ok] in On. split; [split; [|split]|].
    - apply modify_all; [exact W1|]. intros a _ [(A1 & A2 & A3 & A4 & A5) A6]. split; [|exact A6]. split; [exact A1|]. split; [exact A2|]. split; [exact A3|]. split; [exact A4|].
      cbn [storage set_storage]. apply modify_all; [exact A5|]. intros _ _ _. exact On.
    - apply modify_shaped. exact W2.
    - apply modify_all; [exact W3|]. intros a _ A. cbn [storage set_storage]. apply modify_shaped. exact A.
    - apply modify_all; [exact Z|]. intros a _ A. cbn [storage set_storage]. apply modify_all; [exact A|]. intros _ _ _. exact N0.
  Qed.
  Lemma field_apply q t : is_field (rq_kind q) -> apply H q t = modify (set_field (rq_kind q) (rq_new q)) t 0 (addr_key H (rq_address q)).
  Proof. intros Fk. unfold apply. unfold is_field in Fk. cbn [In] in Fk. destruct Fk as [Q|[Q|[Q|[Q|[Q|[]]]]]]; rewrite <- Q; reflexivity. Qed.
  Lemma apply_good q t : request_ok q -> plain_request q -> overwrites H q t -> good t -> good (apply H q t).
  Proof.
    intros RO PR Ow G. destruct (rq_kind q) eqn:Q;
      try (rewrite field_apply by (rewrite Q; cbn; tauto); apply field_good; [exact RO|exact PR|rewrite Q; cbn; tauto|exact G]);
      unfold apply; rewrite Q; try exact G. unfold overwrites in Ow. rewrite Q in Ow. exact (slot_good q t RO Q (proj1 Ow) G).
  Qed.
  Lemma honest_step q t : request_ok q -> plain_request q -> overwrites H q t -> good t -> reads H q t -> collision_free H (inputs_of H t (apply H q t)) -> honest_update H (block_update q t).
  Proof.
    intros RO PR Ow G Rd CF. pose proof (apply_good q t RO PR Ow G) as G'. destruct G as [W Z]. pose proof (ro_slot _ RO) as Os.
    constructor; [|exact (ro_address _ RO)|exact W|exact (proj1 G')|exact CF]. clear CF G' W. cbn [block_update u_address u_old u_new u_kind u_trace].
    assert (Wr : forall a f, get t 0 (addr_key H (rq_address q)) = Some a -> written (addr_key H (rq_address q)) (Some a) (Some (f a)) t (modify f t 0 (addr_key H (rq_address q)))).
    { intros a f G. split; [exact G|]. apply modify_const. exact G. }
    unfold reads in Rd. unfold request_trace. destruct (rq_kind q) eqn:Q; try (destruct Rd as (a & Ga & _); rewrite field_apply by (rewrite Q; cbn; tauto); rewrite Q; cbn [set_field]).
    - exact (hon_nonce H _ _ _ a (rq_new q) (Wr a (set_nonce (rq_new q)) Ga)).
    - exact (hon_balance H _ _ _ a (rq_new q) (Wr a (set_balance (rq_new q)) Ga)).
    - exact (hon_code_hash H _ _ _ a (rq_new q) (Wr a (set_keccak (rq_new q)) Ga)).
    - exact (hon_poseidon H _ _ _ a (fz (rq_new q)) (Wr a (set_poseidon (fz (rq_new q))) Ga)).
    - exact (hon_code_size H _ _ _ a (rq_new q) (Wr a (set_code_size (rq_new q)) Ga)).
    - destruct Rd as (_ & _ & Ga). apply hon_missing; [cbn; tauto|]. split; [exact Ga|]. unfold apply. rewrite Q. reflexivity.
    - destruct Rd as (a & Ga & Gs). unfold overwrites in Ow. rewrite Q in Ow. destruct Ow as (N0 & _).
      assert (Zs : rq_old q <> 0) by exact (get_all _ _ _ _ _ (get_all _ _ _ _ _ Z Ga) Gs).
      apply (hon_slot H _ _ _ a (rq_slot q) (Some (rq_old q)) (Some (rq_new q)) (modify (fun _ => rq_new q) (storage a) 0 (slot_key H (rq_slot q)))); try congruence; [exact Os|left; discriminate|split; [exact Gs|reflexivity]|].
      unfold apply. rewrite Q. exact (Wr a (fun a => set_storage (modify (fun _ => rq_new q) (storage a) 0 (slot_key H (rq_slot q))) a) Ga).
    - destruct Rd as (_ & _ & Gs). assert (Ea : apply H q t = t) by (unfold apply; rewrite Q; reflexivity). rewrite Ea.
      destruct (get t 0 (addr_key H (rq_address q))) as [a|] eqn:Ga.
      + exact (hon_empty_slot H _ _ _ a (rq_slot q) Os Ga (Gs a eq_refl) eq_refl).
      + apply (hon_missing_slot H _ _ _ (rq_slot q) Os). split; [exact Ga|reflexivity].
    - destruct Rd.
  Qed.
  Lemma slot_said c q t s : rq_kind q = StorageChanged \/ rq_kind q = StorageDoesNotExist -> says H c (block_update q t) s ->
    st_slot_rlc s = word_rlc c (rq_slot q) /\ st_old_value s = word_rlc c (slot_value H t (rq_address q) (rq_slot q)) /\ st_new_value s = word_rlc c (slot_value H (apply H q t) (rq_address q) (rq_slot q)).
  Proof.
    intros Q (_ & _ & _ & _ & Y). cbn [block_update u_address u_old u_new u_kind u_trace] in Y. unfold request_trace in Y.
    assert (X : exists slot, storage_trace_of H t (apply H q t) (rq_address q) (rq_slot q) = storage_trace_of H t (apply H q t) (rq_address q) slot /\ st_slot_rlc s = word_rlc c slot /\
      st_old_value s = word_rlc c (slot_value H t (rq_address q) slot) /\ st_new_value s = word_rlc c (slot_value H (apply H q t) (rq_address q) slot)) by (destruct Q as [Q|Q]; rewrite Q in Y; exact Y).
    clear Y. destruct X as (x & Q5 & Q6 & Q7 & Q8). apply trace_slot in Q5. destruct Q5 as [Q5 Qk].
    assert (V : forall t, slot_value H t (rq_address q) x = slot_value H t (rq_address q) (rq_slot q)) by (intros t0; unfold slot_value; rewrite Qk; reflexivity). rewrite V in Q7, Q8. unfold word_rlc in Q6. rewrite <- Q5 in Q6. auto.
  Qed.
  Lemma step_said c q t s : request_ok q -> plain_request q -> overwrites H q t -> claim_true H q t -> says H c (block_update q t) s -> s = requested c q.
  Proof.
    intros RO PR Ow (Rd & R1 & R2) Y. pose proof (slot_said c q t s) as Sl. pose proof Y as (Y1 & Y2 & Y3 & Y4 & Y5). cbn [block_update u_address u_old u_new u_kind u_trace] in Y1, Y2, Y3, Y4, Y5.
    assert (Fin : st_slot_rlc s = word_rlc c (rq_slot q) -> st_old_value s = value_column c (rq_kind q) (rq_old q) -> st_new_value s = value_column c (rq_kind q) (rq_new q) -> s = requested c q).
    { intros F1 F2 F3. destruct s as [y0 y1 y2 y3 y4 y5 y6]. cbn [st_address st_slot_rlc st_kind st_new_root st_old_root st_new_value st_old_value] in *. unfold requested. rewrite R1, R2, Y1, Y2, Y3, Y4, F1, F2, F3. reflexivity. }
    pose proof (pr_slot _ PR) as Ps. pose proof (ro_new _ RO) as On. unfold reads in Rd.
    destruct (rq_kind q) eqn:Q; cbn [value_column value_ok] in *;
      try (specialize (Ps ltac:(discriminate) ltac:(discriminate)); rewrite Ps, word_rlc_0 in Fin; destruct Y5 as (Y5 & Y6 & Y7);
           destruct Rd as (a & Ga & V); rewrite Ga in Y6; rewrite field_apply in Y7 by (rewrite Q; cbn; tauto); rewrite Q, (modify_get _ t 0 _ a Ga) in Y7; cbn [field] in V;
           cbn [field_value set_field set_nonce set_balance set_code_size set_keccak set_poseidon nonce balance code_size keccak_code_hash poseidon_code_hash] in Y6, Y7; rewrite <- V in Fin;
           apply Fin; [exact Y5|first [exact Y6|rewrite fz_val; exact Y6]|exact Y7]).
    - specialize (Ps ltac:(discriminate) ltac:(discriminate)). destruct Y5 as (Y5 & Y6 & Y7). destruct Rd as (V1 & V2 & _). rewrite Ps, V1, V2, word_rlc_0 in Fin. apply Fin; [exact Y5|rewrite Y6; destruct (get t _ _); reflexivity|rewrite Y7; destruct (get (apply H q t) _ _); reflexivity].
    - destruct (Sl (or_introl eq_refl) Y) as (S1 & S2 & S3). destruct Rd as (a & Ga & Gs). unfold slot_value in S2, S3. rewrite Ga, Gs in S2.
      unfold apply in S3. rewrite Q, (modify_get _ t 0 _ a Ga) in S3. cbn [storage set_storage] in S3. rewrite (modify_get _ _ 0 _ _ Gs) in S3. apply Fin; assumption.
    - destruct (Sl (or_intror eq_refl) Y) as (S1 & S2 & S3). destruct Rd as (V1 & V2 & Gs). assert (Ea : apply H q t = t) by (unfold apply; rewrite Q; reflexivity). rewrite Ea in S3.
      assert (Z0 : slot_value H t (rq_address q) (rq_slot q) = 0) by (unfold slot_value; destruct (get t 0 (addr_key H (rq_address q))) as [a|]; [rewrite (Gs a eq_refl)|]; reflexivity).
      rewrite Z0 in S2, S3. rewrite V1, V2 in Fin. apply Fin; assumption.
    - destruct Rd.
  Qed.

  Variable S : triple -> Prop.
  Hypothesis CF : collision_free H S.
  Lemma covers_next q qs t : covers_states H S (q :: qs) t -> covers_states H S qs (apply H q t).
  Proof. intros C l1 l2 E. apply (C (q :: l1) l2). rewrite E. reflexivity. Qed.
  Lemma covers_pair q qs t : covers_states H S (q :: qs) t -> collision_free H (inputs_of H t (apply H q t)).
  Proof.
    intros C. assert (Sub : forall x, inputs_of H t (apply H q t) x -> S x).
    { intros x [(d & X) D]. destruct X as [X|X]; [|apply in_app_or in X; destruct X as [X|X]].
      - apply (C [] (q :: qs) eq_refl). split; [exists d; left; exact X|exact D].
      - apply (C [] (q :: qs) eq_refl). split; [exists d; right; apply in_or_app; left; exact X|exact D].
      - apply (C [q] qs eq_refl). split; [exists d; right; apply in_or_app; left; exact X|exact D]. }
    destruct CF as [P Q]. split; [intros x y X Y; apply P; apply Sub; assumption|intros x X; apply Q, Sub, X].
  Qed.
  Lemma honest_block_updates qs : Forall request_ok qs -> Forall plain_request qs -> forall t, good t -> throughout H (overwrites H) qs t -> throughout H (claim_true H) qs t -> covers_states H S qs t ->
    Forall (honest_update H) (block_updates qs t) /\
    forall c, Forall2 (fun q u => forall s, says H c u s -> s = requested c q) qs (block_updates qs t).
  Proof.
    induction 1 as [|q l RO _ IH]; intros PR t G Ow Tr C; [split; [constructor|intros; constructor]|]. inversion PR as [|? ? P1 P2]; subst. cbn [throughout] in Ow, Tr. destruct Ow as [O1 O2]. destruct Tr as [T1 T2].
    destruct (IH P2 (apply H q t) (apply_good q t RO P1 O1 G) O2 T2 (covers_next q l t C)) as [A B]. cbn [block_updates]. split.
    - constructor; [|exact A]. exact (honest_step q t RO P1 O1 G (proj1 T1) (covers_pair q l t C)).
    - intros c. constructor; [|apply B]. intros s. exact (step_said c q t s RO P1 O1 T1).
  Qed.
End Complete.

Lemma not_padding c q : request_ok q -> plain_request q -> encode c (requested c q) <> blank_row /\ encode c (requested c q) <> final_row.
Proof.
  intros RO PR. assert (Nz : fz (rq_address q) <> f0).
  { intros Q. change f0 with (fz 0) in Q. pose proof (ro_address _ RO). apply fz_inj in Q; [exact (pr_address _ PR Q)|apply small_lt_modulus; lia|apply small_lt_modulus; lia]. }
  split; intros Q; apply Nz; exact (f_equal (fun l => nth 0 l f0) Q).
Qed.

Lemma only_loaded {H par threads proofs n r ws0 load hashes} (T : (0 < threads)%nat) (E : mpt_assign H par threads proofs n r = Some ws0) (EL : poseidon_load H hashes = Some load) N u l rr d h :
  poseidon_hit (env_of N u r (ws0 ++ load)) l rr d h -> In ((l, rr), d, h) hashes.
Proof.
  intros (t & Ht & Q & Eh & El & Er & _ & Ed & Hh). rewrite (run_advice T E EL) in Eh, El, Er, Ed, Hh by (cbn; tauto).
  destruct (in_range 0 t (Z.of_nat (length hashes))) eqn:R; [|exfalso; apply (f_equal val) in Hh; discriminate Hh]. apply in_range_true in R.
  pose proof (nth_In hashes no_trace (n := Z.to_nat t) ltac:(lia)) as I. destruct (nth (Z.to_nat t) hashes no_trace) as [[[l0 r0] d0] h0].
  vm_compute rcell in Eh, El, Er, Ed. subst l rr d h. exact I.
Qed.

Lemma tree_domain {V} H (hv : V -> Fr) iv (t : tree V) : (forall v x, In x (iv v) -> exists d, snd x = fdom d) -> forall x, In x (tree_inputs H hv iv t) -> exists d, snd x = fdom d.
Proof.
  intros I. induction t as [|k v|l IHl r IHr]; intros x Hx; cbn [tree_inputs] in Hx; [destruct Hx| |].
  - destruct Hx as [<-|Hx]; [exists DLeaf; reflexivity|exact (I v x Hx)].
  - destruct Hx as [<-|Hx]; [exists (branch_domain l r); reflexivity|]. apply in_app_or in Hx. destruct Hx; auto.
Qed.
Lemma state_domain H t x : In x (state_inputs H t) -> exists d, snd x = fdom d.
Proof.
  apply tree_domain. intros a y Hy. unfold account_inputs in Hy. apply in_app_or in Hy. destruct Hy as [Hy|Hy].
  - exists AccountFields. cbn [In] in Hy. repeat (destruct Hy as [<-|Hy]; [reflexivity|]). destruct Hy.
  - assert (W : forall w z, In z (word_inputs w) -> exists d, snd z = fdom d) by (intros w z [<-|[]]; exists DPair; reflexivity).
    apply in_app_or in Hy. destruct Hy as [Hy|Hy]; [exact (W _ _ Hy)|]. revert Hy. apply tree_domain. exact W.
Qed.

Lemma map_nodup {X Y} (f : X -> Y) l : (forall i j, In i l -> In j l -> f i = f j -> i = j) -> NoDup l -> NoDup (map f l).
Proof.
  intros I N. induction N as [|x l Hx N IH]; cbn [map]; constructor.
  - intros K. apply in_map_iff in K. destruct K as (y & E & Hy). apply Hx. rewrite (I x y (or_introl eq_refl) (or_intror Hy) (eq_sym E)). exact Hy.
  - apply IH. intros i j Hi Hj. apply I; right; assumption.
Qed.

Section Exact.
  Variables (H : Fr -> Fr -> Fr -> Fr) (S : triple -> Prop) (n u N : Z) (qs : list request) (t : tree account).
  Hypothesis X : exact_block H S n u N qs t.
  Theorem shown_if_true : throughout H (claim_true H) qs t -> exists e0, commitment S N u e0 /\ forall c, can_show H e0 n qs c.
  Proof.
    intros Tr. destruct X as [RO PR _ _ Ow _ W Z CF Cv Pf (S1 & S2)].
    destruct (honest_block_updates H S CF qs RO PR t (conj W Z) Ow Tr Cv) as (Ho & Sa).
    destruct (updates_converted H _ Ho) as (proofs & C). pose proof (proj2 (all_some_converts H _ proofs) C) as E0. rewrite block_inputs in E0. destruct (Pf proofs E0) as (P1 & P2).
    destruct (honest_all_assigned H _ _ Ho C) as (m & M & _). specialize (P1 m M). destruct (honest_hash_traces H _ _ Ho C) as (hashes & Eh). destruct (P2 hashes Eh) as (P3 & P4).
    assert (T4 : (0 < 1)%nat) by lia.
    destruct (test_honest_runs H _ proofs m false 1 n f0 Ho C M T4 P1) as (ws & E). destruct (test_inv _ _ _ _ _ _ _ E) as (proofs' & ws0 & hashes' & load & E1 & E2 & E3 & E4 & Ews).
    rewrite block_inputs, E0 in E1. apply some_eq in E1. subst proofs'. rewrite Eh in E3. apply some_eq in E3. subst hashes'.
    assert (En : enough_rows H proofs n) by (exists m; split; [exact M|lia]).
    assert (B : 2049 <= n). { clear - M P1. unfold mpt_n_rows_required in M. ob M. ob M. apply some_eq in M. cbn [fold_left] in M. unfold byte_bit_n_rows in M. lia. }
    pose proof (run_filled (H := H) (r := f0) (ws0 := ws0) E4 N u) as F. pose proof (run_listed T4 E2 E4 N u P3 ltac:(unfold MAX_POSEIDON_ROWS; lia) (proj2 S1)) as PL.
    pose proof (only_loaded T4 E2 E4 N u) as Hits. pose proof (run_hashes T4 E2 E4 N u) as Hh.
    assert (R : room (env_of N u f0 (ws0 ++ load)) n) by (unfold room; cbn [env_of eusable eN]; lia).
    assert (Q1 : eN (env_of N u f0 (ws0 ++ load)) = N) by reflexivity. assert (Q2 : eusable (env_of N u f0 (ws0 ++ load)) = u) by reflexivity.
    set (e0 := env_of N u f0 (ws0 ++ load)) in *. clearbody e0.
    exists e0. split; [split; [exact Q1|split; [exact Q2|intros l r d h K; exact (P4 _ _ (Hits _ _ _ _ K))]]|].
    intros c. destruct (completes H false 1 proofs n f0 ws0 e0 E2 F c) as (ws' & e & W' & Co & Ch & F'). rewrite <- Ch in W', F'.
    assert (R' : room e n) by (unfold room in *; rewrite (cm_rows _ _ Co), (cm_usable _ _ Co); exact R).
    exists e. split; [exact Co|]. split; [exact Ch|]. split.
    - destruct (assign_inv H false 1 proofs n (echal e) ws' (fun _ => T4)) as (reprs & lookups & upd & cr & kb & br & P); [exact W'|]. pose proof R' as (R1 & R2 & R3 & R4).
      pose proof (filled_fixed P e F' ltac:(lia) R2 R4) as Fx. split; [exact Fx|exact (phase_accepted H _ proofs false 1 n f0 ws0 e0 hashes Ho C T4 E2 F R En Eh PL e ws' Co W' F')| |].
      + intros l rr d h K. apply (hit_committed e0 e Co) in K. exact (Hh _ _ _ _ K).
      + assert (HB : holds e BR_cols br) by (intros k i Hc Hi; exact (filled_br P e F' ltac:(lia) k i Hc Hi)).
        pose proof (as_br _ _ _ _ _ _ _ _ _ _ _ _ P) as Qb. exact (byte_repr_anchor e n Fx _ _ _ _ _ Qb HB).
    - pose proof (honest_stated H Ho C T4 W' F' R' En) as St. rewrite Ch in St. specialize (Sa c). clear - Sa St. induction Sa as [|q up l us A Sa IH]; constructor.
      + destruct (St up (or_introl eq_refl)) as (s & Y & Ex). rewrite <- (A s Y). exact Ex.
      + apply IH. intros v Hv. apply St. right. exact Hv.
  Qed.
  (* the bound on the number of bad challenges *)
  Definition bad_bound : nat := (31 * Z.to_nat (3 * n + 2 * u) * length qs)%nat.
  Theorem true_if_shown e0 cs : commitment S N u e0 -> NoDup cs -> (bad_bound < length cs)%nat -> (forall c, In c cs -> can_show H e0 n qs c) -> throughout H (claim_true H) qs t.
  Proof.
    intros (Q1 & Q2 & Hits) ND L Sh. destruct X as [RO PR _ (r' & Ch) Ow St W Z CF Cv _ _].
    assert (Hn : 2 <= n /\ 0 <= eusable e0).
    { destruct cs as [|c0 cs0]; [exfalso; cbn [length] in L; exact (Nat.nlt_0_r _ L)|]. destruct (Sh c0 (or_introl eq_refl)) as (e & Co & _ & OK & _). pose proof (fo_rows _ _ (co_fixed _ _ _ OK)) as R. rewrite (cm_usable _ _ Co) in R. lia. }
    destruct Hn as [Hn Hu].
    destruct (few_bad (block_pairs H e0 n qs t) (block_pairs_ok H e0 n qs RO t)) as (bad & B1 & B2). rewrite block_pairs_length, Q2, Nat.mul_assoc in B1 by lia.
    assert (Ok : exists c, In c cs /\ ~ In c bad).
    { destruct (Exists_dec (fun c => ~ In c bad) cs) as [Y|Y]; [intros c; destruct (in_dec Fr_eq_dec c bad); [right; tauto|left; assumption]|apply Exists_exists in Y; exact Y|].
      exfalso. apply Forall_Exists_neg in Y. assert (Inc : incl cs bad). { intros c Hc. rewrite Forall_forall in Y. specialize (Y c Hc). destruct (in_dec Fr_eq_dec c bad); tauto. }
      pose proof (NoDup_incl_length ND Inc) as NL. exact (Nat.lt_irrefl _ (Nat.lt_le_trans _ _ _ L (Nat.le_trans _ _ _ NL B1))). }
    destruct Ok as (c & Hc & Nb). destruct (Sh c Hc) as (e & Co & Ec & OK & Ex). rewrite <- Ec in *.
    apply (block_true_claims H e0 n e Co OK qs RO) with (r' := r'); [|apply B2; exact Nb|exact St|exact Ch| |exact Ow].
    - rewrite Forall_forall in *. intros q Hq. cbv zeta. split; [exact (Ex q Hq)|exact (not_padding (echal e) q (RO q Hq) (PR q Hq))].
    - intros l1 q l2 E. assert (Sub : forall x, inputs H e0 (run H l1 t) x -> S x).
      { intros [[a b] d] [(h & K)|K]; [exact (Hits _ _ _ _ K)|]. apply (Cv l1 (q :: l2) E). split; [exists d; right; apply in_or_app; left; exact K|]. exact (state_domain H _ _ K). }
      destruct CF as [P Q]. split; [intros x y A B; apply P; apply Sub; assumption|intros x A; apply Q, Sub, A].
  Qed.
  Lemma many_challenges : exists cs : list Fr, NoDup cs /\ (bad_bound < length cs)%nat.
  Proof.
    exists (map (fun i => fz (Z.of_nat i)) (seq 0 (Datatypes.S bad_bound))). rewrite map_length, seq_length. split; [|lia].
    destruct X as [_ _ Few _ _ _ _ _ _ _ _ (S1 & S2)].
    assert (Z.of_nat bad_bound < 2 ^ 249).
    { unfold bad_bound. rewrite !Nat2Z.inj_mul. assert (Z.of_nat (Z.to_nat (3 * n + 2 * u)) <= 5 * 2 ^ 64) by lia. set (x := Z.of_nat (Z.to_nat (3 * n + 2 * u))) in *. set (y := Z.of_nat (length qs)) in *.
      assert (0 <= x) by lia. assert (0 <= y) by lia. change (Z.of_nat 31) with 31. apply Z.le_lt_trans with (31 * (5 * 2 ^ 64) * 2 ^ 128); [apply Z.mul_le_mono_nonneg; lia|reflexivity]. }
    apply map_nodup; [|apply seq_NoDup].
    intros i j Hi Hj Q. apply in_seq in Hi, Hj. apply fz_inj in Q; [lia|apply small_lt_modulus; lia|apply small_lt_modulus; lia].
  Qed.
  Theorem block_exact : throughout H (claim_true H) qs t <-> exists e0, commitment S N u e0 /\ forall c, can_show H e0 n qs c.
  Proof.
    split; [exact shown_if_true|]. intros (e0 & Cm & Sh). destruct many_challenges as (cs & ND & L). exact (true_if_shown e0 cs Cm ND L (fun c _ => Sh c)).
  Qed.
  Theorem block_exact_threshold : throughout H (claim_true H) qs t <->
    exists e0 cs, commitment S N u e0 /\ NoDup cs /\ (31 * Z.to_nat (3 * n + 2 * u) * length qs < length cs)%nat /\ forall c, In c cs -> can_show H e0 n qs c.
  Proof.
    split.
    - intros Tr. destruct (shown_if_true Tr) as (e0 & Cm & Sh). destruct many_challenges as (cs & ND & L). exists e0, cs. repeat split; try assumption; try apply Cm. intros c _. apply Sh.
    - intros (e0 & cs & Cm & ND & L & Sh). exact (true_if_shown e0 cs Cm ND L Sh).
  Qed.
End Exact.
