(* For all but a few challenges a row of an accepted table means what it says in terms of numbers and roots. *)
From Coq Require Import ZArith String List Bool Lia.
From Verif Require Import Pocklington Fr Query Builder BuilderProofs Gadgets MptUpdate Bytes GadgetProofs LagrangeProofs Fixed CanonProofs UpdateRows TrieSpec TableSpec UpdateWalk UpdateAccount UpdateSound UpdateClaims UpdateStorage UpdateProps GadgetMain ChangeSpec NewClaims NewProps HistorySpec History RlcProofs UtilProofs UtilMain PhaseSpec.
Import ListNotations.
Open Scope Z_scope.

(** * Clashes *)
Lemma modulus_256 : modulus < 2 ^ 256. Proof. reflexivity. Qed.
Definition clash (c : Fr) (p : Z * Z) : Prop := fst p <> snd p /\ word_rlc c (fst p) = word_rlc c (snd p).
Lemma clash_dec c p : {clash c p} + {~ clash c p}.
Proof.
  unfold clash. destruct (Z.eq_dec (fst p) (snd p)) as [E|E]; [right; tauto|].
  destruct (Fr_eq_dec (word_rlc c (fst p)) (word_rlc c (snd p))) as [Q|Q]; [left; auto|right; tauto].
Qed.
Definition pair_ok (p : Z * Z) : Prop := word_ok (fst p) /\ word_ok (snd p).
Lemma be32_inj a b : word_ok a -> word_ok b -> be_bytes 32 a = be_bytes 32 b -> a = b.
Proof.
  unfold word_ok. intros A B E. rewrite <- (be_val_be_bytes 32 a), <- (be_val_be_bytes 32 b); [rewrite E; reflexivity|exact B|exact A].
Qed.
Lemma one_clash p cs : pair_ok p -> NoDup cs -> Forall (fun c => clash c p) cs -> (length cs <= 31)%nat.
Proof.
  intros [A B] N F. destruct cs as [|c0 cs0] eqn:Ecs; [cbn; lia|rewrite <- Ecs in *].
  assert (Ne : fst p <> snd p) by (rewrite Ecs in F; inversion F as [|? ? X _]; apply X).
  pose proof (rlc_agree (be_bytes 32 (fst p)) (be_bytes 32 (snd p)) (be_bytes_ok 32 _) (be_bytes_ok 32 _)) as R.
  rewrite !be_bytes_length in R. specialize (R eq_refl). assert (X : be_bytes 32 (fst p) <> be_bytes 32 (snd p)) by (intros E; apply Ne, be32_inj; assumption).
  specialize (R X cs N). apply (proj1 (Nat.lt_succ_r _ _)), R. rewrite Forall_forall in *. intros c Hc. apply (F c Hc).
Qed.
Lemma filter_split {A} (f : A -> bool) l : length l = (length (filter f l) + length (filter (fun x => negb (f x)) l))%nat.
Proof. induction l as [|x l IH]; [reflexivity|]. cbn [filter length]. destruct (f x); cbn [negb length]; lia. Qed.
Theorem clashes L : Forall pair_ok L -> forall cs, NoDup cs -> (forall c, In c cs -> Exists (clash c) L) -> (length cs <= 31 * length L)%nat.
Proof.
  induction L as [|p L IH]; intros O cs N E.
  - destruct cs as [|c cs]; [cbn; lia|]. specialize (E c (or_introl eq_refl)). inversion E.
  - inversion O as [|? ? Op OL]; subst. set (f := fun c => if clash_dec c p then true else false).
    rewrite (filter_split f). cbn [length].
    assert (A1 : (length (filter f cs) <= 31)%nat).
    { apply (one_clash p); [exact Op|apply NoDup_filter; exact N|]. apply Forall_forall. intros c Hc. apply filter_In in Hc. destruct Hc as [_ Hc]. unfold f in Hc. destruct (clash_dec c p); [assumption|discriminate]. }
    assert (A2 : (length (filter (fun x => negb (f x)) cs) <= 31 * length L)%nat).
    { apply (IH OL); [apply NoDup_filter; exact N|]. intros c Hc. apply filter_In in Hc. destruct Hc as [Hc Q]. specialize (E c Hc).
      inversion E as [? ? X|? ? X]; subst; [|exact X]. unfold f in Q. destruct (clash_dec c p); [discriminate|contradiction]. }
    lia.
Qed.
(* the field is finite, so the challenges under which there is a clash can be listed *)
Lemma fr_list : exists l : list Fr, NoDup l /\ forall x, In x l.
Proof.
  assert (G : forall m : nat, Z.of_nat m <= modulus -> exists l : list Fr, NoDup l /\ (forall x, In x l -> val x < Z.of_nat m) /\ forall x, val x < Z.of_nat m -> In x l).
  { induction m as [|m IH]; intros M.
    - exists []. split; [apply NoDup_nil|]. split; [intros x []|]. intros x X. pose proof (val_range x). lia.
    - destruct IH as (l & N & A & B); [lia|]. assert (V : val (fz (Z.of_nat m)) = Z.of_nat m) by (apply val_fz_small; lia). exists (fz (Z.of_nat m) :: l). split; [|split].
      + apply NoDup_cons; [|exact N]. intros X. apply A in X. rewrite V in X. lia.
      + intros x [<-|X]; [rewrite V; lia|]. apply A in X. lia.
      + intros x X. destruct (Z.eq_dec (val x) (Z.of_nat m)) as [Y|Y]; [left; rewrite <- Y; apply fz_val|right; apply B; lia]. }
  assert (M : 0 <= modulus) by discriminate. destruct (G (Z.to_nat modulus)) as (l & N & _ & B); [rewrite Z2Nat.id; [reflexivity|exact M]|].
  exists l. split; [exact N|]. intros x. apply B. rewrite Z2Nat.id by exact M. apply val_range.
Qed.
Theorem few_bad L : Forall pair_ok L -> exists bad : list Fr, (length bad <= 31 * length L)%nat /\ forall c, ~ In c bad -> Forall (fun p => ~ clash c p) L.
Proof.
  intros O. destruct fr_list as (l & N & A). set (f := fun c => if Exists_dec (clash c) L (clash_dec c) then true else false).
  exists (filter f l). split.
  - apply clashes; [exact O|apply NoDup_filter; exact N|]. intros c Hc. apply filter_In in Hc. destruct Hc as [_ Hc]. unfold f in Hc. destruct (Exists_dec (clash c) L (clash_dec c)); [assumption|discriminate].
  - intros c Hc. apply Forall_Exists_neg. intros X. apply Hc, filter_In. split; [apply A|]. unfold f. destruct (Exists_dec (clash c) L (clash_dec c)); [reflexivity|contradiction].
Qed.
Lemma word_rlc_0 c : word_rlc c 0 = f0.
Proof. unfold word_rlc. change (be_bytes 32 0) with (repeat 0 32). rewrite <- (app_nil_r (repeat 0 32)), rlc_zeros. reflexivity. Qed.

(** * The words that must not be confused *)
Section Words.
  Variables (H : Fr -> Fr -> Fr -> Fr) (e0 : env) (n : Z) (q : request) (t t' : tree account).
  Definition reading (u : tree account) : Z :=
    match get u 0 (addr_key H (rq_address q)) with
    | None => 0
    | Some a => match rq_kind q with
                | StorageChanged => match get (storage a) 0 (slot_key H (rq_slot q)) with Some w => w | None => 0 end
                | _ => field (rq_kind q) a
                end
    end.
  Definition hashed_word (j : nat) : Z := val (eadv e0 P_left (Z.of_nat j)) * 2 ^ 128 + val (eadv e0 P_right (Z.of_nat j)).
  Definition root_pairs : list (Z * Z) :=
    flat_map (fun i => [(val (eadv e0 MU_old_hash (Z.of_nat i)), val (rq_old_root q)); (val (eadv e0 MU_new_hash (Z.of_nat i)), val (rq_new_root q))]) (seq 1 (Z.to_nat n - 2)).
  Definition slot_pairs : list (Z * Z) := map (fun j => (hashed_word j mod 2 ^ 256, rq_slot q)) (seq 0 (Z.to_nat (eusable e0))).
  Definition value_pairs : list (Z * Z) := [(rq_old q, 0); (rq_new q, 0); (reading t mod 2 ^ 256, rq_old q); (reading t' mod 2 ^ 256, rq_new q)].
  Definition pairs : list (Z * Z) := root_pairs ++ slot_pairs ++ value_pairs.

  Lemma pairs_length : 2 <= n -> 0 <= eusable e0 -> Z.of_nat (length pairs) = 2 * n + eusable e0.
  Proof.
    intros A B. unfold pairs, root_pairs, slot_pairs. rewrite !app_length, map_length, seq_length. cbn [length value_pairs].
    assert (L : forall l, length (flat_map (fun i => [(val (eadv e0 MU_old_hash (Z.of_nat i)), val (rq_old_root q)); (val (eadv e0 MU_new_hash (Z.of_nat i)), val (rq_new_root q))]) l) = (2 * length l)%nat).
    { induction l as [|x l IH]; [reflexivity|]. cbn [flat_map app length]. rewrite IH. lia. }
    rewrite L, seq_length. lia.
  Qed.
  Lemma val_word x : word_ok (val x).
  Proof. pose proof (val_range x). pose proof modulus_256. unfold word_ok. lia. Qed.
  Lemma value_word p v : value_ok p v -> word_ok v.
  Proof. pose proof modulus_256. unfold word_ok. destruct p; cbn; unfold word_ok; lia. Qed.
  Lemma mod_word z : word_ok (z mod 2 ^ 256). Proof. unfold word_ok. apply Z.mod_pos_bound. lia. Qed.
  Lemma zero_word : word_ok 0. Proof. unfold word_ok. lia. Qed.
  Lemma pairs_ok : request_ok q -> Forall pair_ok pairs.
  Proof.
    intros R. pose proof (value_word _ _ (ro_new _ R)) as W1. pose proof (value_word _ _ (ro_old _ R)) as W2. pose proof zero_word as W0.
    unfold pairs. apply Forall_app; split; [|apply Forall_app; split].
    - apply Forall_forall. intros p Hp. apply in_flat_map in Hp. destruct Hp as (i & _ & [<-|[<-|[]]]); split; apply val_word.
    - apply Forall_forall. intros p Hp. apply in_map_iff in Hp. destruct Hp as (j & <- & _). split; [apply mod_word|apply R].
    - unfold value_pairs. apply Forall_cons; [split; assumption|]. apply Forall_cons; [split; assumption|]. apply Forall_cons; [split; [apply mod_word|assumption]|].
      apply Forall_cons; [split; [apply mod_word|assumption]|]. apply Forall_nil.
  Qed.

  (** * Without a clash the claim is true *)
  Variable e : env.
  Hypothesis Co : commits e0 e.
  Hypothesis OK : circuit_ok H e n.
  Hypothesis RO : request_ok q.
  Notation c := (echal e).
  Hypothesis NC : Forall (fun p => ~ clash c p) pairs.
  Notation s := (requested c q).
  Hypothesis Ex : exposes e (encode c s).
  Hypothesis Nb : encode c s <> blank_row.
  Hypothesis Nf : encode c s <> final_row.
  Hypothesis T : tries_of H e n s t t'.
  Notation K := (addr_key H (rq_address q)).

  Lemma agree a b : In (a, b) pairs -> word_rlc c a = word_rlc c b -> a = b.
  Proof.
    intros I E. rewrite Forall_forall in NC. specialize (NC _ I). unfold clash in NC. cbn [fst snd] in NC.
    destruct (Z.eq_dec a b); [assumption|exfalso; apply NC; split; assumption].
  Qed.
  Lemma row_is : exists i, 1 <= i /\ i + 1 < n /\ row_statement H e i s.
  Proof.
    destruct (exposes_statement H e n OK _ Ex Nb Nf) as (i & s' & A & B & R & E). exists i. split; [exact A|]. split; [exact B|].
    assert (E0 := f_equal (fun l => nth 0 l f0) E). assert (E1 := f_equal (fun l => nth 1 l f0) E). assert (E2 := f_equal (fun l => nth 2 l f0) E).
    assert (E3 := f_equal (fun l => nth 3 l f0) E). assert (E4 := f_equal (fun l => nth 4 l f0) E). assert (E5 := f_equal (fun l => nth 5 l f0) E). assert (E6 := f_equal (fun l => nth 6 l f0) E).
    unfold encode in E0, E1, E2, E3, E4, E5, E6. cbn [nth] in E0, E1, E2, E3, E4, E5, E6. clear E.
    pose proof (rs_address _ _ _ _ R) as A'. pose proof (ro_address _ RO) as A0.
    apply fz_inj in E0; [|apply small_lt_modulus; cbn [st_address requested]; lia|apply small_lt_modulus; lia]. apply kind_inj in E2.
    pose proof (rs_new_root _ _ _ _ R) as Rn. pose proof (rs_old_root _ _ _ _ R) as Ro.
    change (st_new_root s' = eadv e MU_new_hash i) in Rn. change (st_old_root s' = eadv e MU_old_hash i) in Ro.
    rewrite (cm_first _ _ Co) in Rn, Ro by reflexivity.
    assert (Ii : In (Z.to_nat i) (seq 1 (Z.to_nat n - 2))) by (apply in_seq; lia).
    assert (Q3 : st_new_root s' = st_new_root s).
    { rewrite <- (fz_val (st_new_root s')), <- (fz_val (st_new_root s)). f_equal. apply agree; [|symmetry; exact E3].
      apply in_or_app; left. apply in_flat_map. exists (Z.to_nat i). split; [exact Ii|]. rewrite Rn, Z2Nat.id by lia. right; left. reflexivity. }
    assert (Q4 : st_old_root s' = st_old_root s).
    { rewrite <- (fz_val (st_old_root s')), <- (fz_val (st_old_root s)). f_equal. apply agree; [|symmetry; exact E4].
      apply in_or_app; left. apply in_flat_map. exists (Z.to_nat i). split; [exact Ii|]. rewrite Ro, Z2Nat.id by lia. left. reflexivity. }
    assert (s' = s) as <-; [|exact R]. clear - E0 E1 E2 E5 E6 Q3 Q4. destruct s' as [y0 y1 y2 y3 y4 y5 y6]. cbn [st_address st_slot_rlc st_kind st_new_root st_old_root st_new_value st_old_value requested] in *. unfold requested. congruence.
  Qed.
  Lemma same_slot w : word_ok w -> poseidon_hit e (fz (w / 2 ^ 128)) (fz (w mod 2 ^ 128)) (fdom DPair) (slot_key H w) -> word_rlc c (rq_slot q) = word_rlc c w -> w = rq_slot q.
  Proof.
    intros W (j & Hj & _ & _ & Lf & Rt & _) E. apply agree; [|symmetry; exact E]. apply in_or_app; right. apply in_or_app; left. apply in_map_iff.
    exists (Z.to_nat j). rewrite (cm_usable _ _ Co) in Hj. split; [|apply in_seq; lia]. f_equal. unfold hashed_word. rewrite Z2Nat.id by lia.
    rewrite (cm_first _ _ Co) in Lf, Rt by reflexivity. rewrite Lf, Rt.
    unfold word_ok in W. assert (D : 0 <= w / 2 ^ 128 < 2 ^ 128) by (split; [apply Z.div_pos; lia|apply Z.div_lt_upper_bound; lia]).
    assert (M : 0 <= w mod 2 ^ 128 < 2 ^ 128) by (apply Z.mod_pos_bound; lia).
    rewrite !val_fz_small by (apply small_lt_modulus; lia). rewrite Z.mul_comm, <- Z_div_mod_eq_full. apply Z.mod_small. exact W.
  Qed.
  Lemma is_zero v : In (v, 0) pairs -> word_rlc c v = f0 -> v = 0.
  Proof. intros I E. apply (agree v 0 I). rewrite word_rlc_0. exact E. Qed.
  Lemma in_values p : In p value_pairs -> In p pairs.
  Proof. intros I. apply in_or_app; right. apply in_or_app; right. exact I. Qed.
  Lemma old_zero : word_rlc c (rq_old q) = f0 -> rq_old q = 0. Proof. apply is_zero, in_values. left. reflexivity. Qed.
  Lemma new_zero : word_rlc c (rq_new q) = f0 -> rq_new q = 0. Proof. apply is_zero, in_values. right; left. reflexivity. Qed.
  Lemma old_read : word_ok (reading t) -> word_rlc c (rq_old q) = word_rlc c (reading t) -> rq_old q = reading t.
  Proof. intros W E. rewrite <- (Z.mod_small (reading t) (2 ^ 256)) in E |- * by exact W. symmetry. apply agree; [|symmetry; exact E]. apply in_values. cbn. auto. Qed.
  Lemma new_read : word_ok (reading t') -> word_rlc c (rq_new q) = word_rlc c (reading t') -> rq_new q = reading t'.
  Proof. intros W E. rewrite <- (Z.mod_small (reading t') (2 ^ 256)) in E |- * by exact W. symmetry. apply agree; [|symmetry; exact E]. apply in_values. cbn. auto. Qed.

  Lemma get_all {V} (P : V -> Prop) (u : tree V) : forall d k v, tree_all P u -> get u d k = Some v -> P v.
  Proof.
    induction u as [|k0 v0|l IHl r IHr]; intros d k v A G; cbn [get] in G; [discriminate| |].
    - destruct (feqb k k0); [|discriminate]. injection G as <-. exact A.
    - destruct A as [A B]. destruct (kbit k d); eauto.
  Qed.
  Lemma modify_const {V} (f : V -> V) (u : tree V) : forall d k v, get u d k = Some v -> modify f u d k = modify (fun _ => f v) u d k.
  Proof.
    induction u as [|k0 v0|l IHl r IHr]; intros d k v G; cbn [get modify] in *; [discriminate| |].
    - destruct (feqb k k0); [|discriminate]. injection G as ->. reflexivity.
    - destruct (kbit k d); f_equal; eauto.
  Qed.
  Lemma balance_word a : account_ok a -> word_ok (balance a).
  Proof. intros (_ & _ & A & _). pose proof modulus_256. unfold word_ok. lia. Qed.
  Lemma lt64 v : 0 <= v < 2 ^ 64 -> 0 <= v < modulus. Proof. intros A. apply small_lt_modulus. lia. Qed.

  Theorem no_clash_true : true_claim H q t t'.
  Proof.
    destruct row_is as (i & I1 & I2 & R). pose proof (conj I1 I2) as Hi.
    pose proof (old_trie H e n s t t' T) as To. pose proof (to_ok _ _ _ _ _ _ T) as Aok. pose proof (to_ok' _ _ _ _ _ _ T) as Aok'.
    pose proof (ro_new _ RO) as On. pose proof (ro_old _ RO) as Oo.
    constructor.
    - intros a G Fk.
      destruct (row_existing H e n OK i s t t' Hi R T a) as (a' & E & Fs); [cbn [st_kind requested]; clear - Fk; unfold is_field in Fk; cbn [In] in Fk; destruct Fk as [<-|[<-|[<-|[<-|[<-|[]]]]]]; reflexivity|exact G|].
      assert (G' : get t' 0 K = Some a') by (rewrite E; exact (modify_get (fun _ => a') t 0 K a G)).
      pose proof (get_all _ _ _ _ _ Aok G) as Oa. pose proof (get_all _ _ _ _ _ Aok' G') as Oa'.
      pose proof old_read as Rd. pose proof new_read as Rd'. unfold reading in Rd, Rd'. rewrite G in Rd. rewrite G' in Rd'.
      cbn [st_kind requested st_old_value st_new_value st_address] in *.
      unfold is_field in Fk. cbn [In] in Fk. destruct Fk as [Q|[Q|[Q|[Q|[Q|[]]]]]]; rewrite <- Q in *; cbn [field_step field set_field value_ok value_column] in *.
      + destruct Fs as (w & Hw & V1 & V2 & ->). apply fz_inj in V1; [|apply lt64; exact Oo|apply lt64, Oa]. apply fz_inj in V2; [|apply lt64; exact On|apply lt64, Hw].
        split; [symmetry; exact V1|]. rewrite E, V2. symmetry. exact (modify_const (set_nonce w) t 0 K a G).
      + destruct Fs as (w & Hw & V1 & V2 & ->). split; [symmetry; apply Rd; [apply balance_word, Oa|exact V1]|].
        assert (Ew : rq_new q = w) by exact (Rd' (balance_word _ Oa') V2). rewrite E, <- Ew. symmetry. exact (modify_const (set_balance (rq_new q)) t 0 K a G).
      + destruct Fs as (w & Hw & V1 & V2 & ->). apply fz_inj in V1; [|apply lt64; exact Oo|apply lt64, Oa]. apply fz_inj in V2; [|apply lt64; exact On|apply lt64, Hw].
        split; [symmetry; exact V1|]. rewrite E, V2. symmetry. exact (modify_const (set_code_size w) t 0 K a G).
      + destruct Fs as (w & Hw & V1 & V2 & ->). split; [symmetry; apply Rd; [apply Oa|exact V1]|].
        assert (W' : word_ok (keccak_code_hash (set_keccak w a))) by (destruct Oa' as (_ & _ & _ & X & _); exact X).
        assert (Ew : rq_new q = w) by exact (Rd' W' V2). rewrite E, <- Ew. symmetry. exact (modify_const (set_keccak (rq_new q)) t 0 K a G).
      + destruct Fs as (V1 & ->). split; [rewrite <- V1; apply val_fz_small; exact Oo|]. rewrite E. symmetry. exact (modify_const (set_poseidon (fz (rq_new q))) t 0 K a G).
    - intros a G Q.
      destruct (row_slot H e n OK i s t t' Hi R T a Q G) as (st' & slot & E & W & Sl & Hs & Ch).
      assert (slot = rq_slot q) as -> by (apply same_slot; [exact W|exact Hs|exact Sl]).
      assert (G' : get t' 0 K = Some (set_storage st' a)) by (rewrite E; exact (modify_get (set_storage st') t 0 K a G)).
      pose proof (get_all _ _ _ _ _ Aok G) as (_ & _ & _ & _ & Oa). pose proof (get_all _ _ _ _ _ Aok' G') as (_ & _ & _ & _ & Oa').
      pose proof old_read as Rd. pose proof new_read as Rd'. unfold reading in Rd, Rd'. rewrite G in Rd. rewrite G' in Rd'. rewrite Q in Rd, Rd'.
      pose proof old_zero as Z0. pose proof new_zero as Z1.
      cbn [st_kind requested st_old_value st_new_value st_address] in *. rewrite Q in Ch. cbn [value_column] in Ch.
      exists st'. split; [exact E|]. cbn [storage set_storage] in Rd', Oa'. destruct Ch as [C1 C2 C3 C4 C5 C6]. constructor.
      + intros w w' Gw Gw'. destruct (C1 w w' Gw Gw') as (N1 & N2 & V1 & V2). rewrite Gw in Rd. rewrite Gw' in Rd'.
        split; [apply Rd; [exact (get_all _ _ _ _ _ Oa Gw)|exact V1]|]. split; [apply Rd'; [exact (get_all _ _ _ _ _ Oa' Gw')|exact V2]|]. split; assumption.
      + intros X. destruct (C2 X) as [Y|Y]; [left; apply Z0, Y|right; exact Y].
      + intros X. destruct (C3 X) as [Y|Y]; [left; apply Z1, Y|right; exact Y].
      + intros X Y. apply Z0, C4; assumption.
      + intros X Y. apply Z1, C5; assumption.
      + exact C6.
    - intros Q. destruct To as (T1 & T2 & T3 & T4 & T5). pose proof old_zero as Z0. pose proof new_zero as Z1.
      destruct R as [Rs Ra Rk Rsl Rp Rn Ro Rnv Rov].
      destruct (storage_missing_hashed H e n OK t i Hi Rs) as (V1 & V2 & V3 & V4); [rewrite T1; exact Ro|exact T3|exact T4|exact T5|rewrite <- Rp; exact Q|].
      cbn [st_kind requested st_old_value st_new_value st_address st_old_root st_new_root st_slot_rlc] in *. rewrite Q in *. cbn [value_column] in *.
      split; [apply Z0; rewrite Rov; exact V1|]. split; [apply Z1; rewrite Rnv; exact V2|]. split; [rewrite Rn, Ro; exact V3|].
      intros a G. rewrite Rk in V4. destruct V4 as [V4|(slot & [W Hs] & E & V4)]; [congruence|].
      assert (slot = rq_slot q) as -> by (apply same_slot; [exact W|exact Hs|rewrite Rsl; exact E]). exact (V4 a G).
    - intros Q. pose proof (absent_sound H e n OK i s t I1 I2 R Q To) as (X & V1 & V2 & V3). pose proof old_zero as Z0. pose proof new_zero as Z1.
      cbn [st_kind requested st_old_value st_new_value st_address st_old_root st_new_root] in *. rewrite Q in V1, V2. cbn [value_column] in V1, V2. exact (conj (Z0 V1) (conj (Z1 V2) (conj V3 X))).
    - intros a' G G' Q. destruct (row_created H e n OK i s t t' Hi R T a' Q G G') as [V1 V2]. pose proof old_zero as Z0.
      pose proof (get_all _ _ _ _ _ Aok' G') as Oa'. pose proof new_read as Rd'. unfold reading in Rd'. rewrite G' in Rd'.
      cbn [st_kind requested st_old_value st_new_value st_address] in *.
      destruct V2 as [(Qk & w & Hw & V2 & ->)|(Qk & w & Hw & V2 & ->)]; rewrite Qk in *; cbn [value_column value_ok field set_field] in *.
      + split; [apply (fz_inj _ 0); [apply lt64; exact Oo|apply small_lt_modulus; lia|exact V1]|]. split; [tauto|].
        apply fz_inj in V2; [|apply lt64; exact On|apply lt64, Hw]. rewrite V2. reflexivity.
      + split; [apply Z0; exact V1|]. split; [tauto|]. assert (Ew : rq_new q = w) by exact (Rd' (balance_word _ Oa') V2). rewrite Ew. reflexivity.
    - change (st_kind s <> AccountDestructed). rewrite (rs_kind _ _ _ _ R). apply (never_destructed H e n (co_fixed H e n OK) (co_sat H e n OK)). apply (fix_enabled e n i (co_fixed H e n OK)). lia.
  Qed.
End Words.

Definition claim : Type := request * (tree account * tree account).
Theorem few_lucky_challenges : forall H e0 n (claims : list claim), Forall (fun x => request_ok (fst x)) claims ->
  forall cs, NoDup cs -> (forall c, In c cs -> exists q t t', In (q, (t, t')) claims /\ fooled H e0 n q t t' c) ->
  (length cs <= 31 * Z.to_nat (2 * n + eusable e0) * length claims)%nat.
Proof.
  intros H e0 n claims RO cs N F. destruct cs as [|c0 cs0] eqn:Ecs; [apply Nat.le_0_l|].
  assert (Hn : 2 <= n /\ 0 <= eusable e0).
  { destruct (F c0 (or_introl eq_refl)) as (q & t & t' & _ & e & Co & _ & OK & _). pose proof (fo_rows _ _ (co_fixed _ _ _ OK)) as R. rewrite (cm_usable _ _ Co) in R. lia. }
  rewrite <- Ecs in *. clear Ecs c0 cs0. destruct Hn as [Hn Hu].
  pose (P := fun x : claim => pairs H e0 n (fst x) (fst (snd x)) (snd (snd x))).
  assert (L : length (flat_map P claims) = (Z.to_nat (2 * n + eusable e0) * length claims)%nat).
  { clear - Hn Hu. induction claims as [|x l IH]; [cbn; lia|]. cbn [flat_map length]. rewrite app_length, IH. pose proof (pairs_length H e0 n (fst x) (fst (snd x)) (snd (snd x)) Hn Hu) as E. fold (P x) in E.
    rewrite <- E, Nat2Z.id. lia. }
  rewrite <- Nat.mul_assoc, <- L. apply clashes; [|exact N|].
  - apply Forall_forall. intros p Hp. apply in_flat_map in Hp. destruct Hp as (x & Hx & Hp). rewrite Forall_forall in RO.
    pose proof (pairs_ok H e0 n (fst x) (fst (snd x)) (snd (snd x)) (RO x Hx)) as Q. rewrite Forall_forall in Q. apply Q, Hp.
  - intros c Hc. destruct (F c Hc) as (q & t & t' & I & e & Co & <- & OK & Ex & Nb & Nf & T & Fl). rewrite Forall_forall in RO. specialize (RO _ I). cbn [fst] in RO.
    destruct (Exists_dec (clash (echal e)) (pairs H e0 n q t t') (clash_dec (echal e))) as [Y|Y].
    + apply Exists_exists in Y. destruct Y as (p & Hp & Y). apply Exists_exists. exists p. split; [|exact Y]. apply in_flat_map. exists (q, (t, t')). split; [exact I|exact Hp].
    + exfalso. apply Fl. apply Forall_Exists_neg in Y. exact (no_clash_true H e0 n q t t' e Co OK RO Y Ex Nb Nf T).
Qed.

Theorem few_bad_challenges : forall H e0 n (claims : list claim), Forall (fun x => request_ok (fst x)) claims ->
  exists bad : list Fr, (length bad <= 31 * Z.to_nat (2 * n + eusable e0) * length claims)%nat /\
  forall e, commits e0 e -> circuit_ok H e n -> ~ In (echal e) bad -> forall q t t', In (q, (t, t')) claims ->
  let s := requested (echal e) q in exposes e (encode (echal e) s) -> encode (echal e) s <> blank_row -> encode (echal e) s <> final_row -> tries_of H e n s t t' -> true_claim H q t t'.
Proof.
  intros H e0 n claims RO. destruct (Z_lt_dec n 2) as [Hn|Hn].
  { exists []. split; [apply Nat.le_0_l|]. intros e _ OK. pose proof (fo_rows _ _ (co_fixed _ _ _ OK)). lia. }
  destruct (Z_lt_dec (eusable e0) 0) as [Hu|Hu].
  { exists []. split; [apply Nat.le_0_l|]. intros e Co OK. pose proof (fo_rows _ _ (co_fixed _ _ _ OK)) as R. rewrite (cm_usable _ _ Co) in R. lia. }
  pose (P := fun x : claim => pairs H e0 n (fst x) (fst (snd x)) (snd (snd x))).
  assert (L : length (flat_map P claims) = (Z.to_nat (2 * n + eusable e0) * length claims)%nat).
  { clear RO. induction claims as [|x l IH]; [cbn; lia|]. cbn [flat_map length]. rewrite app_length, IH. pose proof (pairs_length H e0 n (fst x) (fst (snd x)) (snd (snd x)) ltac:(lia) ltac:(lia)) as E. fold (P x) in E.
    rewrite <- E, Nat2Z.id. lia. }
  rewrite Forall_forall in RO. destruct (few_bad (flat_map P claims)) as (bad & B1 & B2).
  { apply Forall_forall. intros p Hp. apply in_flat_map in Hp. destruct Hp as (x & Hx & Hp).
    pose proof (pairs_ok H e0 n (fst x) (fst (snd x)) (snd (snd x)) (RO x Hx)) as Q. rewrite Forall_forall in Q. apply Q, Hp. }
  exists bad. split; [rewrite <- Nat.mul_assoc, <- L; exact B1|]. intros e Co OK Hb q t t' I s Ex Nb Nf T.
  apply (no_clash_true H e0 n q t t' e Co OK (RO _ I)); try assumption. specialize (B2 _ Hb). rewrite Forall_forall in B2 |- *. intros p Hp. apply B2, in_flat_map. exists (q, (t, t')). split; [exact I|exact Hp].
Qed.
