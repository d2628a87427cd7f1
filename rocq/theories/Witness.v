(* The leaf that a proof of absence presents in the place of the missing key is stored under its own key. *)
From Coq Require Import ZArith String List Bool Lia.
From Verif Require Import Pocklington Fr Query Builder BuilderProofs Gadgets MptUpdate Bytes GadgetProofs LagrangeProofs Fixed CanonProofs UpdateRows TrieSpec UpdateWalk UpdateAccount UpdateSound UpdateClaims UpdateStorage GadgetMain TableSpec UpdateProps.
Import ListNotations.
Open Scope Z_scope.

(** * Two keys with the same leading bits have the same path *)
Section Paths.
  Context {V : Type}.
  Lemma sub_agree d : forall (t : tree V) K K' d0, (forall k, (k < d)%nat -> kbit K (d0 + k) = kbit K' (d0 + k)) -> sub t K d0 d = sub t K' d0 d.
  Proof.
    induction d as [|d IH]; intros t K K' d0 E; [reflexivity|]. cbn [sub]. destruct t as [|k v|l r]; try reflexivity.
    pose proof (E 0%nat ltac:(lia)) as E0. rewrite Nat.add_0_r in E0. rewrite E0. apply IH. intros k Hk.
    replace (Datatypes.S d0 + k)%nat with (d0 + Datatypes.S k)%nat by lia. apply E. lia.
  Qed.
  Lemma sub_len d : forall (t : tree V) K d0 u, sub t K d0 d = Some u -> (d <= height t)%nat.
  Proof.
    induction d as [|d IH]; intros t K d0 u E; [lia|]. cbn [sub] in E. destruct t as [|k v|l r]; try discriminate E.
    apply IH in E. cbn [height]. destruct (kbit K d0); lia.
  Qed.
  Lemma reached_sub_leaf d (t : tree V) K k v k' v' : sub t K 0 d = Some (Leaf k v) -> reached t 0 K = Some (k', v') -> k' = k /\ v' = v.
  Proof. intros S R. rewrite (sub_reached d t K 0 k v S) in R. injection R as -> ->. auto. Qed.
  Lemma sub_reached_empty d : forall (t : tree V) K d0, sub t K d0 d = Some Empty -> reached t d0 K = None.
  Proof.
    induction d as [|d IH]; intros t K d0 E; cbn [sub] in E; [injection E as ->; reflexivity|].
    destruct t as [|k v|l r]; try discriminate E. cbn [reached]. destruct (kbit K d0); apply IH; exact E.
  Qed.
  Lemma get_self d (t : tree V) k v : sub t k 0 d = Some (Leaf k v) -> get t 0 k = Some v.
  Proof. intros S. apply reached_get. apply (sub_reached d). exact S. Qed.
End Paths.

(** * Along the rows of one trie *)
Section Other.
  Variables (H : Fr -> Fr -> Fr -> Fr) (e : env) (n : Z).
  Hypothesis OK : circuit_ok H e n.
  Let F := co_fixed H e n OK.
  Let HP := co_poseidon H e n OK.
  Let Hn := fo_rows e n F.
  Let Hu := fo_usable e n F.
  Let Hs := fo_small e n F.
  Notation adv := (adv e). Notation sg := (sg e). Notation pa := (pa e). Notation pt := (pt e).
  Notation HD := (HD H e n OK).

  Section Trie.
    Context {V : Type} (hv : V -> Fr) (vin : V -> list triple).
    Variable S : triple -> Prop.
    Hypothesis CF : collision_free H S.
    Hypothesis HT : forall l r d h, poseidon_hit e l r d h -> S (l, r, d).
    Variables (tr : SegmentType) (i0 : Z).
    Hypothesis Htr : is_trie_seg tr = true.
    Hypothesis Hi0 : 1 <= i0.
    Hypothesis Hd0 : is_trie_seg (sg i0) = false.
    Notation row k := (i0 + Z.of_nat k).
    Let K := adv MU_key i0.

    Lemma other_const d : in_trie e tr i0 d -> row d < n -> adv MU_other_key (row d) = adv MU_other_key i0.
    Proof.
      induction d as [|d IH]; intros Ht Hd; [rewrite Z.add_0_r; reflexivity|].
      assert (Hsg : sg (row (Datatypes.S d)) = tr) by (apply Ht; lia).
      destruct (r_key H e n F HD (row (Datatypes.S d))) as [_ A]; try lia.
      - rewrite Hsg. intros ->. discriminate.
      - rewrite Hsg. intros ->. discriminate.
      - rewrite A. replace (row (Datatypes.S d) - 1) with (row d) by lia. apply IH; [|lia]. intros k Hk. apply Ht. lia.
    Qed.
    Lemma other_dir h d : bits_ok n h -> in_trie e tr i0 d -> row d < n -> (forall k, (1 <= k <= d)%nat -> pa (row k) = Common) ->
      forall k, (k < d)%nat -> (k < h)%nat -> adv MU_direction (row (Datatypes.S k)) = fb (kbit (adv MU_other_key i0) k).
    Proof.
      intros Hb Ht Hd Hc k Hk Hh.
      assert (Ht' : in_trie e tr i0 (Datatypes.S k)) by (intros j Hj; apply Ht; lia).
      destruct (r_trie H e n F HD (row (Datatypes.S k))) as (_ & _ & A); [lia|rewrite Ht by lia; exact Htr|].
      specialize (A (Hc (Datatypes.S k) ltac:(lia))).
      assert (Hmod : n mod 32 <> 0) by (destruct Hb; lia).
      apply (key_bit_hit_gen e n F (DCR H e n OK) _ _ _ _ Hmod (DKB H e n OK)) in A. destruct A as (j & Hj & A & B).
      rewrite eval_sub in A. rewrite (ev_cur e n F) in A by lia. rewrite !(ev_cur e n F) in B by lia.
      rewrite (trie_depth H e n F HD tr i0 Htr Hi0 Hd0 _ Ht') in A by lia. rewrite (other_const _ Ht') in B by lia.
      change (eval e (row (Datatypes.S k)) qone) with (fz 1) in A. rewrite <- fz_sub in A.
      apply fz_inj in A; [|apply small_lt_modulus; lia|apply small_lt_modulus; lia].
      assert (Ej : j = Z.of_nat k) by lia. rewrite Ej in B. apply B. destruct Hb; lia.
    Qed.
    Lemma other_path (t : tree V) u d : bits_ok n (height t) -> in_trie e tr i0 d -> row d < n -> (forall k, (1 <= k <= d)%nat -> pa (row k) = Common) ->
      sub t K 0 d = Some u -> sub t (adv MU_other_key (row d)) 0 d = Some u.
    Proof.
      intros Hb Ht Hd Hc U. rewrite <- U. symmetry. apply sub_agree. intros k Hk. pose proof (sub_len _ _ _ _ _ U) as Hl.
      apply fb_inj. rewrite Nat.add_0_l, (other_const d Ht Hd).
      rewrite <- (other_dir (height t) d Hb Ht Hd Hc k Hk ltac:(lia)).
      symmetry. apply (trie_dir H e n F HD (DCR H e n OK) (DKB H e n OK) tr i0 K Htr Hi0 Hd0 eq_refl (height t) d Hb Ht Hd k Hk). lia.
    Qed.
    (* a row of absence below the run: whatever leaf the key leads to is another key's, and stands at the end of that key's path *)
    Lemma occupant (t : tree V) u d v data : bits_ok n (height t) -> in_trie e tr i0 d -> row d < n -> (forall k, (1 <= k <= d)%nat -> pa (row k) = Common) ->
      sub t K 0 d = Some u -> known H S hv vin u -> nonex e v (thash H hv u) K (adv MU_other_key (row d)) data ->
      forall k' v', reached t 0 K = Some (k', v') -> k' <> K /\ get t 0 k' = Some v'.
    Proof.
      intros Hb Ht Hd Hc U Ku [_ [[A B]|(A & B & C)]] k' v' R.
      - exfalso. rewrite (zero_step H S CF hv vin u Ku B) in U. rewrite (sub_reached_empty d t K 0 U) in R. discriminate R.
      - destruct (leaf_step H e HP S CF HT hv vin u _ _ _ Ku eq_refl C) as (w & -> & _).
        destruct (reached_sub_leaf d t K _ _ _ _ U R) as [-> ->]. split; [congruence|].
        apply (get_self d). apply (other_path t _ d Hb Ht Hd Hc U).
    Qed.
  End Trie.

  (** * Updates of a state trie *)
  Section State.
    Variable t : tree account.
    Variable i : Z.
    Hypothesis Hi : 1 <= i /\ i + 1 < n.
    Hypothesis Hst : sg i = SegStart.
    Hypothesis Hroot : state_root H t = adv MU_old_hash i.
    Hypothesis Hbits : bits_ok n (height t).
    Hypothesis Hsbits : tree_all (fun a => bits_ok n (height (storage a))) t.
    Hypothesis CF : collision_free H (inputs H e t).
    Let K := adv MU_key i.

    Definition others_own {W} (u : tree W) (k : Fr) : Prop := forall k' v, reached u 0 k = Some (k', v) -> k' <> k /\ get u 0 k' = Some v.

    Lemma acc_occupant d : acc_run e i d -> i + Z.of_nat d + 1 < n -> has_empty_part (pt (i + Z.of_nat d)) = true -> sg (i + Z.of_nat d + 1) = SegStart ->
      others_own t K.
    Proof.
      intros R Lt Hp Hnx. set (j := i + Z.of_nat d) in *.
      assert (Pn : pa (j + 1) = PathStart) by (apply (pa_start H e n F HD); [unfold j in *; lia|exact Hnx]).
      assert (Sj : sg j = SegStart \/ sg j = AccountTrie).
      { unfold j. destruct d as [|d']; [left; rewrite Z.add_0_r; exact Hst|right; apply R; lia]. }
      destruct (r_empty H e n F HD j ltac:(unfold j; lia) Lt Hp Sj Hnx) as (_ & _ & _ & data & N).
      destruct (acc_old H e n OK t i Hi Hst Hroot Hbits CF d R Lt) as (u & U1 & U2 & U3); [fold j; rewrite Pn; discriminate|]. fold j in U3.
      assert (It : in_trie e AccountTrie i d) by (intros k Hk; apply R; exact Hk).
      rewrite <- U3 in N.
      pose proof (trie_key H e n F HD AccountTrie i K eq_refl ltac:(lia) eq_refl d It ltac:(fold j; lia)) as Kj. fold j in Kj. rewrite Kj in N.
      unfold others_own.
      apply (occupant (account_hash H) (account_inputs H) (inputs H e t) CF (HT H e t) AccountTrie i eq_refl (proj1 Hi)) with (u := u) (d := d) (v := adv MU_old_value j) (data := data);
        [rewrite Hst; reflexivity|exact Hbits|exact It|fold j; lia|intros k Hk; apply R; exact Hk|exact U1|exact U2|exact N].
    Qed.

    Theorem account_occupant : pt i = AccountDoesNotExist -> others_own t K.
    Proof.
      intros T. destruct (has_shape H e n OK i (proj1 Hi) (proj2 Hi) Hst) as (d & Sh). destruct Sh as [R Lt En Tj Oj Nj _].
      set (j := i + Z.of_nat d) in *.
      destruct (r_seg_trans H e n F HD j ltac:(lia) Lt) as (l & TS & I). rewrite Tj, T in TS.
      assert (Sj : sg j = SegStart \/ sg j = AccountTrie).
      { unfold j. destruct d as [|d']; [left; rewrite Z.add_0_r; exact Hst|right; apply R; lia]. }
      assert (Tl : l = [AccountTrie; SegStart]) by (destruct Sj as [Sj|Sj]; rewrite Sj in TS; cbn in TS; congruence).
      subst l. destruct En as [E0|S0 P0|S0 P0].
      - apply (acc_occupant d R Lt); [fold j; rewrite Tj, T; reflexivity|exact E0].
      - rewrite S0 in I. cbn in I. intuition discriminate.
      - exfalso.
        assert (Tn : pt (j + 1) = pt i).
        { destruct (nonstart_step H e n F HD (j + 1) ltac:(unfold j in *; lia)) as (X & _); [destruct S0 as [S0|S0]; rewrite S0; discriminate|].
          replace (j + 1 - 1) with j in * by lia. rewrite X. auto. }
        assert (Hlt : j + 1 + 1 < n) by (apply (next_lt e n (HL H e n OK)); [unfold j in *; lia|destruct S0 as [S0|S0]; rewrite S0; discriminate]).
        destruct (r_ext_new H e n F HD (j + 1)) as (X & _); [unfold j in *; lia|exact Hlt|exact P0|].
        rewrite Tn, T in X. cbn in X. intuition discriminate.
    Qed.

    Theorem slot_occupant : pt i = StorageDoesNotExist ->
      others_own t K \/
      exists k a slot, reached t 0 K = Some (k, a) /\ word_ok slot /\ adv MU_storage_key_rlc i = word_rlc (echal e) slot /\ others_own (storage a) (slot_key H slot).
    Proof.
      intros T.
      destruct (has_shape H e n OK i (proj1 Hi) (proj2 Hi) Hst) as (d & Sh). pose proof Sh as Sh'. destruct Sh' as [R Lt En Tj Oj Nj Kj].
      destruct En as [E0|S0 P0|S0 P0].
      - left. apply (acc_occupant d R Lt); [rewrite Tj, T; reflexivity|exact E0].
      - right. destruct (storage_account H e n OK t i Hi Hst Hroot Hbits CF (or_intror T) d Sh S0 P0) as (k & a & slot & Ra & Ka & Ws & L5 & S3 & P3 & T3 & Ek & Er & _ & _ & Eo & _).
        set (l := i + Z.of_nat d + 4) in *. assert (Hl : 1 <= l /\ l + 1 < n) by (unfold l; lia). clearbody l.
        exists k, a, slot. split; [exact Ra|]. split; [apply Ws|]. split; [exact Er|].
        destruct (sto_run_max H e n OK l (proj1 Hl) (proj2 Hl)) as (m & Rm & Lm & Cm).
        assert (Tm : pt (l + Z.of_nat m) = StorageDoesNotExist).
        { rewrite <- T, <- T3. apply (pt_const H e n F HD l m ltac:(lia) ltac:(lia)). intros q Hq. destruct (Rm q Hq) as [X _]. rewrite X. discriminate. }
        assert (Hm : 1 <= l + Z.of_nat m < n) by lia.
        destruct (r_seg_trans H e n F HD (l + Z.of_nat m) ltac:(lia) Lm) as (l' & TS & I). rewrite Tm in TS.
        assert (Sm : sg (l + Z.of_nat m) = AccountLeaf3 \/ sg (l + Z.of_nat m) = StorageTrie).
        { destruct m as [|m']; [left; rewrite Z.add_0_r; exact S3|right; apply Rm; lia]. }
        assert (Tl : l' = [StorageTrie; SegStart]) by (destruct Sm as [Sm|Sm]; rewrite Sm in TS; cbn in TS; congruence). subst l'.
        assert (Sn : sg (l + Z.of_nat m + 1) = SegStart).
        { cbn in I. destruct I as [I|[I|[]]]; [exfalso|auto].
          assert (Tn : pt (l + Z.of_nat m + 1) = StorageDoesNotExist).
          { destruct (nonstart_step H e n F HD (l + Z.of_nat m + 1) ltac:(lia)) as (X & _); [rewrite <- I; discriminate|].
            replace (l + Z.of_nat m + 1 - 1) with (l + Z.of_nat m) in X by lia. congruence. }
          destruct (sdne_row H e n OK (l + Z.of_nat m + 1) ltac:(lia) Tn) as (_ & _ & [Pp|Pp] & _).
          - apply (sg_start H e n F HD) in Pp; [|lia]. congruence.
          - rewrite <- I, Pp in Cm. discriminate. }
        destruct (sdne_row H e n OK (l + Z.of_nat m) Hm Tm) as (_ & _ & _ & _ & Nx). specialize (Nx ltac:(lia) Sn).
        assert (It : in_trie e StorageTrie l m) by (intros q Hq; apply Rm; exact Hq).
        assert (Bs : bits_ok n (height (storage a))) by exact (reached_all e i (fun a => bits_ok n (height (storage a))) t 0 k a Hsbits Ra).
        assert (Pn : pa (l + Z.of_nat m + 1) <> ExtensionOld).
        { rewrite (pa_start H e n F HD); [discriminate|lia|exact Sn]. }
        destruct (s_old H e n OK (inputs H e t) CF (HT H e t) (storage a) l Hl S3 (known_storage H e t a Ka) Eo Bs m Rm Lm Pn) as (u & U1 & U2 & U3).
        rewrite <- Ek. rewrite <- U3 in Nx. rewrite (trie_key H e n F HD StorageTrie l (adv MU_key l) eq_refl ltac:(lia) eq_refl m It) in Nx by lia.
        unfold others_own.
        eapply (occupant (word_hash H) word_inputs (inputs H e t) CF (HT H e t) StorageTrie l eq_refl (proj1 Hl)) with (u := u) (d := m);
          [rewrite S3; reflexivity|exact Bs|exact It|lia|intros q Hq; apply Rm; exact Hq|exact U1|exact U2|exact Nx].
      - exfalso.
        assert (Tn : pt (i + Z.of_nat d + 1) = StorageDoesNotExist).
        { destruct (nonstart_step H e n F HD (i + Z.of_nat d + 1) ltac:(lia)) as (X & _); [destruct S0 as [S0|S0]; rewrite S0; discriminate|].
          replace (i + Z.of_nat d + 1 - 1) with (i + Z.of_nat d) in X by lia. congruence. }
        destruct (sdne_row H e n OK (i + Z.of_nat d + 1) ltac:(lia) Tn) as (_ & _ & [Pp|Pp] & _); congruence.
    Qed.
  End State.
End Other.

(** * Exposed rows *)
Section Rows.
  Variables (H : Fr -> Fr -> Fr -> Fr) (e : env) (n : Z).
  Hypothesis OK : circuit_ok H e n.
  Theorem account_occupant_row row : exposes e row -> nth 2 row f0 = fz (kind_number AccountDoesNotExist) -> row <> final_row ->
    exists s, row = encode (echal e) s /\ st_kind s = AccountDoesNotExist /\ 0 <= st_address s < 2 ^ 160 /\
    forall t, trie_of H e n (st_old_root s) t ->
    forall k b, reached t 0 (addr_key H (st_address s)) = Some (k, b) -> k <> addr_key H (st_address s) /\ get t 0 k = Some b.
  Proof.
    intros Ex Kd N. destruct (decode_row H e n OK row AccountDoesNotExist Ex Kd) as (i & s & A & B & C & D & E); [|exact N|].
    { intros ->. apply (kind_inj NonceChanged) in Kd. discriminate Kd. }
    exists s. split; [exact D|]. split; [exact E|]. split; [apply C|]. intros t (T1 & T2 & T3 & T4 & T5). destruct C as [Rs Ra Rk Rsl Rp Rn Ro Rnv Rov].
    rewrite <- Rk. rewrite Rp in E. rewrite Ro in T1.
    exact (account_occupant H e n OK t i (conj A B) Rs T1 T3 T5 E).
  Qed.
  Theorem slot_occupant_row row : exposes e row -> nth 2 row f0 = fz (kind_number StorageDoesNotExist) ->
    exists s, row = encode (echal e) s /\ st_kind s = StorageDoesNotExist /\ 0 <= st_address s < 2 ^ 160 /\
    forall t, trie_of H e n (st_old_root s) t ->
      (forall k b, reached t 0 (addr_key H (st_address s)) = Some (k, b) -> k <> addr_key H (st_address s) /\ get t 0 k = Some b) \/
      (exists k a slot, reached t 0 (addr_key H (st_address s)) = Some (k, a) /\ word_ok slot /\ st_slot_rlc s = word_rlc (echal e) slot /\
       forall k' v, reached (storage a) 0 (slot_key H slot) = Some (k', v) -> k' <> slot_key H slot /\ get (storage a) 0 k' = Some v).
  Proof.
    intros Ex Kd. destruct (blank_final row StorageDoesNotExist Kd) as [N1 N2]; [auto|].
    destruct (decode_row H e n OK row _ Ex Kd N1 N2) as (i & s & A & B & C & D & E).
    exists s. split; [exact D|]. split; [exact E|]. split; [apply C|]. intros t (T1 & T2 & T3 & T4 & T5). destruct C as [Rs Ra Rk Rsl Rp Rn Ro Rnv Rov].
    rewrite <- Rk, Rsl. rewrite Rp in E. rewrite Ro in T1.
    exact (slot_occupant H e n OK t i (conj A B) Rs T1 T3 T4 T5 E).
  Qed.
End Rows.
