(* Claims about account fields and about missing accounts. *)
From Coq Require Import ZArith String List Bool Lia.
From Verif Require Import Pocklington Fr Query Builder BuilderProofs Gadgets MptUpdate Bytes GadgetProofs LagrangeProofs Fixed CanonProofs UpdateRows TrieSpec UpdateWalk UpdateAccount UpdateSound.
Import ListNotations.
Open Scope Z_scope.

(* [field_claim c p a old new a']: a' is a with the one field the proof type p is about changed from
   the value encoded by old to the value encoded by new *)
Definition field_claim (c : Fr) (p : MPTProofType) (a : account) (old new : Fr) (a' : account) : Prop :=
  match p with
  | NonceChanged => exists w, 0 <= w < 2 ^ 64 /\ old = fz (nonce a) /\ new = fz w /\ a' = set_nonce w a
  | CodeSizeExists => exists w, 0 <= w < 2 ^ 64 /\ old = fz (code_size a) /\ new = fz w /\ a' = set_code_size w a
  | BalanceChanged => exists w, 0 <= w < 2 ^ 248 /\ old = word_rlc c (balance a) /\ new = word_rlc c w /\ a' = set_balance w a
  | CodeHashExists => exists w, word_ok w /\ old = word_rlc c (keccak_code_hash a) /\ new = word_rlc c w /\ a' = set_keccak w a
  | PoseidonCodeHashExists => old = poseidon_code_hash a /\ a' = set_poseidon new a
  | _ => False
  end.
Definition field_proof (p : MPTProofType) : bool :=
  match p with NonceChanged | CodeSizeExists | BalanceChanged | CodeHashExists | PoseidonCodeHashExists => true | _ => false end.

Section Claims.
  Variables (H : Fr -> Fr -> Fr -> Fr) (e : env) (n : Z).
  Hypothesis OK : circuit_ok H e n.
  Let F : fixed_ok e n := co_fixed H e n OK.
  Let HD := HD H e n OK.
  Let HL := HL H e n OK.
  Let Hn := fo_rows e n F.
  Let Hu := fo_usable e n F.
  Let Hs := fo_small e n F.
  Let HP := co_poseidon H e n OK.
  Notation adv := (adv e). Notation sg := (sg e). Notation pa := (pa e). Notation pt := (pt e).
  Notation PH := (PH e).

  Lemma c64_eq : c64 = fz (2 ^ 64). Proof. unfold c64. rewrite <- fz_mul. reflexivity. Qed.
  Lemma c64_nz : c64 <> f0.
  Proof. rewrite c64_eq. intros E. apply (f_equal val) in E. vm_compute in E. discriminate E. Qed.
  Lemma div64 x y z : ((x - y) * finv c64 = z)%fr -> x = (y + z * fz (2 ^ 64))%fr.
  Proof.
    intros E. rewrite <- E, <- c64_eq. pose proof (finv_l c64 c64_nz) as I.
    transitivity (y + (x - y) * (finv c64 * c64))%fr; [rewrite I; ring|ring].
  Qed.

  (** ** AccountLeaf3 rows on the common path *)
  Section L3.
    Variable l : Z.
    Hypothesis Hl : 1 <= l < n.
    Hypothesis S3 : sg l = AccountLeaf3.
    Hypothesis P3 : pa l = Common.
    Lemma l3_nonce : pt l = NonceChanged -> exists ov nv cs, 0 <= ov < 2 ^ 64 /\ 0 <= nv < 2 ^ 64 /\ 0 <= cs < 2 ^ 64 /\
      adv MU_old_value l = fz ov /\ adv MU_new_value l = fz nv /\
      adv MU_old_hash l = fz (ov + cs * 2 ^ 64) /\ adv MU_new_hash l = fz (nv + cs * 2 ^ 64).
    Proof.
      intros T. pose proof (den_proof H e n F HD l Hl) as D. rewrite T in D. destruct D as [_ [_ D]].
      apply (den_by_segment H e n F HD l _ Hl) in D. rewrite S3 in D. destruct D as (_ & D1 & D2 & _).
      apply (den_is_path H e n F HD l _ _ Hl) in D2; [|exact P3]. destruct D2 as (D3 & D4 & D5).
      specialize (D1 eq_refl). specialize (D3 eq_refl). specialize (D5 eq_refl).
      apply (bytes8 H e n OK l _ Hl) in D1, D3, D5. apply (proj1 (den_assert_equal e l _ _ _)) in D4.
      rewrite (ev_cur e n F) in D1, D3 by exact Hl.
      change (eval e l ((cur MU_old_hash - cur MU_old_value) * QConst (finv c64))%q) with (eval e l (cur MU_old_hash - cur MU_old_value)%q * finv c64)%fr in D4, D5.
      change (eval e l ((cur MU_new_hash - cur MU_new_value) * QConst (finv c64))%q) with (eval e l (cur MU_new_hash - cur MU_new_value)%q * finv c64)%fr in D4.
      rewrite !eval_sub, !(ev_cur e n F) in D4 by exact Hl. rewrite !eval_sub, !(ev_cur e n F) in D5 by exact Hl.
      destruct D1 as (nv & R1 & E1). destruct D3 as (ov & R2 & E2). destruct D5 as (cs & R3 & E3).
      rewrite E3 in D4. symmetry in D4. apply div64 in E3, D4.
      exists ov, nv, cs. rewrite E3, D4, E1, E2, !fz_add, !fz_mul.
      exact (conj R2 (conj R1 (conj R3 (conj eq_refl (conj eq_refl (conj eq_refl eq_refl)))))).
    Qed.
    Lemma l3_code_size : pt l = CodeSizeExists -> exists no ov nv, 0 <= ov < 2 ^ 64 /\ 0 <= nv < 2 ^ 64 /\ 0 <= no < 2 ^ 64 /\
      adv MU_old_value l = fz ov /\ adv MU_new_value l = fz nv /\
      adv MU_old_hash l = fz (no + ov * 2 ^ 64) /\ adv MU_new_hash l = fz (no + nv * 2 ^ 64).
    Proof.
      intros T. pose proof (den_proof H e n F HD l Hl) as D. rewrite T in D. destruct D as [_ D].
      apply (den_by_segment H e n F HD l _ Hl) in D. rewrite S3 in D. destruct D as (_ & D1 & D3 & D4 & D5).
      specialize (D1 eq_refl). specialize (D3 eq_refl). specialize (D5 eq_refl).
      apply (bytes8 H e n OK l _ Hl) in D1, D3, D5. apply (proj1 (den_assert_equal e l _ _ _)) in D4.
      rewrite (ev_cur e n F) in D1, D3 by exact Hl.
      rewrite !eval_sub in D4. rewrite !eval_sub in D5.
      change (eval e l (cur MU_old_value * QConst c64)%q) with (eval e l (cur MU_old_value) * c64)%fr in D4, D5.
      change (eval e l (cur MU_new_value * QConst c64)%q) with (eval e l (cur MU_new_value) * c64)%fr in D4.
      rewrite !(ev_cur e n F) in D4 by exact Hl. rewrite !(ev_cur e n F) in D5 by exact Hl.
      destruct D1 as (ov & R1 & E1). destruct D3 as (nv & R2 & E2). destruct D5 as (no & R3 & E3).
      rewrite E3 in D4. exists no, ov, nv.
      refine (conj R1 (conj R2 (conj R3 (conj E1 (conj E2 (conj _ _)))))); rewrite fz_add, fz_mul, <- c64_eq.
      - rewrite <- E3, <- E1. ring.
      - rewrite D4, <- E2. ring.
    Qed.
    Lemma l3_balance : pt l = BalanceChanged -> exists ov nv, 0 <= ov < 2 ^ 248 /\ 0 <= nv < 2 ^ 248 /\
      adv MU_old_value l = word_rlc (echal e) ov /\ adv MU_new_value l = word_rlc (echal e) nv /\
      adv MU_old_hash l = fz ov /\ adv MU_new_hash l = fz nv.
    Proof.
      intros T. pose proof (den_proof H e n F HD l Hl) as D. rewrite T in D. destruct D as [_ D].
      apply (den_by_segment H e n F HD l _ Hl) in D. rewrite S3 in D. destruct D as (_ & D1 & D2 & _).
      apply (den_is_path H e n F HD l _ _ Hl) in D1; [|exact P3].
      specialize (D1 eq_refl). specialize (D2 eq_refl).
      apply (br_rlc_hit e n F l _ _ _ 30 (BR H e n OK)) in D1; [|lia|reflexivity].
      apply (br_rlc_hit e n F l _ _ _ 30 (BR H e n OK)) in D2; [|lia|reflexivity].
      rewrite !(ev_cur e n F) in D1, D2 by exact Hl.
      change (256 ^ (30 + 1)) with (2 ^ 248) in *. change (Z.to_nat (30 + 1)) with 31%nat in *.
      destruct D1 as (ov & R1 & E1 & Q1). destruct D2 as (nv & R2 & E2 & Q2).
      exists ov, nv. unfold word_rlc. change 32%nat with (S 31).
      rewrite (be_bytes_lead 31 ov) by (change (256 ^ Z.of_nat 31) with (2 ^ 248); lia).
      rewrite (be_bytes_lead 31 nv) by (change (256 ^ Z.of_nat 31) with (2 ^ 248); lia). rewrite !rlc_lead.
      exact (conj R1 (conj R2 (conj Q1 (conj Q2 (conj E1 E2))))).
    Qed.
    Lemma l3_keccak : pt l = CodeHashExists -> exists ov nv, word_ok ov /\ word_ok nv /\
      adv MU_old_value l = word_rlc (echal e) ov /\ adv MU_new_value l = word_rlc (echal e) nv /\
      PH (fz (ov / 2 ^ 128)) (fz (ov mod 2 ^ 128)) (fdom DPair) (adv MU_old_hash l) /\ adv MU_new_hash l = word_hash H nv /\
      PH (fz (nv / 2 ^ 128)) (fz (nv mod 2 ^ 128)) (fdom DPair) (word_hash H nv).
    Proof.
      intros T. pose proof (den_proof H e n F HD l Hl) as D. rewrite T in D. destruct D as [_ D].
      apply (den_by_segment H e n F HD l _ Hl) in D. rewrite S3 in D. destruct D as (_ & D1 & D2).
      apply (r_word e n F l) in D1; [|exact Hl]. apply (r_word e n F l) in D2; [|exact Hl].
      apply (word_sound H e n OK l) in D1; [|exact Hl]. apply (word_sound H e n OK l) in D2; [|exact Hl].
      destruct D1 as (ov & A1 & B1 & C1 & E1). destruct D2 as (nv & A2 & B2 & C2 & E2).
      exists ov, nv. rewrite B2 in C2. exact (conj A1 (conj A2 (conj E1 (conj E2 (conj C1 (conj B2 C2)))))).
    Qed.
  End L3.
  Lemma l1_poseidon l : 1 <= l < n -> sg l = AccountLeaf1 -> pt l = PoseidonCodeHashExists ->
    adv MU_old_value l = adv MU_old_hash l /\ adv MU_new_value l = adv MU_new_hash l.
  Proof.
    intros Hl S1 T. pose proof (den_proof H e n F HD l Hl) as D. rewrite T in D. destruct D as [_ D].
    apply (den_by_segment H e n F HD l _ Hl) in D. rewrite S1 in D. destruct D as (_ & D1 & D2).
    apply (proj1 (den_assert_equal e l _ _ _)) in D1, D2. rewrite !(ev_cur e n F) in D1, D2 by exact Hl. auto.
  Qed.

  (* the shape of an update below its start row *)
  Record shape (i : Z) (d : nat) : Prop := {
    sh_run : acc_run e i d;
    sh_lt : i + Z.of_nat d + 1 < n;
    sh_end : acc_end e (i + Z.of_nat d);
    sh_pt : pt (i + Z.of_nat d) = pt i;
    sh_old : adv MU_old_value (i + Z.of_nat d) = adv MU_old_value i;
    sh_new : adv MU_new_value (i + Z.of_nat d) = adv MU_new_value i;
    sh_key : adv MU_storage_key_rlc (i + Z.of_nat d) = adv MU_storage_key_rlc i }.
  Lemma has_shape i : 1 <= i -> i + 1 < n -> sg i = SegStart -> exists d, shape i d.
  Proof.
    intros Hi Hi' Es. destruct (acc_run_max e n F HL i Hi Hi' Es) as (d & R & Lt & C). exists d.
    destruct (pt_const H e n F HD i d Hi ltac:(lia)) as (A & B & C' & D).
    { intros k Hk. destruct (R k Hk) as [X _]. rewrite X. discriminate. }
    constructor; auto. apply (acc_ends H e n F HD HL i d); auto.
  Qed.

  Lemma small128 x y : 0 <= x < 2 ^ 64 -> 0 <= y < 2 ^ 64 -> 0 <= x + y * 2 ^ 64 < modulus.
  Proof. intros A B. apply small_lt_modulus. change (2 ^ 250) with (2 ^ 122 * (2 ^ 64 * 2 ^ 64)). nia. Qed.
  Lemma pack_inj x y x' y' : 0 <= x < 2 ^ 64 -> 0 <= y < 2 ^ 64 -> 0 <= x' < 2 ^ 64 -> 0 <= y' < 2 ^ 64 ->
    fz (x + y * 2 ^ 64) = fz (x' + y' * 2 ^ 64) -> x = x' /\ y = y'.
  Proof. intros A B C D E. apply fz_inj in E; [|apply small128; assumption|apply small128; assumption].
clear - A B C D E. nia. Qed.

  Lemma balance_range b : 0 <= b < 2 ^ 248 -> 0 <= b < modulus.
  Proof. intros A. apply small_lt_modulus. change (2 ^ 250) with (4 * 2 ^ 248). lia. Qed.

  Section Trie.
    Variables (t : tree account) (i : Z).
    Hypothesis Hi : 1 <= i /\ i + 1 < n.
    Hypothesis Hst : sg i = SegStart.
    Hypothesis Hroot : state_root H t = adv MU_old_hash i.
    Hypothesis Hbits : bits_ok n (height t).
    Hypothesis Hacc : tree_all account_ok t.
    Hypothesis CF : collision_free H (inputs H e t).
    Let K := adv MU_key i.

    Lemma reached_all (P : account -> Prop) : forall u d k a, tree_all P u -> reached u d K = Some (k, a) -> P a.
    Proof.
      induction u as [|k' v'|l IHl r IHr]; intros d k a A E; cbn in A, E; [discriminate|congruence|].
      destruct (kbit K d); [eapply IHr|eapply IHl]; try exact E; apply A.
    Qed.
    Lemma comp_inputs (a : account) x : known_a H e t a -> In x (word_inputs (keccak_code_hash a)) -> inputs H e t x.
    Proof. intros Ka Hx. apply Ka. unfold account_inputs. apply in_or_app. right. apply in_or_app. left. exact Hx. Qed.

    (* where in the table the new value comes from *)
    Definition sourced (p : MPTProofType) (a' : account) : Prop :=
      match p with
      | BalanceChanged => exists l, 1 <= l < n /\ balance a' = val (adv MU_new_hash l)
      | CodeHashExists => let w := keccak_code_hash a' in word_ok w /\ PH (fz (w / 2 ^ 128)) (fz (w mod 2 ^ 128)) (fdom DPair) (word_hash H w)
      | _ => True
      end.
    Theorem account_claim_sourced : field_proof (pt i) = true ->
      (exists k a a', reached t 0 K = Some (k, a) /\
         (field_claim (echal e) (pt i) a (adv MU_old_value i) (adv MU_new_value i) a' /\ sourced (pt i) a') /\
         state_root H (modify_reached (fun _ => a') t 0 K) = adv MU_new_hash i) \/
      (get t 0 K = None /\ adv MU_old_value i = f0 /\
        ((adv MU_new_value i = f0 /\ adv MU_new_hash i = adv MU_old_hash i) \/ pt i = NonceChanged \/ pt i = BalanceChanged)).
    Proof.
      intros Fp. destruct (has_shape i (proj1 Hi) (proj2 Hi) Hst) as (d & Sh). destruct Sh as [R Lt En Tj Oj Nj _].
      set (j := i + Z.of_nat d) in *.
      destruct En as [E0|S0 P0|S0 P0].
      - right. 
        assert (Hp : has_empty_part (pt j) = true).
        { rewrite Tj. destruct (r_seg_trans H e n F HD j ltac:(lia) Lt) as (l & TS & I). rewrite Tj, E0 in *.
          assert (Sj : sg j = SegStart \/ sg j = AccountTrie).
          { unfold j. destruct d as [|d']; [left; rewrite Z.add_0_r; exact Hst|right; apply R; lia]. }
          destruct (pt i); try discriminate Fp; try reflexivity. destruct Sj as [Sj|Sj]; rewrite Sj in TS; cbn in TS; injection TS as <-; cbn in I; intuition discriminate. }
        destruct (acc_absent_empty H e n OK t i Hi Hst Hroot Hbits CF d R Lt Hp E0) as (A & B & C & D).
        fold j in B, C. rewrite Oj in B. rewrite Nj in C. auto 6.
      - left.
        destruct (acc_leaf H e n OK t i Hi Hst Hroot Hbits CF d R Lt S0 P0) as (k & a & Ra & Ka & Ea & Up). fold j K in Ra, Ea, Up.
        pose proof (reached_all account_ok t 0 k a Hacc Ra) as Oa. destruct Oa as (On & Oc & Ob & Ok & _).
        exists k, a.
        destruct (leaf_rows H e n F HD HL (j + 1) ltac:(unfold j in *; lia) S0 P0) as (L2 & _ & S1 & P1 & T1 & Alt).
        assert (Tj1 : pt (j + 1) = pt i /\ adv MU_old_value (j + 1) = adv MU_old_value i /\ adv MU_new_value (j + 1) = adv MU_new_value i).
        { destruct (nonstart_step H e n F HD (j + 1) ltac:(unfold j in *; lia)) as (X & Y & Z & _); [rewrite S0; discriminate|].
          replace (j + 1 - 1) with j in * by lia. rewrite X, Y, Z. auto. }
        destruct Tj1 as (T0 & V0 & W0).
        assert (V1 : adv MU_old_value (j + 1 + 1) = adv MU_old_value i /\ adv MU_new_value (j + 1 + 1) = adv MU_new_value i).
        { destruct (nonstart_step H e n F HD (j + 1 + 1) ltac:(unfold j in *; lia)) as (X & Y & Z & _); [rewrite S1; discriminate|].
          replace (j + 1 + 1 - 1) with (j + 1) in * by lia. rewrite Y, Z. auto. }
        rewrite T0 in *.
        destruct Alt as [(Tp & [Bo Bn])|(Fr4 & L4 & b2 & b3 & S2 & S3 & P3 & T3 & D2 & D3 & B1 & B2 & B3)].
        + (* poseidon code hash *)
          destruct (l1_poseidon (j + 1 + 1)) as (Q1 & Q2); [unfold j in *; lia|exact S1|rewrite T1; exact Tp|].
          destruct V1 as (V1 & W1). unfold sideP in Bo, Bn. replace (j + 1 + 1 - 1) with (j + 1) in * by lia.
          rewrite <- Q1, V1 in Bo. rewrite <- Q2, W1 in Bn.
          assert (I4 : inputs H e t (H (H (cx a) (cy a) (fdom AccountFields)) (H (cs H a) (ck H a) (fdom AccountFields)) (fdom AccountFields), poseidon_code_hash a, fdom AccountFields)) by (apply Ka; cbn; auto).
          destruct (hinj H e n OK t CF _ _ _ _ _ _ _ Bo I4 Ea) as (U1 & U2 & _).
          exists (set_poseidon (adv MU_new_value i) a). split; [exact Ra|]. rewrite Tp. cbn [field_claim sourced].
          split; [auto|]. apply Up. apply HP in Bn. rewrite <- Bn, U1. reflexivity.
        + replace (j + 1 + 3) with (j + 4) in * by lia. replace (j + 1 + 2) with (j + 3) in * by lia.
          assert (V3 : adv MU_old_value (j + 4) = adv MU_old_value i /\ adv MU_new_value (j + 4) = adv MU_new_value i).
          { destruct (nonstart_step H e n F HD (j + 4) ltac:(unfold j in *; lia)) as (_ & Y & Z & _); [rewrite S3; discriminate|].
            destruct (nonstart_step H e n F HD (j + 3) ltac:(unfold j in *; lia)) as (_ & Y' & Z' & _); [rewrite S2; discriminate|].
            replace (j + 4 - 1) with (j + 3) in * by lia. replace (j + 3 - 1) with (j + 1 + 1) in * by lia.
            rewrite Y, Z, Y', Z'. exact V1. }
          destruct V3 as (V3 & W3). clear V1.
          destruct (acc_four H e n OK t CF a (j + 1) b2 b3 Ka Ea) as (Co & Cn);
            [exact B1|replace (j + 1 + 2) with (j + 3) by lia; exact B2|replace (j + 1 + 3) with (j + 4) by lia; exact B3|].
          replace (j + 1 + 3) with (j + 4) in * by lia.
          assert (Hl : 1 <= j + 4 < n) by (unfold j in *; lia).
          destruct (pt i) eqn:T; try discriminate Fp; try discriminate Fr4; cbn [leaf_dir] in D2, D3; injection D2 as <-; injection D3 as <-; cbn [comp with_comp] in Co, Cn.
          * destruct (l3_nonce (j + 4) Hl S3 P3 T3) as (ov & nv & c & X1 & X2 & X3 & X4 & X5 & X6 & X7).
            rewrite X6 in Co. apply pack_inj in Co; try assumption. destruct Co as [Co1 Co2].
            exists (set_nonce nv a). split; [exact Ra|]. split; [split; [exists nv; repeat split; try lia; congruence|exact Logic.I]|].
            apply Up. rewrite Cn, X7, Co2. reflexivity.
          * destruct (l3_balance (j + 4) Hl S3 P3 T3) as (ov & nv & X1 & X2 & X3 & X4 & X5 & X6).
            rewrite X5 in Co. apply fz_inj in Co; [|apply balance_range; exact X1|exact Ob].
            exists (set_balance nv a). split; [exact Ra|]. split; [split; [exists nv; repeat split; try lia; congruence|exists (j + 4); split; [exact Hl|]; rewrite X6, val_fz, Z.mod_small by (apply balance_range; exact X2); reflexivity]|].
            apply Up. rewrite Cn, X6. reflexivity.
          * destruct (l3_keccak (j + 4) Hl S3 T3) as (ov & nv & X1 & X2 & X3 & X4 & X5 & X6 & X7).
            destruct (hinj H e n OK t CF _ _ _ _ _ _ _ X5 (comp_inputs a _ Ka (or_introl eq_refl)) (eq_sym Co)) as (Y1 & Y2 & _).
            assert (Ew : ov = keccak_code_hash a).
            { unfold word_ok in *. change (2 ^ 256) with (2 ^ 128 * 2 ^ 128) in *.
              pose proof (Z.div_mod ov (2 ^ 128) ltac:(lia)). pose proof (Z.div_mod (keccak_code_hash a) (2 ^ 128) ltac:(lia)).
              pose proof (Z.mod_pos_bound ov (2 ^ 128) ltac:(lia)). pose proof (Z.mod_pos_bound (keccak_code_hash a) (2 ^ 128) ltac:(lia)).
              assert (0 <= ov / 2 ^ 128 < 2 ^ 128) by (split; [apply Z.div_pos; lia|apply Z.div_lt_upper_bound; lia]).
              assert (0 <= keccak_code_hash a / 2 ^ 128 < 2 ^ 128) by (split; [apply Z.div_pos; lia|apply Z.div_lt_upper_bound; lia]).
              apply fz_inj in Y1; [|apply small_lt_modulus; lia|apply small_lt_modulus; lia].
              apply fz_inj in Y2; [|apply small_lt_modulus; lia|apply small_lt_modulus; lia]. lia. }
            exists (set_keccak nv a). split; [exact Ra|]. split; [split; [exists nv; repeat split; try exact (proj1 X2); try exact (proj2 X2); congruence|exact (conj X2 X7)]|].
            apply Up. rewrite Cn, X6. reflexivity.
          * destruct (l3_code_size (j + 4) Hl S3 T3) as (c & ov & nv & X1 & X2 & X3 & X4 & X5 & X6 & X7).
            rewrite X6 in Co. apply pack_inj in Co; try assumption. destruct Co as [Co1 Co2].
            exists (set_code_size nv a). split; [exact Ra|]. split; [split; [exists nv; repeat split; try lia; congruence|exact Logic.I]|].
            apply Up. rewrite Cn, X7, Co1. reflexivity.
      - right. destruct (acc_absent_new H e n OK t i Hi Hst Hroot Hbits CF d R Lt S0 P0) as (A & B). fold j K in A, B.
        assert (Tn : pt (j + 1) = pt i /\ adv MU_old_value (j + 1) = adv MU_old_value i).
        { destruct (nonstart_step H e n F HD (j + 1) ltac:(unfold j in *; lia)) as (X & Y & _); [destruct S0 as [S0|S0]; rewrite S0; discriminate|].
          replace (j + 1 - 1) with j in * by lia. rewrite X, Y. auto. }
        destruct Tn as [Tn Vn]. split; [exact A|]. split; [congruence|]. right.
        assert (Hlt : j + 1 + 1 < n) by (apply (next_lt e n HL); [unfold j in *; lia|destruct S0 as [S0|S0]; rewrite S0; discriminate]).
        destruct (r_ext_new H e n F HD (j + 1)) as (X & _); [unfold j in *; lia|exact Hlt|exact P0|].
        rewrite Tn in X. cbn in X. destruct X as [X|[X|[X|[]]]]; rewrite <- X in *; auto. discriminate Fp.
    Qed.

    Theorem account_claim : field_proof (pt i) = true ->
      (exists k a a', reached t 0 K = Some (k, a) /\
         field_claim (echal e) (pt i) a (adv MU_old_value i) (adv MU_new_value i) a' /\
         state_root H (modify_reached (fun _ => a') t 0 K) = adv MU_new_hash i) \/
      (get t 0 K = None /\ adv MU_old_value i = f0 /\
        ((adv MU_new_value i = f0 /\ adv MU_new_hash i = adv MU_old_hash i) \/ pt i = NonceChanged \/ pt i = BalanceChanged)).
    Proof. intros Fp. destruct (account_claim_sourced Fp) as [(k & a & a' & A & (B & _) & C)|X]; [left; exists k, a, a'; exact (conj A (conj B C))|right; exact X]. Qed.

    (* account non-existence *)
    Theorem account_missing : pt i = AccountDoesNotExist ->
      get t 0 K = None /\ adv MU_old_value i = f0 /\ adv MU_new_value i = f0 /\ adv MU_new_hash i = adv MU_old_hash i.
    Proof.
      intros T. destruct (has_shape i (proj1 Hi) (proj2 Hi) Hst) as (d & Sh). destruct Sh as [R Lt En Tj Oj Nj _].
      set (j := i + Z.of_nat d) in *.
      destruct (r_seg_trans H e n F HD j ltac:(lia) Lt) as (l & TS & I). rewrite Tj, T in TS.
      assert (Sj : sg j = SegStart \/ sg j = AccountTrie).
      { unfold j. destruct d as [|d']; [left; rewrite Z.add_0_r; exact Hst|right; apply R; lia]. }
      assert (Tl : l = [AccountTrie; SegStart]) by (destruct Sj as [Sj|Sj]; rewrite Sj in TS; cbn in TS; congruence).
      subst l. destruct En as [E0|S0 P0|S0 P0].
      - destruct (acc_absent_empty H e n OK t i Hi Hst Hroot Hbits CF d R Lt) as (A & B & C & D); [fold j; rewrite Tj, T; reflexivity|exact E0|].
        fold j in B, C. rewrite Oj in B. rewrite Nj in C. auto.
      - rewrite S0 in I. cbn in I. intuition discriminate.
      - exfalso.
        assert (Tn : pt (j + 1) = pt i).
        { destruct (nonstart_step H e n F HD (j + 1) ltac:(unfold j in *; lia)) as (X & _); [destruct S0 as [S0|S0]; rewrite S0; discriminate|].
          replace (j + 1 - 1) with j in * by lia. rewrite X. auto. }
        assert (Hlt : j + 1 + 1 < n) by (apply (next_lt e n HL); [unfold j in *; lia|destruct S0 as [S0|S0]; rewrite S0; discriminate]).
        destruct (r_ext_new H e n F HD (j + 1)) as (X & _); [unfold j in *; lia|exact Hlt|exact P0|].
        rewrite Tn, T in X. cbn in X. intuition discriminate.
    Qed.
  End Trie.
End Claims.
