(* What the canonical representation and key bit gadgets enforce. *)
From Coq Require Import ZArith String List Bool Lia.
From Verif Require Import Pocklington Fr Query Builder BuilderProofs Gadgets GadgetProofs Bytes Fixed.
Import ListNotations.
Open Scope Z_scope.

Definition modulus_bytes : list Z := be_bytes 32 modulus.
Lemma modulus_lt : 0 <= modulus < 256 ^ Z.of_nat 32.
Proof. unfold modulus. cbn. lia. Qed.
Lemma modulus_bytes_val : be_val modulus_bytes = modulus.
Proof. apply be_val_be_bytes. exact modulus_lt. Qed.
Lemma modulus_bytes_len : List.length modulus_bytes = 32%nat.
Proof. apply be_bytes_length. Qed.
Lemma modulus_byte_nth k : (k < 32)%nat -> modulus_byte (Z.of_nat k) = nth k modulus_bytes 0.
Proof. intros H. unfold modulus_byte. rewrite Nat2Z.id. symmetry. apply nth_be_bytes. exact H. Qed.
Lemma modulus_byte_ok k : is_byte (modulus_byte k).
Proof. unfold modulus_byte, be_byte. apply Z.mod_pos_bound. lia. Qed.

Lemma firstn_S_nth {A} (l : list A) k d : (k < List.length l)%nat -> firstn (S k) l = firstn k l ++ [nth k l d].
Proof.
  revert k. induction l as [|x l IH]; intros k H; cbn in *; [lia|].
  destruct k; [reflexivity|]. cbn. rewrite IH by lia. reflexivity.
Qed.

Section Canon.
  Variables (e : env) (n : Z).
  Hypothesis F : fixed_ok e n.
  Hypothesis HD : forall i, 1 <= i < n -> den e i canonical_representation_configure.
  Let Hn := fo_rows e n F.
  Let Hu := fo_usable e n F.
  Let Hs := fo_small e n F.

  Lemma cr_fix_zero i : 0 <= i < eN e ->
    efix e CR_index_is_zero i = fb (in_range 1 i (1 + 32 * (n / 32)) && ((i - 1) mod 32 =? 0)).
  Proof. intros Hi. apply (fo_cells e n F); [discriminate|exact Hi]. Qed.

  Record cr_row (i : Z) : Prop := {
    cr_byte : exists b, is_byte b /\ eadv e CR_byte i = fz b;
    cr_bin : eadv e CR_zero_so_far i = f0 \/ eadv e CR_zero_so_far i = f1;
    cr_iz : den e i (is_zero_configure CR_difference_is_zero);
    cr_diff : eadv e CR_difference i = (efix e CR_modulus_byte i - eadv e CR_byte i)%fr;
    cr_first : efix e CR_index_is_zero i = f1 ->
      eval e i (cur CR_value) = eval e i (fold_left (fun acc x => (acc * qz 256 + x)%q)
         (map (fun i => rotation CR_byte (Z.of_nat i)) (seq 0 32)) qzero) /\
      eadv e CR_zero_so_far i = f1 /\ eadv e CR_rlc i = eadv e CR_byte i;
    cr_next : efix e CR_index_is_zero i = f0 ->
      eadv e CR_value i = eadv e CR_value (i - 1) /\
      eadv e CR_zero_so_far i =
        (eadv e CR_zero_so_far (i - 1) * (1 - eadv e CR_difference (i - 1) * eadv e CR_difference_inv (i - 1)))%fr /\
      eadv e CR_rlc i = (eadv e CR_rlc (i - 1) * echal e + eadv e CR_byte i)%fr;
    cr_range : eadv e CR_zero_so_far i = f1 -> eadv e CR_difference i <> f0 ->
      exists d, 0 <= d < 256 /\ eadv e CR_difference i = fz d;
    cr_last : 31 <= i -> efix e CR_index_is_zero (i - 31) = f1 ->
      ~ (eadv e CR_zero_so_far i = f1 /\ eadv e CR_difference i = f0) }.

  Lemma cr_rows i : 1 <= i < n -> cr_row i.
  Proof.
    intros Hi. destruct (HD i Hi) as (H1 & H2 & H3 & H4 & H5 & H6 & H7 & H8).
    pose proof (iz_current_sound e i CR_difference_is_zero ltac:(lia) H2) as HZ.
    change (iz_value CR_difference_is_zero) with CR_difference in HZ.
    constructor.
    - cbn [den] in H6. specialize (H6 eq_refl). apply (byte_hit e n F) in H6.
      destruct H6 as (b & Hb & E). rewrite eval_cur in E by lia. exists b. split; assumption.
    - apply den_binary; [lia|]. apply H1.
    - exact H2.
    - apply den_assert_equal in H3. rewrite eval_sub, eval_fcur, !eval_cur in H3 by lia. exact H3.
    - intros Hz. destruct (H4 (eq_trans (eval_fcur e i _ ltac:(lia)) Hz)) as (A & B & C).
      apply den_assert_equal in A, C. apply den_assert in B. rewrite !eval_cur in B by lia. rewrite !eval_cur in C by lia. auto.
    - intros Hz. assert (E0 : eval e i (bnot (fcur CR_index_is_zero)) = f1).
      { rewrite eval_bnot, eval_fcur, Hz by lia. ring. }
      destruct (H5 E0) as (A & B & C).
      apply den_assert_equal in A, B, C. rewrite eval_cur, eval_prev in A by lia.
      rewrite eval_band, eval_cur, eval_prev in B by lia. unfold iz_previous in B.
      rewrite eval_sub in B. cbn [eval] in B. rewrite !eval_prev in B by lia.
      cbn [eval] in C. rewrite !eval_cur, eval_prev in C by lia. auto.
    - intros Hzs Hd. cbn [den] in H7. rewrite eval_band, eval_bnot, eval_cur, HZ, Hzs in H7 by lia.
      destruct (feqb_spec (eadv e CR_difference i) f0) as [|_]; [contradiction|].
      cbn [fb] in H7. specialize (H7 ltac:(ring) eq_refl). apply (byte_hit e n F) in H7.
      destruct H7 as (d & Hd2 & E). rewrite eval_cur in E by lia. exists d. auto.
    - intros H31 Hz [A B].
      assert (E : eval e i (frot CR_index_is_zero (-31)) = f1).
      { unfold frot. cbn [eval]. rewrite Z.mod_small by lia. exact Hz. }
      apply H8 in E. apply den_assert in E. rename E into H8'. clear H8. rename H8' into H8. rewrite eval_bnot, eval_band, eval_cur, HZ, A, B in H8 by lia.
      rewrite feqb_refl in H8. cbn [fb] in H8. apply f1_neq_f0. rewrite <- H8. ring.
  Qed.

  (* a group whose 32 rows are all enabled *)
  Section Group.
    Variable g : Z.
    Hypothesis Hg : 0 <= g /\ 32 * g + 32 < n.
    Definition grow (k : nat) : Z := 1 + 32 * g + Z.of_nat k.
    Definition gbytes : list Z := map (fun k => val (eadv e CR_byte (grow k))) (seq 0 32).
    Lemma g_lt : g < n / 32.
    Proof. apply Z.lt_le_trans with (g + 1); [lia|]. apply Z.div_le_lower_bound; lia. Qed.
    Lemma grow_mod k : (k < 32)%nat -> (grow k - 1) mod 32 = Z.of_nat k.
    Proof.
      intros H. unfold grow. replace (1 + 32 * g + Z.of_nat k - 1) with (Z.of_nat k + g * 32) by lia.
      rewrite Z.mod_add by lia. apply Z.mod_small. lia.
    Qed.
    Lemma grow_in k : (k < 32)%nat -> in_range 1 (grow k) (1 + 32 * (n / 32)) = true.
    Proof. intros H. apply in_range_true. pose proof g_lt. unfold grow. lia. Qed.
    Lemma grow_enabled k : (k < 32)%nat -> 1 <= grow k < n.
    Proof. unfold grow. lia. Qed.
    Lemma grow_is_zero k : (k < 32)%nat -> efix e CR_index_is_zero (grow k) = fb (Z.of_nat k =? 0).
    Proof.
      intros H. pose proof (grow_enabled k H). rewrite cr_fix_zero by lia.
      rewrite grow_in, grow_mod by exact H. reflexivity.
    Qed.
    Lemma grow_modulus k : (k < 32)%nat -> efix e CR_modulus_byte (grow k) = fz (nth k modulus_bytes 0).
    Proof.
      intros H. pose proof (grow_enabled k H). rewrite (fo_cells e n F) by (try discriminate; lia).
      cbn [fixed_cell]. rewrite grow_in, grow_mod, modulus_byte_nth by exact H. reflexivity.
    Qed.
    Lemma grow_S k : grow (S k) - 1 = grow k. Proof. unfold grow. lia. Qed.
    Lemma gbyte k : (k < 32)%nat -> is_byte (nth k gbytes 0) /\ eadv e CR_byte (grow k) = fz (nth k gbytes 0).
    Proof.
      intros H. unfold gbytes. rewrite (nth_indep _ 0 (val (eadv e CR_byte (grow 0)))) by (rewrite map_length, seq_length; exact H).
      rewrite (map_nth (fun k => val (eadv e CR_byte (grow k)))). rewrite seq_nth by exact H. rewrite Nat.add_0_l, fz_val.
      split; [|reflexivity]. destruct (cr_byte _ (cr_rows _ (grow_enabled k H))) as (b & Hb & ->).
      rewrite val_fz_small; [exact Hb|]. apply small_lt_modulus. unfold is_byte in Hb. lia.
    Qed.
    Lemma gbytes_len : List.length gbytes = 32%nat.
    Proof. unfold gbytes. rewrite map_length, seq_length. reflexivity. Qed.
    Lemma gbytes_ok : bytes_ok gbytes.
    Proof.
      apply Forall_forall. intros x Hx. apply (In_nth _ _ 0) in Hx. destruct Hx as (k & Hk & <-).
      rewrite gbytes_len in Hk. apply gbyte. exact Hk.
    Qed.

    (* value *)
    Lemma g_value0 : eadv e CR_value (grow 0) = fz (be_val gbytes).
    Proof.
      pose proof (grow_enabled 0 ltac:(lia)) as H0.
      destruct (cr_first _ (cr_rows _ H0)) as (E & _).
      { rewrite grow_is_zero by lia. reflexivity. }
      rewrite eval_cur in E by lia. rewrite E. rewrite <- rlc_256. unfold rlc, gbytes.
      assert (G : forall l q a, eval e (grow 0) q = a -> Forall (fun k => (k < 32)%nat) l ->
        eval e (grow 0) (fold_left (fun acc x => (acc * qz 256 + x)%q) (map (fun i => rotation CR_byte (Z.of_nat i)) l) q)
        = fold_left (fun acc b => (fz 256 * acc + fz b)%fr) (map (fun k => val (eadv e CR_byte (grow k))) l) a).
      { induction l as [|k l IH]; intros q a Hq Hl; cbn [map fold_left]; [exact Hq|].
        inversion Hl as [|? ? Hk Hl2]; subst. apply IH; [|exact Hl2].
        cbn [eval]. rewrite eval_qz, fz_val. unfold rotation. cbn [eval].
        rewrite Z.mod_small by (pose proof (grow_enabled k Hk); unfold grow in *; lia).
        replace (grow 0 + Z.of_nat k) with (grow k) by (unfold grow; lia). ring. }
      apply G; [reflexivity|]. apply Forall_forall. intros k Hk. apply in_seq in Hk. lia.
    Qed.

    Lemma g_rows k : (k < 32)%nat ->
      eadv e CR_value (grow k) = fz (be_val gbytes) /\
      eadv e CR_rlc (grow k) = rlc (firstn (S k) gbytes) (echal e) /\
      ((eadv e CR_zero_so_far (grow k) = f1 /\ firstn k gbytes = firstn k modulus_bytes) \/
       (eadv e CR_zero_so_far (grow k) = f0 /\ be_val (firstn k gbytes) < be_val (firstn k modulus_bytes))).
    Proof.
      induction k as [|k IH]; intros Hk.
      - pose proof (grow_enabled 0 Hk) as H0.
        destruct (cr_first _ (cr_rows _ H0)) as (_ & E1 & E2).
        { rewrite grow_is_zero by lia. reflexivity. }
        split; [apply g_value0|]. split; [|left; split; [exact E1|reflexivity]].
        rewrite E2. destruct (gbyte 0 Hk) as [_ ->].
        rewrite (firstn_S_nth gbytes 0 0) by (rewrite gbytes_len; lia).
        rewrite rlc_snoc. cbn [firstn]. unfold rlc. cbn [fold_left]. ring.
      - destruct (IH ltac:(lia)) as (V & R & Z). clear IH.
        pose proof (grow_enabled (S k) Hk) as HS. pose proof (grow_enabled k ltac:(lia)) as HK.
        destruct (cr_next _ (cr_rows _ HS)) as (E1 & E2 & E3).
        { rewrite grow_is_zero by exact Hk. replace (Z.of_nat (S k) =? 0) with false; [reflexivity|].
          symmetry. apply Z.eqb_neq. lia. }
        rewrite grow_S in *. split; [congruence|]. destruct (gbyte (S k) Hk) as [_ EB].
        split.
        { rewrite E3, R, EB. rewrite (firstn_S_nth gbytes (S k) 0) by (rewrite gbytes_len; lia).
          rewrite rlc_snoc. ring. }
        pose proof (cr_rows _ HK) as CK. destruct (gbyte k ltac:(lia)) as [Bk EBk].
        pose proof (iz_eqs e (grow k) CR_difference_is_zero ltac:(lia) (cr_iz _ CK)) as IZ.
        change (iz_value CR_difference_is_zero) with CR_difference in IZ.
        change (iz_inv CR_difference_is_zero) with CR_difference_inv in IZ. rewrite IZ in E2. clear IZ.
        rewrite (firstn_S_nth gbytes k 0) by (rewrite gbytes_len; lia).
        rewrite (firstn_S_nth modulus_bytes k 0) by (rewrite modulus_bytes_len; lia).
        assert (Mk : is_byte (nth k modulus_bytes 0)).
        { rewrite <- modulus_byte_nth by lia. apply modulus_byte_ok. }
        pose proof (cr_diff _ CK) as D. rewrite grow_modulus, EBk in D by lia. rewrite <- fz_sub in D.
        unfold is_byte in *.
        destruct Z as [[Z1 Z2]|[Z1 Z2]]; rewrite Z1 in E2.
        + destruct (feqb_spec (eadv e CR_difference (grow k)) f0) as [D0|D0]; cbn [fb] in E2.
          * left. split; [rewrite E2; ring|]. rewrite Z2. do 2 f_equal.
            rewrite D in D0. rewrite fz_sub in D0. apply (proj1 (fsub_eq0 _ _)) in D0.
            symmetry. apply fz_inj in D0; [exact D0| |]; apply small_lt_modulus; lia.
          * right. split; [rewrite E2; ring|]. rewrite !be_val_snoc, Z2.
            destruct (cr_range _ CK Z1 D0) as (d & Hd & Ed). rewrite D in Ed.
            assert (L : nth k modulus_bytes 0 = d + nth k gbytes 0).
            { apply fz_inj; try (apply small_lt_modulus; lia). rewrite fz_add, <- Ed, fz_sub. ring. }
            assert (d <> 0).
            { intros ->. apply D0. rewrite D, Ed. reflexivity. }
            lia.
        + right. split; [rewrite E2; ring|]. rewrite !be_val_snoc. lia.
    Qed.

    Lemma g_canonical : gbytes = be_bytes 32 (val (eadv e CR_value (grow 0))).
    Proof.
      assert (L : be_val gbytes < modulus).
      { destruct (g_rows 31 ltac:(lia)) as (_ & _ & Z).
        pose proof (grow_enabled 31 ltac:(lia)) as H31. pose proof (cr_rows _ H31) as C.
        destruct (gbyte 31 ltac:(lia)) as [B EB].
        assert (M : is_byte (nth 31 modulus_bytes 0)).
        { rewrite <- modulus_byte_nth by lia. apply modulus_byte_ok. }
        pose proof (cr_diff _ C) as D. rewrite grow_modulus, EB in D by lia. rewrite <- fz_sub in D.
        rewrite <- modulus_bytes_val.
        rewrite <- (firstn_all gbytes), <- (firstn_all modulus_bytes), gbytes_len, modulus_bytes_len.
        rewrite (firstn_S_nth gbytes 31 0) by (rewrite gbytes_len; lia).
        rewrite (firstn_S_nth modulus_bytes 31 0) by (rewrite modulus_bytes_len; lia).
        rewrite !be_val_snoc. unfold is_byte in *. destruct Z as [[Z1 Z2]|[Z1 Z2]]; [|lia].
        assert (D0 : eadv e CR_difference (grow 31) <> f0).
        { intros D0. apply (cr_last _ C); [unfold grow; lia| |split; assumption].
          replace (grow 31 - 31) with (grow 0) by (unfold grow; lia). rewrite grow_is_zero by lia. reflexivity. }
        destruct (cr_range _ C Z1 D0) as (d & Hd & Ed). rewrite D in Ed.
        assert (L : nth 31 modulus_bytes 0 = d + nth 31 gbytes 0).
        { apply fz_inj; try (apply small_lt_modulus; lia). rewrite fz_add, <- Ed, fz_sub. ring. }
        assert (d <> 0). { intros ->. apply D0. rewrite D, Ed. reflexivity. }
        rewrite Z2. lia. }
      pose proof (be_val_range gbytes gbytes_ok) as R.
      rewrite g_value0, val_fz_small by lia. rewrite <- gbytes_len, be_bytes_be_val by exact gbytes_ok. reflexivity.
    Qed.
    Lemma g_sound k : (k < 32)%nat ->
      let v := eadv e CR_value (grow k) in
      eadv e CR_byte (grow k) = fz (be_byte 32 (val v) k) /\
      eadv e CR_rlc (grow k) = rlc (firstn (S k) (be_bytes 32 (val v))) (echal e).
    Proof.
      intros Hk v. destruct (g_rows k Hk) as (V & R & _).
      assert (E : gbytes = be_bytes 32 (val v)).
      { rewrite g_canonical at 1. unfold v. rewrite V, g_value0. reflexivity. }
      split.
      - destruct (gbyte k Hk) as [_ ->]. rewrite E, nth_be_bytes by exact Hk. reflexivity.
      - rewrite R, E. reflexivity.
    Qed.
  End Group.

  (* the lookups *)
  Lemma canonical_hit_gen i q1 q2 q3 : n mod 32 <> 0 ->
    lookup_hit e i [q1; q2; q3] canonical_lookup ->
    exists k, (k < 32)%nat /\ eval e i q2 = fz (Z.of_nat k) /\
      (n mod 32 = 1 \/ k <> O -> eval e i q3 = fz (be_byte 32 (val (eval e i q1)) k)).
  Proof.
    intros Hmod H. apply (hit_row e n F) in H. destruct H as (t & Ht & HM). unfold canonical_lookup in HM.
    inversion HM as [|? ? ? ? M1 HM1]; subst. inversion HM1 as [|? ? ? ? M2 HM2]; subst.
    inversion HM2 as [|? ? ? ? M3 HM3]; subst. rewrite eval_cur in M1, M3 by lia. rewrite eval_fcur in M2 by lia.
    pose proof (Z_div_mod_eq_full n 32) as Hd. pose proof (Z_div_mod_eq_full (t - 1) 32) as Hd2.
    pose proof (Z.mod_pos_bound (t - 1) 32 ltac:(lia)). pose proof (Z.mod_pos_bound n 32 ltac:(lia)).
    set (g := (t - 1) / 32) in *.
    assert (Hg0 : 0 <= g) by (unfold g; apply Z.div_pos; lia).
    destruct (Z_lt_dec g (n / 32)) as [Hlt|Hge].
    - set (k := Z.to_nat ((t - 1) mod 32)).
      assert (Et : t = grow g k) by (unfold grow, k; lia).
      assert (Hg : 0 <= g /\ 32 * g + 32 < n) by lia. assert (Hk : (k < 32)%nat) by lia.
      exists k. split; [exact Hk|]. rewrite M1, M2, M3. split.
      + rewrite Et, (fo_cells e n F) by (try discriminate; pose proof (grow_enabled g Hg k Hk); lia).
        cbn [fixed_cell]. rewrite (grow_in g Hg k Hk), (grow_mod g k Hk). reflexivity.
      + intros _. rewrite Et. apply (g_sound g Hg k Hk).
    - exists O. split; [lia|]. rewrite M2. split.
      + rewrite (fo_cells e n F) by (try discriminate; lia). cbn [fixed_cell].
        replace (in_range 1 t (1 + 32 * (n / 32))) with false by (symmetry; apply in_range_false; lia). reflexivity.
      + intros [X|X]; [exfalso; lia|congruence].
  Qed.
  Lemma canonical_hit i q1 q2 q3 : n mod 32 = 1 ->
    lookup_hit e i [q1; q2; q3] canonical_lookup ->
    exists k, (k < 32)%nat /\ eval e i q2 = fz (Z.of_nat k) /\ eval e i q3 = fz (be_byte 32 (val (eval e i q1)) k).
  Proof.
    intros Hmod H. apply canonical_hit_gen in H; [|lia]. destruct H as (k & A & B & C). exists k. auto.
  Qed.
  Lemma fr_rlc_hit i q1 q2 : lookup_hit e i [q1; q2] fr_rlc_lookup ->
    eval e i q2 = rlc (be_bytes 32 (val (eval e i q1))) (echal e).
  Proof.
    intros H. apply (hit_row e n F) in H. destruct H as (t & Ht & HM). unfold fr_rlc_lookup in HM.
    inversion HM as [|? ? ? ? M1 HM1]; subst. inversion HM1 as [|? ? ? ? M2 HM2]; subst.
    cbn [eval] in M1, M2. rewrite eval_cur, eval_fcur in M1, M2 by lia.
    rewrite (fo_cells e n F) in M1, M2 by (try discriminate; lia). cbn [fixed_cell] in M1, M2.
    destruct (in_range 1 t (1 + 32 * (n / 32)) && ((t - 1) mod 32 =? 31)) eqn:E; cbn [fb] in M1, M2.
    - apply andb_true_iff in E. destruct E as [E1 E2]. apply in_range_true in E1. apply Z.eqb_eq in E2.
      pose proof (Z_div_mod_eq_full (t - 1) 32) as Hd2. set (g := (t - 1) / 32) in *.
      assert (Et : t = grow g 31) by (unfold grow; lia).
      assert (0 <= g) by (unfold g; apply Z.div_pos; lia).
      assert (Hg : 0 <= g /\ 32 * g + 32 < n) by lia.
      rewrite M1, M2, Et. destruct (g_sound g Hg 31 ltac:(lia)) as [_ R].
      replace (eadv e CR_rlc (grow g 31) * f1)%fr with (eadv e CR_rlc (grow g 31)) by ring.
      replace (eadv e CR_value (grow g 31) * f1)%fr with (eadv e CR_value (grow g 31)) by ring.
      rewrite R, firstn_all2 by (rewrite be_bytes_length; lia). reflexivity.
    - replace (eval e i q1) with f0 by (rewrite M1; ring). replace (eval e i q2) with f0 by (rewrite M2; ring).
      change (val f0) with 0. change (be_bytes 32 0) with (repeat 0 32).
      assert (Z : forall m r, rlc (repeat 0 m) r = f0).
      { induction m; intros r; [reflexivity|]. replace (S m) with (m + 1)%nat by lia. rewrite repeat_app.
        cbn [repeat]. rewrite rlc_snoc, IHm. change (fz 0) with f0. ring. }
      rewrite Z. reflexivity.
  Qed.

  (** key bit: bit index i < 248 is right unless n is a multiple of 32; all are right if n mod 32 = 1 *)
  Lemma key_bit_row t : n mod 32 <> 0 -> 1 <= t < n -> den e t key_bit_configure ->
    exists i, 0 <= i < 256 /\ eadv e KB_index t = fz i /\
      (n mod 32 = 1 \/ i < 248 -> eadv e KB_bit t = fb (Z.testbit (val (eadv e KB_value t)) i)).
  Proof.
    intros Hmod Ht (H1 & H2 & H3 & H4 & H5 & H6). cbn [den] in *.
    specialize (H1 eq_refl). specialize (H2 eq_refl). specialize (H3 eq_refl).
    specialize (H4 eq_refl). specialize (H5 eq_refl).
    apply (byte_hit e n F) in H1, H2. apply (idx8_hit e n F) in H3. apply (canonical_hit_gen _ _ _ _ Hmod) in H4.
    apply (byte_bit_hit e n F) in H5. apply (den_assert_equal e t "") in H6. cbn [eval] in H6.
    destruct H1 as (i & Hi & E1). destruct H2 as (d & Hd & E2). destruct H3 as (m & Hm & E3).
    destruct H4 as (k & Hk & E4 & E5). destruct H5 as (b & m' & Hb & Hm' & E6 & E7 & E8).
    rewrite eval_sub, eval_qz in E4. rewrite !eval_cur in * by lia. rewrite eval_qz in H6.
    rewrite E1, E2, E3 in *. exists i. split; [exact Hi|]. split; [reflexivity|]. intros Hlow.
    rewrite <- fz_mul, <- fz_add in H6. apply fz_inj in H6; try (apply small_lt_modulus; lia).
    apply fz_inj in E7; try (apply small_lt_modulus; lia). subst m'.
    assert (Ed : 31 = Z.of_nat k + d).
    { apply fz_inj; try (apply small_lt_modulus; lia). rewrite fz_add, <- E4. ring. }
    assert (E5' : eadv e KB_byte t = fz (be_byte 32 (val (eadv e KB_value t)) k)) by (apply E5; lia). clear E5. rename E5' into E5.
    rewrite E8, (testbit_byte _ i) by lia. rewrite E6 in E5.
    apply fz_inj in E5; [| apply small_lt_modulus; lia | apply small_lt_modulus; unfold be_byte;
      pose proof (Z.mod_pos_bound (val (eadv e KB_value t) / 256 ^ (Z.of_nat 32 - 1 - Z.of_nat k)) 256); lia].
    rewrite E5. unfold be_byte.
    assert (D8 : i / 8 = d) by (subst i; rewrite Z.add_comm, Z.div_add, Z.div_small by lia; lia).
    assert (M8 : i mod 8 = m) by (subst i; rewrite Z.add_comm, Z.mod_add by lia; apply Z.mod_small; lia).
    rewrite D8, M8. replace (Z.of_nat 32 - 1 - Z.of_nat k) with d by lia. reflexivity.
  Qed.
  Lemma key_bit_hit_gen i q1 q2 q3 : n mod 32 <> 0 -> (forall t, 1 <= t < n -> den e t key_bit_configure) ->
    lookup_hit e i [q1; q2; q3] key_bit_lookup ->
    exists j, 0 <= j < 256 /\ eval e i q2 = fz j /\
      (n mod 32 = 1 \/ j < 248 -> eval e i q3 = fb (Z.testbit (val (eval e i q1)) j)).
  Proof.
    intros Hmod HK H. apply (hit_row e n F) in H. destruct H as (t & Ht & HM). unfold key_bit_lookup in HM.
    inversion HM as [|? ? ? ? M1 HM1]; subst. inversion HM1 as [|? ? ? ? M2 HM2]; subst.
    inversion HM2 as [|? ? ? ? M3 HM3]; subst. rewrite eval_cur in M1, M2, M3 by lia.
    rewrite M1, M2, M3. apply key_bit_row; auto.
  Qed.
  Lemma key_bit_hit i q1 q2 q3 : n mod 32 = 1 -> (forall t, 1 <= t < n -> den e t key_bit_configure) ->
    lookup_hit e i [q1; q2; q3] key_bit_lookup ->
    exists j, 0 <= j < 256 /\ eval e i q2 = fz j /\ eval e i q3 = fb (Z.testbit (val (eval e i q1)) j).
  Proof.
    intros Hmod HK H. apply key_bit_hit_gen in H; [|lia|exact HK]. destruct H as (j & A & B & C). exists j. auto.
  Qed.
End Canon.
