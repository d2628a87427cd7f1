(* The fixed columns of the complete circuit, in closed form, and what the byte/bit table, the byte
   representation, canonical representation and key bit gadgets enforce over them.
   MptAssign.v and AssignRegion.v prove that the modelled assignment code produces exactly these cells. *)
From Coq Require Import ZArith String List Bool Lia.
From Verif Require Import Pocklington Fr Query Builder BuilderProofs Gadgets GadgetProofs Bytes.
Import ListNotations.
Open Scope Z_scope.

Definition in_range (lo i hi : Z) : bool := (lo <=? i) && (i <? hi).
Lemma in_range_true lo i hi : in_range lo i hi = true <-> lo <= i < hi.
Proof. unfold in_range. rewrite andb_true_iff, Z.leb_le, Z.ltb_lt. reflexivity. Qed.
Lemma in_range_false lo i hi : in_range lo i hi = false <-> ~ (lo <= i < hi).
Proof. rewrite <- in_range_true. destruct (in_range lo i hi); split; congruence. Qed.

(* i-th big-endian byte of the modulus *)
Definition modulus_byte (i : Z) : Z := be_byte 32 modulus (Z.to_nat i).

(* n = n_rows.  Citations: mpt.rs:210-212 and 249; byte_bit.rs:33-50;
   byte_representation.rs:103; canonical_representation.rs:135-215 *)
Definition fixed_cell (n : Z) (c : fcol) (i : Z) : Fr :=
  match c with
  | SEL => fb (in_range 1 i n)
  | FINAL => fb (i =? n - 1)
  | BB_byte => if in_range 1 i 2049 then fz ((i - 1) / 8) else f0
  | BB_index => if in_range 1 i 2049 then fz ((i - 1) mod 8) else f0
  | BB_bit => if in_range 1 i 2049 then fb (Z.testbit ((i - 1) / 8) ((i - 1) mod 8)) else f0
  | BR_is_first => fb (i =? 0)
  | CR_index_is_zero => fb (in_range 1 i (1 + 32 * (n / 32)) && ((i - 1) mod 32 =? 0))
  | CR_index_is_31 => fb (in_range 1 i (1 + 32 * (n / 32)) && ((i - 1) mod 32 =? 31))
  | CR_index => if in_range 1 i (1 + 32 * (n / 32)) then fz ((i - 1) mod 32) else f0
  | CR_modulus_byte => if in_range 1 i (1 + 32 * (n / 32)) then fz (modulus_byte ((i - 1) mod 32)) else f0
  | P_q_enable => f0
  end.

(* [fixed_ok e n]: the fixed columns of e are those assigned for n_rows = n (the poseidon table's
   q_enable belongs to another circuit), and the table is large enough *)
Record fixed_ok (e : env) (n : Z) : Prop := {
  fo_cells : forall c i, c <> P_q_enable -> 0 <= i < eN e -> efix e c i = fixed_cell n c i;
  fo_rows : 2049 <= n <= eusable e;
  fo_usable : eusable e <= eN e;
  fo_small : eN e < 2 ^ 64 }.

Lemma fixed_wf e n : fixed_ok e n -> wf_env e.
Proof. intros H. pose proof (fo_rows _ _ H). pose proof (fo_usable _ _ H). unfold wf_env. lia. Qed.

Section Sound.
  Variables (e : env) (n : Z).
  Hypothesis F : fixed_ok e n.
  Let Hn := fo_rows e n F.
  Let Hu := fo_usable e n F.
  Let Hs := fo_small e n F.

  Lemma sel_on i : 1 <= i < n -> efix e SEL i = f1.
  Proof.
    intros H. rewrite (fo_cells e n F) by (try discriminate; lia). cbn [fixed_cell].
    replace (in_range 1 i n) with true; [reflexivity|]. symmetry. apply in_range_true. lia.
  Qed.
  Lemma sel_inv i : 0 <= i < eN e -> efix e SEL i = f1 -> 1 <= i < n.
  Proof.
    intros Hi H. rewrite (fo_cells e n F) in H by (try discriminate; lia). cbn [fixed_cell] in H.
    apply fb_true in H. apply in_range_true in H. exact H.
  Qed.
  Lemma hit_row i l r : lookup_hit e i l r -> exists t, 1 <= t < n /\ tuple_match e i t l r.
  Proof.
    intros (t & Ht & Hsel & Hm). exists t. split; [|exact Hm]. apply sel_inv; [lia|exact Hsel].
  Qed.

  (** byte/bit table *)
  Lemma bb_cells t : 1 <= t < n -> exists b k,
    0 <= b < 256 /\ 0 <= k < 8 /\ efix e BB_byte t = fz b /\ efix e BB_index t = fz k /\
    efix e BB_bit t = fb (Z.testbit b k).
  Proof.
    intros H. rewrite !(fo_cells e n F) by (try discriminate; lia). cbn [fixed_cell].
    destruct (in_range 1 t 2049) eqn:R.
    - apply in_range_true in R. exists ((t - 1) / 8), ((t - 1) mod 8).
      pose proof (Z.mod_pos_bound (t - 1) 8). pose proof (Z.div_pos (t - 1) 8).
      assert ((t - 1) / 8 < 256) by (apply Z.div_lt_upper_bound; lia).
      repeat split; lia || reflexivity.
    - exists 0, 0. repeat split; lia || reflexivity.
  Qed.
  Lemma bb_cells_conv b k : 0 <= b < 256 -> 0 <= k < 8 -> exists t, 1 <= t < n /\
    efix e BB_byte t = fz b /\ efix e BB_index t = fz k /\ efix e BB_bit t = fb (Z.testbit b k).
  Proof.
    intros Hb Hk. exists (1 + 8 * b + k). split; [lia|].
    rewrite !(fo_cells e n F) by (try discriminate; lia). cbn [fixed_cell].
    replace (in_range 1 (1 + 8 * b + k) 2049) with true by (symmetry; apply in_range_true; lia).
    replace (1 + 8 * b + k - 1) with (k + b * 8) by lia.
    rewrite Z.div_add, Z.mod_add, Z.div_small, Z.mod_small by lia. rewrite Z.add_0_l. auto.
  Qed.
  Lemma byte_hit i q : lookup_hit e i [q] range_check_256_lookup <-> exists b, 0 <= b < 256 /\ eval e i q = fz b.
  Proof.
    split.
    - intros H. apply hit_row in H. destruct H as (t & Ht & Hm). inversion Hm; subst.
      destruct (bb_cells t Ht) as (b & k & Hb & _ & E & _). exists b. split; [exact Hb|].
      rewrite <- E, <- (eval_fcur e t BB_byte) by lia. assumption.
    - intros (b & Hb & E). destruct (bb_cells_conv b 0 Hb ltac:(lia)) as (t & Ht & E1 & _).
      exists t. split; [lia|]. split; [apply sel_on; exact Ht|]. constructor; [|constructor].
      rewrite eval_fcur by lia. congruence.
  Qed.
  Lemma idx8_hit i q : lookup_hit e i [q] range_check_8_lookup <-> exists b, 0 <= b < 8 /\ eval e i q = fz b.
  Proof.
    split.
    - intros H. apply hit_row in H. destruct H as (t & Ht & Hm). inversion Hm; subst.
      destruct (bb_cells t Ht) as (b & k & _ & Hb & _ & E & _). exists k. split; [exact Hb|].
      rewrite <- E, <- (eval_fcur e t BB_index) by lia. assumption.
    - intros (b & Hb & E). destruct (bb_cells_conv 0 b ltac:(lia) Hb) as (t & Ht & _ & E1 & _).
      exists t. split; [lia|]. split; [apply sel_on; exact Ht|]. constructor; [|constructor].
      rewrite eval_fcur by lia. congruence.
  Qed.
  Lemma byte_bit_hit i q1 q2 q3 : lookup_hit e i [q1; q2; q3] byte_bit_lookup <->
    exists b k, 0 <= b < 256 /\ 0 <= k < 8 /\ eval e i q1 = fz b /\ eval e i q2 = fz k /\
      eval e i q3 = fb (Z.testbit b k).
  Proof.
    split.
    - intros H. apply hit_row in H. destruct H as (t & Ht & Hm). unfold byte_bit_lookup in Hm.
      inversion Hm as [|? ? ? ? M1 Hm1]; subst. inversion Hm1 as [|? ? ? ? M2 Hm2]; subst.
      inversion Hm2 as [|? ? ? ? M3 Hm3]; subst. rewrite eval_fcur in M1, M2, M3 by lia.
      destruct (bb_cells t Ht) as (b & k & Hb & Hk & E1 & E2 & E3). exists b, k.
      rewrite M1, M2, M3. auto.
    - intros (b & k & Hb & Hk & E1 & E2 & E3). destruct (bb_cells_conv b k Hb Hk) as (t & Ht & T1 & T2 & T3).
      exists t. split; [lia|]. split; [apply sel_on; exact Ht|]. unfold byte_bit_lookup.
      repeat constructor; rewrite eval_fcur by lia; congruence.
  Qed.

  (** byte representation *)
  (* On every enabled row from 1 on, if row 1 starts a byte string. *)
  Definition br_row (i : Z) : Prop := exists bs,
    bs <> [] /\ bytes_ok bs /\ Z.of_nat (List.length bs) <= i /\
    eadv e BR_index i = fz (Z.of_nat (List.length bs) - 1) /\
    eadv e BR_value i = fz (be_val bs) /\ eadv e BR_rlc i = rlc bs (echal e).

  Lemma br_step i : 1 <= i < n -> den e i byte_representation_configure ->
    exists b, is_byte b /\ eadv e BR_byte i = fz b /\
    ((eadv e BR_index i = f0 /\ eadv e BR_value i = fz b /\ eadv e BR_rlc i = fz b) \/
     (eadv e BR_index i <> f0 /\ eadv e BR_index i = (eadv e BR_index (i - 1) + 1)%fr /\
      eadv e BR_value i = (eadv e BR_value (i - 1) * fz 256 + fz b)%fr /\
      eadv e BR_rlc i = (eadv e BR_rlc (i - 1) * echal e + fz b)%fr)).
  Proof.
    intros Hi (Hz & _ & H1 & H2 & H3 & H4). cbn [den] in H4.
    specialize (H4 eq_refl). apply byte_hit in H4. destruct H4 as (b & Hb & Eb).
    rewrite eval_cur in Eb by lia. exists b. split; [exact Hb|]. split; [exact Eb|].
    apply den_assert_equal in H2, H3. cbn [eval] in H2, H3.
    change (eval e i randomness) with (echal e) in H3.
    rewrite eval_bnot, iz_current_sound in H2, H3 by (try exact Hz; lia).
    rewrite !eval_cur, eval_prev in H2, H3 by lia.
    cbn [den eval] in H1. rewrite !eval_sub, eval_cur, eval_prev in H1 by lia.
    change (eval e i qone) with f1 in H1. change (iz_value BR_index_is_zero) with BR_index in *.
    rewrite fb_not in H2, H3. rewrite Eb in H2, H3. rewrite eval_qz in H2.
    destruct (feqb_spec (eadv e BR_index i) f0) as [Z0|Z0]; cbn [negb fb] in H2, H3.
    - left. split; [exact Z0|]. rewrite H2, H3. split; ring.
    - right. split; [exact Z0|]. rewrite H2, H3. split; [|split; ring].
      apply fmul_eq0 in H1. destruct H1 as [H1|H1]; [contradiction|].
      transitivity (eadv e BR_index i - eadv e BR_index (i - 1) - 1 + (eadv e BR_index (i - 1) + 1))%fr; [ring|].
      rewrite H1. ring.
  Qed.
  Lemma br_single b i : 1 <= i -> is_byte b -> eadv e BR_index i = f0 -> eadv e BR_value i = fz b ->
    eadv e BR_rlc i = fz b -> br_row i.
  Proof.
    intros Hi Hb E1 E2 E3. exists [b]. repeat split.
    - discriminate.
    - constructor; [exact Hb|constructor].
    - cbn. lia.
    - rewrite E1. reflexivity.
    - rewrite E2. unfold be_val. cbn [fold_left]. f_equal; lia.
    - rewrite E3. unfold rlc. cbn [fold_left]. ring.
  Qed.
  Lemma br_rows : (forall i, 1 <= i < n -> den e i byte_representation_configure) ->
    eadv e BR_index 1 = f0 -> forall i, 1 <= i < n -> br_row i.
  Proof.
    intros HD H1. intros i Hi. replace i with (1 + Z.of_nat (Z.to_nat (i - 1))) in * by lia.
    set (k := Z.to_nat (i - 1)) in *. clearbody k. clear i.
    induction k as [|k IH].
    - destruct (br_step 1 ltac:(lia) (HD 1 ltac:(lia))) as (b & Hb & Eb & [(E1 & E2 & E3)|(E1 & _)]).
      + apply (br_single b); assumption || lia.
      + contradiction.
    - set (i := 1 + Z.of_nat (S k)) in *. replace (1 + Z.of_nat k) with (i - 1) in IH by (subst i; lia).
      specialize (IH ltac:(lia)).
      destruct (br_step i Hi (HD i Hi)) as (b & Hb & Eb & [(E1 & E2 & E3)|(E1 & E2 & E3 & E4)]).
      + apply (br_single b); assumption || lia.
      + destruct IH as (bs & Hne & Hok & Hlen & I1 & I2 & I3).
        exists (bs ++ [b]). rewrite app_length. cbn [List.length]. repeat split.
        * intros Hnil. apply app_eq_nil in Hnil. destruct Hnil; discriminate.
        * apply Forall_app. split; [exact Hok|]. constructor; [exact Hb|constructor].
        * lia.
        * rewrite E2, I1. rewrite <- (fz_add _ 1) at 1. f_equal. lia.
        * rewrite E3, I2, be_val_snoc, fz_add, fz_mul. ring.
        * rewrite E4, I3, rlc_snoc. ring.
  Qed.
  (* the number of bytes is small enough not to wrap around *)
  Lemma br_bytes_hit (i : Z) (q1 q2 : query) (m : Z) :
    (forall t, 1 <= t < n -> br_row t) -> 0 <= m <= 30 -> eval e i q2 = fz m ->
    lookup_hit e i [q1; q2] bytes_lookup ->
    exists v, 0 <= v < 256 ^ (m + 1) /\ eval e i q1 = fz v.
  Proof.
    intros HR Hm E2 H. apply hit_row in H. destruct H as (t & Ht & HM). unfold bytes_lookup in HM.
    inversion HM as [|? ? ? ? M1 HM1]; subst. inversion HM1 as [|? ? ? ? M2 HM2]; subst.
    rewrite eval_cur in M1, M2 by lia. destruct (HR t Ht) as (bs & Hne & Hok & Hlen & I1 & I2 & I3).
    rewrite E2, I1 in M2. pose proof (be_val_range bs Hok) as Hr.
    apply fz_inj in M2; [|apply small_lt_modulus; lia|apply small_lt_modulus].
    2:{ split; [|lia]. destruct bs; [congruence|cbn [List.length]; lia]. }
    exists (be_val bs). rewrite M1, I2. split; [|reflexivity].
    replace (m + 1) with (Z.of_nat (List.length bs)) by lia. exact Hr.
  Qed.
  Lemma br_rlc_hit (i : Z) (q1 q2 q3 : query) (m : Z) :
    (forall t, 1 <= t < n -> br_row t) -> 0 <= m <= 30 -> eval e i q2 = fz m ->
    lookup_hit e i [q1; q2; q3] rlc_lookup ->
    exists v, 0 <= v < 256 ^ (m + 1) /\ eval e i q1 = fz v /\
      eval e i q3 = rlc (be_bytes (Z.to_nat (m + 1)) v) (echal e).
  Proof.
    intros HR Hm E2 H. apply hit_row in H. destruct H as (t & Ht & HM). unfold rlc_lookup in HM.
    inversion HM as [|? ? ? ? M1 HM1]; subst. inversion HM1 as [|? ? ? ? M2 HM2]; subst.
    inversion HM2 as [|? ? ? ? M3 HM3]; subst.
    rewrite eval_cur in M1, M2, M3 by lia. destruct (HR t Ht) as (bs & Hne & Hok & Hlen & I1 & I2 & I3).
    rewrite E2, I1 in M2. pose proof (be_val_range bs Hok) as Hr.
    apply fz_inj in M2; [|apply small_lt_modulus; lia|apply small_lt_modulus].
    2:{ split; [|lia]. destruct bs; [congruence|cbn [List.length]; lia]. }
    exists (be_val bs). rewrite M1, I2, M3, I3. replace (m + 1) with (Z.of_nat (List.length bs)) by lia.
    split; [exact Hr|]. split; [reflexivity|]. rewrite Nat2Z.id, be_bytes_be_val by exact Hok. reflexivity.
  Qed.
End Sound.
