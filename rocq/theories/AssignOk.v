(* The rows written by the helper gadgets' assignments satisfy the gadgets, and what was listed can be looked up. *)
From Coq Require Import ZArith String List Bool Lia.
From Verif Require Import Pocklington Fr Query Builder BuilderProofs Bytes Gadgets GadgetProofs Fixed CanonProofs Assign AssignProofs.
Import ListNotations.
Open Scope Z_scope.

(* the advice columns [cs] of e hold exactly the writes [ws] *)
Definition holds (e : env) (cs : list acol) (ws : list write) : Prop :=
  forall c i, In c cs -> 0 <= i < eN e -> eadv e c i = cell ws (A c) i.
Definition BR_cols := [BR_value; BR_rlc; BR_index; BR_byte; BR_index_inv].
Definition CR_cols := [CR_value; CR_byte; CR_rlc; CR_difference; CR_difference_inv; CR_zero_so_far].
Definition KB_cols := [KB_value; KB_index; KB_bit; KB_index_div_8; KB_index_mod_8; KB_byte].

Section Ok.
  Variables (e : env) (n : Z).
  Hypothesis F : fixed_ok e n.
  Let Hn := fo_rows e n F.
  Let Hu := fo_usable e n F.
  Let Hs := fo_small e n F.

  Lemma ok_byte nm i q b : eval e i q = fz b -> is_byte b -> okc e i (AddLookup nm [q] range_check_256_lookup).
  Proof. intros E Hb. split; [reflexivity|]. apply (byte_hit e n F). exists b. split; [exact Hb|exact E]. Qed.
  Lemma eval_cur' i c : 1 <= i < n -> eval e i (cur c) = eadv e c i.
  Proof. intros. apply eval_cur. lia. Qed.
  Lemma eval_prev' i c : 1 <= i < n -> eval e i (prev c) = eadv e c (i - 1).
  Proof. intros. apply eval_prev. lia. Qed.
  Lemma hit_of t i l r : 1 <= t < n -> tuple_match e i t l r -> lookup_hit e i l r.
  Proof. intros Ht T. exists t. split; [lia|]. split; [apply (sel_on e n F); exact Ht|exact T]. Qed.

  (** ** byte representation *)
  Section BR.
    Variables (r : Fr) (ss : list (list Z)).
    Hypothesis Hr : r = echal e.
    Hypothesis Hss : Forall bytes_ok ss.
    Let rows := flat_map (fun bs => br_bytes_rows r bs 0 f0 f0) ss.
    Hypothesis HB : holds e BR_cols (emit 1 rows).

    (* a row is either blank or holds byte k of a listed string *)
    Definition br_at (i : Z) (bs : list Z) (k : nat) : Prop :=
      (k < length bs)%nat /\ eadv e BR_byte i = fz (nth k bs 0) /\ eadv e BR_value i = fz (be_val (firstn (S k) bs)) /\
      eadv e BR_rlc i = rlc (firstn (S k) bs) r /\ eadv e BR_index i = fz (Z.of_nat k) /\ eadv e BR_index_inv i = finv (fz (Z.of_nat k)).
    Lemma br_cell i c : In c BR_cols -> 0 <= i < eN e -> eadv e c i =
      if in_range 1 i (1 + Z.of_nat (length rows)) then rcell (nth (Z.to_nat (i - 1)) rows []) (A c) else f0.
    Proof. intros Hc Hi. rewrite (HB c i Hc Hi). apply cell_emit. Qed.
    Lemma br_at_pos a bs b k : ss = a ++ bs :: b -> (k < length bs)%nat ->
      1 + Z.of_nat (length (flat_map (fun bs => br_bytes_rows r bs 0 f0 f0) a)) + Z.of_nat k < eN e ->
      br_at (1 + Z.of_nat (length (flat_map (fun bs => br_bytes_rows r bs 0 f0 f0) a)) + Z.of_nat k) bs k.
    Proof.
      intros E Hk Hi. set (la := length (flat_map _ a)) in *.
      assert (L : (la + k < length rows)%nat).
      { unfold rows. rewrite E, flat_map_app. cbn [flat_map]. rewrite !app_length, br_bytes_length. fold la. lia. }
      assert (N : nth (la + k) rows [] = br_row_of r bs k).
      { unfold rows. rewrite E, flat_map_app. cbn [flat_map]. rewrite app_nth2 by (fold la; lia). fold la.
        replace (la + k - la)%nat with k by lia. rewrite app_nth1 by (rewrite br_bytes_length; exact Hk). apply br_string_nth. exact Hk. }
      split; [exact Hk|].
      repeat split; rewrite br_cell by (first [lia | cbn; tauto]);
        (replace (in_range 1 _ _) with true by (symmetry; apply in_range_true; lia));
        replace (Z.to_nat (1 + Z.of_nat la + Z.of_nat k - 1)) with (la + k)%nat by lia; rewrite N; reflexivity.
    Qed.
    Lemma br_cases i : 1 <= i < n ->
      (forall c, In c BR_cols -> eadv e c i = f0) \/
      exists bs k, In bs ss /\ Z.of_nat k < i /\ br_at i bs k /\ (k <> 0%nat -> br_at (i - 1) bs (k - 1)).
    Proof.
      intros Hi. destruct (in_range 1 i (1 + Z.of_nat (length rows))) eqn:R.
      - right. apply in_range_true in R.
        destruct (nth_flat_map (fun bs => br_bytes_rows r bs 0 f0 f0) [] ss (Z.to_nat (i - 1))) as (a & bs & b & k & E & Hk & Hj & _).
        { fold rows. lia. }
        rewrite br_bytes_length in Hk. exists bs, k. split; [rewrite E; apply in_elt|].
        set (la := length (flat_map _ a)) in *. assert (Ei : i = 1 + Z.of_nat la + Z.of_nat k) by lia.
        split; [lia|]. split.
        + rewrite Ei. apply (br_at_pos a bs b k E Hk). fold la. lia.
        + intros Hk0. replace (i - 1) with (1 + Z.of_nat la + Z.of_nat (k - 1)) by lia.
          apply (br_at_pos a bs b (k - 1) E); [lia|]. fold la. lia.
      - left. intros c Hc. rewrite br_cell by (auto; lia). rewrite R. reflexivity.
    Qed.
    Lemma br_ok i : 1 <= i < n -> okc e i byte_representation_configure.
    Proof.
      intros Hi.
      assert (FI : eval e i (fcur BR_is_first) = f0).
      { rewrite eval_fcur by lia. rewrite (fo_cells e n F) by (try discriminate; lia). cbn [fixed_cell].
        destruct (Z.eqb_spec i 0); [lia|reflexivity]. }
      assert (Z0 : forall c, In c BR_cols -> In c BR_cols) by auto.
      destruct (br_cases i Hi) as [Hz|(bs & k & Hin & Hki & (Hk & Hb & Hv & Hrl & Hx & Hxi) & Hp)].
      - assert (C : forall c, In c BR_cols -> eval e i (cur c) = f0) by (intros; rewrite eval_cur' by exact Hi; apply Hz; assumption).
        assert (I0 : eval e i (iz_current BR_index_is_zero) = f1).
        { unfold iz_current. rewrite eval_sub. cbn [eval BR_index_is_zero iz_value iz_inv].
          change (eval e i qone) with f1. change (eval e i (cur BR_index * cur BR_index_inv)%q) with (eval e i (cur BR_index) * eval e i (cur BR_index_inv))%fr.
          rewrite !C by (cbn; tauto). ring. }
        unfold byte_representation_configure. cbn [okc]. repeat split.
        + apply iz_complete; [lia|]. cbn [BR_index_is_zero iz_value iz_inv]. rewrite !Hz by (cbn; tauto). symmetry. apply finv_0.
        + apply iz_complete; [lia|]. cbn [BR_index_is_zero iz_value iz_inv]. rewrite !Hz by (cbn; tauto). symmetry. apply finv_0.
        + left. exact FI.
        + cbn [eval]. rewrite C by (cbn; tauto). ring.
        + apply okc_assert_equal. cbn [eval]. rewrite !C by (cbn; tauto). rewrite eval_bnot, I0. ring.
        + apply okc_assert_equal. cbn [eval]. rewrite !C by (cbn; tauto). rewrite eval_bnot, I0. ring.
        + apply (ok_byte ""%string i (cur BR_byte) 0); [rewrite C by (cbn; tauto); reflexivity|unfold is_byte; lia].
      - assert (Hok : bytes_ok bs) by (rewrite Forall_forall in Hss; auto).
        assert (OKZ : okc e i (is_zero_configure BR_index_is_zero)).
        { apply iz_complete; [lia|]. cbn [BR_index_is_zero iz_value iz_inv]. rewrite Hxi, Hx. reflexivity. }
        assert (I0 : eval e i (bnot (iz_current BR_index_is_zero)) = fb (negb (Nat.eqb k 0))).
        { rewrite eval_bnot. unfold iz_current. rewrite eval_sub. cbn [BR_index_is_zero iz_value iz_inv]. change (eval e i qone) with f1.
          change (eval e i (cur BR_index * cur BR_index_inv)%q) with (eval e i (cur BR_index) * eval e i (cur BR_index_inv))%fr.
          rewrite !eval_cur' by exact Hi. rewrite Hx, Hxi. destruct (Nat.eqb_spec k 0) as [->|Hk0].
          - change (fz (Z.of_nat 0)) with f0. cbn [negb fb]. ring.
          - cbn [negb fb]. assert (fz (Z.of_nat k) <> f0).
            { intros E. apply Hk0. assert (Z.of_nat k = 0); [|lia]. apply fz_inj; [apply small_lt_modulus; lia|apply small_lt_modulus; lia|exact E]. }
            pose proof (finv_l _ H). ring_simplify. rewrite <- H0. ring. }
        assert (SK : firstn (S k) bs = firstn k bs ++ [nth k bs 0]) by (apply firstn_S_nth; exact Hk).
        unfold byte_representation_configure. cbn [okc]. repeat split.
        + exact (proj1 OKZ). + exact (proj2 OKZ).
        + left. exact FI.
        + cbn [eval]. rewrite !eval_sub, !eval_cur', eval_prev' by exact Hi. change (eval e i qone) with f1. rewrite Hx.
          destruct k as [|k]; [change (fz (Z.of_nat 0)) with f0; ring|].
          destruct (Hp ltac:(lia)) as (_ & _ & _ & _ & Hx' & _). rewrite Hx'. cbn [Nat.sub]. rewrite Nat.sub_0_r.
          rewrite Nat2Z.inj_succ. unfold Z.succ. rewrite fz_add. change (fz 1) with f1. ring.
        + apply okc_assert_equal. cbn [eval]. rewrite !eval_cur', eval_prev' by exact Hi. change (eval e i (qz 256)) with (fz 256). rewrite I0, Hv, Hb, SK, be_val_snoc, fz_add, fz_mul.
          destruct k as [|k]; cbn [Nat.eqb negb fb].
          * cbn [firstn]. change (fz (be_val [])) with f0. ring.
          * destruct (Hp ltac:(lia)) as (_ & _ & Hv' & _). rewrite Hv'. replace (S (S k - 1)) with (S k) by lia. ring.
        + apply okc_assert_equal. cbn [eval]. rewrite !eval_cur', eval_prev' by exact Hi. change (eval e i randomness) with (echal e). rewrite I0, Hrl, Hb, SK, rlc_snoc.
          destruct k as [|k]; cbn [Nat.eqb negb fb].
          * cbn [firstn]. change (rlc [] r) with f0. ring.
          * destruct (Hp ltac:(lia)) as (_ & _ & _ & Hr' & _). rewrite Hr'. replace (S (S k - 1)) with (S k) by lia. rewrite <- Hr. ring.
        + apply (ok_byte ""%string i (cur BR_byte) (nth k bs 0)); [rewrite eval_cur' by exact Hi; exact Hb|].
          unfold bytes_ok in Hok. rewrite Forall_forall in Hok. apply Hok. apply nth_In. exact Hk.
    Qed.
    Lemma br_hit bs i q1 q2 q3 : In bs ss -> bs <> [] -> Z.of_nat (length rows) < n ->
      eval e i q1 = fz (be_val bs) -> eval e i q2 = fz (Z.of_nat (length bs) - 1) -> eval e i q3 = rlc bs r ->
      lookup_hit e i [q1; q2; q3] rlc_lookup.
    Proof.
      intros Hin Hne Hfit E1 E2 E3. apply in_split in Hin. destruct Hin as (a & b & E).
      assert (Hl : (length bs - 1 < length bs)%nat) by (destruct bs; [congruence|cbn; lia]).
      set (la := length (flat_map (fun bs => br_bytes_rows r bs 0 f0 f0) a)).
      assert (L : (la + length bs <= length rows)%nat).
      { unfold rows. rewrite E, flat_map_app. cbn [flat_map]. rewrite !app_length, br_bytes_length. fold la. lia. }
      pose proof (br_at_pos a bs b (length bs - 1) E Hl) as B. fold la in B. specialize (B ltac:(lia)).
      set (t := 1 + Z.of_nat la + Z.of_nat (length bs - 1)) in *. destruct B as (_ & _ & Bv & Br & Bx & _).
      replace (S (length bs - 1)) with (length bs) in Bv, Br by lia. rewrite firstn_all in Bv, Br.
      assert (Ht : 1 <= t < n) by (unfold t; lia).
      apply (hit_of t i); [exact Ht|]. unfold rlc_lookup, tuple_match. repeat constructor; rewrite eval_cur by lia.
      - rewrite E1, Bv. reflexivity.
      - rewrite E2, Bx. f_equal. lia.
      - rewrite E3, Br. reflexivity.
    Qed.
    Lemma br_hit2 bs i q1 q2 : In bs ss -> bs <> [] -> Z.of_nat (length rows) < n ->
      eval e i q1 = fz (be_val bs) -> eval e i q2 = fz (Z.of_nat (length bs) - 1) ->
      lookup_hit e i [q1; q2] bytes_lookup.
    Proof.
      intros Hin Hne Hfit E1 E2. destruct (br_hit bs i q1 q2 (QConst (rlc bs r)) Hin Hne Hfit E1 E2 eq_refl) as (t & Ht & S1 & T).
      exists t. split; [exact Ht|]. split; [exact S1|]. inversion T as [|? ? ? ? T1 T2]; subst. inversion T2 as [|? ? ? ? T3 T4]; subst.
      constructor; [exact T1|]. constructor; [exact T3|constructor].
    Qed.
  End BR.

  (** ** canonical representation *)
  Section CR.
    Variables (r : Fr) (vs : list Fr).
    Hypothesis Hr : r = echal e.
    Hypothesis Hfit : Z.of_nat (length vs) < n / 32.
    Hypothesis HnN : n < eN e.
    (* the rows of the groups hold what was assigned *)
    Hypothesis HC : forall c i, In c CR_cols -> 1 <= i <= 32 * (n / 32) -> eadv e c i = cr_cell r vs n (A c) i.

    Definition cr_at (i : Z) (v : Fr) (k : nat) : Prop :=
      let bs := be_bytes 32 (val v) in
      let d := (fz (nth k modulus_bytes 0%Z) - fz (nth k bs 0%Z))%fr in
      eadv e CR_byte i = fz (nth k bs 0) /\ eadv e CR_difference i = d /\ eadv e CR_difference_inv i = finv d /\
      eadv e CR_zero_so_far i = fb (if list_eq_dec Z.eq_dec (firstn k bs) (firstn k modulus_bytes) then true else false) /\
      eadv e CR_value i = v /\ eadv e CR_rlc i = rlc (firstn (S k) bs) r.
    Lemma cr_grp i g k : i = 1 + 32 * g + Z.of_nat k -> 0 <= g < n / 32 -> (k < 32)%nat ->
      cr_at i (nth (Z.to_nat g) vs f0) k.
    Proof.
      intros Ei Hg Hk. assert (Hle : 32 * (n / 32) <= n) by (apply Z.mul_div_le; lia).
      assert (D : (i - 1) / 32 = g). { symmetry. apply (Z.div_unique _ _ _ (Z.of_nat k)); lia. }
      assert (M : (i - 1) mod 32 = Z.of_nat k). { symmetry. apply (Z.mod_unique _ _ g); lia. }
      assert (FL : cr_index_flags (Z.of_nat k) = [(Fx CR_index_is_zero, f1)] \/ cr_index_flags (Z.of_nat k) = [(Fx CR_index_is_31, f1)] \/ cr_index_flags (Z.of_nat k) = []).
      { unfold cr_index_flags. destruct (Z.of_nat k =? 0); [auto|]. destruct (Z.of_nat k =? 31); auto. }
      unfold cr_at. repeat split; rewrite HC by (first [lia | cbn; tauto]); unfold cr_cell;
        (replace (in_range 1 i (1 + 32 * (n / 32))) with true by (symmetry; apply in_range_true; lia));
        rewrite D, M, Nat2Z.id; unfold cr_row_of, rcell; destruct FL as [->|[->| ->]]; reflexivity.
    Qed.
    Lemma cr_split i : 1 <= i <= 32 * (n / 32) -> exists g k, i = 1 + 32 * g + Z.of_nat k /\ 0 <= g < n / 32 /\ (k < 32)%nat.
    Proof.
      intros Hi. pose proof (Z_div_mod_eq_full (i - 1) 32). pose proof (Z.mod_pos_bound (i - 1) 32 ltac:(lia)).
      pose proof (Z.div_pos (i - 1) 32 ltac:(lia) ltac:(lia)).
      exists ((i - 1) / 32), (Z.to_nat ((i - 1) mod 32)). repeat split; try lia.
    Qed.
    Lemma cr_fix_zero' i : 0 <= i < eN e -> efix e CR_index_is_zero i = fb (in_range 1 i (1 + 32 * (n / 32)) && ((i - 1) mod 32 =? 0)).
    Proof. intros. rewrite (fo_cells e n F) by (try discriminate; lia). reflexivity. Qed.
    Lemma fold_bytes : forall l i, eval e i (fold_left (fun acc x => (acc * qz 256 + x)%q) l qzero)
      = fold_left (fun acc x => (acc * fz 256 + x)%fr) (map (eval e i) l) f0.
    Proof.
      intros l i. change f0 with (eval e i qzero) at 1. generalize qzero as a.
      induction l as [|x l IH]; intros a; [reflexivity|]. cbn [fold_left map]. rewrite IH. reflexivity.
    Qed.
    Lemma fold_be l : fold_left (fun acc x => (acc * fz 256 + x)%fr) (map fz l) f0 = fz (be_val l).
    Proof.
      induction l as [|b l IH] using rev_ind; [reflexivity|].
      rewrite map_app, fold_left_app, IH, be_val_snoc, fz_add, fz_mul. cbn [map fold_left]. ring.
    Qed.
    Lemma canonical_lt v : be_bytes 32 (val v) <> modulus_bytes.
    Proof.
      intros E. apply (f_equal be_val) in E. pose proof (val_range v) as V. pose proof modulus_lt as L.
      rewrite be_val_be_bytes in E by lia. rewrite modulus_bytes_val in E. lia.
    Qed.
    (* at the first difference the modulus byte is the larger one *)
    Lemma first_diff v k : (k < 32)%nat -> firstn k (be_bytes 32 (val v)) = firstn k modulus_bytes ->
      nth k (be_bytes 32 (val v)) 0 <= nth k modulus_bytes 0.
    Proof.
      intros Hk E. set (bs := be_bytes 32 (val v)) in *.
      assert (Lb : length bs = 32%nat) by apply be_bytes_length.
      assert (Lm : length modulus_bytes = 32%nat) by apply modulus_bytes_len.
      assert (V : be_val bs < be_val modulus_bytes).
      { unfold bs. pose proof (val_range v). pose proof modulus_lt. rewrite be_val_be_bytes by lia. rewrite modulus_bytes_val. lia. }
      assert (S1 : bs = firstn k bs ++ nth k bs 0 :: skipn (S k) bs).
      { rewrite <- (firstn_skipn (S k) bs) at 1. rewrite (firstn_S_nth bs k 0) by lia. rewrite <- app_assoc. reflexivity. }
      assert (S2 : modulus_bytes = firstn k modulus_bytes ++ nth k modulus_bytes 0 :: skipn (S k) modulus_bytes).
      { rewrite <- (firstn_skipn (S k) modulus_bytes) at 1. rewrite (firstn_S_nth modulus_bytes k 0) by lia. rewrite <- app_assoc. reflexivity. }
      rewrite S1, S2, E in V. rewrite !be_val_app, !be_val_cons in V. cbn [length] in V. rewrite !skipn_length, Lb, Lm in V.
      assert (R1 : 0 <= be_val (skipn (S k) bs)).
      { apply be_val_range. apply Forall_forall. intros x Hx. pose proof (be_bytes_ok 32 (val v)) as O. unfold bytes_ok in O. rewrite Forall_forall in O. apply O.
        fold bs. rewrite <- (firstn_skipn (S k) bs). apply in_or_app. right. exact Hx. }
      assert (R2 : be_val (skipn (S k) modulus_bytes) < 256 ^ Z.of_nat (32 - S k)).
      { replace (32 - S k)%nat with (length (skipn (S k) modulus_bytes)) by (rewrite skipn_length, Lm; reflexivity). apply be_val_range.
        apply Forall_forall. intros x Hx. pose proof (be_bytes_ok 32 modulus) as O. unfold bytes_ok in O. rewrite Forall_forall in O. apply O.
        fold modulus_bytes. rewrite <- (firstn_skipn (S k) modulus_bytes). apply in_or_app. right. exact Hx. }
      pose proof (pow256_pos (Z.of_nat (32 - S k)) ltac:(lia)) as P. nia.
    Qed.
    Lemma iz_c i g : okc e i (is_zero_configure g) -> 1 <= i < n -> eadv e (iz_inv g) i = finv (eadv e (iz_value g) i) ->
      eval e i (iz_current g) = fb (feqb (eadv e (iz_value g) i) f0).
    Proof.
      intros _ Hi E. unfold iz_current. rewrite eval_sub. change (eval e i qone) with f1.
      change (eval e i (cur (iz_value g) * cur (iz_inv g))%q) with (eval e i (cur (iz_value g)) * eval e i (cur (iz_inv g)))%fr.
      rewrite !eval_cur' by exact Hi. rewrite E. destruct (feqb_spec (eadv e (iz_value g) i) f0) as [->|N]; cbn [fb].
      - ring. - pose proof (finv_l _ N) as I. ring_simplify. rewrite <- I. ring.
    Qed.
    Lemma iz_p i g : 2 <= i < n -> eadv e (iz_inv g) (i - 1) = finv (eadv e (iz_value g) (i - 1)) ->
      eval e i (iz_previous g) = fb (feqb (eadv e (iz_value g) (i - 1)) f0).
    Proof.
      intros Hi E. unfold iz_previous. rewrite eval_sub. change (eval e i qone) with f1.
      change (eval e i (prev (iz_value g) * prev (iz_inv g))%q) with (eval e i (prev (iz_value g)) * eval e i (prev (iz_inv g)))%fr.
      rewrite !eval_prev' by lia. rewrite E. destruct (feqb_spec (eadv e (iz_value g) (i - 1)) f0) as [->|N]; cbn [fb].
      - ring. - pose proof (finv_l _ N) as I. ring_simplify. rewrite <- I. ring.
    Qed.
    Lemma diff_zero v k : (k < 32)%nat -> feqb (fz (nth k modulus_bytes 0%Z) - fz (nth k (be_bytes 32 (val v)) 0%Z))%fr f0 = (nth k modulus_bytes 0 =? nth k (be_bytes 32 (val v)) 0).
    Proof.
      intros Hk. apply byte_diff_zero.
      - pose proof (be_bytes_ok 32 (val v)) as O. unfold bytes_ok in O. rewrite Forall_forall in O. apply O. apply nth_In. rewrite be_bytes_length. exact Hk.
      - pose proof (be_bytes_ok 32 modulus) as O. unfold bytes_ok in O. rewrite Forall_forall in O. apply O. apply nth_In. rewrite be_bytes_length. exact Hk.
    Qed.
    Lemma nth_byte v k : (k < 32)%nat -> is_byte (nth k (be_bytes 32 (val v)) 0).
    Proof. intros Hk. pose proof (be_bytes_ok 32 (val v)) as O. unfold bytes_ok in O. rewrite Forall_forall in O. apply O. apply nth_In. rewrite be_bytes_length. exact Hk. Qed.
    Lemma nth_mbyte k : (k < 32)%nat -> is_byte (nth k modulus_bytes 0).
    Proof. intros Hk. pose proof (be_bytes_ok 32 modulus) as O. unfold bytes_ok in O. rewrite Forall_forall in O. apply O. apply nth_In. rewrite be_bytes_length. exact Hk. Qed.
    (* the running flag: all differences up to and including k are zero *)
    Lemma so_far_step v k : (k < 32)%nat ->
      (fb (if list_eq_dec Z.eq_dec (firstn k (be_bytes 32 (val v))) (firstn k modulus_bytes) then true else false)
        * fb (nth k modulus_bytes 0%Z =? nth k (be_bytes 32 (val v)) 0%Z)%Z)%fr
      = fb (if list_eq_dec Z.eq_dec (firstn (S k) (be_bytes 32 (val v))) (firstn (S k) modulus_bytes) then true else false).
    Proof.
      intros Hk. rewrite (firstn_S_nth (be_bytes 32 (val v)) k 0) by (rewrite be_bytes_length; exact Hk).
      rewrite (firstn_S_nth modulus_bytes k 0) by (rewrite modulus_bytes_len; exact Hk).
      set (a := firstn k _). set (b := firstn k modulus_bytes). set (x := nth k modulus_bytes 0). set (y := nth k _ 0).
      destruct (list_eq_dec Z.eq_dec (a ++ [y]) (b ++ [x])) as [E|N].
      - apply app_inj_tail in E. destruct E as [E1 E2]. destruct (list_eq_dec Z.eq_dec a b); [|congruence].
        destruct (Z.eqb_spec x y); [|congruence]. cbn [fb]. ring.
      - destruct (list_eq_dec Z.eq_dec a b) as [E1|]; [|cbn [fb]; ring].
        destruct (Z.eqb_spec x y) as [E2|]; [|cbn [fb]; ring]. exfalso. apply N. congruence.
    Qed.
    Lemma cr_rz i : 1 <= i < n -> eval e i (frot CR_index_is_zero (-31)) = fb (in_range 32 i (1 + 32 * (n / 32)) && (i mod 32 =? 0)).
    Proof.
      intros Hi. assert (Hle : 32 * (n / 32) <= n) by (apply Z.mul_div_le; lia).
      assert (H1q : 1 <= n / 32) by (apply Z.div_le_lower_bound; lia).
      assert (Hlt : n < 32 * (n / 32) + 32) by (pose proof (Z.mul_succ_div_gt n 32 ltac:(lia)); lia).
      unfold frot. cbn [eval]. destruct (Z_lt_dec i 31) as [Hs31|Hs31].
        - replace ((i + -31) mod eN e) with (i + -31 + eN e) by (symmetry; rewrite <- (Z.mod_add _ 1) by lia; rewrite Z.mul_1_l; apply Z.mod_small; lia).
          rewrite cr_fix_zero' by lia.
          replace (in_range 1 (i + -31 + eN e) (1 + 32 * (n / 32)) && ((i + -31 + eN e - 1) mod 32 =? 0)) with false.
          + replace (in_range 32 i (1 + 32 * (n / 32))) with false by (symmetry; apply in_range_false; lia). reflexivity.
          + symmetry. apply andb_false_iff. destruct (in_range 1 (i + -31 + eN e) (1 + 32 * (n / 32))) eqn:R; [|auto]. right.
            apply in_range_true in R. apply Z.eqb_neq. intros Z0. apply Z.mod_divide in Z0; [|lia]. destruct Z0 as [z Hz]. lia.
        - rewrite Z.mod_small by lia. rewrite cr_fix_zero' by lia. f_equal.
          replace (i + -31 - 1) with (i + (-1) * 32) by lia. rewrite Z.mod_add by lia.
          destruct (Z.eqb_spec (i mod 32) 0) as [E|]; [|rewrite !andb_false_r; reflexivity]. rewrite !andb_true_r.
          pose proof (Z_div_mod_eq_full i 32) as Q.
          destruct (in_range 32 i (1 + 32 * (n / 32))) eqn:R; [apply in_range_true in R|apply in_range_false in R];
            [apply in_range_true|apply in_range_false]; lia.
    Qed.
    Lemma cr_ok_grp i : 1 <= i < n -> i <= 32 * (n / 32) -> okc e i canonical_representation_configure.
    Proof.
      intros Hi. assert (Hle : 32 * (n / 32) <= n) by (apply Z.mul_div_le; lia).
      assert (H1q : 1 <= n / 32) by (apply Z.div_le_lower_bound; lia).
      assert (Hlt : n < 32 * (n / 32) + 32) by (pose proof (Z.mul_succ_div_gt n 32 ltac:(lia)); lia).
      intros Hg. pose proof (cr_rz i Hi) as RZ.
      destruct (cr_split i ltac:(lia)) as (g & k & Ei & Hg' & Hk).
        pose proof (cr_grp i g k Ei Hg' Hk) as R. set (v := nth (Z.to_nat g) vs f0) in *.
        destruct R as (Rb & Rd & Rdi & Rs & Rv & Rr).
        set (bs := be_bytes 32 (val v)) in *.
        assert (M : (i - 1) mod 32 = Z.of_nat k). { symmetry. apply (Z.mod_unique _ _ g); lia. }
        assert (FZ : eval e i (fcur CR_index_is_zero) = fb (Nat.eqb k 0)).
        { rewrite eval_fcur by lia. rewrite cr_fix_zero' by lia. rewrite M.
          replace (in_range 1 i (1 + 32 * (n / 32))) with true by (symmetry; apply in_range_true; lia).
          cbn [andb]. f_equal. destruct k; reflexivity. }
        assert (FM : eval e i (fcur CR_modulus_byte) = fz (nth k modulus_bytes 0)).
        { rewrite eval_fcur by lia. rewrite (fo_cells e n F) by (try discriminate; lia). cbn [fixed_cell].
          replace (in_range 1 i (1 + 32 * (n / 32))) with true by (symmetry; apply in_range_true; lia).
          rewrite M, modulus_byte_nth by exact Hk. reflexivity. }
        assert (OZ : okc e i (is_zero_configure CR_difference_is_zero)).
        { apply iz_complete; [lia|]. cbn [CR_difference_is_zero iz_value iz_inv]. rewrite Rdi, Rd. reflexivity. }
        assert (EZ : eval e i (iz_current CR_difference_is_zero) = fb (nth k modulus_bytes 0 =? nth k bs 0)).
        { rewrite iz_c; [|exact OZ|exact Hi|cbn [CR_difference_is_zero iz_value iz_inv]; rewrite Rdi, Rd; reflexivity].
          cbn [CR_difference_is_zero iz_value]. rewrite Rd. unfold bs. rewrite (diff_zero v k Hk). reflexivity. }
        assert (SP : k <> 0%nat -> cr_at (i - 1) v (k - 1)).
        { intros Hk0. apply (cr_grp (i - 1) g (k - 1)); lia. }
        unfold canonical_representation_configure. cbn [okc]. split; [|split; [|split; [|split; [|split; [|split; [|split]]]]]].
        + cbn [binary_columns for_each fold_right okc]. split; [|exact I]. apply okc_binary; [lia|]. rewrite Rs.
          destruct (list_eq_dec _ _ _); cbn [fb]; auto.
        + exact OZ.
        + apply okc_assert_equal. rewrite eval_sub, !eval_cur' by exact Hi. rewrite FM, Rd, Rb. reflexivity.
        + rewrite FZ. destruct (Nat.eqb_spec k 0) as [Hk0|Hk0]; [|left; reflexivity]. right. split; [reflexivity|].
          split; [|split].
          * apply okc_assert_equal. rewrite eval_cur' by exact Hi. rewrite Rv, fold_bytes, map_map.
            assert (EM : map (fun x => eval e i (rotation CR_byte (Z.of_nat x))) (seq 0 32) = map fz bs).
            { apply nth_ext with (d := f0) (d' := f0); [rewrite !map_length, seq_length; unfold bs; rewrite be_bytes_length; reflexivity|].
              intros j Hj. rewrite map_length, seq_length in Hj.
              rewrite nth_indep with (d' := (fun x => eval e i (rotation CR_byte (Z.of_nat x))) 0%nat) by (rewrite map_length, seq_length; exact Hj).
              rewrite (map_nth (fun x => eval e i (rotation CR_byte (Z.of_nat x)))). rewrite seq_nth by exact Hj. cbn [Nat.add].
              change f0 with (fz 0). rewrite map_nth. unfold rotation. cbn [eval].
              rewrite Z.mod_small by lia. destruct (cr_grp (i + Z.of_nat j) g j) as (B & _); [lia|lia|lia|]. rewrite B. reflexivity. }
            rewrite EM, fold_be. unfold bs. rewrite be_val_be_bytes; [symmetry; apply fz_val|].
            pose proof (val_range v). pose proof modulus_lt. lia.
          * apply okc_assert. rewrite eval_cur' by exact Hi. rewrite Rs, Hk0. reflexivity.
          * apply okc_assert_equal. rewrite !eval_cur' by exact Hi. rewrite Rr, Rb, Hk0. unfold bs.
            destruct (be_bytes 32 (val v)) as [|b0 l] eqn:Q; [apply (f_equal (@length Z)) in Q; rewrite be_bytes_length in Q; discriminate Q|].
            cbn [firstn nth]. unfold rlc. cbn [fold_left]. ring.
        + rewrite eval_bnot, FZ. destruct (Nat.eqb_spec k 0) as [Hk0|Hk0]; [left; cbn [fb]; ring|]. right. split; [cbn [fb]; ring|].
          destruct (SP Hk0) as (Pb & Pd & Pdi & Ps & Pv & Pr).
          split; [|split].
          * apply okc_assert_equal. rewrite eval_cur', eval_prev' by exact Hi. rewrite Rv, Pv. reflexivity.
          * apply okc_assert_equal. rewrite eval_cur' by exact Hi. rewrite eval_band, eval_prev' by exact Hi.
            rewrite iz_p; [|lia|cbn [CR_difference_is_zero iz_value iz_inv]; rewrite Pdi, Pd; reflexivity].
            cbn [CR_difference_is_zero iz_value]. rewrite Pd, Ps, Rs. rewrite (diff_zero v (k - 1)) by lia. rewrite so_far_step by lia.
            replace (S (k - 1)) with k by lia. reflexivity.
          * apply okc_assert_equal. cbn [eval]. change (eval e i randomness) with (echal e). rewrite !eval_cur', eval_prev' by exact Hi.
            rewrite Rr, Pr, Rb, <- Hr. replace (S (k - 1)) with k by lia.
            unfold bs; rewrite (firstn_S_nth (be_bytes 32 (val v)) k 0) by (rewrite be_bytes_length; exact Hk). rewrite rlc_snoc. ring.
        + apply (ok_byte ""%string i (cur CR_byte) (nth k bs 0)); [rewrite eval_cur' by exact Hi; exact Rb|apply nth_byte; exact Hk].
        + rewrite eval_band, eval_bnot, EZ. rewrite eval_cur' by exact Hi. rewrite Rs.
          destruct (list_eq_dec Z.eq_dec (firstn k bs) (firstn k modulus_bytes)) as [E|]; [|left; cbn [fb]; ring].
          destruct (Z.eqb_spec (nth k modulus_bytes 0) (nth k bs 0)) as [E2|N2]; [left; cbn [fb]; ring|]. right. split; [cbn [fb]; ring|].
          pose proof (first_diff v k Hk E) as FD. fold bs in FD.
          pose proof (nth_byte v k Hk) as B1. pose proof (nth_mbyte k Hk) as B2. fold bs in B1. unfold is_byte in *.
          apply (ok_byte ""%string i (cur CR_difference) (nth k modulus_bytes 0 - nth k bs 0)).
          * rewrite eval_cur' by exact Hi. rewrite Rd, fz_sub. reflexivity.
          * unfold is_byte. lia.
        + rewrite RZ. replace (in_range 32 i (1 + 32 * (n / 32)) && (i mod 32 =? 0)) with (Nat.eqb k 31).
          2:{ destruct (Nat.eqb_spec k 31) as [K|K].
              - symmetry. apply andb_true_iff. split; [apply in_range_true; lia|]. apply Z.eqb_eq.
                replace i with (0 + (g + 1) * 32) by lia. rewrite Z.mod_add by lia. reflexivity.
              - symmetry. apply andb_false_iff. right. apply Z.eqb_neq. replace i with (1 + Z.of_nat k + g * 32) by lia.
                rewrite Z.mod_add, Z.mod_small by lia. lia. }
          destruct (Nat.eqb_spec k 31) as [K|K]; [|left; reflexivity]. right. split; [reflexivity|].
          apply okc_assert. rewrite eval_bnot, eval_band, EZ. rewrite eval_cur' by exact Hi. rewrite Rs.
          unfold bs. rewrite so_far_step by exact Hk.
          clear Rs; destruct (list_eq_dec _ _ _) as [E|N]; [|cbn [fb]; ring]. exfalso.
          rewrite K in E. rewrite !firstn_all2 in E by (rewrite ?be_bytes_length, ?modulus_bytes_len; lia).
          exact (canonical_lt v E).
    Qed.
    (* a row after the last group that continues the previous row with some byte *)
    Lemma cr_ok_after i b : 1 <= i < n -> 32 * (n / 32) < i -> is_byte b ->
      eadv e CR_byte i = fz b -> eadv e CR_difference i = (0 - fz b)%fr -> eadv e CR_difference_inv i = finv (0 - fz b)%fr ->
      eadv e CR_value i = eadv e CR_value (i - 1) -> eadv e CR_rlc i = (eadv e CR_rlc (i - 1) * echal e + fz b)%fr ->
      eadv e CR_zero_so_far i = f0 -> eadv e CR_zero_so_far (i - 1) = f0 ->
      okc e i canonical_representation_configure.
    Proof.
      intros Hi Hg Hb Eb Ed Ei Ev Er Es Ep. pose proof (cr_rz i Hi) as RZ.
      assert (FZ : eval e i (fcur CR_index_is_zero) = f0).
      { rewrite eval_fcur by lia. rewrite cr_fix_zero' by lia.
        replace (in_range 1 i (1 + 32 * (n / 32))) with false by (symmetry; apply in_range_false; lia). reflexivity. }
      assert (FM : eval e i (fcur CR_modulus_byte) = f0).
      { rewrite eval_fcur by lia. rewrite (fo_cells e n F) by (try discriminate; lia). cbn [fixed_cell].
        replace (in_range 1 i (1 + 32 * (n / 32))) with false by (symmetry; apply in_range_false; lia). reflexivity. }
      assert (RZ0 : eval e i (frot CR_index_is_zero (-31)) = f0).
      { rewrite RZ. replace (in_range 32 i (1 + 32 * (n / 32))) with false by (symmetry; apply in_range_false; lia). reflexivity. }
      unfold canonical_representation_configure. cbn [okc]. split; [|split; [|split; [|split; [|split; [|split; [|split]]]]]].
      + cbn [binary_columns for_each fold_right okc]. split; [|exact I]. apply okc_binary; [lia|]. left. exact Es.
      + apply iz_complete; [lia|]. cbn [CR_difference_is_zero iz_value iz_inv]. rewrite Ei, Ed. reflexivity.
      + apply okc_assert_equal. rewrite eval_sub, !eval_cur' by exact Hi. rewrite FM, Ed, Eb. reflexivity.
      + left. exact FZ.
      + right. rewrite eval_bnot, FZ. split; [ring|]. split; [|split].
        * apply okc_assert_equal. rewrite eval_cur', eval_prev' by exact Hi. exact Ev.
        * apply okc_assert_equal. rewrite eval_band, eval_cur', eval_prev' by exact Hi. rewrite Es, Ep. ring.
        * apply okc_assert_equal. cbn [eval]. rewrite !eval_cur', eval_prev' by exact Hi. change (eval e i randomness) with (echal e). rewrite Er, Eb. reflexivity.
      + apply (ok_byte ""%string i (cur CR_byte) b); [rewrite eval_cur' by exact Hi; exact Eb|exact Hb].
      + left. rewrite eval_band, eval_cur' by exact Hi. rewrite Es. ring.
      + left. exact RZ0.
    Qed.
    (* the last row of the last group, which is padding *)
    Lemma cr_last : eadv e CR_value (32 * (n / 32)) = f0 /\ eadv e CR_rlc (32 * (n / 32)) = f0 /\ eadv e CR_zero_so_far (32 * (n / 32)) = f0.
    Proof.
      assert (H1q : 1 <= n / 32) by (apply Z.div_le_lower_bound; lia).
      destruct (cr_grp (32 * (n / 32)) (n / 32 - 1) 31) as (_ & _ & _ & Q1 & Q2 & Q3); [lia|lia|lia|].
      rewrite nth_overflow in Q1, Q2, Q3 by lia. change (val f0) with 0 in *. rewrite be_bytes_0 in Q1, Q3.
      split; [exact Q2|]. split.
      + rewrite Q3. change (S 31) with 32%nat. rewrite <- (repeat_length 0 32) at 1. rewrite firstn_all. apply rlc_zeros.
      + rewrite Q1. destruct (list_eq_dec _ _ _) as [X|]; [|reflexivity]. exfalso. vm_compute in X. discriminate X.
    Qed.
    (* the remaining enabled rows are blank *)
    Hypothesis HBl : forall c i, In c CR_cols -> 32 * (n / 32) < i < n -> eadv e c i = f0.
    Lemma cr_ok i : 1 <= i < n -> okc e i canonical_representation_configure.
    Proof.
      intros Hi. destruct (Z_le_dec i (32 * (n / 32))) as [Hg|Hg]; [apply cr_ok_grp; assumption|].
      assert (H1q : 1 <= n / 32) by (apply Z.div_le_lower_bound; lia).
      assert (P : eadv e CR_value (i - 1) = f0 /\ eadv e CR_rlc (i - 1) = f0 /\ (eadv e CR_zero_so_far (i - 1) = f0)).
      { destruct (Z.eq_dec (i - 1) (32 * (n / 32))) as [->|E]; [apply cr_last|].
        repeat split; apply HBl; try (cbn; tauto); lia. }
      destruct P as (P1 & P2 & P3).
      apply (cr_ok_after i 0); try lia; rewrite ?HBl by (first [lia | cbn; tauto]); change (fz 0) with f0.
      - unfold is_byte. lia.
      - reflexivity.
      - ring.
      - replace (0 - f0)%fr with f0 by ring. symmetry. apply finv_0.
      - symmetry. exact P1.
      - rewrite P2. ring.
      - reflexivity.
      - exact P3.
    Qed.
    Lemma cr_hit v k i q1 q2 q3 : In v vs -> (k < 32)%nat -> eval e i q1 = v -> eval e i q2 = fz (Z.of_nat k) ->
      eval e i q3 = fz (be_byte 32 (val v) k) -> lookup_hit e i [q1; q2; q3] canonical_lookup.
    Proof.
      intros Hin Hk E1 E2 E3. apply (In_nth vs v f0) in Hin. destruct Hin as (g & Hg & Nv).
      assert (Hle : 32 * (n / 32) <= n) by (apply Z.mul_div_le; lia).
      set (t := 1 + 32 * Z.of_nat g + Z.of_nat k). assert (Ht : 1 <= t < n) by (unfold t; lia).
      destruct (cr_grp t (Z.of_nat g) k eq_refl ltac:(lia) Hk) as (B & _ & _ & _ & V & _).
      rewrite Nat2Z.id, Nv in B, V. apply (hit_of t i); [exact Ht|]. unfold canonical_lookup, tuple_match. repeat constructor.
      - rewrite eval_cur' by exact Ht. rewrite E1, V. reflexivity.
      - rewrite eval_fcur by lia. rewrite (fo_cells e n F) by (try discriminate; lia). cbn [fixed_cell].
        replace (in_range 1 t (1 + 32 * (n / 32))) with true by (symmetry; apply in_range_true; unfold t; lia).
        replace ((t - 1) mod 32) with (Z.of_nat k) by (apply (Z.mod_unique _ _ (Z.of_nat g)); unfold t; lia). exact E2.
      - rewrite eval_cur' by exact Ht. rewrite E3, B, nth_be_bytes by exact Hk. reflexivity.
    Qed.
    Lemma fr_hit v i q1 q2 : In v vs -> eval e i q1 = v -> eval e i q2 = rlc (be_bytes 32 (val v)) r ->
      lookup_hit e i [q1; q2] fr_rlc_lookup.
    Proof.
      intros Hin E1 E2. apply (In_nth vs v f0) in Hin. destruct Hin as (g & Hg & Nv).
      assert (Hle : 32 * (n / 32) <= n) by (apply Z.mul_div_le; lia).
      set (t := 1 + 32 * Z.of_nat g + 31). assert (Ht : 1 <= t < n) by (unfold t; lia).
      destruct (cr_grp t (Z.of_nat g) 31 eq_refl ltac:(lia) ltac:(lia)) as (_ & _ & _ & _ & V & R).
      rewrite Nat2Z.id, Nv in R, V.
      assert (I31 : eval e t (fcur CR_index_is_31) = f1).
      { rewrite eval_fcur by lia. rewrite (fo_cells e n F) by (try discriminate; lia). cbn [fixed_cell].
        replace (in_range 1 t (1 + 32 * (n / 32))) with true by (symmetry; apply in_range_true; unfold t; lia).
        replace ((t - 1) mod 32) with 31 by (apply (Z.mod_unique _ _ (Z.of_nat g)); unfold t; lia). reflexivity. }
      apply (hit_of t i); [exact Ht|]. unfold fr_rlc_lookup, tuple_match. repeat constructor; cbn [eval]; rewrite I31, eval_cur' by exact Ht.
      - rewrite E1, V. ring.
      - rewrite E2, R. rewrite firstn_all2 by (rewrite be_bytes_length; lia). ring.
    Qed.
  End CR.

  (** ** key bits *)
  Section KB.
    Variable (canon : list Fr).
    Hypothesis HCH : forall v k i q1 q2 q3, In v canon -> (k < 32)%nat -> eval e i q1 = v -> eval e i q2 = fz (Z.of_nat k) ->
      eval e i q3 = fz (be_byte 32 (val v) k) -> lookup_hit e i [q1; q2; q3] canonical_lookup.
    Definition kb_at (t : Z) (l : Fr * Z * bool) : Prop :=
      exists rw, kb_row l = Some rw /\ 0 <= snd (fst l) /\ forall c, In c KB_cols -> eadv e c t = rcell rw (A c).
    Lemma kb_ok i l : 1 <= i < n -> kb_at i l -> In (fst (fst l)) canon -> okc e i key_bit_configure.
    Proof.
      intros Hi (rw & E & H0 & C) Hin. destruct l as [[v x] b]. cbn [fst snd] in *. unfold kb_row in E.
      destruct (Z.ltb_spec (x / 8) 32) as [Hx|]; [|discriminate].
      destruct (Bool.eqb b _) eqn:EB; [|discriminate]. apply eqb_prop in EB. apply some_inj in E.
      pose proof (Z.mod_pos_bound x 8 ltac:(lia)) as Hm. pose proof (Z_div_mod_eq_full x 8) as Hd. pose proof (Z.div_pos x 8 H0 ltac:(lia)) as Hd0.
      set (y := be_byte 32 (val v) (31 - Z.to_nat (x / 8))) in *.
      assert (By : is_byte y) by (unfold y, be_byte, is_byte; apply Z.mod_pos_bound; lia).
      rewrite land_shift_testbit in EB by lia.
      assert (V : eval e i (cur KB_value) = v) by (rewrite eval_cur' by exact Hi; rewrite C by (cbn; tauto); rewrite <- E; reflexivity).
      assert (X : eval e i (cur KB_index) = fz x) by (rewrite eval_cur' by exact Hi; rewrite C by (cbn; tauto); rewrite <- E; reflexivity).
      assert (B : eval e i (cur KB_bit) = fb b) by (rewrite eval_cur' by exact Hi; rewrite C by (cbn; tauto); rewrite <- E; reflexivity).
      assert (D : eval e i (cur KB_index_div_8) = fz (x / 8)) by (rewrite eval_cur' by exact Hi; rewrite C by (cbn; tauto); rewrite <- E; reflexivity).
      assert (M : eval e i (cur KB_index_mod_8) = fz (x mod 8)) by (rewrite eval_cur' by exact Hi; rewrite C by (cbn; tauto); rewrite <- E; reflexivity).
      assert (Y : eval e i (cur KB_byte) = fz y) by (rewrite eval_cur' by exact Hi; rewrite C by (cbn; tauto); rewrite <- E; reflexivity).
      unfold key_bit_configure. split; [|split; [|split; [|split; [|split]]]].
      - apply (ok_byte _ i (cur KB_index) x X). unfold is_byte. lia.
      - apply (ok_byte _ i (cur KB_index_div_8) (x / 8) D). unfold is_byte. lia.
      - split; [reflexivity|]. apply (idx8_hit e n F). exists (x mod 8). split; [lia|exact M].
      - split; [reflexivity|]. apply (HCH v (31 - Z.to_nat (x / 8))); [exact Hin|lia|exact V| |exact Y].
        rewrite eval_sub, D. change (eval e i (qz 31)) with (fz 31). rewrite <- fz_sub. f_equal. lia.
      - split; [reflexivity|]. apply (byte_bit_hit e n F). exists y, (x mod 8). repeat split; try exact Y; try exact M; try (unfold is_byte in By; lia).
        rewrite B, EB. reflexivity.
      - apply okc_assert_equal. cbn [eval]. rewrite X, D, M. change (eval e i (qz 8)) with (fz 8). rewrite <- fz_mul, <- fz_add. f_equal. lia.
    Qed.
    Lemma kb_hit t i v x b q1 q2 q3 : 1 <= t < n -> kb_at t (v, x, b) -> eval e i q1 = v -> eval e i q2 = fz x -> eval e i q3 = fb b ->
      lookup_hit e i [q1; q2; q3] key_bit_lookup.
    Proof.
      intros Ht (rw & E & H0 & C) E1 E2 E3. unfold kb_row in E. destruct (x / 8 <? 32); [|discriminate].
      destruct (Bool.eqb b _); [|discriminate]. apply some_inj in E.
      apply (hit_of t i); [exact Ht|]. unfold key_bit_lookup, tuple_match. repeat constructor; rewrite eval_cur' by exact Ht; rewrite C by (cbn; tauto); rewrite <- E.
      - exact E1. - exact E2. - exact E3.
    Qed.
  End KB.
End Ok.
