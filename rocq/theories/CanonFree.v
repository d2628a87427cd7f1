(* The canonical representation table does not determine all the bytes: with n_rows = 2, ..., 31 (mod 32) the most significant byte,
   and with n_rows = 0 (mod 32) all bytes of one value, can be chosen by the prover. *)
From Coq Require Import ZArith String List Bool Lia.
From Verif Require Import Pocklington Fr Query Builder BuilderProofs Gadgets MptUpdate Bytes GadgetProofs Fixed CanonProofs UpdateRows UpdateSound Assign AssignProofs AssignOk MptAssign GadgetMain GadgetMain2 CircuitOk UpdateProps Splice Retable ByteFree.
Import ListNotations.
Open Scope Z_scope.

Definition is_in (cols : list acol) (c : acol) : bool := existsb (fun c' => if acol_eq_dec c c' then true else false) cols.
Lemma is_in_true cols c : is_in cols c = true <-> In c cols.
Proof.
  unfold is_in. rewrite existsb_exists. split; [intros (x & I & E)|intros I; exists c; split; [exact I|]].
  - destruct (acol_eq_dec c x); [subst; exact I|discriminate].
  - destruct (acol_eq_dec c c); [reflexivity|contradiction].
Qed.

Lemma firstn_repeat {X} (x : X) k m : (k <= m)%nat -> firstn k (repeat x m) = repeat x k.
Proof. revert m. induction k as [|k IH]; intros [|m] L; try lia; [reflexivity|reflexivity|]. cbn [repeat firstn]. f_equal. apply IH. lia. Qed.

(** * Replacing the canonical table and the last row of the key bit table *)
Section Common.
  Variables (H : Fr -> Fr -> Fr -> Fr) (e e2 : env) (n : Z).
  Hypothesis F : fixed_ok e n.
  Hypothesis SAT : sat e (circuit_of (circuit H)).
  Hypothesis SS : same_sizes e e2.
  Hypothesis EO : forall c i, is_in CR_cols c = false -> is_in KB_cols c = false -> eadv e2 c i = eadv e c i.
  Hypothesis EK : forall c i, In c KB_cols -> i <> n - 1 -> eadv e2 c i = eadv e c i.
  Hypothesis SP : spare_row e n KB_cols.
  Hypothesis E0 : eadv e2 CR_value 0 = f0 /\ eadv e2 CR_byte 0 = f0.
  Hypothesis CI : forall t, enabled e t -> exists t', enabled e2 t' /\ map (eval e2 t') canonical_lookup = map (eval e t) canonical_lookup.
  Hypothesis FI : forall t, 0 <= t < eusable e -> exists t', 0 <= t' < eusable e2 /\ map (eval e2 t') (fr_rlc_lookup ++ [fcur SEL]) = map (eval e t) (fr_rlc_lookup ++ [fcur SEL]).
  Hypothesis CR : sat e2 (circuit_of canonical_representation_configure).
  Hypothesis KN : okc e2 (n - 1) key_bit_configure.
  Let Hn := fo_rows e n F.
  Let Hu := fo_usable e n F.
  Lemma cm_fixed : fixed_ok e2 n.
  Proof. exact (fixed_same e e2 n F SS). Qed.
  Lemma cm_update c i : update_column c = true -> 0 <= i < eN e -> eadv e2 c i = eadv e c i.
  Proof. intros Hc _. apply EO; destruct c; try discriminate Hc; reflexivity. Qed.
  Lemma cm_eval q k : in_cols (fun c => negb (is_in CR_cols c || is_in KB_cols c)) q = true -> eval e2 k q = eval e k q.
  Proof. apply (eval_cols e e2 _ SS); [|lia]. intros c i E _. apply negb_true_iff, orb_false_iff in E. apply EO; apply E. Qed.
  Lemma cm_key : sat e2 (circuit_of key_bit_configure).
  Proof.
    pose proof cm_fixed as F2.
    assert (D : forall i, 1 <= i < n -> den e i key_bit_configure).
    { apply (dens e n F (circuit H) _ (conj (fixed_wf e n F) SAT)). apply part_right, part_right, part_left, part_here. }
    pose proof (ss_N _ _ SS) as EN. pose proof (ss_usable _ _ SS) as EU. apply (sat_of_okc e2 n F2).
    - cbn [dummies key_bit_configure assert_equal]. pose proof (row0_fixed e2 n F2) as (Z1 & Z2 & Z3 & Z4 & Z5).
      repeat split; auto; apply (dummy_row0 e2 n F2); repeat constructor; rewrite ?eval_fcur, ?eval_cur by lia; tauto.
    - intros i Hi. destruct (Z.eq_dec i (n - 1)) as [->|N]; [exact KN|].
      assert (K : forall c, In c KB_cols -> eval e2 i (cur c) = eval e i (cur c)) by (intros c Hc; rewrite !eval_cur by lia; apply EK; assumption).
      assert (Tr : forall l l' table table', (forall t, enabled e t -> exists t', enabled e2 t' /\ map (eval e2 t') table' = map (eval e t) table) -> map (eval e2 i) l' = map (eval e i) l -> lookup_hit e i l table -> lookup_hit e2 i l' table').
      { intros l l' table table' T El (t & Ht & St & M). destruct (T t (conj Ht St)) as (t' & [Ht' St'] & Em). exists t'. split; [exact Ht'|]. split; [exact St'|].
        clear - M El Em. unfold tuple_match in *. revert l' table' El Em. induction M as [|a b l r Hab M IH]; intros l' table' El Em; destruct l'; try discriminate El; destruct table'; try discriminate Em; [constructor|].
        cbn [map] in El, Em. injection El as E1 E2. injection Em as E3 E4. constructor; [rewrite E1, E3; exact Hab|apply IH; assumption]. }
      assert (Fx : forall table, forallb (in_cols (fun c => negb (is_in CR_cols c || is_in KB_cols c))) table = true -> forall t, enabled e t -> exists t', enabled e2 t' /\ map (eval e2 t') table = map (eval e t) table).
      { intros table Ht t En. exists t. split; [apply (fix_enabled _ n t F2), (fix_enabled _ n t F), En|]. rewrite forallb_forall in Ht. apply map_ext_in. intros q Hq. apply cm_eval, Ht, Hq. }
      pose proof (D i Hi) as (D1 & D2 & D3 & D4 & D5 & D6). cbn [den] in D1, D2, D3, D4, D5. specialize (D1 eq_refl). specialize (D2 eq_refl). specialize (D3 eq_refl). specialize (D4 eq_refl). specialize (D5 eq_refl). apply den_assert_equal in D6.
      unfold key_bit_configure. split; [|split; [|split; [|split; [|split]]]].
      + split; [reflexivity|]. revert D1. apply Tr; [apply Fx; reflexivity|]. cbn [map]. rewrite K by (cbn; tauto). reflexivity.
      + split; [reflexivity|]. revert D2. apply Tr; [apply Fx; reflexivity|]. cbn [map]. rewrite K by (cbn; tauto). reflexivity.
      + split; [reflexivity|]. revert D3. apply Tr; [apply Fx; reflexivity|]. cbn [map]. rewrite K by (cbn; tauto). reflexivity.
      + split; [reflexivity|]. revert D4. apply Tr; [exact CI|]. cbn [map]. rewrite !eval_sub, !K by (cbn; tauto). reflexivity.
      + split; [reflexivity|]. revert D5. apply Tr; [apply Fx; reflexivity|]. cbn [map]. rewrite !K by (cbn; tauto). reflexivity.
      + apply okc_assert_equal. revert D6. cbn [eval]. rewrite !K by (cbn; tauto). auto.
    - intros i. cbn [okpos key_bit_configure assert_equal]. auto 10.
  Qed.
  Lemma cm_tables : tables_included e e2.
  Proof.
    destruct SP as [SPu SPr]. pose proof (ss_N _ _ SS) as EN. pose proof (ss_usable _ _ SS) as EU.
    assert (K : forall columns t, forallb (in_cols (fun c => negb (is_in CR_cols c || is_in KB_cols c))) columns = true -> 0 <= t < eusable e -> exists t', 0 <= t' < eusable e2 /\ map (eval e2 t') columns = map (eval e t) columns).
    { intros columns t E Ht. exists t. split; [lia|]. rewrite forallb_forall in E. apply map_ext_in. intros q Hq. apply cm_eval, E, Hq. }
    intros columns t Hc Ht. unfold table_columns in Hc. cbn [In] in Hc. destruct Hc as [<-|[<-|[<-|[<-|[<-|[]]]]]]; try (apply K; [vm_compute; reflexivity|exact Ht]).
    - exact (FI t Ht).
    - destruct (Z.eq_dec t (n - 1)) as [->|N].
      + exists (n - 2). split; [lia|]. unfold key_bit_lookup. cbn [map app]. rewrite !eval_cur, !eval_fcur by lia. rewrite !EK by (first [cbn; tauto|lia]).
        rewrite (ss_fix _ _ SS). rewrite !(fo_cells e n F) by (try discriminate; lia). cbn [fixed_cell].
        replace (in_range 1 (n - 2) n) with true by (symmetry; apply in_range_true; lia). replace (in_range 1 (n - 1) n) with true by (symmetry; apply in_range_true; lia).
        rewrite (proj1 (SPr KB_value ltac:(cbn; tauto))), (proj1 (SPr KB_index ltac:(cbn; tauto))), (proj1 (SPr KB_bit ltac:(cbn; tauto))). reflexivity.
      + exists t. split; [lia|]. unfold key_bit_lookup. cbn [map app]. rewrite !eval_cur, !eval_fcur by lia. rewrite !EK by (first [cbn; tauto|lia]). rewrite (ss_fix _ _ SS). reflexivity.
  Qed.
  Lemma cm_sat : sat e2 (circuit_of (circuit H)).
  Proof.
    apply (retabled H e e2 n F SAT SS cm_update cm_tables); [|exact CR|exact cm_key].
    assert (X : sat e (circuit_of byte_representation_configure)) by (pose proof SAT as S; unfold circuit in S; rewrite !sat_seq in S; apply S).
    revert X. apply (sat_cols e e2 (fun c => negb (is_in CR_cols c || is_in KB_cols c)) SS); [|lia|vm_compute; reflexivity]. intros c i E _. apply negb_true_iff, orb_false_iff in E. apply EO; apply E.
  Qed.
  Lemma cm_hit l r d h : poseidon_hit e2 l r d h <-> poseidon_hit e l r d h.
  Proof. unfold poseidon_hit. rewrite (ss_usable _ _ SS). split; intros (t & Ht & A & B); exists t; revert Ht A B; rewrite !EO, (ss_fix _ _ SS) by reflexivity; auto. Qed.
  Lemma cm_exposes row : exposes e row <-> exposes e2 row.
  Proof. exact (exposes_same e e2 n F SS cm_update row). Qed.
End Common.

Lemma cr_sat_of e n : fixed_ok e n -> (forall i, 1 <= i < n -> okc e i canonical_representation_configure) -> (forall t, 0 <= t < eN e -> ~ 1 <= t < n -> eadv e CR_zero_so_far t = f0) ->
  sat e (circuit_of canonical_representation_configure).
Proof.
  intros F OK Z0. pose proof (fo_rows e n F) as Hn. pose proof (fo_usable e n F) as Hu. apply (sat_of_okc e n F).
  - cbn [dummies canonical_representation_configure binary_columns for_each fold_right binary_column assert_ is_zero_configure assert_equal].
    repeat split; auto; apply (dummy_256 e n F).
  - exact OK.
  - intros i. cbn [okpos canonical_representation_configure binary_columns for_each fold_right binary_column assert_ is_zero_configure assert_equal].
    assert (FB : forall r, eval e i (frot CR_index_is_zero r) = f0 \/ eval e i (frot CR_index_is_zero r) = f1).
    { intros r. unfold frot. cbn [eval].
      rewrite (fo_cells e n F) by (try discriminate; apply Z.mod_pos_bound; lia). cbn [fixed_cell]. destruct (_ && _); auto. }
    assert (FB0 : eval e i (fcur CR_index_is_zero) = f0 \/ eval e i (fcur CR_index_is_zero) = f1) by apply (FB 0).
    repeat split; auto.
    + destruct FB0 as [H|H]; [left; exact H|right; auto].
    + rewrite eval_bnot. destruct FB0 as [H|H]; rewrite H; [right; split; [ring|auto]|left; ring].
    + set (t := (i + 0) mod eN e). assert (Ht : 0 <= t < eN e) by (apply Z.mod_pos_bound; lia).
      destruct (Z_le_dec 1 t) as [L1|L1]; [destruct (Z_lt_dec t n) as [L2|L2]|].
      * pose proof (OK t ltac:(lia)) as O. unfold canonical_representation_configure in O. cbn [okc] in O. destruct O as (_ & _ & _ & _ & _ & _ & O & _).
        assert (Ec : eval e i (band (cur CR_zero_so_far) (bnot (iz_current CR_difference_is_zero))) = eval e t (band (cur CR_zero_so_far) (bnot (iz_current CR_difference_is_zero)))).
        { rewrite !eval_band, !eval_bnot. unfold iz_current. rewrite !eval_sub. cbn [eval cur]. unfold t. rewrite !Z.add_0_r, !Z.mod_mod by lia. reflexivity. }
        rewrite Ec. destruct O as [O|[O _]]; [left; exact O|right; auto].
      * left. rewrite eval_band. replace (eval e i (cur CR_zero_so_far)) with f0 by (symmetry; apply (Z0 t); lia). ring.
      * left. rewrite eval_band. replace (eval e i (cur CR_zero_so_far)) with f0 by (symmetry; apply (Z0 t); lia). ring.
    + destruct (FB (-31)) as [H|H]; [left; exact H|right; auto].
Qed.

(** * n_rows = 2, ..., 31 (mod 32) *)
(* the canonical table that assignment makes for the values vs, which leaves two groups blank *)
Record two_blank (e : env) (n : Z) (vs : list Fr) : Prop := {
  tb_cells : forall c i, In c CR_cols -> 0 <= i < eN e -> eadv e c i = cr_cell (echal e) vs n (A c) i;
  tb_groups : Z.of_nat (List.length vs) < n / 32 - 1;
  tb_rows : n < eusable e }.
Definition last_to (vs : list Fr) (n : Z) (v : Fr) : list Fr := vs ++ repeat f0 (Z.to_nat (n / 32 - 1) - List.length vs) ++ [v].
Lemma last_nth vs n v g : Z.of_nat (List.length vs) < n / 32 - 1 -> 0 <= g < n / 32 -> nth (Z.to_nat g) (last_to vs n v) f0 = if g =? n / 32 - 1 then v else nth (Z.to_nat g) vs f0.
Proof.
  intros L Hg. unfold last_to. destruct (Z_lt_dec g (Z.of_nat (List.length vs))) as [A|A].
  - rewrite app_nth1 by lia. destruct (Z.eqb_spec g (n / 32 - 1)); [lia|reflexivity].
  - rewrite app_nth2 by lia. rewrite (nth_overflow vs) by lia. destruct (Z.eqb_spec g (n / 32 - 1)) as [->|N].
    + rewrite app_nth2 by (rewrite repeat_length; lia). rewrite repeat_length. replace (Z.to_nat (n / 32 - 1) - List.length vs - (Z.to_nat (n / 32 - 1) - List.length vs))%nat with 0%nat by lia. reflexivity.
    + rewrite app_nth1 by (rewrite repeat_length; lia). apply nth_repeat.
Qed.
(* the last group holds v; the rows after it repeat v and the byte b; the last row of the key bit table says bit j of v is bit j - 248 of b *)
Definition top_put (e : env) (n : Z) (vs : list Fr) (v : Fr) (b j : Z) : env :=
  mkEnv (eN e) (eusable e)
    (fun c i =>
      if is_in CR_cols c then
        if in_range 1 i (1 + 32 * (n / 32)) then cr_cell (echal e) (last_to vs n v) n (A c) i
        else if in_range 1 i n then
          match c with CR_value => v | CR_byte => fz b | CR_rlc => rlc (be_bytes 32 (val v) ++ repeat b (Z.to_nat (i - 32 * (n / 32)))) (echal e) | CR_difference => (0 - fz b)%fr | CR_difference_inv => finv (0 - fz b)%fr | _ => f0 end
        else f0
      else if (is_in KB_cols c && (i =? n - 1))%bool then
        match c with KB_value => v | KB_index => fz j | KB_bit => fb (Z.testbit b (j - 248)) | KB_index_div_8 => fz 31 | KB_index_mod_8 => fz (j - 248) | _ => fz b end
      else eadv e c i)
    (efix e) (echal e).

Section Top.
  Variables (H : Fr -> Fr -> Fr -> Fr) (e : env) (n : Z) (vs : list Fr) (v : Fr) (b j : Z).
  Hypothesis F : fixed_ok e n.
  Hypothesis SAT : sat e (circuit_of (circuit H)).
  Hypothesis TB : two_blank e n vs.
  Hypothesis SP : spare_row e n KB_cols.
  Hypothesis N32 : 2 <= n mod 32.
  Hypothesis Hv : val v < 256 ^ 31.
  Hypothesis Hb : is_byte b.
  Hypothesis Hj : 248 <= j < 256.
  Let Hn := fo_rows e n F.
  Let Hu := fo_usable e n F.
  Let e2 := top_put e n vs v b j.
  Lemma tp_sizes : same_sizes e e2.
  Proof. split; reflexivity. Qed.
  Lemma tp_fixed : fixed_ok e2 n.
  Proof. exact (fixed_same e e2 n F tp_sizes). Qed.
  Lemma tp_div : 32 * (n / 32) + 2 <= n < 32 * (n / 32) + 32 /\ 64 <= n / 32.
  Proof. pose proof (Z_div_mod_eq_full n 32). pose proof (Z.mod_pos_bound n 32 ltac:(lia)). lia. Qed.
  Lemma tp_grp c i : In c CR_cols -> 1 <= i <= 32 * (n / 32) -> eadv e2 c i = cr_cell (echal e2) (last_to vs n v) n (A c) i.
  Proof. intros Hc Hi. unfold e2, top_put. cbn [eadv echal]. rewrite (proj2 (is_in_true CR_cols c) Hc). rewrite (proj2 (in_range_true 1 i (1 + 32 * (n / 32)))) by lia. reflexivity. Qed.
  Lemma tp_after c i : In c CR_cols -> 32 * (n / 32) < i < n -> eadv e2 c i = match c with CR_value => v | CR_byte => fz b | CR_rlc => rlc (be_bytes 32 (val v) ++ repeat b (Z.to_nat (i - 32 * (n / 32)))) (echal e) | CR_difference => (0 - fz b)%fr | CR_difference_inv => finv (0 - fz b)%fr | _ => f0 end.
  Proof.
    intros Hc Hi. pose proof tp_div as Q. unfold e2, top_put. cbn [eadv]. rewrite (proj2 (is_in_true CR_cols c) Hc). rewrite (proj2 (in_range_false 1 i (1 + 32 * (n / 32)))) by lia. rewrite (proj2 (in_range_true 1 i n)) by lia. reflexivity.
  Qed.
  Lemma tp_out c i : In c CR_cols -> i < 1 \/ n <= i -> eadv e2 c i = f0.
  Proof.
    intros Hc Hi. pose proof tp_div as Q. unfold e2, top_put. cbn [eadv]. rewrite (proj2 (is_in_true CR_cols c) Hc). rewrite (proj2 (in_range_false 1 i (1 + 32 * (n / 32)))) by lia. rewrite (proj2 (in_range_false 1 i n)) by lia. reflexivity.
  Qed.
  Lemma tp_other c i : is_in CR_cols c = false -> is_in KB_cols c = false -> eadv e2 c i = eadv e c i.
  Proof. intros E1 E2. unfold e2, top_put. cbn [eadv]. rewrite E1, E2. reflexivity. Qed.
  Lemma kb_not_cr c : In c KB_cols -> is_in CR_cols c = false.
  Proof. cbn [In KB_cols]. intros I. repeat (destruct I as [<-|I]; [reflexivity|]). contradiction. Qed.
  Lemma tp_kb c i : In c KB_cols -> i <> n - 1 -> eadv e2 c i = eadv e c i.
  Proof. intros Hc Hi. unfold e2, top_put. cbn [eadv]. rewrite (kb_not_cr c Hc). destruct (Z.eqb_spec i (n - 1)); [contradiction|]. rewrite andb_false_r. reflexivity. Qed.
  Lemma tp_last c : In c KB_cols -> eadv e2 c (n - 1) = match c with KB_value => v | KB_index => fz j | KB_bit => fb (Z.testbit b (j - 248)) | KB_index_div_8 => fz 31 | KB_index_mod_8 => fz (j - 248) | _ => fz b end.
  Proof. intros Hc. unfold e2, top_put. cbn [eadv]. rewrite (kb_not_cr c Hc), Z.eqb_refl, (proj2 (is_in_true KB_cols c) Hc). reflexivity. Qed.
  Lemma tp_end : cr_at e2 (echal e2) (32 * (n / 32)) v 31.
  Proof.
    pose proof tp_div as Q. pose proof (cr_grp e2 n tp_fixed (echal e2) (last_to vs n v) tp_grp (32 * (n / 32)) (n / 32 - 1) 31 ltac:(lia) ltac:(lia) ltac:(lia)) as R.
    rewrite (last_nth vs n v _ (tb_groups _ _ _ TB)) in R by lia. rewrite Z.eqb_refl in R. exact R.
  Qed.
  Lemma top_byte : nth 0 (be_bytes 32 (val v)) 0 = 0 /\ nth 0 modulus_bytes 0 = 48.
  Proof.
    split; [|reflexivity]. rewrite nth_be_bytes by lia. unfold be_byte. change (Z.of_nat (32 - 1 - 0)) with 31. rewrite Z.div_small by (pose proof (val_range v); lia). reflexivity.
  Qed.
  Lemma tp_zsf : (if list_eq_dec Z.eq_dec (firstn 31 (be_bytes 32 (val v))) (firstn 31 modulus_bytes) then true else false) = false.
  Proof.
    destruct (list_eq_dec _ _ _) as [E|]; [|reflexivity]. apply (f_equal (fun l => nth 0 l 0)) in E. destruct top_byte as [T1 T2].
    assert (G : forall l : list Z, nth 0 (firstn 31 l) 0 = nth 0 l 0) by (intros [|x l]; reflexivity). cbn beta in E. rewrite !G, T1, T2 in E. discriminate E.
  Qed.
  Lemma tp_canonical : sat e2 (circuit_of canonical_representation_configure).
  Proof.
    pose proof tp_div as Q. pose proof (tb_rows _ _ _ TB). assert (NN : n < eN e2) by (change (eN e2) with (eN e); lia). apply (cr_sat_of e2 n tp_fixed).
    - intros i Hi. destruct (Z_le_dec i (32 * (n / 32))) as [L|L]; [exact (cr_ok_grp e2 n tp_fixed (echal e2) (last_to vs n v) eq_refl NN tp_grp i Hi L)|].
      assert (PV : eadv e2 CR_value (i - 1) = v /\ eadv e2 CR_rlc (i - 1) = rlc (be_bytes 32 (val v) ++ repeat b (Z.to_nat (i - 1 - 32 * (n / 32)))) (echal e) /\ eadv e2 CR_zero_so_far (i - 1) = f0).
      { destruct (Z.eq_dec i (32 * (n / 32) + 1)) as [->|N].
        - replace (32 * (n / 32) + 1 - 1) with (32 * (n / 32)) by lia. destruct tp_end as (_ & _ & _ & A & B & C). rewrite tp_zsf in A. rewrite Z.sub_diag. cbn [Z.to_nat repeat]. rewrite app_nil_r. split; [exact B|]. split; [|exact A].
          rewrite C. rewrite firstn_all2 by (rewrite be_bytes_length; lia). reflexivity.
        - rewrite !tp_after by (first [cbn; tauto|lia]). auto. }
      destruct PV as (P1 & P2 & P3). apply (cr_ok_after e2 n tp_fixed vs NN i b); try lia; rewrite ?P1, ?P2, ?P3, ?tp_after by (first [cbn; tauto|lia]); try reflexivity; [exact Hb|].
      change (echal e2) with (echal e). replace (Z.to_nat (i - 32 * (n / 32))) with (Z.to_nat (i - 1 - 32 * (n / 32)) + 1)%nat by lia. rewrite repeat_app, app_assoc. cbn [repeat]. rewrite rlc_snoc. ring.
    - intros t Ht No. apply tp_out; [cbn; tauto|lia].
  Qed.
  Lemma tp_zero k : (k < 32)%nat -> cr_at e2 (echal e2) (1 + 32 * (n / 32 - 2) + Z.of_nat k) f0 k.
  Proof.
    intros Hk. pose proof tp_div as Q. pose proof (cr_grp e2 n tp_fixed (echal e2) (last_to vs n v) tp_grp (1 + 32 * (n / 32 - 2) + Z.of_nat k) (n / 32 - 2) k eq_refl ltac:(lia) Hk) as R.
    rewrite (last_nth vs n v _ (tb_groups _ _ _ TB)) in R by lia. replace (n / 32 - 2 =? n / 32 - 1) with false in R by (symmetry; apply Z.eqb_neq; lia).
    rewrite nth_overflow in R by (pose proof (tb_groups _ _ _ TB); lia). exact R.
  Qed.
  Lemma tp_same c t : In c CR_cols -> 0 <= t <= 32 * (n / 32 - 1) -> eadv e2 c t = eadv e c t.
  Proof.
    intros Hc Ht. pose proof tp_div as Q. rewrite (tb_cells _ _ _ TB c t Hc) by lia. destruct (Z.eq_dec t 0) as [->|N0].
    - rewrite tp_out by (first [exact Hc|lia]). unfold cr_cell. rewrite (proj2 (in_range_false 1 0 _)) by lia. reflexivity.
    - rewrite tp_grp by (first [exact Hc|lia]). unfold cr_cell. rewrite (proj2 (in_range_true 1 t (1 + 32 * (n / 32)))) by lia.
      assert (G : 0 <= (t - 1) / 32 < n / 32 - 1) by (split; [apply Z.div_pos; lia|apply Z.div_lt_upper_bound; lia]).
      rewrite (last_nth vs n v _ (tb_groups _ _ _ TB)) by lia. destruct (Z.eqb_spec ((t - 1) / 32) (n / 32 - 1)); [lia|]. reflexivity.
  Qed.
  (* the last rows of e hold zeros *)
  Lemma tp_was k : (k < 32)%nat -> eadv e CR_value (1 + 32 * (n / 32 - 1) + Z.of_nat k) = f0 /\ eadv e CR_byte (1 + 32 * (n / 32 - 1) + Z.of_nat k) = f0 /\ eadv e CR_rlc (1 + 32 * (n / 32 - 1) + Z.of_nat k) = f0.
  Proof.
    intros Hk. pose proof tp_div as Q.
    assert (HC1' : forall c i, In c CR_cols -> 1 <= i <= 32 * (n / 32) -> eadv e c i = cr_cell (echal e) vs n (A c) i) by (intros c i Hc Hi; apply (tb_cells _ _ _ TB c i Hc); lia).
    pose proof (cr_grp e n F (echal e) vs HC1' (1 + 32 * (n / 32 - 1) + Z.of_nat k) (n / 32 - 1) k eq_refl ltac:(lia) Hk) as (B & _ & _ & _ & V & R).
    rewrite (nth_overflow vs) in B, V, R by (pose proof (tb_groups _ _ _ TB); lia). change (val f0) with 0 in B, R. rewrite be_bytes_0 in B, R. split; [exact V|]. split.
    - rewrite B. rewrite nth_repeat. reflexivity.
    - rewrite R. rewrite firstn_repeat by lia. apply rlc_zeros.
  Qed.
  Lemma tp_zero_cells k : (k < 32)%nat -> eadv e2 CR_value (1 + 32 * (n / 32 - 2) + Z.of_nat k) = f0 /\ eadv e2 CR_byte (1 + 32 * (n / 32 - 2) + Z.of_nat k) = f0 /\ eadv e2 CR_rlc (1 + 32 * (n / 32 - 2) + Z.of_nat k) = f0.
  Proof.
    intros Hk. destruct (tp_zero k Hk) as (B & _ & _ & _ & V & R). change (val f0) with 0 in B, R. rewrite be_bytes_0 in B, R. split; [exact V|]. split.
    - rewrite B. rewrite nth_repeat. reflexivity.
    - rewrite R. rewrite firstn_repeat by lia. apply rlc_zeros.
  Qed.
  Lemma tp_after_e c t : In c CR_cols -> 32 * (n / 32) < t < eN e -> eadv e c t = f0.
  Proof. intros Hc Ht. pose proof tp_div as Q. rewrite (tb_cells _ _ _ TB c t Hc) by lia. unfold cr_cell. rewrite (proj2 (in_range_false 1 t _)) by lia. reflexivity. Qed.
  Lemma tp_index t : 0 <= t < eN e -> efix e CR_index t = if in_range 1 t (1 + 32 * (n / 32)) then fz ((t - 1) mod 32) else f0.
  Proof. intros Ht. rewrite (fo_cells e n F) by (try discriminate; lia). reflexivity. Qed.
  Lemma tp_31 t : 0 <= t < eN e -> efix e CR_index_is_31 t = fb (in_range 1 t (1 + 32 * (n / 32)) && ((t - 1) mod 32 =? 31)).
  Proof. intros Ht. rewrite (fo_cells e n F) by (try discriminate; lia). reflexivity. Qed.
  Lemma tp_sel t : 0 <= t < eN e -> efix e SEL t = if in_range 1 t n then f1 else f0.
  Proof. intros Ht. rewrite (fo_cells e n F) by (try discriminate; lia). reflexivity. Qed.
  Lemma tp_lookup t : enabled e t -> exists t', enabled e2 t' /\ map (eval e2 t') canonical_lookup = map (eval e t) canonical_lookup.
  Proof.
    intros En. pose proof (proj1 (fix_enabled _ n t F) En) as Ht. pose proof tp_div as Q. unfold canonical_lookup. cbn [map].
    assert (X : exists t', 1 <= t' < n /\ eadv e2 CR_value t' = eadv e CR_value t /\ efix e CR_index t' = efix e CR_index t /\ eadv e2 CR_byte t' = eadv e CR_byte t).
    { destruct (Z_le_dec t (32 * (n / 32 - 1))) as [L|L]; [exists t; rewrite !tp_same by (first [cbn; tauto|lia]); auto|].
      destruct (Z_le_dec t (32 * (n / 32))) as [L2|L2].
      - set (k := Z.to_nat (t - 1 - 32 * (n / 32 - 1))). assert (Hk : (k < 32)%nat) by lia. exists (t - 32). split; [lia|].
        replace t with (1 + 32 * (n / 32 - 1) + Z.of_nat k) at 2 4 6 by lia. replace (t - 32) with (1 + 32 * (n / 32 - 2) + Z.of_nat k) by lia.
        destruct (tp_was k Hk) as (A1 & A2 & _). destruct (tp_zero_cells k Hk) as (B1 & B2 & _). rewrite A1, A2, B1, B2. split; [reflexivity|]. split; [|reflexivity].
        rewrite !tp_index by lia. rewrite !(proj2 (in_range_true 1 _ (1 + 32 * (n / 32)))) by lia. f_equal. replace (1 + 32 * (n / 32 - 1) + Z.of_nat k - 1) with (1 + 32 * (n / 32 - 2) + Z.of_nat k - 1 + 1 * 32) by lia. rewrite Z.mod_add by lia. reflexivity.
      - exists (1 + 32 * (n / 32 - 2) + Z.of_nat 0). destruct (tp_zero_cells 0 ltac:(lia)) as (B1 & B2 & _). rewrite B1, B2, !tp_after_e by (first [cbn; tauto|lia]). split; [lia|]. split; [reflexivity|]. split; [|reflexivity].
        rewrite !tp_index by lia. rewrite (proj2 (in_range_true 1 _ (1 + 32 * (n / 32)))), (proj2 (in_range_false 1 t (1 + 32 * (n / 32)))) by lia. change f0 with (fz 0). f_equal. change (Z.of_nat 0) with 0. symmetry. apply (Z.mod_unique _ _ (n / 32 - 2)); lia. }
    destruct X as (t' & Ht' & X1 & X2 & X3). exists t'. split; [apply (fix_enabled _ n t' tp_fixed); exact Ht'|]. rewrite !eval_cur, !eval_fcur by (change (eN e2) with (eN e); lia). change (efix e2) with (efix e). rewrite X1, X2, X3. reflexivity.
  Qed.
  Lemma tp_rlc t : 0 <= t < eusable e -> exists t', 0 <= t' < eusable e2 /\ map (eval e2 t') (fr_rlc_lookup ++ [fcur SEL]) = map (eval e t) (fr_rlc_lookup ++ [fcur SEL]).
  Proof.
    intros Ht. pose proof tp_div as Q. change (eusable e2) with (eusable e). unfold fr_rlc_lookup. cbn [map app].
    assert (X : exists t', 0 <= t' < eusable e /\ efix e SEL t' = efix e SEL t /\ (eadv e2 CR_value t' * efix e CR_index_is_31 t' = eadv e CR_value t * efix e CR_index_is_31 t)%fr /\ (eadv e2 CR_rlc t' * efix e CR_index_is_31 t' = eadv e CR_rlc t * efix e CR_index_is_31 t)%fr).
    { destruct (Z_le_dec t (32 * (n / 32 - 1))) as [L|L]; [exists t; rewrite !tp_same by (first [cbn; tauto|lia]); auto|].
      destruct (Z_le_dec t (32 * (n / 32))) as [L2|L2].
      - set (k := Z.to_nat (t - 1 - 32 * (n / 32 - 1))). assert (Hk : (k < 32)%nat) by lia. exists (t - 32). split; [lia|].
        replace t with (1 + 32 * (n / 32 - 1) + Z.of_nat k) at 2 5 6 9 10 by lia. replace (t - 32) with (1 + 32 * (n / 32 - 2) + Z.of_nat k) by lia.
        destruct (tp_was k Hk) as (A1 & _ & A3). destruct (tp_zero_cells k Hk) as (B1 & _ & B3). rewrite A1, A3, B1, B3. split; [|split; ring].
        rewrite !tp_sel by lia. rewrite !(proj2 (in_range_true 1 _ n)) by lia. reflexivity.
      - exists t. split; [lia|]. split; [reflexivity|]. rewrite (tp_31 t) by lia. rewrite (proj2 (in_range_false 1 t (1 + 32 * (n / 32)))) by lia. cbn [andb fb]. split; ring. }
    destruct X as (t' & Ht' & X0 & X1 & X2). exists t'. split; [exact Ht'|]. cbn [eval]. rewrite !eval_cur, !eval_fcur by (change (eN e2) with (eN e); lia). change (efix e2) with (efix e). rewrite X0, X1, X2. reflexivity.
  Qed.
  (* the row after the last group: index 0, value v, byte b *)
  Lemma tp_accepts : accepts e2 canonical_lookup [v; fz 0; fz b].
  Proof.
    pose proof tp_div as Q. exists (n - 1). split; [apply (fix_enabled _ n (n - 1) tp_fixed); lia|]. unfold canonical_lookup. cbn [map]. rewrite !eval_cur, !eval_fcur by (change (eN e2) with (eN e); lia). change (efix e2) with (efix e).
    rewrite !tp_after by (first [cbn; tauto|lia]). rewrite tp_index by lia. rewrite (proj2 (in_range_false 1 _ (1 + 32 * (n / 32)))) by lia. reflexivity.
  Qed.
  Lemma tp_key : okc e2 (n - 1) key_bit_configure.
  Proof.
    pose proof tp_div as Q. assert (Hi : 1 <= n - 1 < n) by lia. pose proof tp_fixed as F2.
    assert (K : forall c, In c KB_cols -> eval e2 (n - 1) (cur c) = eadv e2 c (n - 1)) by (intros c _; rewrite eval_cur by (change (eN e2) with (eN e); lia); reflexivity).
    unfold key_bit_configure. split; [|split; [|split; [|split; [|split]]]].
    - apply (ok_byte e2 n F2 _ (n - 1) (cur KB_index) j); [rewrite K, tp_last by (cbn; tauto); reflexivity|unfold is_byte; lia].
    - apply (ok_byte e2 n F2 _ (n - 1) (cur KB_index_div_8) 31); [rewrite K, tp_last by (cbn; tauto); reflexivity|unfold is_byte; lia].
    - split; [reflexivity|]. apply (idx8_hit e2 n F2). exists (j - 248). split; [lia|]. rewrite K, tp_last by (cbn; tauto). reflexivity.
    - split; [reflexivity|]. pose proof (proj1 (accepts_hit e2 (n - 1) _ _) tp_accepts) as (t & Ht & St & M). exists t. split; [exact Ht|]. split; [exact St|]. cbn [map] in M.
      inversion M as [|? ? ? ? M1 R1]; subst. inversion R1 as [|? ? ? ? M2 R2]; subst. inversion R2 as [|? ? ? ? M3 R3]; subst. cbn [eval] in M1, M2, M3.
      constructor; [rewrite K, tp_last by (cbn; tauto); exact M1|]. constructor; [|constructor; [rewrite K, tp_last by (cbn; tauto); exact M3|constructor]].
      rewrite eval_sub, K, tp_last by (cbn; tauto). change (eval e2 (n - 1) (qz 31)) with (fz 31). rewrite <- M2. change (fz 0) with f0. ring.
    - split; [reflexivity|]. apply (byte_bit_hit e2 n F2). exists b, (j - 248). rewrite !K, !tp_last by (cbn; tauto). unfold is_byte in Hb. repeat split; lia.
    - apply okc_assert_equal. cbn [eval]. rewrite !K, !tp_last by (cbn; tauto). change (eval e2 (n - 1) (qz 8)) with (fz 8). rewrite <- fz_mul, <- fz_add. f_equal. lia.
  Qed.
  Theorem top_ok : fixed_ok e2 n /\ sat e2 (circuit_of (circuit H)) /\ echal e2 = echal e /\
    (forall l r d h, poseidon_hit e2 l r d h <-> poseidon_hit e l r d h) /\ (forall row, exposes e row <-> exposes e2 row) /\
    accepts e2 canonical_lookup [v; fz 0; fz b] /\ accepts e2 key_bit_lookup [v; fz j; fb (Z.testbit b (j - 248))].
  Proof.
    split; [exact tp_fixed|]. split; [|split; [reflexivity|split; [|split; [|split; [exact tp_accepts|]]]]].
    - apply (cm_sat H e e2 n F SAT tp_sizes tp_other tp_kb SP); [split; apply tp_out; first [cbn; tauto|lia]|exact tp_lookup|exact tp_rlc|exact tp_canonical|exact tp_key].
    - exact (cm_hit e e2 tp_sizes tp_other).
    - exact (cm_exposes e e2 n F tp_sizes tp_other).
    - exists (n - 1). split; [apply (fix_enabled _ n (n - 1) tp_fixed); lia|]. unfold key_bit_lookup. cbn [map]. rewrite !eval_cur by (change (eN e2) with (eN e); lia). rewrite !tp_last by (cbn; tauto). reflexivity.
  Qed.
End Top.

(** * n_rows = 0 (mod 32) *)
(* the last group holds v; its last byte, in a row where the selector is off, is v and all others are 0 *)
Definition zero_put (e : env) (n : Z) (v : Fr) (j : Z) : env :=
  mkEnv (eN e) (eusable e)
    (fun c i =>
      if acol_eq_dec c CR_value then if in_range (n - 31) i (n + 1) then v else eadv e c i
      else if acol_eq_dec c CR_byte then if i =? n then v else eadv e c i
      else if (is_in KB_cols c && (i =? n - 1))%bool then
        match c with KB_value => v | KB_index => fz j | KB_index_div_8 => fz (j / 8) | KB_index_mod_8 => fz (j mod 8) | _ => f0 end
      else eadv e c i)
    (efix e) (echal e).

Section Zero.
  Variables (H : Fr -> Fr -> Fr -> Fr) (e : env) (n : Z) (vs : list Fr) (v : Fr) (j : Z).
  Hypothesis F : fixed_ok e n.
  Hypothesis SAT : sat e (circuit_of (circuit H)).
  Hypothesis TB : two_blank e n vs.
  Hypothesis SP : spare_row e n KB_cols.
  Hypothesis N32 : n mod 32 = 0.
  Hypothesis Hj : 8 <= j < 256.
  Let Hn := fo_rows e n F.
  Let Hu := fo_usable e n F.
  Let e2 := zero_put e n v j.
  Lemma zp_sizes : same_sizes e e2.
  Proof. split; reflexivity. Qed.
  Lemma zp_fixed : fixed_ok e2 n.
  Proof. exact (fixed_same e e2 n F zp_sizes). Qed.
  Lemma zp_div : n = 32 * (n / 32) /\ 65 <= n / 32.
  Proof. pose proof (Z_div_mod_eq_full n 32). lia. Qed.
  Lemma zp_value i : eadv e2 CR_value i = if in_range (n - 31) i (n + 1) then v else eadv e CR_value i.
  Proof. reflexivity. Qed.
  Lemma zp_byte i : eadv e2 CR_byte i = if i =? n then v else eadv e CR_byte i.
  Proof. reflexivity. Qed.
  Lemma zp_cr c i : is_in KB_cols c = false -> c <> CR_value -> c <> CR_byte -> eadv e2 c i = eadv e c i.
  Proof. intros E1 E2 E3. unfold e2, zero_put. cbn [eadv]. destruct (acol_eq_dec c CR_value); [contradiction|]. destruct (acol_eq_dec c CR_byte); [contradiction|]. rewrite E1. reflexivity. Qed.
  Lemma zp_other c i : is_in CR_cols c = false -> is_in KB_cols c = false -> eadv e2 c i = eadv e c i.
  Proof. intros E1 E2. apply zp_cr; [exact E2| |]; intros ->; discriminate E1. Qed.
  Lemma zp_kb c i : In c KB_cols -> i <> n - 1 -> eadv e2 c i = eadv e c i.
  Proof.
    intros Hc Hi. unfold e2, zero_put. cbn [eadv]. destruct (acol_eq_dec c CR_value) as [->|]; [cbn in Hc; intuition discriminate|]. destruct (acol_eq_dec c CR_byte) as [->|]; [cbn in Hc; intuition discriminate|].
    destruct (Z.eqb_spec i (n - 1)); [contradiction|]. rewrite andb_false_r. reflexivity.
  Qed.
  Lemma zp_last c : In c KB_cols -> eadv e2 c (n - 1) = match c with KB_value => v | KB_index => fz j | KB_index_div_8 => fz (j / 8) | KB_index_mod_8 => fz (j mod 8) | _ => f0 end.
  Proof.
    intros Hc. unfold e2, zero_put. cbn [eadv]. destruct (acol_eq_dec c CR_value) as [->|]; [cbn in Hc; intuition discriminate|]. destruct (acol_eq_dec c CR_byte) as [->|]; [cbn in Hc; intuition discriminate|].
    rewrite (proj2 (is_in_true KB_cols c) Hc), Z.eqb_refl. reflexivity.
  Qed.
  Lemma zp_eval q k : in_cols (fun c => negb (is_in (CR_value :: CR_byte :: KB_cols) c)) q = true -> eval e2 k q = eval e k q.
  Proof.
    apply (eval_cols e e2 _ zp_sizes); [|lia]. intros c i E _. apply negb_true_iff in E. apply zp_cr; [destruct (is_in KB_cols c) eqn:K; [|reflexivity]|intros ->; discriminate E|intros ->; discriminate E].
    apply is_in_true in K. rewrite (proj2 (is_in_true (CR_value :: CR_byte :: KB_cols) c) (or_intror (or_intror K))) in E. discriminate E.
  Qed.
  Lemma zp_HC c i : In c CR_cols -> 1 <= i <= 32 * (n / 32) -> eadv e c i = cr_cell (echal e) vs n (A c) i.
  Proof. intros Hc Hi. pose proof zp_div. apply (tb_cells _ _ _ TB c i Hc). pose proof (tb_rows _ _ _ TB). lia. Qed.
  (* blank groups *)
  Lemma zp_was g k : Z.of_nat (List.length vs) <= g < n / 32 -> (k < 32)%nat -> eadv e CR_value (1 + 32 * g + Z.of_nat k) = f0 /\ eadv e CR_byte (1 + 32 * g + Z.of_nat k) = f0 /\ eadv e CR_rlc (1 + 32 * g + Z.of_nat k) = f0.
  Proof.
    intros Hg Hk. pose proof zp_div as Q.
    pose proof (cr_grp e n F (echal e) vs zp_HC (1 + 32 * g + Z.of_nat k) g k eq_refl ltac:(lia) Hk) as (B & _ & _ & _ & V & R).
    rewrite (nth_overflow vs) in B, V, R by lia. change (val f0) with 0 in B, R. rewrite be_bytes_0 in B, R. split; [exact V|]. split.
    - rewrite B. rewrite nth_repeat. reflexivity.
    - rewrite R. rewrite firstn_repeat by lia. apply rlc_zeros.
  Qed.
  Lemma zp_fcur c i : eval e2 i (fcur c) = eval e i (fcur c).
  Proof. reflexivity. Qed.
  Lemma zp_first i : 1 <= i < n -> eval e i (fcur CR_index_is_zero) = f0 \/ (eval e i (fcur CR_index_is_zero) = f1 /\ exists g, 0 <= g < n / 32 /\ i = 1 + 32 * g).
  Proof.
    intros Hi. pose proof zp_div as Q. rewrite eval_fcur by lia. rewrite (cr_fix_zero' e n F vs) by lia. destruct (Z.eqb_spec ((i - 1) mod 32) 0) as [E|E]; [|rewrite andb_false_r; left; reflexivity]. rewrite andb_true_r, (proj2 (in_range_true 1 i (1 + 32 * (n / 32)))) by lia. right. split; [reflexivity|].
    exists ((i - 1) / 32). pose proof (Z_div_mod_eq_full (i - 1) 32). split; [split; [apply Z.div_pos; lia|apply Z.div_lt_upper_bound; lia]|lia].
  Qed.
  Lemma zp_first_inv i g : 1 <= i < n -> 0 <= g < n / 32 -> i = 1 + 32 * g -> eval e i (fcur CR_index_is_zero) = f1.
  Proof.
    intros Hi Hg Ei. rewrite eval_fcur by lia. rewrite (cr_fix_zero' e n F vs) by lia. rewrite (proj2 (in_range_true 1 i (1 + 32 * (n / 32)))) by lia.
    replace ((i - 1) mod 32) with 0; [reflexivity|]. apply (Z.mod_unique _ _ g); lia.
  Qed.
  Lemma zp_hit256 i q : eval e2 i q = eval e i q -> lookup_hit e i [q] range_check_256_lookup -> lookup_hit e2 i [q] range_check_256_lookup.
  Proof.
    intros E (t & Ht & St & M). exists t. split; [exact Ht|]. split; [exact St|]. inversion M as [|? ? ? ? M1 R1]; subst. constructor; [|constructor]. rewrite E. exact M1.
  Qed.
  Lemma zp_group g : 0 <= g < n / 32 -> eval e2 (1 + 32 * g) (fold_left (fun acc x => (acc * qz 256 + x)%q) (map (fun i => rotation CR_byte (Z.of_nat i)) (seq 0 32)) qzero) =
    if g =? n / 32 - 1 then v else eval e (1 + 32 * g) (fold_left (fun acc x => (acc * qz 256 + x)%q) (map (fun i => rotation CR_byte (Z.of_nat i)) (seq 0 32)) qzero).
  Proof.
    intros Hg. pose proof zp_div as Q. rewrite !fold_bytes, !map_map. destruct (Z.eqb_spec g (n / 32 - 1)) as [->|N].
    - assert (E : map (fun x => eval e2 (1 + 32 * (n / 32 - 1)) (rotation CR_byte (Z.of_nat x))) (seq 0 32) = repeat f0 31 ++ [v]).
      { apply (nth_ext _ _ f0 f0); [reflexivity|]. intros k Hk. rewrite map_length, seq_length in Hk.
        rewrite nth_indep with (d' := (fun x => eval e2 (1 + 32 * (n / 32 - 1)) (rotation CR_byte (Z.of_nat x))) 0%nat) by (rewrite map_length, seq_length; exact Hk).
        rewrite (map_nth (fun x => eval e2 (1 + 32 * (n / 32 - 1)) (rotation CR_byte (Z.of_nat x)))), seq_nth by exact Hk. cbn [Nat.add]. unfold rotation. cbn [eval]. change (eN e2) with (eN e). pose proof (tb_rows _ _ _ TB).
        rewrite Z.mod_small by lia. rewrite zp_byte. destruct (Z.eqb_spec (1 + 32 * (n / 32 - 1) + Z.of_nat k) n) as [E|E].
        - replace k with 31%nat by lia. reflexivity.
        - destruct (zp_was (n / 32 - 1) k ltac:(pose proof (tb_groups _ _ _ TB); lia) Hk) as (_ & -> & _). rewrite app_nth1 by (rewrite repeat_length; lia). symmetry. apply nth_repeat. }
      rewrite E, fold_left_app. cbn [fold_left]. replace (fold_left (fun acc x => (acc * fz 256 + x)%fr) (repeat f0 31) f0) with f0; [ring|]. clear.
      generalize 31%nat as m. intros m. induction m as [|m IH]; [reflexivity|]. cbn [repeat fold_left]. replace (f0 * fz 256 + f0)%fr with f0 by ring. exact IH.
    - f_equal. apply map_ext_in. intros k Hk. apply in_seq in Hk. unfold rotation. cbn [eval]. change (eN e2) with (eN e). rewrite !Z.mod_small by lia. rewrite zp_byte. destruct (Z.eqb_spec (1 + 32 * g + Z.of_nat k) n); [lia|reflexivity].
  Qed.
  Lemma zp_canonical : sat e2 (circuit_of canonical_representation_configure).
  Proof.
    pose proof zp_div as Q. pose proof (tb_rows _ _ _ TB) as U. assert (Hf : Z.of_nat (List.length vs) < n / 32) by (pose proof (tb_groups _ _ _ TB); lia). apply (cr_sat_of e2 n zp_fixed).
    - intros i Hi. assert (HB : forall c k, In c CR_cols -> 32 * (n / 32) < k < n -> eadv e c k = f0) by (intros; lia).
      assert (Ev : forall x, 0 <= x < eN e -> x < n -> eadv e2 CR_byte x = eadv e CR_byte x) by (intros x _ Hx; rewrite zp_byte; destruct (Z.eqb_spec x n); [lia|reflexivity]).
      assert (Eb : eval e2 i (cur CR_byte) = eval e i (cur CR_byte)) by (rewrite !eval_cur by (change (eN e2) with (eN e); lia); apply Ev; lia).
      pose proof (cr_ok e n F (echal e) vs eq_refl Hf ltac:(lia) zp_HC HB i Hi) as O. unfold canonical_representation_configure in O |- *. cbn [okc] in O |- *. destruct O as (O1 & O2 & O3 & O4 & O5 & O6 & O7 & O8).
      split; [|split; [|split; [|split; [|split; [|split; [|split]]]]]].
      + revert O1. cbn [binary_columns for_each fold_right okc binary_column assert_ assert_equal]. rewrite !zp_eval by reflexivity. auto.
      + revert O2. unfold is_zero_configure. cbn [okc]. rewrite !zp_eval by reflexivity. auto.
      + apply okc_assert_equal. apply okc_assert_equal in O3. revert O3. rewrite !eval_sub, Eb. rewrite !zp_eval by reflexivity. auto.
      + rewrite zp_fcur. destruct (zp_first i Hi) as [E0|(E1 & g & Hg & Eg)]; [left; exact E0|]. destruct O4 as [O4|(_ & P1 & P2 & P3)]; [rewrite E1 in O4; apply f_equal with (f := val) in O4; vm_compute in O4; discriminate O4|].
        right. split; [exact E1|]. split; [|split].
        * apply okc_assert_equal. apply okc_assert_equal in P1. rewrite Eg, zp_group by exact Hg. rewrite eval_cur by (change (eN e2) with (eN e); lia). rewrite zp_value. destruct (Z.eqb_spec g (n / 32 - 1)) as [->|N].
          -- rewrite (proj2 (in_range_true (n - 31) _ (n + 1))) by lia. reflexivity.
          -- rewrite (proj2 (in_range_false (n - 31) _ (n + 1))) by lia. rewrite Eg in P1. rewrite <- P1. rewrite eval_cur by lia. reflexivity.
        * apply okc_assert. apply okc_assert in P2. revert P2. rewrite zp_eval by reflexivity. auto.
        * apply okc_assert_equal. apply okc_assert_equal in P3. revert P3. rewrite Eb. rewrite (zp_eval (cur CR_rlc)) by reflexivity. auto.
      + rewrite (zp_eval (bnot (fcur CR_index_is_zero))) by reflexivity. destruct O5 as [O5|(E1 & P1 & P2 & P3)]; [left; exact O5|right; split; [exact E1|]]. split; [|split].
        * apply okc_assert_equal. apply okc_assert_equal in P1. revert P1. rewrite !eval_cur, !eval_prev by (change (eN e2) with (eN e); lia). rewrite !zp_value.
          destruct (Z_lt_dec i (n - 31)) as [L|L].
          -- rewrite (proj2 (in_range_false (n - 31) i _)), (proj2 (in_range_false (n - 31) (i - 1) _)) by lia. auto.
          -- rewrite (proj2 (in_range_true (n - 31) i (n + 1))) by lia. assert (i <> n - 31).
             { intros Ei. rewrite eval_bnot in E1. rewrite (zp_first_inv i (n / 32 - 1) Hi ltac:(lia) ltac:(lia)) in E1. apply f_equal with (f := val) in E1. vm_compute in E1. discriminate E1. }
             rewrite (proj2 (in_range_true (n - 31) (i - 1) (n + 1))) by lia. auto.
        * apply okc_assert_equal. apply okc_assert_equal in P2. revert P2. rewrite !zp_eval by reflexivity. auto.
        * apply okc_assert_equal. apply okc_assert_equal in P3. revert P3. cbn [eval]. rewrite Eb. rewrite (zp_eval (cur CR_rlc)), (zp_eval (prev CR_rlc)), (zp_eval randomness) by reflexivity. auto.
      + destruct O6 as [L O6]. split; [exact L|]. revert O6. apply zp_hit256. exact Eb.
      + rewrite (zp_eval (band (cur CR_zero_so_far) (bnot (iz_current CR_difference_is_zero)))) by reflexivity. destruct O7 as [O7|(E1 & L & O7)]; [left; exact O7|right; split; [exact E1|split; [exact L|]]]. revert O7. apply zp_hit256. apply zp_eval. reflexivity.
      + rewrite (zp_eval (frot CR_index_is_zero (-31))) by reflexivity. destruct O8 as [O8|(E1 & O8)]; [left; exact O8|right; split; [exact E1|]]. apply okc_assert. apply okc_assert in O8. revert O8. rewrite zp_eval by reflexivity. auto.
    - intros t Ht No. change (eN e2) with (eN e) in Ht. rewrite zp_cr by (first [reflexivity|discriminate]). destruct (Z.eq_dec t n) as [->|N].
      + pose proof (cr_last e n F (echal e) vs Hf zp_HC) as (_ & _ & Z1). rewrite <- (proj1 Q) in Z1. exact Z1.
      + rewrite (tb_cells _ _ _ TB) by (first [cbn; tauto|lia]). unfold cr_cell. rewrite (proj2 (in_range_false 1 t _)) by lia. reflexivity.
  Qed.
  Lemma zp_index t : 0 <= t < eN e -> efix e CR_index t = if in_range 1 t (1 + 32 * (n / 32)) then fz ((t - 1) mod 32) else f0.
  Proof. intros Ht. rewrite (fo_cells e n F) by (try discriminate; lia). reflexivity. Qed.
  Lemma zp_31 t : 0 <= t < eN e -> efix e CR_index_is_31 t = fb (in_range 1 t (1 + 32 * (n / 32)) && ((t - 1) mod 32 =? 31)).
  Proof. intros Ht. rewrite (fo_cells e n F) by (try discriminate; lia). reflexivity. Qed.
  Lemma zp_sel t : 0 <= t < eN e -> efix e SEL t = if in_range 1 t n then f1 else f0.
  Proof. intros Ht. rewrite (fo_cells e n F) by (try discriminate; lia). reflexivity. Qed.
  Lemma zp_lookup t : enabled e t -> exists t', enabled e2 t' /\ map (eval e2 t') canonical_lookup = map (eval e t) canonical_lookup.
  Proof.
    intros En. pose proof (proj1 (fix_enabled _ n t F) En) as Ht. pose proof zp_div as Q. pose proof (tb_groups _ _ _ TB) as G. unfold canonical_lookup. cbn [map].
    assert (X : exists t', 1 <= t' < n /\ eadv e2 CR_value t' = eadv e CR_value t /\ efix e CR_index t' = efix e CR_index t /\ eadv e2 CR_byte t' = eadv e CR_byte t).
    { destruct (Z_lt_dec t (n - 31)) as [L|L].
      - exists t. split; [lia|]. rewrite zp_value, zp_byte, (proj2 (in_range_false (n - 31) t (n + 1))) by lia. destruct (Z.eqb_spec t n); [lia|]. auto.
      - set (k := Z.to_nat (t - 1 - 32 * (n / 32 - 1))). assert (Hk : (k < 32)%nat) by lia. exists (t - 32). split; [lia|].
        rewrite zp_value, zp_byte, (proj2 (in_range_false (n - 31) (t - 32) (n + 1))) by lia. destruct (Z.eqb_spec (t - 32) n); [lia|].
        destruct (zp_was (n / 32 - 1) k ltac:(lia) Hk) as (A1 & A2 & _). destruct (zp_was (n / 32 - 2) k ltac:(lia) Hk) as (B1 & B2 & _).
        replace (1 + 32 * (n / 32 - 1) + Z.of_nat k) with t in A1, A2 by lia. replace (1 + 32 * (n / 32 - 2) + Z.of_nat k) with (t - 32) in B1, B2 by lia. rewrite A1, A2, B1, B2. split; [reflexivity|]. split; [|reflexivity].
        rewrite !zp_index by lia. rewrite !(proj2 (in_range_true 1 _ (1 + 32 * (n / 32)))) by lia. f_equal. replace (t - 1) with (t - 32 - 1 + 1 * 32) by lia. rewrite Z.mod_add by lia. reflexivity. }
    destruct X as (t' & Ht' & X1 & X2 & X3). exists t'. split; [apply (fix_enabled _ n t' zp_fixed); exact Ht'|]. rewrite !eval_cur, !eval_fcur by (change (eN e2) with (eN e); lia). change (efix e2) with (efix e). rewrite X1, X2, X3. reflexivity.
  Qed.
  Lemma zp_rlc t : 0 <= t < eusable e -> exists t', 0 <= t' < eusable e2 /\ map (eval e2 t') (fr_rlc_lookup ++ [fcur SEL]) = map (eval e t) (fr_rlc_lookup ++ [fcur SEL]).
  Proof.
    intros Ht. pose proof zp_div as Q. pose proof (tb_groups _ _ _ TB) as G. change (eusable e2) with (eusable e). unfold fr_rlc_lookup. cbn [map app].
    assert (X : exists t', 0 <= t' < eusable e /\ efix e SEL t' = efix e SEL t /\ (eadv e2 CR_value t' * efix e CR_index_is_31 t' = eadv e CR_value t * efix e CR_index_is_31 t)%fr /\ (eadv e2 CR_rlc t' * efix e CR_index_is_31 t' = eadv e CR_rlc t * efix e CR_index_is_31 t)%fr).
    { assert (R : forall i, eadv e2 CR_rlc i = eadv e CR_rlc i) by (intros i; apply zp_cr; [reflexivity|discriminate|discriminate]).
      destruct (Z.eq_dec t n) as [->|N].
      - exists 0. split; [lia|]. split; [rewrite !zp_sel by lia; rewrite (proj2 (in_range_false 1 0 n)), (proj2 (in_range_false 1 n n)) by lia; reflexivity|].
        destruct (zp_was (n / 32 - 1) 31 ltac:(lia) ltac:(lia)) as (A1 & _ & A3). replace (1 + 32 * (n / 32 - 1) + Z.of_nat 31) with n in A1, A3 by lia. rewrite A1, A3. rewrite (zp_31 0) by lia. rewrite (proj2 (in_range_false 1 0 (1 + 32 * (n / 32)))) by lia. cbn [andb fb]. split; ring.
      - exists t. split; [lia|]. split; [reflexivity|]. rewrite R. split; [|reflexivity]. rewrite zp_value. destruct (in_range (n - 31) t (n + 1)) eqn:Rg; [|reflexivity]. apply in_range_true in Rg. rewrite (zp_31 t) by lia.
        replace ((t - 1) mod 32 =? 31) with false; [rewrite andb_false_r; cbn [fb]; ring|]. symmetry. apply Z.eqb_neq. replace ((t - 1) mod 32) with (t - 1 - 32 * (n / 32 - 1)) by (apply (Z.mod_unique _ _ (n / 32 - 1)); lia). lia. }
    destruct X as (t' & Ht' & X0 & X1 & X2). exists t'. split; [exact Ht'|]. cbn [eval]. rewrite !eval_cur, !eval_fcur by (change (eN e2) with (eN e); lia). change (efix e2) with (efix e). rewrite X0, X1, X2. reflexivity.
  Qed.
  Lemma zp_accepts k : 0 <= k < 31 -> accepts e2 canonical_lookup [v; fz k; f0].
  Proof.
    intros Hk. pose proof zp_div as Q. pose proof (tb_groups _ _ _ TB) as G. exists (n - 31 + k). split; [apply (fix_enabled _ n _ zp_fixed); lia|]. unfold canonical_lookup. cbn [map]. rewrite !eval_cur, !eval_fcur by (change (eN e2) with (eN e); lia). change (efix e2) with (efix e).
    rewrite zp_value, zp_byte, (proj2 (in_range_true (n - 31) _ (n + 1))) by lia. destruct (Z.eqb_spec (n - 31 + k) n); [lia|]. rewrite zp_index by lia. rewrite (proj2 (in_range_true 1 _ (1 + 32 * (n / 32)))) by lia.
    replace ((n - 31 + k - 1) mod 32) with k by (apply (Z.mod_unique _ _ (n / 32 - 1)); lia). replace (n - 31 + k) with (1 + 32 * (n / 32 - 1) + Z.of_nat (Z.to_nat k)) by lia. destruct (zp_was (n / 32 - 1) (Z.to_nat k) ltac:(lia) ltac:(lia)) as (_ & -> & _). reflexivity.
  Qed.
  Lemma zp_key : okc e2 (n - 1) key_bit_configure.
  Proof.
    pose proof zp_div as Q. assert (Hi : 1 <= n - 1 < n) by lia. pose proof zp_fixed as F2.
    pose proof (Z.mod_pos_bound j 8 ltac:(lia)) as Hm. pose proof (Z_div_mod_eq_full j 8) as Hd. assert (D1 : 1 <= j / 8 <= 31) by lia.
    assert (K : forall c, In c KB_cols -> eval e2 (n - 1) (cur c) = eadv e2 c (n - 1)) by (intros c _; rewrite eval_cur by (change (eN e2) with (eN e); lia); reflexivity).
    unfold key_bit_configure. split; [|split; [|split; [|split; [|split]]]].
    - apply (ok_byte e2 n F2 _ (n - 1) (cur KB_index) j); [rewrite K, zp_last by (cbn; tauto); reflexivity|unfold is_byte; lia].
    - apply (ok_byte e2 n F2 _ (n - 1) (cur KB_index_div_8) (j / 8)); [rewrite K, zp_last by (cbn; tauto); reflexivity|unfold is_byte; lia].
    - split; [reflexivity|]. apply (idx8_hit e2 n F2). exists (j mod 8). split; [lia|]. rewrite K, zp_last by (cbn; tauto). reflexivity.
    - split; [reflexivity|]. pose proof (proj1 (accepts_hit e2 (n - 1) _ _) (zp_accepts (31 - j / 8) ltac:(lia))) as (t & Ht & St & M). exists t. split; [exact Ht|]. split; [exact St|]. cbn [map] in M.
      inversion M as [|? ? ? ? M1 R1]; subst. inversion R1 as [|? ? ? ? M2 R2]; subst. inversion R2 as [|? ? ? ? M3 R3]; subst. cbn [eval] in M1, M2, M3.
      constructor; [rewrite K, zp_last by (cbn; tauto); exact M1|]. constructor; [|constructor; [rewrite K, zp_last by (cbn; tauto); exact M3|constructor]].
      rewrite eval_sub, K, zp_last by (cbn; tauto). change (eval e2 (n - 1) (qz 31)) with (fz 31). rewrite <- fz_sub. exact M2.
    - split; [reflexivity|]. apply (byte_bit_hit e2 n F2). exists 0, (j mod 8). rewrite !K, !zp_last by (cbn; tauto). rewrite Z.bits_0. repeat split; lia.
    - apply okc_assert_equal. cbn [eval]. rewrite !K, !zp_last by (cbn; tauto). change (eval e2 (n - 1) (qz 8)) with (fz 8). rewrite <- fz_mul, <- fz_add. f_equal. lia.
  Qed.
  Theorem zero_ok : fixed_ok e2 n /\ sat e2 (circuit_of (circuit H)) /\ echal e2 = echal e /\
    (forall l r d h, poseidon_hit e2 l r d h <-> poseidon_hit e l r d h) /\ (forall row, exposes e row <-> exposes e2 row) /\
    (forall k, 0 <= k < 31 -> accepts e2 canonical_lookup [v; fz k; fz 0]) /\ accepts e2 key_bit_lookup [v; fz j; fb false].
  Proof.
    pose proof zp_div as Q. split; [exact zp_fixed|]. split; [|split; [reflexivity|split; [|split; [|split; [exact zp_accepts|]]]]].
    - apply (cm_sat H e e2 n F SAT zp_sizes zp_other zp_kb SP); [|exact zp_lookup|exact zp_rlc|exact zp_canonical|exact zp_key].
      rewrite zp_value, zp_byte, (proj2 (in_range_false (n - 31) 0 _)) by lia. destruct (Z.eqb_spec 0 n); [lia|]. rewrite !(tb_cells _ _ _ TB) by (first [cbn; tauto|lia]). unfold cr_cell. rewrite (proj2 (in_range_false 1 0 _)) by lia. auto.
    - exact (cm_hit e e2 zp_sizes zp_other).
    - exact (cm_exposes e e2 n F zp_sizes zp_other).
    - exists (n - 1). split; [apply (fix_enabled _ n (n - 1) zp_fixed); lia|]. unfold key_bit_lookup. cbn [map]. rewrite !eval_cur by (change (eN e2) with (eN e); lia). rewrite !zp_last by (cbn; tauto). reflexivity.
  Qed.
End Zero.
