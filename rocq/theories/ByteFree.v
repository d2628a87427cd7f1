(* The byte representation table is not anchored: any accepted table with an unused row can be changed so that one arbitrary
   triple (value, length, RLC) is found in it. *)
From Coq Require Import ZArith String List Bool Lia.
From Verif Require Import Pocklington Fr Query Builder BuilderProofs Gadgets MptUpdate Bytes GadgetProofs Fixed UpdateRows UpdateSound Assign AssignProofs AssignOk MptAssign GadgetMain GadgetMain2 CircuitOk UpdateProps Splice Retable.
Import ListNotations.
Open Scope Z_scope.

(* the last enabled row repeats the one before, and the first disabled row after it repeats row 0: both hold for the cells
   that assignment leaves empty *)
Definition spare_row (e : env) (n : Z) (cols : list acol) : Prop :=
  n < eusable e /\ forall c, In c cols -> eadv e c (n - 1) = eadv e c (n - 2) /\ eadv e c n = eadv e c 0.

Lemma iz_inv_of e i g : 0 <= i < eN e -> den e i (is_zero_configure g) -> eadv e (iz_inv g) i = finv (eadv e (iz_value g) i).
Proof.
  intros Hi. unfold is_zero_configure. cbn [den eval]. rewrite eval_sub. cbn [eval]. change (eval e i qone) with f1. rewrite !eval_cur by exact Hi. intros [A B].
  destruct (Fr_eq_dec (eadv e (iz_value g) i) f0) as [E|E].
  - rewrite E, finv_0 in *. rewrite <- B. ring.
  - pose proof (finv_l _ E) as L. apply fmul_eq0 in A. destruct A as [A|A]; [contradiction|].
    transitivity (finv (eadv e (iz_value g) i) * (eadv e (iz_value g) i * eadv e (iz_inv g) i))%fr.
    + transitivity ((finv (eadv e (iz_value g) i) * eadv e (iz_value g) i) * eadv e (iz_inv g) i)%fr; [rewrite L; ring|ring].
    + transitivity (finv (eadv e (iz_value g) i) * (1 - (1 - eadv e (iz_value g) i * eadv e (iz_inv g) i)))%fr; [ring|]. rewrite A. ring.
Qed.

Section Row.
  Variables (e : env) (n : Z).
  Hypothesis F : fixed_ok e n.
  Let Hn := fo_rows e n F.
  Let Hu := fo_usable e n F.
  Lemma br_okc i b : 1 <= i < n -> is_byte b -> eadv e BR_byte i = fz b -> eadv e BR_index_inv i = finv (eadv e BR_index i) ->
    (eadv e BR_index i = f0 /\ eadv e BR_value i = fz b /\ eadv e BR_rlc i = fz b) \/
    (eadv e BR_index i <> f0 /\ eadv e BR_index i = (eadv e BR_index (i - 1) + 1)%fr /\
      eadv e BR_value i = (eadv e BR_value (i - 1) * fz 256 + fz b)%fr /\
      eadv e BR_rlc i = (eadv e BR_rlc (i - 1) * echal e + fz b)%fr) ->
    okc e i byte_representation_configure.
  Proof.
    intros Hi Hb Eb Ei C.
    assert (FI : eval e i (fcur BR_is_first) = f0).
    { rewrite eval_fcur by lia. rewrite (fo_cells e n F) by (try discriminate; lia). cbn [fixed_cell]. destruct (Z.eqb_spec i 0); [lia|reflexivity]. }
    assert (OKZ : okc e i (is_zero_configure BR_index_is_zero)) by (apply iz_complete; [lia|exact Ei]).
    assert (I0 : eval e i (bnot (iz_current BR_index_is_zero)) = if feqb (eadv e BR_index i) f0 then f0 else f1).
    { rewrite eval_bnot. unfold iz_current. rewrite eval_sub. cbn [BR_index_is_zero iz_value iz_inv]. change (eval e i qone) with f1.
      change (eval e i (cur BR_index * cur BR_index_inv)%q) with (eval e i (cur BR_index) * eval e i (cur BR_index_inv))%fr.
      rewrite !(eval_cur' e n F) by exact Hi. rewrite Ei. destruct (feqb_spec (eadv e BR_index i) f0) as [-> |N]; [ring|]. pose proof (finv_l _ N) as L.
      transitivity (finv (eadv e BR_index i) * eadv e BR_index i)%fr; [ring|exact L]. }
    unfold byte_representation_configure. cbn [okc]. split; [exact OKZ|]. split; [left; exact FI|]. split; [|split; [|split]].
    - cbn [eval]. rewrite !eval_sub, !(eval_cur' e n F), (eval_prev' e n F) by exact Hi. change (eval e i qone) with f1.
      destruct C as [(-> & _)|(_ & -> & _)]; ring.
    - apply okc_assert_equal. cbn [eval]. rewrite !(eval_cur' e n F), (eval_prev' e n F) by exact Hi. change (eval e i (qz 256)) with (fz 256). rewrite I0, Eb.
      destruct (feqb_spec (eadv e BR_index i) f0) as [Z|Z]; destruct C as [(A & B & C)|(A & _ & B & C)]; try contradiction; rewrite B; ring.
    - apply okc_assert_equal. cbn [eval]. rewrite !(eval_cur' e n F), (eval_prev' e n F) by exact Hi. change (eval e i randomness) with (echal e). rewrite I0, Eb.
      destruct (feqb_spec (eadv e BR_index i) f0) as [Z|Z]; destruct C as [(A & B & C)|(A & _ & B & C)]; try contradiction; rewrite C; ring.
    - apply (ok_byte e n F ""%string i (cur BR_byte) b); [rewrite (eval_cur' e n F) by exact Hi; exact Eb|exact Hb].
  Qed.
End Row.

(** * One arbitrary entry *)
(* rows 0 and 1 hold the entry, and what was in rows 1 to n - 2 moves down by one *)
Definition br_put (e : env) (n : Z) (X : Fr) (m : Z) (y : Fr) : env :=
  mkEnv (eN e) (eusable e)
    (fun c i => if (existsb (fun c' => if acol_eq_dec c c' then true else false) BR_cols && (0 <=? i) && (i <? n))%bool then
       if i =? 0 then match c with BR_value => (X * finv (fz 256))%fr | BR_rlc => (y * finv (echal e))%fr | BR_index => fz (m - 1) | _ => f0 end
       else if i =? 1 then match c with BR_value => X | BR_rlc => y | BR_index => fz m | BR_byte => f0 | _ => finv (fz m) end
       else eadv e c (i - 1)
     else eadv e c i)
    (efix e) (echal e).

Section Put.
  Variables (H : Fr -> Fr -> Fr -> Fr) (e : env) (n : Z) (X : Fr) (m : Z) (y : Fr).
  Hypothesis OK : circuit_ok H e n.
  Hypothesis SP : spare_row e n BR_cols.
  Hypothesis CH : echal e <> f0.
  Hypothesis M : fz m <> f0.
  Let F := co_fixed H e n OK.
  Let Hn := fo_rows e n F.
  Let Hu := fo_usable e n F.
  Let e2 := br_put e n X m y.
  Lemma put_sizes : same_sizes e e2.
  Proof. split; reflexivity. Qed.
  Lemma put_fixed : fixed_ok e2 n.
  Proof. exact (fixed_same e e2 n F put_sizes). Qed.
  Lemma put_other c i : existsb (fun c' => if acol_eq_dec c c' then true else false) BR_cols = false -> eadv e2 c i = eadv e c i.
  Proof. intros E. unfold e2, br_put. cbn [eadv]. rewrite E. reflexivity. Qed.
  Lemma put_out c i : i < 0 \/ n <= i -> eadv e2 c i = eadv e c i.
  Proof. intros E. unfold e2, br_put. cbn [eadv]. replace ((0 <=? i) && (i <? n))%bool with false. rewrite <- andb_assoc. replace ((0 <=? i) && (i <? n))%bool with false. rewrite andb_false_r. reflexivity. all: symmetry; apply andb_false_iff; destruct E; [left; apply Z.leb_gt|right; apply Z.ltb_ge]; lia. Qed.
  Lemma in_BR c : In c BR_cols -> existsb (fun c' => if acol_eq_dec c c' then true else false) BR_cols = true.
  Proof. intros I. apply existsb_exists. exists c. split; [exact I|]. destruct (acol_eq_dec c c); [reflexivity|contradiction]. Qed.
  Lemma put_down c i : In c BR_cols -> 2 <= i < n -> eadv e2 c i = eadv e c (i - 1).
  Proof.
    intros I Hi. unfold e2, br_put. cbn [eadv]. rewrite (in_BR c I). cbn [andb]. destruct (Z.leb_spec 0 i); [|lia]. destruct (Z.ltb_spec i n); [|lia]. cbn [andb].
    destruct (Z.eqb_spec i 0); [lia|]. destruct (Z.eqb_spec i 1); [lia|]. reflexivity.
  Qed.
  Lemma put_top c i : In c BR_cols -> i = 0 \/ i = 1 -> eadv e2 c i = if i =? 0 then match c with BR_value => (X * finv (fz 256))%fr | BR_rlc => (y * finv (echal e))%fr | BR_index => fz (m - 1) | _ => f0 end
       else match c with BR_value => X | BR_rlc => y | BR_index => fz m | BR_byte => f0 | _ => finv (fz m) end.
  Proof.
    intros I Hi. unfold e2, br_put. cbn [eadv]. rewrite (in_BR c I). cbn [andb]. destruct (Z.leb_spec 0 i); [|lia]. destruct (Z.ltb_spec i n); [|lia]. cbn [andb].
    destruct Hi as [-> | ->]; reflexivity.
  Qed.
  Lemma put_byte : sat e2 (circuit_of byte_representation_configure).
  Proof.
    pose proof put_fixed as F2.
    assert (D : forall i, 1 <= i < n -> den e i byte_representation_configure).
    { apply (dens e n F (circuit H) _ (conj (fixed_wf e n F) (co_sat H e n OK))). apply part_left, part_here. }
    apply (sat_of_okc e2 n F2).
    - cbn [dummies byte_representation_configure is_zero_configure assert_equal]. repeat split; auto. apply (dummy_256 e2 n F2).
    - intros i Hi. destruct (Z.eq_dec i 1) as [->|N1].
      + apply (br_okc e2 n F2 1 0); [lia|unfold is_byte; lia| | |]; rewrite ?put_top by (first [lia|cbn; tauto]); cbn [Z.eqb Pos.eqb]; try reflexivity.
        right. split; [exact M|]. cbn [Z.eqb Pos.eqb Z.sub Z.add Z.opp Z.pos_sub].
        change (echal e2) with (echal e). change (fz 0) with f0.
        assert (E256 : fz 256 <> f0) by (intros Q; apply (f_equal val) in Q; vm_compute in Q; discriminate Q).
        split; [rewrite fz_sub; change (fz 1) with f1; ring|]. split.
        * transitivity (X * (finv (fz 256) * fz 256))%fr; [rewrite finv_l by exact E256; ring|ring].
        * transitivity (y * (finv (echal e) * echal e))%fr; [rewrite finv_l by exact CH; ring|ring].
      + assert (Hi1 : 1 <= i - 1 < n) by lia. destruct (br_step e n F (i - 1) Hi1 (D _ Hi1)) as (b & Hb & Eb & C).
        assert (IZ : eadv e BR_index_inv (i - 1) = finv (eadv e BR_index (i - 1))).
        { apply (iz_inv_of e (i - 1) BR_index_is_zero); [lia|]. exact (proj1 (D _ Hi1)). }
        apply (br_okc e2 n F2 i b); [lia|exact Hb| | |]; rewrite ?put_down by (first [lia|cbn; tauto]); [exact Eb|exact IZ|].
        destruct (Z.eq_dec i 2) as [->|N2].
        * left. change (2 - 1) with 1 in *. destruct C as [C|C]; [exact C|]. destruct (proj1 C). exact (co_anchor H e n OK).
        * rewrite !put_down by (first [lia|cbn; tauto]). exact C.
    - intros i. cbn [okpos byte_representation_configure is_zero_configure assert_equal]. repeat split; auto.
      destruct (Z.eq_dec ((i + 0) mod eN e) 0) as [Z0|Z0].
      + right. split; [|exact Logic.I]. unfold fcur. cbn [eval]. change (eN e2) with (eN e).
        rewrite (fo_cells e2 n F2) by (try discriminate; change (eN e2) with (eN e); lia). rewrite Z0. reflexivity.
      + left. unfold fcur. cbn [eval]. change (eN e2) with (eN e).
        rewrite (fo_cells e2 n F2) by (try discriminate; change (eN e2) with (eN e); apply Z.mod_pos_bound; lia). cbn [fixed_cell].
        destruct (Z.eqb_spec ((i + 0) mod eN e) 0); [contradiction|reflexivity].
  Qed.
  Lemma put_tables : tables_included e e2.
  Proof.
    destruct SP as [SPu SPr].
    assert (G : forall cols t, Forall (fun c => In c BR_cols) cols -> 0 <= t < eusable e -> exists t', 0 <= t' < eusable e /\ efix e SEL t' = efix e SEL t /\ forall c, In c cols -> eadv e2 c t' = eadv e c t).
    { intros cols t Fc Ht. rewrite Forall_forall in Fc.
      assert (S0 : forall i, 0 <= i < eN e -> efix e SEL i = if in_range 1 i n then f1 else f0) by (intros i Hi; rewrite (fo_cells e n F) by (try discriminate; lia); reflexivity).
      destruct (Z.eq_dec t 0) as [->|N0]; [|destruct (Z_lt_dec t (n - 1)) as [L|L]; [|destruct (Z.eq_dec t (n - 1)) as [->|N1]]].
      - exists n. split; [lia|]. split.
        + rewrite !S0 by lia. replace (in_range 1 n n) with false by (symmetry; apply in_range_false; lia). replace (in_range 1 0 n) with false by (symmetry; apply in_range_false; lia). reflexivity.
        + intros c Ic. rewrite put_out by lia. apply SPr. apply Fc, Ic.
      - exists (t + 1). split; [lia|]. split.
        + rewrite !S0 by lia. replace (in_range 1 t n) with true by (symmetry; apply in_range_true; lia). replace (in_range 1 (t + 1) n) with true by (symmetry; apply in_range_true; lia). reflexivity.
        + intros c Ic. rewrite put_down by (first [lia|apply Fc, Ic]). f_equal. lia.
      - exists (n - 1). split; [lia|]. split; [reflexivity|]. intros c Ic. rewrite put_down by (first [lia|apply Fc, Ic]). replace (n - 1 - 1) with (n - 2) by lia. symmetry. apply SPr. apply Fc, Ic.
      - exists t. split; [lia|]. split; [reflexivity|]. intros c Ic. rewrite put_out by lia. reflexivity. }
    assert (K : forall columns t, forallb (in_cols (fun c => negb (existsb (fun c' => if acol_eq_dec c c' then true else false) BR_cols))) columns = true -> 0 <= t < eusable e -> exists t', 0 <= t' < eusable e2 /\ map (eval e2 t') columns = map (eval e t) columns).
    { intros columns t E Ht. exists t. split; [exact Ht|]. rewrite forallb_forall in E. apply map_ext_in. intros q Hq. apply (eval_cols e e2 (fun c => negb (existsb (fun c' => if acol_eq_dec c c' then true else false) BR_cols)) put_sizes); [|lia|apply E, Hq].
      intros c i Ec _. apply put_other. apply negb_true_iff. exact Ec. }
    intros columns t Hc Ht. unfold table_columns in Hc. cbn [In] in Hc. destruct Hc as [<-|[<-|[<-|[<-|[<-|[]]]]]]; try (apply K; [vm_compute; reflexivity|exact Ht]).
    - destruct (G [BR_value; BR_index] t ltac:(repeat constructor; cbn; tauto) Ht) as (t' & Ht' & ES & EA). exists t'. split; [exact Ht'|]. unfold bytes_lookup. cbn [map app]. rewrite !eval_cur, !eval_fcur by (change (eN e2) with (eN e); lia). change (efix e2) with (efix e). rewrite ES, !EA by (cbn; tauto). reflexivity.
    - destruct (G [BR_value; BR_index; BR_rlc] t ltac:(repeat constructor; cbn; tauto) Ht) as (t' & Ht' & ES & EA). exists t'. split; [exact Ht'|]. unfold rlc_lookup. cbn [map app]. rewrite !eval_cur, !eval_fcur by (change (eN e2) with (eN e); lia). change (efix e2) with (efix e). rewrite ES, !EA by (cbn; tauto). reflexivity.
  Qed.
  Lemma put_rest c : cmd_in_cols (fun c => negb (existsb (fun c' => if acol_eq_dec c c' then true else false) BR_cols)) c = true -> sat e (circuit_of c) -> sat e2 (circuit_of c).
  Proof.
    apply (sat_cols e e2 _ put_sizes); [|lia]. intros c0 i Ec _. apply put_other. apply negb_true_iff. exact Ec.
  Qed.
  Lemma put_update c i : update_column c = true -> 0 <= i < eN e -> eadv e2 c i = eadv e c i.
  Proof. intros Hc _. apply put_other. destruct c; try discriminate Hc; reflexivity. Qed.
  Lemma put_hit l r d h : poseidon_hit e2 l r d h <-> poseidon_hit e l r d h.
  Proof. unfold poseidon_hit. split; intros (t & Ht & A & B); exists t; revert Ht A B; rewrite !put_other by reflexivity; auto. Qed.
  Theorem put_ok : fixed_ok e2 n /\ sat e2 (circuit_of (circuit H)) /\ echal e2 = echal e /\
    (forall l r d h, poseidon_hit e2 l r d h <-> poseidon_hit e l r d h) /\ (forall row, exposes e row <-> exposes e2 row) /\
    accepts e2 rlc_lookup [X; fz m; y] /\ accepts e2 bytes_lookup [X; fz m].
  Proof.
    split; [exact put_fixed|]. split; [|split; [reflexivity|split; [exact put_hit|split]]].
    - pose proof (co_sat H e n OK) as S. change (sat e (circuit_of (circuit H))) in S. apply (retabled H e e2 n F S put_sizes put_update put_tables put_byte).
      + apply put_rest; [vm_compute; reflexivity|]. unfold circuit in S. rewrite !sat_seq in S. apply S.
      + apply put_rest; [vm_compute; reflexivity|]. unfold circuit in S. rewrite !sat_seq in S. apply S.
    - exact (exposes_same e e2 n F put_sizes put_update).
    - assert (En : enabled e2 1) by (apply (fix_enabled _ n 1 put_fixed); lia).
      split; exists 1; (split; [exact En|]); unfold rlc_lookup, bytes_lookup; cbn [map]; rewrite !eval_cur by (change (eN e2) with (eN e); lia); rewrite !put_top by (first [lia|cbn; tauto]); reflexivity.
  Qed.
End Put.
