(* A table whose rows meet the conditions of UpdateComplete.v satisfies the whole circuit. *)
From Coq Require Import ZArith String List Bool Lia.
From Verif Require Import Pocklington Fr Query Builder BuilderProofs Gadgets MptUpdate Bytes GadgetProofs LagrangeProofs Fixed UpdateRows TrieSpec TableSpec GadgetMain GadgetMain2 UpdateSound UpdateComplete.
Import ListNotations.
Open Scope Z_scope.

Fixpoint rights (c : cmd) : list (list query) :=
  match c with
  | Seq a b => rights a ++ rights b
  | Condition _ body => rights body
  | AddLookup _ _ r => [r]
  | _ => []
  end.
Lemma dummies_rights e c :
  (forall r, In r (rights c) -> exists t, 0 <= t < eusable e /\ efix e SEL t = f0 /\ Forall (fun q => eval e t q = f0) r) ->
  (exists t, 0 <= t < eusable e /\ Forall (fun q => eval e t q = f0) poseidon_table) -> dummies e c.
Proof.
  intros A B. induction c as [|x IHx y IHy|nm q|q body IH|nm l r|nm l r d h]; cbn [dummies rights] in *; auto.
  - split; [apply IHx|apply IHy]; intros r Hr; apply A, in_or_app; auto.
  - apply A. left. reflexivity.
Qed.
Definition update_tables : list (list query) := [bytes_lookup; rlc_lookup; fr_rlc_lookup; key_bit_lookup].
Lemma update_rights H r : In r (rights (mpt_update_configure H)) -> In r update_tables.
Proof.
  intros Hr. lazy in Hr. unfold update_tables.
  repeat (destruct Hr as [<-|Hr]; [cbn [In]; lazy; tauto|]). contradiction.
Qed.

(* the row with index i is switched off and its update columns encode the first variants *)
Record off_row (e : env) (i : Z) : Prop := {
  of_sg : sg e i = SegStart; of_pa : pa e i = PathStart; of_pt : pt e i = NonceChanged;
  of_keys : eadv e (MU_zero_value 2) i = f0 }.

Section Whole.
  Variables (H : Fr -> Fr -> Fr -> Fr) (e : env) (n : Z).
  Hypothesis F : fixed_ok e n.
  Let N := eN e.
  Hypothesis HnN : n < N.
  Hypothesis OHs : forall j, 0 <= j < N -> oh_row oh_segment e j.
  Hypothesis OHp : forall j, 0 <= j < N -> oh_row oh_path e j.
  Hypothesis OHt : forall j, 0 <= j < N -> oh_row oh_proof e j.
  Hypothesis IZ : forall k j, (k < 4)%nat -> 0 <= j < N -> eadv e (MU_zero_inv k) j = finv (eadv e (MU_zero_value k) j).
  Let Hn := fo_rows e n F.
  Let Hu := fo_usable e n F.

  Lemma okpos_off i : 0 <= i < N -> efix e SEL i = f0 -> off_row e i -> okpos e i (mpt_update_configure H).
  Proof.
    intros Hi Sel [Es Ep Et Ez].
    assert (M0 : (i + 0) mod N = i) by (rewrite Z.add_0_r; apply Z.mod_small; lia).
    assert (Np : 0 < N) by lia.
    assert (Cs : forall vs, NoDup vs -> eval e i (cur_seg vs) = fb (existsb (seg_eqb SegStart) vs)).
    { intros vs Nd. rewrite <- Es. apply (cev_seg e OHs i 0 i vs M0 Np Nd). }
    assert (Cp : forall vs, NoDup vs -> eval e i (cur_path vs) = fb (existsb (path_eqb PathStart) vs)).
    { intros vs Nd. rewrite <- Ep. apply (cev_path e OHp i 0 i vs M0 Np Nd). }
    assert (Ct : forall vs, NoDup vs -> eval e i (current_matches oh_proof vs) = fb (existsb (ptype_eqb NonceChanged) vs)).
    { intros vs Nd. rewrite <- Et. apply (cev_pt e OHt i 0 i vs M0 Np Nd). }
    assert (Ns : forall vs, NoDup vs -> exists b, eval e i (next_seg vs) = fb b).
    { intros vs Nd. eexists. apply (cev_seg e OHs i 1 _ vs eq_refl Np Nd). }
    assert (I2 : eval e i (bnot (iz_current (izg 2))) = f0).
    { rewrite eval_bnot. unfold iz_current. rewrite eval_sub. change (eval e i (cur (iz_value (izg 2)) * cur (iz_inv (izg 2)))%q) with
        (eval e i (cur (iz_value (izg 2))) * eval e i (cur (iz_inv (izg 2))))%fr. rewrite !eval_cur by exact Hi. cbn [izg iz_value iz_inv].
      rewrite Ez. change (eval e i qone) with f1. ring. }
    assert (Sl : eval e i (fcur SEL) = f0) by (rewrite eval_fcur by exact Hi; exact Sel).
    assert (S1 : NoDup [SegStart] /\ NoDup [SegStart; AccountLeaf3] /\ NoDup [AccountTrie; StorageTrie] /\ NoDup [Common]).
    { repeat split; repeat constructor; cbn; intuition discriminate. }
    destruct S1 as (N1 & N2 & N3 & N4).
    unfold mpt_update_configure.
    split. { split; [|exact I]. apply okpos_for_each, Forall_forall. intros v _. split; exact I. }
    split. { apply okpos_for_each, Forall_forall. intros v _. split; exact I. }
    split. { split; [|exact I]. apply okpos_for_each, Forall_forall. intros v _. split; exact I. }
    split. { split; [|exact I]. apply okpos_for_each, Forall_forall. intros v _. split; exact I. }
    split; [|split; [|split; [|split; [|split]]]].
    - split; [exact I|]. split.
      + left. rewrite eval_band, Sl. ring.
      + left. rewrite eval_bnot, (Cs _ N1). cbn. ring.
    - left. rewrite eval_bnot, (Cs _ N2). cbn. ring.
    - split; [left; rewrite (Cs _ N3); reflexivity|]. eapply okpos_cond; [|intros _; exact I]. rewrite eval_bnot, (Cs _ N3). cbn. instantiate (1 := true). cbn. ring.
    - apply okpos_for_each, Forall_forall. intros v _. apply (okpos_cond _ _ _ _ (path_eqb PathStart v || false)).
      + apply Cp. repeat constructor. intros [].
      + intros Q. destruct v; try discriminate Q. split; exact I.
    - apply okpos_for_each, Forall_forall. intros v _. apply (okpos_cond _ _ _ _ (seg_eqb SegStart v || false)); [|intros _; exact I].
      apply Cs. repeat constructor. intros [].
    - apply okpos_for_each, Forall_forall. intros v _. apply (okpos_cond _ _ _ _ (ptype_eqb NonceChanged v || false)).
      { apply Ct. repeat constructor. intros []. }
      intros Q. destruct v; try discriminate Q. clear Q. split.
      + unfold configure_segment_transitions. apply okpos_for_each, Forall_forall. intros v _. apply (okpos_cond _ _ _ _ (seg_eqb SegStart v || false)).
        { apply Cs. repeat constructor. intros []. }
        intros _. destruct (seg_transitions NonceChanged v); exact I.
      + split; [exact I|]. apply okpos_for_each, Forall_forall. intros v _. apply (okpos_cond _ _ _ _ (seg_eqb SegStart v || false)).
        { apply Cs. repeat constructor. intros []. }
        intros Q. destruct v; try discriminate Q. destruct (Ns [SegStart] N1) as (b & Eb).
        apply (okpos_cond _ _ _ _ b Eb). intros _. split; [exact I|]. split; [exact I|].
        split; [exact I|]. split; [exact I|]. split; [exact I|]. split; [exact I|]. left. exact I2.
  Qed.

  Hypothesis Rows : forall i, 1 <= i < n -> row_ok H e i.
  Hypothesis Off : forall i, 0 <= i < eusable e -> ~ 1 <= i < n -> off_row e i.
  Hypothesis Tab : exists t, 0 <= t < eusable e /\ efix e SEL t = f0 /\
    forall c, In c [BR_value; BR_index; BR_rlc; CR_value; CR_rlc; KB_value; KB_index; KB_bit] -> eadv e c t = f0.
  Hypothesis Pos : exists t, 0 <= t < eusable e /\ Forall (fun q => eval e t q = f0) poseidon_table.
  Theorem update_sat : sat e (circuit_of (mpt_update_configure H)).
  Proof.
    apply sat_complete.
    - apply (fixed_wf e n F).
    - intros i Hi. destruct (Z_lt_dec i 1) as [L|L]; [left; apply (zero_sel_off e n F); lia|].
      destruct (Z_lt_dec i n); [right; apply (sel_on e n F); lia|left; apply (zero_sel_off e n F); lia].
    - intros i Hi. apply (zero_sel_off e n F); lia.
    - apply dummies_rights; [|exact Pos]. intros r Hr. apply update_rights in Hr.
      destruct Tab as (t & Ht & St & Z0). exists t. split; [exact Ht|]. split; [exact St|].
      assert (C : forall c, In c [BR_value; BR_index; BR_rlc; CR_value; CR_rlc; KB_value; KB_index; KB_bit] -> eval e t (cur c) = f0).
      { intros c Hc. rewrite eval_cur by (fold N; lia). apply Z0, Hc. }
      assert (Q : forall c f, In c [BR_value; BR_index; BR_rlc; CR_value; CR_rlc; KB_value; KB_index; KB_bit] -> eval e t (cur c * fcur f)%q = f0).
      { intros c f Hc. change (eval e t (cur c) * eval e t (fcur f) = f0)%fr. rewrite (C c Hc). ring. }
      cbn [In update_tables] in Hr. destruct Hr as [<-|[<-|[<-|[<-|[]]]]]; repeat constructor; first [apply C|apply Q]; cbn; tauto.
    - intros i Hi Si. apply (sel_inv e n F) in Si; [|fold N; lia]. apply (row_ok_okc H e n F HnN OHs OHp OHt IZ i Si). apply Rows, Si.
    - intros i Hi Si. apply okpos_off; [fold N; lia|exact Si|]. apply Off; [exact Hi|]. intros X.
      rewrite (sel_on e n F i X) in Si. apply f1_neq_f0. exact Si.
  Qed.

  Hypothesis Final : map (eval e (n - 1)) mpt_update_lookup = final_row.
  Theorem final_sat : sat e (circuit_of final_row_configure).
  Proof.
    apply (sat_of_okc e n F).
    - unfold final_row_configure. apply dummies_rights; [|exact Pos]. intros r Hr. exfalso. revert Hr. set (L := mpt_update_lookup).
      assert (LL : List.length L = 7%nat) by reflexivity. clearbody L. do 8 (destruct L as [|? L]; try discriminate LL). cbn. tauto.
    - intros i Hi. unfold final_row_configure. apply (okc_cond _ _ _ _ (i =? n - 1)).
      + rewrite eval_fcur by (fold N; lia). rewrite (fo_cells e n F) by (try discriminate; fold N; lia). reflexivity.
      + intros Q. apply Z.eqb_eq in Q. subst i. revert Final. set (L := mpt_update_lookup).
        assert (LL : List.length L = 7%nat) by reflexivity. clearbody L. do 8 (destruct L as [|? L]; try discriminate LL).
        cbn [map]. intros Fin. unfold final_row in Fin. apply okc_for_each. cbn [combine]. injection Fin as A0 A1 A2 A3 A4 A5 A6.
        repeat constructor; apply (proj2 (okc_assert_equal e (n - 1) _ _ _)); cbn [fst snd]; rewrite eval_qz; symmetry; assumption.
    - intros i. unfold final_row_configure. set (L := mpt_update_lookup). assert (LL : List.length L = 7%nat) by reflexivity. clearbody L.
      do 8 (destruct L as [|? L]; try discriminate LL). cbn [combine for_each fold_right okpos].
      cbn [okpos]. destruct (Z.eq_dec ((i + 0) mod N) (n - 1)) as [E|E].
      + right. split; [|cbn; tauto]. change (efix e FINAL ((i + 0) mod N) = f1). rewrite E. rewrite (fo_cells e n F) by (try discriminate; fold N; lia). cbn [fixed_cell]. rewrite Z.eqb_refl. reflexivity.
      + left. change (efix e FINAL ((i + 0) mod N) = f0). rewrite (fo_cells e n F); [|discriminate|apply Z.mod_pos_bound; lia]. cbn [fixed_cell].
        destruct (((i + 0) mod N) =? n - 1) eqn:Q; [apply Z.eqb_eq in Q; contradiction|reflexivity].
  Qed.
  Hypothesis BR : sat e (circuit_of byte_representation_configure).
  Hypothesis CR : sat e (circuit_of canonical_representation_configure).
  Hypothesis KB : sat e (circuit_of key_bit_configure).
  Theorem whole_sat : sat e (circuit_of (circuit H)).
  Proof.
    unfold circuit. apply sat_seq. split; [exact BR|]. apply sat_seq. split; [exact CR|]. apply sat_seq. split; [exact KB|].
    apply sat_seq. split; [exact update_sat|exact final_sat].
  Qed.
End Whole.
