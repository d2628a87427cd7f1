(* The contents of one row of the update table, read off the writes of the assignment. *)
From Coq Require Import ZArith List Bool Lia.
From Verif Require Import Pocklington Fr Query Builder BuilderProofs Gadgets MptUpdate Bytes GadgetProofs UpdateRows Util Serde Trie Storage Types Assign AssignProofs UpdateAssign MptAssign.
Import ListNotations.
Open Scope Z_scope.

(** * The writes to one row *)
Fixpoint row_at (ws : list write) (i : Z) : row :=
  match ws with [] => [] | (c, j, v) :: rest => if i =? j then (c, v) :: row_at rest i else row_at rest i end.
Lemma row_at_find ws c i : wfind ws c i = rfind (row_at ws i) c.
Proof.
  induction ws as [|[[c' j] v] ws IH]; [reflexivity|]. cbn [wfind row_at]. rewrite IH. destruct (i =? j); cbn [rfind].
  - reflexivity.
  - destruct (rfind _ c); [reflexivity|]. destruct (col_eq_dec c c'); reflexivity.
Qed.
Lemma row_at_app a b i : row_at (a ++ b) i = row_at a i ++ row_at b i.
Proof. induction a as [|[[c j] v] a IH]; [reflexivity|]. cbn [row_at app]. rewrite IH. destruct (i =? j); reflexivity. Qed.
Lemma row_at_at o r i : row_at (at_ o r) i = if i =? o then r else [].
Proof. unfold at_. induction r as [|[c v] r IH]; cbn; [destruct (i =? o); reflexivity|]. rewrite IH. destruct (i =? o); reflexivity. Qed.
Lemma row_at_here o r : row_at (at_ o r) o = r. Proof. rewrite row_at_at, Z.eqb_refl. reflexivity. Qed.
Lemma row_at_there o r i : i <> o -> row_at (at_ o r) i = []. Proof. intros E. rewrite row_at_at. destruct (Z.eqb_spec i o); [contradiction|reflexivity]. Qed.
Lemma row_at_emit rows : forall o i, o <= i -> row_at (emit o rows) i = nth (Z.to_nat (i - o)) rows [].
Proof.
  induction rows as [|r rows IH]; intros o i Hi; [destruct (Z.to_nat (i - o)); reflexivity|]. cbn [emit]. rewrite row_at_app. fold (at_ o r). destruct (Z.eq_dec i o) as [->|Hne].
  - rewrite row_at_here. replace (Z.to_nat (o - o)) with O by lia. cbn [nth]. enough (E : row_at (emit (o + 1) rows) o = []) by (rewrite E; apply app_nil_r).
    clear. assert (G : forall rows a, o < a -> row_at (emit a rows) o = []); [|apply G; lia].
    clear. induction rows as [|r rows IH]; intros a Ha; [reflexivity|]. cbn [emit]. rewrite row_at_app. fold (at_ a r). rewrite row_at_there, IH by lia. reflexivity.
  - rewrite row_at_there, IH by lia. replace (Z.to_nat (i - o)) with (S (Z.to_nat (i - (o + 1)))) by lia. reflexivity.
Qed.
Lemma row_at_emit_before rows : forall o i, i < o -> row_at (emit o rows) i = [].
Proof. induction rows as [|r rows IH]; intros o i Hi; [reflexivity|]. cbn [emit]. rewrite row_at_app. fold (at_ o r). rewrite row_at_there, IH by lia. reflexivity. Qed.
Lemma row_at_emit_after rows o i : o + Z.of_nat (length rows) <= i -> row_at (emit o rows) i = [].
Proof. intros Hi. rewrite row_at_emit by lia. apply nth_overflow. lia. Qed.
Lemma nth_repeat_lt {X} (x d : X) : forall n k, (k < n)%nat -> nth k (repeat x n) d = x.
Proof. induction n as [|n IH]; intros k Hk; [lia|]. destruct k; [reflexivity|]. cbn [repeat nth]. apply IH. lia. Qed.
Lemma row_at_loop o n r i : o <= i < o + Z.of_nat n -> row_at (loop o n r) i = r.
Proof. intros Hi. unfold loop. rewrite row_at_emit by lia. apply nth_repeat_lt. lia. Qed.
Lemma row_at_loop_out o n r i : i < o \/ o + Z.of_nat n <= i -> row_at (loop o n r) i = [].
Proof. intros [Hi|Hi]; [apply row_at_emit_before, Hi|apply row_at_emit_after; rewrite repeat_length; exact Hi]. Qed.
(* the value of a cell in a row *)
Definition rval (r : row) (c : acol) : Fr := match rfind r (A c) with Some v => v | None => f0 end.
Lemma cell_row ws c i : cell ws (A c) i = rval (row_at ws i) c.
Proof. unfold cell, rval. rewrite row_at_find. reflexivity. Qed.

(** * What a row holds *)
Record mrow := MRow {
  m_pt : MPTProofType; m_sg : SegmentType; m_pa : PathType;
  m_skr : Fr; m_ov : Fr; m_nv : Fr; m_key : Fr; m_other : Fr; m_dir : Fr; m_sib : Fr; m_old : Fr; m_new : Fr; m_dom : Fr; m_depth : Fr;
  m_iv : nat -> Fr; m_sp : nat -> Fr; m_z : nat -> Fr }.
Record view (e : env) (i : Z) (m : mrow) : Prop := {
  vw_pt : pt e i = m_pt m; vw_sg : sg e i = m_sg m; vw_pa : pa e i = m_pa m;
  vw_skr : eadv e MU_storage_key_rlc i = m_skr m; vw_ov : eadv e MU_old_value i = m_ov m; vw_nv : eadv e MU_new_value i = m_nv m;
  vw_key : eadv e MU_key i = m_key m; vw_other : eadv e MU_other_key i = m_other m; vw_dir : eadv e MU_direction i = m_dir m;
  vw_sib : eadv e MU_sibling i = m_sib m; vw_old : eadv e MU_old_hash i = m_old m; vw_new : eadv e MU_new_hash i = m_new m;
  vw_dom : eadv e MU_domain i = m_dom m; vw_depth : eadv e MU_depth i = m_depth m;
  vw_iv : forall k, eadv e (iv k) i = m_iv m k; vw_sp : forall k, eadv e (sp k) i = m_sp m k;
  vw_z : forall k, eadv e (MU_zero_value k) i = m_z m k;
  vw_ohs : oh_row oh_segment e i; vw_ohp : oh_row oh_path e i; vw_oht : oh_row oh_proof e i;
  vw_inv : forall k, eadv e (MU_zero_inv k) i = finv (eadv e (MU_zero_value k) i) }.
Definition mrow_of (p : MPTProofType) (s : SegmentType) (q : PathType) (r : row) : mrow :=
  MRow p s q (rval r MU_storage_key_rlc) (rval r MU_old_value) (rval r MU_new_value) (rval r MU_key) (rval r MU_other_key) (rval r MU_direction)
    (rval r MU_sibling) (rval r MU_old_hash) (rval r MU_new_hash) (rval r MU_domain) (rval r MU_depth)
    (fun k => rval r (iv k)) (fun k => rval r (sp k)) (fun k => rval r (MU_zero_value k)).
(* the one-hot columns in a row's list, and the inverses *)
Record row_types (p : MPTProofType) (s : SegmentType) (q : PathType) (r : row) : Prop := {
  rt_p : forall v, v <> NonceChanged -> rval r (MU_proof v) = fb (ptype_eqb v p);
  rt_s : forall v, v <> SegStart -> rval r (MU_seg v) = fb (seg_eqb v s);
  rt_q : forall v, v <> PathStart -> rval r (MU_path v) = fb (path_eqb v q);
  rt_inv : forall k, rval r (MU_zero_inv k) = finv (rval r (MU_zero_value k)) }.
Lemma row_view e i p s q r : (forall c, mu_col (A c) = true -> eadv e c i = rval r c) -> row_types p s q r -> view e i (mrow_of p s q r).
Proof.
  intros C [R1 R2 R3 R4].
  assert (A1 : oh_assigned oh_proof e i p).
  { intros v Hv. change (eadv e (MU_proof v) i = fb (ptype_eqb v p)). rewrite (C (MU_proof v) eq_refl). apply R1. cbn in Hv. intuition congruence. }
  assert (A2 : oh_assigned oh_segment e i s).
  { intros v Hv. change (eadv e (MU_seg v) i = fb (seg_eqb v s)). rewrite (C (MU_seg v) eq_refl). apply R2. cbn in Hv. intuition congruence. }
  assert (A3 : oh_assigned oh_path e i q).
  { intros v Hv. change (eadv e (MU_path v) i = fb (path_eqb v q)). rewrite (C (MU_path v) eq_refl). apply R3. cbn in Hv. intuition congruence. }
  constructor; try (apply C; reflexivity); try (intros; apply C; reflexivity).
  - apply (oh_assigned_dec _ ptype_wf NonceChanged _ _ _ A1).
  - apply (oh_assigned_dec _ seg_wf SegStart _ _ _ A2).
  - apply (oh_assigned_dec _ path_wf PathStart _ _ _ A3).
  - apply (oh_assigned_row _ seg_wf SegStart _ _ _ A2).
  - apply (oh_assigned_row _ path_wf PathStart _ _ _ A3).
  - apply (oh_assigned_row _ ptype_wf NonceChanged _ _ _ A1).
  - intros k. rewrite (C (MU_zero_inv k) eq_refl), (C (MU_zero_value k) eq_refl). apply R4.
Qed.
