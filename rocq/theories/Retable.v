(* Changing the lookup tables of a satisfied circuit. *)
From Coq Require Import ZArith String List Bool Lia.
From Verif Require Import Pocklington Fr Query Builder BuilderProofs Gadgets MptUpdate Bytes GadgetProofs Fixed UpdateRows UpdateSound Assign AssignProofs AssignOk MptAssign GadgetMain GadgetMain2 CircuitOk UpdateProps Splice.
Import ListNotations.
Open Scope Z_scope.

(** * Columns that a command does not read *)
Fixpoint in_cols (p : acol -> bool) (q : query) : bool :=
  match q with QAdvice c _ => p c | QNeg a => in_cols p a | QAdd a b | QMul a b => in_cols p a && in_cols p b | _ => true end.
Definition cmd_in_cols (p : acol -> bool) (c : cmd) : bool :=
  forallb (fun g => in_cols p (snd g)) (gates c [fcur SEL]) && forallb (fun l => forallb (fun x => in_cols p (fst x) && in_cols p (snd x)) (snd l)) (lkps c [fcur SEL]).
Record same_sizes (e e2 : env) : Prop := { ss_N : eN e2 = eN e; ss_usable : eusable e2 = eusable e; ss_chal : echal e2 = echal e; ss_fix : forall c i, efix e2 c i = efix e c i }.
Section Cols.
  Variables (e e2 : env) (p : acol -> bool).
  Hypothesis SS : same_sizes e e2.
  Hypothesis EA : forall c i, p c = true -> 0 <= i < eN e -> eadv e2 c i = eadv e c i.
  Hypothesis PN : 0 < eN e.
  Lemma eval_cols q k : in_cols p q = true -> eval e2 k q = eval e k q.
  Proof.
    destruct SS as [EN _ EC EF]. induction q as [c|c r|c r| |a IHa|a IHa b IHb|a IHa b IHb]; cbn [in_cols eval]; intros E.
    - reflexivity.
    - rewrite EN. apply EA; [exact E|]. apply Z.mod_pos_bound. exact PN.
    - rewrite EN. apply EF.
    - exact EC.
    - rewrite IHa by exact E. reflexivity.
    - apply andb_true_iff in E. destruct E. rewrite IHa, IHb by assumption. reflexivity.
    - apply andb_true_iff in E. destruct E. rewrite IHa, IHb by assumption. reflexivity.
  Qed.
  Lemma sat_cols c : cmd_in_cols p c = true -> sat e (circuit_of c) -> sat e2 (circuit_of c).
  Proof.
    unfold cmd_in_cols, sat, circuit_of. destruct (run_spec c (builder_new SEL)) as (-> & -> & _). cbn [builder_new constraints lookups conditions app]. intros O [S1 S2]. apply andb_true_iff in O. destruct O as [O1 O2]. rewrite forallb_forall in O1, O2. rewrite Forall_forall in S1, S2.
    pose proof SS as [EN EU _ _]. split; apply Forall_forall; intros x Hx k Hk.
    - rewrite eval_cols by (apply O1, Hx). rewrite EN in Hk. exact (S1 x Hx k Hk).
    - rewrite EU in Hk. destruct (S2 x Hx k Hk) as (t & Ht & M). exists t. rewrite EU. split; [exact Ht|]. specialize (O2 x Hx). rewrite forallb_forall in O2. rewrite Forall_forall in M |- *. intros y Hy. specialize (O2 y Hy). apply andb_true_iff in O2. destruct O2. rewrite !eval_cols by assumption. exact (M y Hy).
  Qed.
End Cols.

(** * New lookup tables for the same updates *)
Section Retable.
  Variables (H : Fr -> Fr -> Fr -> Fr) (e e2 : env) (n : Z).
  Hypothesis F : fixed_ok e n.
  Hypothesis SAT : sat e (circuit_of (circuit H)).
  Hypothesis SS : same_sizes e e2.
  Hypothesis EA : forall c i, update_column c = true -> 0 <= i < eN e -> eadv e2 c i = eadv e c i.
  Hypothesis TI : tables_included e e2.
  Hypothesis BR : sat e2 (circuit_of byte_representation_configure).
  Hypothesis CR : sat e2 (circuit_of canonical_representation_configure).
  Hypothesis KB : sat e2 (circuit_of key_bit_configure).
  Let Hn := fo_rows e n F.
  Let Hu := fo_usable e n F.
  Lemma fixed_same : fixed_ok e2 n.
  Proof. destruct SS as [EN EU _ EF]. destruct F as [F1 F2 F3 F4]. split; rewrite ?EN, ?EU; auto. intros c i Hc Hi. rewrite EF. apply F1; assumption. Qed.
  Theorem retabled : sat e2 (circuit_of (circuit H)).
  Proof.
    pose proof SAT as X. unfold circuit in X |- *. rewrite !sat_seq in X |- *. destruct X as (_ & _ & _ & X4 & X5).
    split; [exact BR|]. split; [exact CR|]. split; [exact KB|]. pose proof SS as [EN EU EC EF]. split.
    - apply update_from; [|lia]. intros k Hk. rewrite EN in Hk. exists e, k. split; [exact X4|]. split; [exact Hk|]. split; [lia|]. split; [exact TI|].
      assert (Sel : agree e k e2 k (fcur SEL)) by (unfold agree; rewrite !eval_fcur by lia; apply EF). split; [exact Sel|].
      apply (okcmd_moves e k e2 k Sel true EC); [| | |apply reads_update]; intros; rewrite EN; apply EA; try (apply Z.mod_pos_bound; lia); auto.
      destruct c; try discriminate; reflexivity.
    - apply (sat_cols e e2 update_column SS EA ltac:(lia)); [vm_compute; reflexivity|exact X5].
  Qed.
  Lemma rows_same k : 0 <= k < eN e -> table_row e2 k = table_row e k.
  Proof. intros Hk. apply entry_of_row; [apply SS|exact Hk|rewrite (ss_N _ _ SS); exact Hk|]. intros c Hc. apply EA; assumption. Qed.
  Lemma exposes_same row : exposes e row <-> exposes e2 row.
  Proof.
    unfold exposes. split; intros X; destruct X as (i & A & B); exists i.
    - assert (enabled e2 i) by (apply (fix_enabled _ n i fixed_same); apply (fix_enabled _ n i F); exact A). split; [assumption|]. rewrite rows_same; [exact B|]. destruct A. lia.
    - assert (A' : enabled e i) by (apply (fix_enabled _ n i F); apply (fix_enabled _ n i fixed_same); exact A). split; [assumption|]. rewrite <- rows_same; [exact B|]. destruct A'. lia.
  Qed.
End Retable.
