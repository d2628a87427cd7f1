(* Tables that stay accepted when what they expose is changed. *)
From Coq Require Import ZArith String List Bool Lia.
From Verif Require Import Pocklington Fr Query Builder BuilderProofs Gadgets MptUpdate Bytes GadgetProofs Fixed UpdateRows UpdateSound Assign MptAssign GadgetMain CircuitOk UpdateProps Splice Edit.
Import ListNotations.
Open Scope Z_scope.

Definition reads_col (c0 : acol) : touched := fun c _ => if acol_eq_dec c c0 then true else false.
(* column c0 set to x in rows i .. i+m-1 *)
Definition set_column (e : env) (c0 : acol) (i m : Z) (x : Fr) : env :=
  {| eN := eN e; eusable := eusable e; echal := echal e; efix := efix e;
     eadv := fun c k => if (i <=? k) && (k <? i + m) then if acol_eq_dec c c0 then x else eadv e c k else eadv e c k |}.
(* the only command that reads the column is the one that keeps it constant along an update *)
Definition keeps (c0 : acol) (s : SegmentType) (a : list query * cmd) : Prop :=
  s <> SegStart /\ match snd a with AssertZero _ q => q = (cur c0 - prev c0)%q | _ => False end.
Lemma new_value_todo H s p : p <> ExtensionOld -> (p = Common -> s <> StorageLeaf0) -> (s = SegStart <-> p = PathStart) ->
  Forall (keeps MU_new_value s) (todo (reads_col MU_new_value) (Kind StorageChanged s p None) [] (mpt_update_configure H)).
Proof.
  intros A B C.
  destruct p; try (exfalso; apply A; reflexivity); destruct s; try (exfalso; apply (B eq_refl); reflexivity); try (exfalso; destruct C as [C1 C2]; (discriminate (C1 eq_refl) || discriminate (C2 eq_refl))); clear.
  all: match goal with |- Forall ?P ?l => let l' := eval lazy in l in change (Forall P l') end.
  all: repeat (apply Forall_cons || apply Forall_nil); (split; [discriminate|reflexivity]).
Qed.
Lemma old_value_todo H s p : p <> ExtensionNew -> (p = Common -> s <> StorageLeaf0) -> (s = SegStart <-> p = PathStart) ->
  Forall (keeps MU_old_value s) (todo (reads_col MU_old_value) (Kind StorageChanged s p None) [] (mpt_update_configure H)).
Proof.
  intros A B C.
  destruct p; try (exfalso; apply A; reflexivity); destruct s; try (exfalso; apply (B eq_refl); reflexivity); try (exfalso; destruct C as [C1 C2]; (discriminate (C1 eq_refl) || discriminate (C2 eq_refl))); clear.
  all: match goal with |- Forall ?P ?l => let l' := eval lazy in l in change (Forall P l') end.
  all: repeat (apply Forall_cons || apply Forall_nil); (split; [discriminate|reflexivity]).
Qed.
Definition reads_prev (cs : list acol) : touched := fun c r => negb (r =? 0) && negb (r =? 1) && if in_dec acol_eq_dec c cs then true else false.
Lemma start_after_todo H p : todo (reads_prev [MU_new_value; MU_old_value; MU_key; MU_iv 0; MU_iv 1]) (Kind p SegStart PathStart None) [] (mpt_update_configure H) = [].
Proof. destruct p; lazy; reflexivity. Qed.

Ltac nodup := repeat constructor; cbn; intuition discriminate.
Section InBlock.
  Variables (H : Fr -> Fr -> Fr -> Fr) (e : env) (n i m : Z).
  Hypothesis F : fixed_ok e n.
  Hypothesis SAT : sat e (circuit_of (circuit H)).
  Hypothesis B : starts_and_ends n (Block e i m).
  Hypothesis Inner : forall k, i < k < i + m -> sg e k <> SegStart.
  Let HD := HD0 H e n F SAT.
  Let Hn := fo_rows e n F.
  Let Hu := fo_usable e n F.
  Let Hi : 1 <= i. Proof. exact (se_row _ _ B). Qed.
  Let Hm : 0 < m. Proof. exact (se_rows _ _ B). Qed.
  Let Hl : i + m < n. Proof. exact (se_last _ _ B). Qed.
  Lemma pt_const k : i <= k < i + m -> pt e k = pt e i.
  Proof.
    intros Hk. assert (G : forall d : nat, Z.of_nat d < m -> pt e (i + Z.of_nat d) = pt e i).
    { induction d as [|d IH]; intros Hd; [f_equal; lia|].
      destruct (r_nonstart H e n F HD (i + Z.of_nat (Datatypes.S d)) ltac:(lia) (Inner (i + Z.of_nat (Datatypes.S d)) ltac:(lia))) as [E _]. rewrite E. replace (i + Z.of_nat (Datatypes.S d) - 1) with (i + Z.of_nat d) by lia. apply IH. lia. }
    specialize (G (Z.to_nat (k - i)) ltac:(lia)). replace (i + Z.of_nat (Z.to_nat (k - i))) with k in G by lia. exact G.
  Qed.
  Lemma start_path k : i <= k < i + m -> (sg e k = SegStart <-> pa e k = PathStart).
  Proof. intros Hk. apply (r_start_iff H e n F HD). lia. Qed.
  Lemma stuck q k : path_transitions q = [q; PathStart] \/ path_transitions q = [PathStart; q] -> i <= k < i + m -> pa e k = q -> q <> PathStart -> pa e (i + m - 1) = q.
  Proof.
    intros Tq Hk E N. replace (i + m - 1) with (k + Z.of_nat (Z.to_nat (i + m - 1 - k))) by lia. assert (L : k + Z.of_nat (Z.to_nat (i + m - 1 - k)) <= i + m - 1) by lia. revert L. induction (Z.to_nat (i + m - 1 - k)) as [|d IH]; intros L; [rewrite Z.add_0_r; exact E|].
    specialize (IH ltac:(lia)). pose proof (r_path_trans H e n F HD (k + Z.of_nat d) ltac:(lia) ltac:(lia)) as T. rewrite IH in T. replace (k + Z.of_nat d + 1) with (k + Z.of_nat (Datatypes.S d)) in T by lia.
    assert (Np : pa e (k + Z.of_nat (Datatypes.S d)) <> PathStart) by (intros Q; apply (Inner (k + Z.of_nat (Datatypes.S d)) ltac:(lia)); apply start_path; [lia|exact Q]).
    destruct Tq as [Tq|Tq]; rewrite Tq in T; cbn [In] in T; intuition congruence.
  Qed.
  Lemma leaf_last k : pt e i = StorageChanged -> i <= k < i + m -> sg e k = StorageLeaf0 -> k = i + m - 1.
  Proof.
    intros Ty Hk S. destruct (Z.eq_dec k (i + m - 1)) as [|Ne]; [assumption|exfalso]. destruct (r_seg_trans H e n F HD k ltac:(lia) ltac:(lia)) as (l & T & I). rewrite (pt_const k Hk), Ty, S in T. cbn in T. injection T as <-. destruct I as [I|[]]. apply (Inner (k + 1) ltac:(lia)). congruence.
  Qed.

  Section Value.
    Variables (c0 : acol) (q : PathType) (x : Fr).
    Hypothesis Nt : type_column c0 = false.
    Hypothesis Up : update_column c0 = true.
    Hypothesis Vc : In c0 [MU_new_value; MU_old_value].
    Hypothesis Ty : pt e i = StorageChanged.
    Hypothesis Last : pa e (i + m - 1) = q.
    Hypothesis Todo : forall k, i <= k < i + m -> Forall (keeps c0 (sg e k)) (todo (reads_col c0) (Kind StorageChanged (sg e k) (pa e k) None) [] (mpt_update_configure H)).
    Let e2 := set_column e c0 i m x.
    Lemma value_same : same_except e e2 i m.
    Proof.
      unfold e2, set_column. repeat split. cbn [eadv]. intros c k D. destruct ((i <=? k) && (k <? i + m)) eqn:Q; [|reflexivity]. apply andb_true_iff in Q. rewrite Z.leb_le, Z.ltb_lt in Q. destruct (acol_eq_dec c c0) as [->|]; [|reflexivity]. destruct D as [D|D]; [congruence|lia].
    Qed.
    Lemma value_other c k : c <> c0 -> eadv e2 c k = eadv e c k.
    Proof. intros N. unfold e2, set_column. cbn [eadv]. destruct ((i <=? k) && (k <? i + m)); [|reflexivity]. destruct (acol_eq_dec c c0); [contradiction|reflexivity]. Qed.
    Lemma value_in k : i <= k < i + m -> eadv e2 c0 k = x.
    Proof. intros Hk. unfold e2, set_column. cbn [eadv]. replace ((i <=? k) && (k <? i + m)) with true by (symmetry; apply andb_true_iff; rewrite Z.leb_le, Z.ltb_lt; lia). destruct (acol_eq_dec c0 c0); [reflexivity|contradiction]. Qed.
    Lemma value_edited : fixed_ok e2 n /\ sat e2 (circuit_of (circuit H)).
    Proof.
      assert (TY : forall c k, type_column c = true -> eadv e2 c k = eadv e c k) by (intros c k Q; apply value_other; congruence).
      apply (edited H e e2 n i m F SAT ltac:(lia) Hl value_same TY). intros k Hk.
      assert (W : wf_env e) by (unfold wf_env; lia). assert (Kb : 0 <= k < eN e) by lia.
      destruct (Z.eq_dec k (i + m)) as [->|Ne].
      - pose proof (kind_known H e n F SAT (i + m) None ltac:(lia) ltac:(discriminate)) as Kn. assert (S : sg e (i + m) = SegStart) by exact (se_next _ _ B). rewrite S, (proj1 (r_start_iff H e n F HD (i + m) ltac:(lia)) S) in Kn.
        refine (todo_fine e e2 (i + m) eq_refl eq_refl (fun _ _ => eq_refl) (reads_prev [MU_new_value; MU_old_value; MU_key; MU_iv 0; MU_iv 1]) _ _ Kn eq_refl W Kb (mpt_update_configure H) [] (Forall_nil _) _).
        + intros c r Q. destruct (acol_eq_dec c c0) as [->|]; [|apply value_other; assumption]. apply value_same. right. unfold reads_prev in Q. apply andb_false_iff in Q. destruct Q as [Q|Q].
          * assert (R : r = 0 \/ r = 1) by (destruct (Z.eqb_spec r 0), (Z.eqb_spec r 1); cbn in Q; auto; discriminate Q). destruct R as [->| ->].
            -- rewrite Z.mod_small; lia.
            -- destruct (Z.eq_dec (i + m + 1) (eN e)) as [->|]; [rewrite Z_mod_same_full; lia|rewrite Z.mod_small; lia].
          * destruct (in_dec acol_eq_dec c0 _) as [I|I]; [discriminate Q|]. exfalso. apply I. cbn [In] in Vc |- *. tauto.
        + rewrite start_after_todo. constructor.
      - assert (Hk' : i <= k < i + m) by lia. pose proof (kind_known H e n F SAT k None ltac:(lia) ltac:(discriminate)) as Kn. rewrite (pt_const k Hk'), Ty in Kn.
        refine (todo_fine e e2 k eq_refl eq_refl (fun _ _ => eq_refl) (reads_col c0) _ _ Kn eq_refl W Kb (mpt_update_configure H) [] (Forall_nil _) _).
        + intros c r Q. apply value_other. unfold reads_col in Q. destruct (acol_eq_dec c c0); [discriminate Q|assumption].
        + eapply Forall_impl; [|exact (Todo k Hk')]. intros [cs c] [S K]. cbn [snd] in K. right. cbn [snd]. destruct c; try contradiction. rewrite K. clear K.
          assert (k <> i) by (intros ->; apply S, (se_first _ _ B)). change (eval e2 k (cur c0) + - eval e2 k (prev c0) = f0)%fr. rewrite eval_cur, eval_prev by (unfold e2, set_column; cbn [eN]; lia). rewrite !value_in by lia. ring.
    Qed.
    Let clean_same k w : clean (reads_col c0) w = true -> eval e2 k w = eval e k w.
    Proof. intros Q. refine (clean_agree e e2 k eq_refl eq_refl (fun _ _ => eq_refl) (reads_col c0) _ w Q). intros c r Q'. apply value_other. unfold reads_col in Q'. destruct (acol_eq_dec c c0); [discriminate Q'|assumption]. Qed.
    Let start_one : eval e2 i (cur_seg [SegStart]) = f1.
    Proof.
      rewrite clean_same by (cbn [In] in Vc; destruct Vc as [<-|[<-|[]]]; vm_compute; reflexivity). unfold cur_seg, current_matches. rewrite (ev_seg H e n F HD) by (try nodup; lia). rewrite Z.add_0_r. replace (sg e i) with SegStart by (symmetry; exact (se_first _ _ B)). reflexivity.
    Qed.
    (* the claim, with the one value replaced *)
    Lemma value_entry : table_row e2 i =
      match c0 with MU_new_value => firstn 5 (table_row e i) ++ [x] ++ skipn 6 (table_row e i) | _ => firstn 6 (table_row e i) ++ [x] end.
    Proof.
      assert (V : eval e2 i (cur c0 * cur_seg [SegStart])%q = x).
      { change (eval e2 i (cur c0) * eval e2 i (cur_seg [SegStart]) = x)%fr. rewrite start_one, eval_cur, value_in by (unfold e2, set_column; cbn [eN]; lia). ring. }
      unfold table_row. cbn [In] in Vc. destruct Vc as [E|[E|[]]]; rewrite <- E in V |- *; unfold mpt_update_lookup; cbn [map firstn skipn app].
      - rewrite V. rewrite !(clean_same i) by (rewrite <- E; vm_compute; reflexivity). reflexivity.
      - rewrite V. rewrite !(clean_same i) by (rewrite <- E; vm_compute; reflexivity). reflexivity.
    Qed.
    (* everything else the table exposes is as before *)
    Lemma value_entries k : 1 <= k < n -> k <> i -> table_row e2 k = table_row e k.
    Proof.
      intros Hk Ne. destruct (Z_lt_le_dec k i) as [A|A]; [apply (edited_entries e e2 n i m F ltac:(lia) Hl value_same); lia|]. destruct (Z_le_dec (i + m) k) as [A'|A']; [apply (edited_entries e e2 n i m F ltac:(lia) Hl value_same); lia|].
      assert (Z0 : eval e k (cur_seg [SegStart]) = f0).
      { unfold cur_seg, current_matches. rewrite (ev_seg H e n F HD) by (try nodup; lia). rewrite Z.add_0_r. pose proof (Inner k ltac:(lia)) as S. destruct (sg e k); try contradiction; reflexivity. }
      assert (Z2 : eval e2 k (cur_seg [SegStart]) = f0) by (rewrite clean_same by (cbn [In] in Vc; destruct Vc as [<-|[<-|[]]]; vm_compute; reflexivity); exact Z0).
      unfold table_row. apply map_ext_in. intros w Hw. assert (P : exists u, w = QMul u (cur_seg [SegStart])) by (unfold mpt_update_lookup in Hw; cbn [In] in Hw; intuition (eexists; symmetry; eassumption)). destruct P as (u & ->). cbn [eval]. rewrite Z0, Z2. ring.
    Qed.
  End Value.
  Lemma value_free (c0 : acol) (q : PathType) x : (c0 = MU_new_value /\ q = ExtensionNew \/ c0 = MU_old_value /\ q = ExtensionOld) -> pt e i = StorageChanged -> pa e (i + m - 1) = q ->
    let e2 := set_column e c0 i m x in fixed_ok e2 n /\ sat e2 (circuit_of (circuit H)) /\
    table_row e2 i = (match c0 with MU_new_value => firstn 5 (table_row e i) ++ [x] ++ skipn 6 (table_row e i) | _ => firstn 6 (table_row e i) ++ [x] end) /\
    forall k, 1 <= k < n -> k <> i -> table_row e2 k = table_row e k.
  Proof.
    intros D Ty Last. cbn zeta.
    assert (Nt : type_column c0 = false) by (destruct D as [[-> _]|[-> _]]; reflexivity). assert (Up : update_column c0 = true) by (destruct D as [[-> _]|[-> _]]; reflexivity).
    assert (Vc : In c0 [MU_new_value; MU_old_value]) by (destruct D as [[-> _]|[-> _]]; cbn; auto).
    assert (Todo : forall k, i <= k < i + m -> Forall (keeps c0 (sg e k)) (todo (reads_col c0) (Kind StorageChanged (sg e k) (pa e k) None) [] (mpt_update_configure H))).
    { intros k Hk. assert (L : pa e k = Common -> sg e k <> StorageLeaf0).
      { intros P S. apply (leaf_last k Ty Hk) in S. subst k. destruct D as [[_ D]|[_ D]]; congruence. }
      destruct D as [[-> ->]|[-> ->]]; [apply new_value_todo|apply old_value_todo]; try (apply start_path; exact Hk); try exact L.
      - intros P. pose proof (stuck ExtensionOld k (or_introl eq_refl) Hk P ltac:(discriminate)). congruence.
      - intros P. pose proof (stuck ExtensionNew k (or_introl eq_refl) Hk P ltac:(discriminate)). congruence. }
    destruct (value_edited c0 x Nt Up Vc Ty Todo) as [A1 A2]. split; [exact A1|]. split; [exact A2|]. split; [apply value_entry; assumption|apply value_entries; assumption].
  Qed.
End InBlock.
