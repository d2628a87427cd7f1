(* C47: the rows of one update can be moved into another table. *)
From Coq Require Import ZArith String List Bool Lia Permutation.
From Verif Require Import Pocklington Fr Query Builder BuilderProofs Gadgets MptUpdate Bytes GadgetProofs Fixed UpdateRows UpdateSound Assign MptAssign GadgetMain CircuitOk UpdateProps.
Import ListNotations.
Open Scope Z_scope.

(** * Specification *)
(* the columns of the update table (mpt_update.rs:53-77); the rest are the columns of the lookup tables *)
Definition update_column (c : acol) : bool :=
  match c with
  | MU_domain | MU_old_hash | MU_new_hash | MU_old_value | MU_new_value | MU_storage_key_rlc | MU_depth | MU_key | MU_other_key | MU_direction | MU_sibling
  | MU_iv _ | MU_sp _ | MU_zero_value _ | MU_zero_inv _ | MU_proof _ | MU_seg _ | MU_path _ => true
  | _ => false
  end.
(* the rows i, ..., i + m - 1 of a table: from the start row of one update to just before that of another *)
Record block := Block { b_table : env; b_row : Z; b_rows : Z }.
Record starts_and_ends (n : Z) (b : block) : Prop := {
  se_row : 1 <= b_row b; se_rows : 0 < b_rows b; se_last : b_row b + b_rows b < n;
  se_first : sg (b_table b) (b_row b) = SegStart; se_next : sg (b_table b) (b_row b + b_rows b) = SegStart }.
(* the five lookup tables that updates use; their entries in e are entries in e' *)
Definition table_columns : list (list query) := [poseidon_table; bytes_lookup ++ [fcur SEL]; rlc_lookup ++ [fcur SEL]; fr_rlc_lookup ++ [fcur SEL]; key_bit_lookup ++ [fcur SEL]].
Definition tables_included (e e' : env) : Prop :=
  forall columns t, In columns table_columns -> 0 <= t < eusable e -> exists t', 0 <= t' < eusable e' /\ map (eval e' t') columns = map (eval e t) columns.
Fixpoint total (bs : list block) : Z := match bs with [] => 0 | b :: r => b_rows b + total r end.
(* from row j on, the table holds the rows of the blocks *)
Fixpoint holds_blocks (e : env) (j : Z) (bs : list block) : Prop :=
  match bs with
  | [] => True
  | b :: r => (forall c k, update_column c = true -> 0 <= k < b_rows b -> eadv e c (j + k) = eadv (b_table b) c (b_row b + k)) /\ holds_blocks e (j + b_rows b) r
  end.
(* e' differs from e at most in the update columns of the rows j, ..., j + m - 1 *)
Definition same_except (e e' : env) (j m : Z) : Prop :=
  eN e' = eN e /\ eusable e' = eusable e /\ echal e' = echal e /\ (forall c k, efix e' c k = efix e c k) /\
  forall c k, update_column c = false \/ k < j \/ j + m <= k -> eadv e' c k = eadv e c k.

(** * Which cells a query reads *)
Definition type_column (c : acol) : bool :=
  match c with MU_seg SegStart => false | MU_seg _ => true | MU_path PathStart => false | MU_path _ => true | _ => false end.
(* update columns of the row, type columns of the next row and, if ap, all update columns of the previous row *)
Fixpoint okq (ap : bool) (q : query) : bool :=
  match q with
  | QConst _ | QChallenge => true
  | QAdvice c r => update_column c && ((r =? 0) || (r =? 1) && type_column c || (r =? -1) && ap)
  | QFixed SEL 0 => true
  | QFixed _ _ => false
  | QNeg a => okq ap a
  | QAdd a b | QMul a b => okq ap a && okq ap b
  end.
Fixpoint okcmd (ap : bool) (c : cmd) : bool :=
  match c with
  | Skip => true
  | Seq a b => okcmd ap a && okcmd ap b
  | AssertZero _ q => okq ap q
  | Condition b body => okq ap b && okcmd ap body
  | AddLookup _ l _ => forallb (okq ap) l
  | PoseidonLookup _ l r d h => okq ap l && okq ap r && okq ap d && okq ap h
  end.
(* queries without update columns *)
Fixpoint other (q : query) : bool :=
  match q with QAdvice c _ => negb (update_column c) | QNeg a => other a | QAdd a b | QMul a b => other a && other b | _ => true end.

Section Move.
  Variables (e0 : env) (k0 : Z) (e1 : env) (k1 : Z).
  Definition agree (q : query) : Prop := eval e1 k1 q = eval e0 k0 q.
  Fixpoint moves (c : cmd) : Prop :=
    match c with
    | Skip => True
    | Seq a b => moves a /\ moves b
    | AssertZero _ q => agree q
    | Condition b body => agree b /\ (eval e0 k0 b = f0 \/ moves body)
    | AddLookup _ l _ => Forall agree l
    | PoseidonLookup _ l r d h => agree l /\ agree r /\ agree d /\ agree h
    end.
  Hypothesis Sel : agree (fcur SEL).
  Lemma agree_conj cs : Forall agree cs -> agree (conjunction cs).
  Proof. intros A. unfold agree. rewrite !eval_conjunction. f_equal. apply map_ext_in. intros q Hq. rewrite Forall_forall in A. exact (A q Hq). Qed.
  Lemma conj_snoc e k cs q : eval e k (conjunction (cs ++ [q])) = (eval e k (conjunction cs) * eval e k q)%fr.
  Proof. rewrite !eval_conjunction, map_app, prodF_app. cbn [map prodF]. ring. Qed.
  Lemma conj_cons e k q cs : eval e k (conjunction (q :: cs)) = (eval e k q * eval e k (conjunction cs))%fr.
  Proof. rewrite !eval_conjunction. reflexivity. Qed.
  Lemma moves_flat c : forall cs, agree (conjunction cs) -> (eval e0 k0 (conjunction cs) = f0 \/ moves c) ->
    Forall (fun g => agree (snd g)) (gates c (fcur SEL :: cs)) /\ Forall (fun l => Forall (fun p => agree (fst p)) (snd l)) (lkps c (fcur SEL :: cs)).
  Proof.
    induction c as [|x IHx y IHy|nm q|q body IH|nm l r|nm l r d h]; intros cs A D; cbn [gates lkps].
    - split; constructor.
    - destruct (IHx cs A) as [X1 X2]; [destruct D as [D|[D _]]; auto|]. destruct (IHy cs A) as [Y1 Y2]; [destruct D as [D|[_ D]]; auto|]. split; apply Forall_app; auto.
    - split; [|constructor]. constructor; [|constructor]. cbn [snd]. unfold agree, bcondition. cbn [eval]. rewrite !conj_cons, Sel, A. destruct D as [D|D]; [rewrite D; ring|]. cbn [moves] in D. rewrite D. ring.
    - apply (IH (cs ++ [q])).
      + unfold agree. rewrite !conj_snoc, A. destruct D as [D|[D _]]; [rewrite D; ring|rewrite D; ring].
      + rewrite conj_snoc. destruct D as [D|[D D']]; [left; rewrite D; ring|]. destruct D' as [D'|D']; [left; rewrite D'; ring|right; exact D'].
    - split; [constructor|]. constructor; [|constructor]. cbn [snd]. apply Forall_app. split.
      + assert (G : forall q, In q l -> agree (q * conjunction (fcur SEL :: cs))%q).
        { intros q Hq. unfold agree. cbn [eval]. rewrite !conj_cons, Sel, A. destruct D as [D|D]; [rewrite D; ring|]. cbn [moves] in D. rewrite Forall_forall in D. rewrite (D q Hq). ring. }
        apply Forall_forall. intros [a b] Hp. apply in_combine_l in Hp. apply in_map_iff in Hp. destruct Hp as (q & <- & Hq). exact (G q Hq).
      + constructor; [|constructor]. cbn [fst]. unfold agree. rewrite !conj_cons, Sel, A. reflexivity.
    - split; [constructor|]. constructor; [|constructor]. cbn [snd tl]. apply Forall_forall. intros [a b] Hp. apply in_combine_l in Hp. apply in_map_iff in Hp. destruct Hp as (q & <- & Hq). cbn [fst].
      unfold agree. cbn [eval]. rewrite A. destruct D as [D|(D1 & D2 & D3 & D4)]; [rewrite D; ring|]. cbn [In] in Hq. destruct Hq as [<-|[<-|[<-|[<-|[<-|[<-|[<-|[]]]]]]]]; rewrite ?D1, ?D2, ?D3, ?D4; reflexivity.
  Qed.
  (* the cells *)
  Variable ap : bool.
  Hypothesis Ch : echal e1 = echal e0.
  Hypothesis Cur : forall c, update_column c = true -> eadv e1 c ((k1 + 0) mod eN e1) = eadv e0 c ((k0 + 0) mod eN e0).
  Hypothesis Nxt : forall c, type_column c = true -> eadv e1 c ((k1 + 1) mod eN e1) = eadv e0 c ((k0 + 1) mod eN e0).
  Hypothesis Prv : ap = true -> forall c, update_column c = true -> eadv e1 c ((k1 + -1) mod eN e1) = eadv e0 c ((k0 + -1) mod eN e0).
  Lemma okq_agree q : okq ap q = true -> agree q.
  Proof.
    unfold agree. induction q as [c|c r|c r| |a IHa|a IHa b IHb|a IHa b IHb]; cbn [okq]; intros E.
    - reflexivity.
    - apply andb_true_iff in E. destruct E as [U E]. cbn [eval]. apply orb_true_iff in E. destruct E as [E|E]; [apply orb_true_iff in E; destruct E as [E|E]|].
      + apply Z.eqb_eq in E. subst r. apply Cur, U.
      + apply andb_true_iff in E. destruct E as [E T]. apply Z.eqb_eq in E. subst r. apply Nxt, T.
      + apply andb_true_iff in E. destruct E as [E T]. apply Z.eqb_eq in E. subst r. apply Prv; assumption.
    - destruct c; try discriminate E. destruct r; try discriminate E. exact Sel.
    - exact Ch.
    - cbn [eval]. rewrite IHa by exact E. reflexivity.
    - apply andb_true_iff in E. destruct E as [E1 E2]. cbn [eval]. rewrite IHa, IHb by assumption. reflexivity.
    - apply andb_true_iff in E. destruct E as [E1 E2]. cbn [eval]. rewrite IHa, IHb by assumption. reflexivity.
  Qed.
  Lemma okcmd_moves c : okcmd ap c = true -> moves c.
  Proof.
    induction c as [|x IHx y IHy|nm q|q body IH|nm l r|nm l r d h]; cbn [okcmd moves]; rewrite ?andb_true_iff; intros E.
    - exact Logic.I.
    - destruct E. auto.
    - apply okq_agree, E.
    - destruct E. split; [apply okq_agree; assumption|auto].
    - apply Forall_forall. intros q Hq. rewrite forallb_forall in E. apply okq_agree, E, Hq.
    - destruct E as [[[E1 E2] E3] E4]. repeat split; apply okq_agree; assumption.
  Qed.
End Move.
Lemma reads_update H : okcmd true (mpt_update_configure H) = true.
Proof. lazy. reflexivity. Qed.

(** * Rows *)
Section Rows.
  Variables (H : Fr -> Fr -> Fr -> Fr) (e : env) (n : Z).
  Hypothesis F : fixed_ok e n.
  Hypothesis SAT : sat e (circuit_of (circuit H)).
  Let HD := HD0 H e n F SAT.
  Lemma start_types i : 1 <= i < n -> sg e i = SegStart -> forall c, type_column c = true -> eadv e c i = f0.
  Proof.
    intros Hi Hs c Hc. pose proof (proj1 (r_start_iff H e n F HD i Hi) Hs) as Hp.
    destruct c; try discriminate Hc.
    - assert (In s (oh_nonfirst oh_segment)) as Hv by (destruct s; try discriminate Hc; cbn; tauto).
      change (eadv e (oh_col oh_segment s) i = f0). rewrite (oh_dec_set oh_segment seg_wf SegStart e i s (row_sg H e n F HD i Hi) Hv).
      unfold sg in Hs. rewrite Hs. destruct s; try discriminate Hc; reflexivity.
    - assert (In p (oh_nonfirst oh_path)) as Hv by (destruct p; try discriminate Hc; cbn; tauto).
      change (eadv e (oh_col oh_path p) i = f0). rewrite (oh_dec_set oh_path path_wf PathStart e i p (row_pa H e n F HD i Hi) Hv).
      unfold pa in Hp. rewrite Hp. destruct p; try discriminate Hc; reflexivity.
  Qed.
  Ltac nd := repeat constructor; cbn; intuition discriminate.
  Lemma start_moves i e1 k1 : 1 <= i < n -> sg e i = SegStart -> agree e i e1 k1 (fcur SEL) -> echal e1 = echal e ->
    (forall c, update_column c = true -> eadv e1 c ((k1 + 0) mod eN e1) = eadv e c ((i + 0) mod eN e)) ->
    (forall c, type_column c = true -> eadv e1 c ((k1 + 1) mod eN e1) = eadv e c ((i + 1) mod eN e)) ->
    moves e i e1 k1 (mpt_update_configure H).
  Proof.
    intros Hi Hs Sel Ch Cur Nxt. pose proof (proj1 (r_start_iff H e n F HD i Hi) Hs) as Hp.
    assert (Mv : forall c, okcmd false c = true -> moves e i e1 k1 c) by (intros c; apply (okcmd_moves e i e1 k1 Sel false Ch Cur Nxt); discriminate).
    assert (Ag : forall q, okq false q = true -> agree e i e1 k1 q) by (intros q; apply (okq_agree e i e1 k1 Sel false Ch Cur Nxt); discriminate).
    assert (Es : forall vs, NoDup vs -> eval e i (cur_seg vs) = fb (existsb (seg_eqb SegStart) vs)).
    { intros vs Hv. unfold cur_seg, current_matches. rewrite (ev_seg H e n F HD) by (try exact Hv; lia). rewrite Z.add_0_r, Hs. reflexivity. }
    assert (Ep : forall vs, NoDup vs -> eval e i (cur_path vs) = fb (existsb (path_eqb PathStart) vs)).
    { intros vs Hv. unfold cur_path, current_matches. rewrite (ev_path H e n F HD) by (try exact Hv; lia). rewrite Z.add_0_r, Hp. reflexivity. }
    assert (Cn : forall b body, okq false b = true -> eval e i b = f0 -> moves e i e1 k1 (Condition b body)) by (intros b body B Z; split; [apply Ag, B|left; exact Z]).
    unfold mpt_update_configure.
    split; [apply Mv; lazy; reflexivity|]. split; [apply Mv; lazy; reflexivity|]. split; [apply Mv; lazy; reflexivity|]. split; [apply Mv; lazy; reflexivity|].
    split. { split; [apply Mv; lazy; reflexivity|]. split; [apply Mv; lazy; reflexivity|]. apply Cn; [lazy; reflexivity|]. rewrite eval_bnot, Es by nd. cbn. ring. }
    split. { apply Cn; [lazy; reflexivity|]. rewrite eval_bnot, Es by nd. cbn. ring. }
    split. { split; [|apply Mv; lazy; reflexivity]. apply Cn; [lazy; reflexivity|]. rewrite Es by nd. reflexivity. }
    split. { split; [apply Mv; lazy; reflexivity|]. split; [|split; [|split; [|exact Logic.I]]]; (apply Cn; [lazy; reflexivity|]; rewrite Ep by nd; reflexivity). }
    split; apply Mv; lazy; reflexivity.
  Qed.
End Rows.

(** * Lookups *)
Lemma lkps_right c : forall cs l p, In l (lkps c (fcur SEL :: cs)) -> In p (snd l) ->
  In (snd p) poseidon_table /\ (forall p', In p' (snd l) -> In (snd p') poseidon_table) \/
  exists r, In r (rights c) /\ In (snd p) (r ++ [fcur SEL]) /\ (forall p', In p' (snd l) -> In (snd p') (r ++ [fcur SEL])).
Proof.
  assert (P : forall (A : list query) (B : list query) p, In p (combine A B) -> In (snd p) B) by (intros A B [a b] X; exact (in_combine_r _ _ _ _ X)).
  induction c as [|x IHx y IHy|nm q|q body IH|nm l r|nm l r d h]; intros cs lk p Hl Hp; cbn [lkps rights] in *.
  - contradiction.
  - apply in_app_or in Hl. destruct Hl as [Hl|Hl]; [destruct (IHx cs lk p Hl Hp) as [X|(r & X & Y)]|destruct (IHy cs lk p Hl Hp) as [X|(r & X & Y)]]; auto; right; exists r; (split; [apply in_or_app; auto|exact Y]).
  - contradiction.
  - exact (IH (cs ++ [q]) lk p Hl Hp).
  - destruct Hl as [<-|[]]. cbn [snd] in Hp. right. exists r. split; [left; reflexivity|].
    assert (Q : forall p', In p' (combine (map (fun q => (q * conjunction (fcur SEL :: cs))%q) l) r ++ [(conjunction (fcur SEL :: cs), hd bone (fcur SEL :: cs))]) -> In (snd p') (r ++ [fcur SEL])).
    { intros p' X. apply in_app_or in X. apply in_or_app. destruct X as [X|[<-|[]]]; [left; exact (P _ _ _ X)|right; left; reflexivity]. }
    split; [apply Q, Hp|exact Q].
  - destruct Hl as [<-|[]]. left. split; [exact (P _ _ _ Hp)|intros p'; exact (P _ _ p')].
Qed.
Lemma lkps_columns H l : In l (lkps (mpt_update_configure H) [fcur SEL]) -> exists columns, In columns table_columns /\ Forall (fun p => In (snd p) columns) (snd l).
Proof.
  intros Hl. destruct (snd l) as [|p r] eqn:E; [exists poseidon_table; split; [cbn; tauto|constructor]|].
  destruct (lkps_right _ [] l p Hl) as [[_ X]|(t & Ht & _ & X)]; [rewrite E; left; reflexivity| |].
  - exists poseidon_table. split; [left; reflexivity|]. apply Forall_forall. rewrite <- E. exact X.
  - exists (t ++ [fcur SEL]). split; [|apply Forall_forall; rewrite <- E; exact X]. apply update_rights in Ht. unfold update_tables in Ht. cbn [In] in Ht.
    unfold table_columns. destruct Ht as [<-|[<-|[<-|[<-|[]]]]]; cbn [In]; tauto.
Qed.
Lemma map_eq_at e t e' t' columns q : map (eval e' t') columns = map (eval e t) columns -> In q columns -> eval e' t' q = eval e t q.
Proof. intros E Hq. induction columns as [|c r IH]; [contradiction|]. cbn [map] in E. assert (E1 := f_equal (hd f0) E). assert (E2 := f_equal (@tl Fr) E). cbn [hd tl] in E1, E2. destruct Hq as [<-|Hq]; auto. Qed.
(* a row that reads the same as some row of a satisfied table *)
Definition from_row (H : Fr -> Fr -> Fr -> Fr) (e : env) (k : Z) : Prop :=
  exists e0 k0, sat e0 (circuit_of (mpt_update_configure H)) /\ 0 <= k0 < eN e0 /\ (k < eusable e -> k0 < eusable e0) /\ tables_included e0 e /\
    agree e0 k0 e k (fcur SEL) /\ moves e0 k0 e k (mpt_update_configure H).
Lemma update_from H e : (forall k, 0 <= k < eN e -> from_row H e k) -> eusable e <= eN e -> sat e (circuit_of (mpt_update_configure H)).
Proof.
  intros R Hu. unfold sat, circuit_of. destruct (run_spec (mpt_update_configure H) (builder_new SEL)) as (-> & -> & _). cbn [builder_new constraints lookups conditions app].
  assert (R' : forall k, 0 <= k < eN e -> exists e0 k0, Forall (fun g => gate_sat e0 (snd g)) (gates (mpt_update_configure H) [fcur SEL]) /\ Forall (fun l => lookup_sat e0 (snd l)) (lkps (mpt_update_configure H) [fcur SEL]) /\
    0 <= k0 < eN e0 /\ (k < eusable e -> k0 < eusable e0) /\ tables_included e0 e /\
    Forall (fun g => agree e0 k0 e k (snd g)) (gates (mpt_update_configure H) [fcur SEL]) /\ Forall (fun l => Forall (fun p => agree e0 k0 e k (fst p)) (snd l)) (lkps (mpt_update_configure H) [fcur SEL])).
  { intros k Hk. destruct (R k Hk) as (e0 & k0 & S0 & K0 & U0 & T0 & Sel & M). exists e0, k0. unfold sat, circuit_of in S0. destruct (run_spec (mpt_update_configure H) (builder_new SEL)) as (E1 & E2 & _). rewrite E1, E2 in S0. cbn [builder_new constraints lookups conditions app] in S0.
    destruct S0 as [S1 S2]. destruct (moves_flat e0 k0 e k Sel (mpt_update_configure H) [] eq_refl (or_intror M)) as [M1 M2]. auto 9. }
  split; apply Forall_forall; intros x Hx.
  - intros k Hk. destruct (R' k Hk) as (e0 & k0 & G & _ & K0 & _ & _ & A & _). rewrite Forall_forall in G, A. rewrite (A x Hx). exact (G x Hx k0 K0).
  - intros k Hk. destruct (R' k ltac:(lia)) as (e0 & k0 & _ & L & K0 & U0 & T & _ & A). rewrite Forall_forall in L, A. specialize (L x Hx). specialize (A x Hx). cbn beta in L, A.
    destruct (L k0 ltac:(lia)) as (t & Ht & Mt). destruct (lkps_columns H x Hx) as (columns & Hc & In_c). destruct (T columns t Hc Ht) as (t' & Ht' & E). exists t'. split; [exact Ht'|].
    rewrite Forall_forall in *. intros p Hp. rewrite (A p Hp). rewrite (Mt p Hp). symmetry. exact (map_eq_at _ _ _ _ _ _ E (In_c p Hp)).
Qed.

(** * The tables of the two environments *)
Section Same.
  Variables (e e2 : env) (j m : Z).
  Hypothesis SE : same_except e e2 j m.
  Lemma eval_other q k : other q = true -> eval e2 k q = eval e k q.
  Proof.
    destruct SE as (EN & _ & EC & EF & EA). induction q as [c|c r|c r| |a IHa|a IHa b IHb|a IHa b IHb]; cbn [other eval]; intros E.
    - reflexivity.
    - rewrite EN. apply EA. left. destruct (update_column c); [discriminate E|reflexivity].
    - rewrite EN. apply EF.
    - exact EC.
    - rewrite IHa by exact E. reflexivity.
    - apply andb_true_iff in E. destruct E. rewrite IHa, IHb by assumption. reflexivity.
    - apply andb_true_iff in E. destruct E. rewrite IHa, IHb by assumption. reflexivity.
  Qed.
  Lemma tables_other : Forall (Forall (fun q => other q = true)) table_columns.
  Proof. repeat constructor. Qed.
  Lemma tables_kept : tables_included e e2.
  Proof.
    intros columns t Hc Ht. exists t. destruct SE as (_ & EU & _). rewrite EU. split; [exact Ht|]. pose proof tables_other as X. rewrite Forall_forall in X. specialize (X columns Hc). rewrite Forall_forall in X.
    apply map_ext_in. intros q Hq. apply eval_other, X, Hq.
  Qed.
  Definition others (c : cmd) : bool := forallb (fun g => other (snd g)) (gates c [fcur SEL]) && forallb (fun l => forallb (fun p => other (fst p) && other (snd p)) (snd l)) (lkps c [fcur SEL]).
  Lemma others_sat c : others c = true -> sat e (circuit_of c) -> sat e2 (circuit_of c).
  Proof.
    unfold others, sat, circuit_of. destruct (run_spec c (builder_new SEL)) as (-> & -> & _). cbn [builder_new constraints lookups conditions app]. intros O [S1 S2]. apply andb_true_iff in O. destruct O as [O1 O2]. rewrite forallb_forall in O1, O2. rewrite Forall_forall in S1, S2.
    pose proof SE as (EN & EU & _). split; apply Forall_forall; intros x Hx k Hk.
    - rewrite eval_other by (apply O1, Hx). rewrite EN in Hk. exact (S1 x Hx k Hk).
    - rewrite EU in Hk. destruct (S2 x Hx k Hk) as (t & Ht & M). exists t. rewrite EU. split; [exact Ht|]. specialize (O2 x Hx). rewrite forallb_forall in O2. rewrite Forall_forall in M |- *. intros p Hp. specialize (O2 p Hp). apply andb_true_iff in O2. destruct O2. rewrite !eval_other by assumption. exact (M p Hp).
  Qed.
End Same.
Lemma tables_trans a b c : tables_included a b -> tables_included b c -> tables_included a c.
Proof. intros X Y columns t Hc Ht. destruct (X columns t Hc Ht) as (t1 & Ht1 & E1). destruct (Y columns t1 Hc Ht1) as (t2 & Ht2 & E2). exists t2. split; [exact Ht2|congruence]. Qed.
Lemma tables_refl a : tables_included a a.
Proof. intros columns t Hc Ht. exists t. auto. Qed.

(** * The spliced table *)
Fixpoint local (q : query) : bool := match q with QAdvice _ r | QFixed _ r => r =? 0 | QNeg a => local a | QAdd a b | QMul a b => local a && local b | _ => true end.
Lemma eval_local e e2 k q : eN e2 = eN e -> echal e2 = echal e -> 0 <= k < eN e -> (forall c, eadv e2 c k = eadv e c k) -> (forall c, efix e2 c k = efix e c k) -> local q = true -> eval e2 k q = eval e k q.
Proof.
  intros EN EC Hk EA EF. induction q as [c|c r|c r| |a IHa|a IHa b IHb|a IHa b IHb]; cbn [local eval]; intros E; try reflexivity.
  - apply Z.eqb_eq in E. subst r. rewrite EN, Z.add_0_r, Z.mod_small by lia. apply EA.
  - apply Z.eqb_eq in E. subst r. rewrite EN, Z.add_0_r, Z.mod_small by lia. apply EF.
  - exact EC.
  - rewrite IHa by exact E. reflexivity.
  - apply andb_true_iff in E. destruct E. rewrite IHa, IHb by assumption. reflexivity.
  - apply andb_true_iff in E. destruct E. rewrite IHa, IHb by assumption. reflexivity.
Qed.
Definition block_ok (H : Fr -> Fr -> Fr -> Fr) (e : env) (b : block) : Prop :=
  exists n, fixed_ok (b_table b) n /\ sat (b_table b) (circuit_of (circuit H)) /\ starts_and_ends n b /\ echal (b_table b) = echal e /\ tables_included (b_table b) e.

Section Spliced.
  Variables (H : Fr -> Fr -> Fr -> Fr) (e e2 : env) (n j : Z) (bs : list block).
  Hypothesis F : fixed_ok e n.
  Hypothesis SAT : sat e (circuit_of (circuit H)).
  Hypothesis OK : Forall (block_ok H e) bs.
  Hypothesis J : 1 <= j.
  Hypothesis JM : j + total bs < n.
  Hypothesis SJ : sg e j = SegStart.
  Hypothesis SJM : sg e (j + total bs) = SegStart.
  Hypothesis SE : same_except e e2 j (total bs).
  Hypothesis HB : holds_blocks e2 j bs.
  Let Hn := fo_rows e n F.
  Let Hu := fo_usable e n F.
  Lemma total_nonneg l : Forall (block_ok H e) l -> 0 <= total l.
  Proof. induction 1 as [|b l (m & _ & _ & B & _) L IH]; cbn [total]; [lia|]. pose proof (se_rows _ _ B). lia. Qed.
  Definition no_types (k : Z) : Prop := forall c, type_column c = true -> eadv e2 c k = f0.
  Lemma blocks_at l : Forall (block_ok H e) l -> forall i, holds_blocks e2 i l -> no_types (i + total l) ->
    no_types i /\ forall k, i <= k < i + total l -> exists b d, In b l /\ i <= d /\ d <= k < d + b_rows b /\ d + b_rows b <= i + total l /\
      (forall c x, update_column c = true -> 0 <= x < b_rows b -> eadv e2 c (d + x) = eadv (b_table b) c (b_row b + x)) /\ no_types (d + b_rows b).
  Proof.
    induction 1 as [|b l Hb L IH]; intros i Hh T; cbn [total holds_blocks] in *.
    - split; [rewrite Z.add_0_r in T; exact T|]. intros k Hk. lia.
    - destruct Hh as [Hc Hh]. pose proof (total_nonneg l L). rewrite Z.add_assoc in T. destruct (IH _ Hh T) as [T1 R]. destruct Hb as (m & Fb & Sb & Bb & _). pose proof (se_rows _ _ Bb). split.
      + intros c Hc'. pose proof (Hc c 0 ltac:(destruct c; try discriminate Hc'; reflexivity) ltac:(lia)) as E. rewrite !Z.add_0_r in E. rewrite E. pose proof (se_row _ _ Bb). pose proof (se_last _ _ Bb). apply (start_types H (b_table b) m Fb Sb); [lia|exact (se_first _ _ Bb)|exact Hc'].
      + intros k Hk. destruct (Z_lt_dec k (i + b_rows b)) as [Lk|Lk].
        * exists b, i. repeat split; try lia; [left; reflexivity|exact Hc|exact T1].
        * destruct (R k ltac:(lia)) as (b' & d & I1 & I2 & I3 & I4 & I5 & I6). exists b', d. repeat split; try lia; [right; exact I1|exact I5|exact I6].
  Qed.
  Lemma types_update c : type_column c = true -> update_column c = true.
  Proof. destruct c; try discriminate; reflexivity. Qed.
  Lemma end_types : no_types (j + total bs).
  Proof. intros c Hc. destruct SE as (_ & _ & _ & _ & EA). rewrite EA by lia. pose proof (total_nonneg bs OK). apply (start_types H e n F SAT); [lia|exact SJM|exact Hc]. Qed.
  Let UPD : sat e (circuit_of (mpt_update_configure H)).
  Proof. pose proof SAT as X. unfold circuit in X. rewrite !sat_seq in X. tauto. Qed.
  Lemma spliced_from k : 0 <= k < eN e2 -> from_row H e2 k.
  Proof.
    intros Hk. pose proof SE as (EN & EU & EC & EF & EA). rewrite EN in Hk. pose proof (total_nonneg bs OK) as T0. pose proof (tables_kept e e2 j _ SE) as TK.
    destruct (blocks_at bs OK j HB end_types) as [TJ BA].
    assert (In_range : j <= k < j + total bs \/ (k < j \/ j + total bs <= k)) by lia. destruct In_range as [I|O].
    - destruct (BA k I) as (b & d & Hb & D1 & D2 & D3 & Cells & Ty). pose proof OK as OK'. rewrite Forall_forall in OK'. destruct (OK' b Hb) as (m & Fb & Sb & Bb & Cb & Tb). pose proof (fo_rows _ _ Fb) as M1. pose proof (fo_usable _ _ Fb) as M2.
      pose proof (se_row _ _ Bb) as B1. pose proof (se_last _ _ Bb) as B2. set (x := k - d). assert (Hx : 0 <= x < b_rows b) by (unfold x; lia).
      exists (b_table b), (b_row b + x).
      assert (Sel : agree (b_table b) (b_row b + x) e2 k (fcur SEL)).
      { unfold agree. rewrite !eval_fcur by lia. rewrite EF, (sel_on e n F) by lia. rewrite (sel_on (b_table b) m Fb) by lia. reflexivity. }
      assert (Cur : forall c, update_column c = true -> eadv e2 c ((k + 0) mod eN e2) = eadv (b_table b) c ((b_row b + x + 0) mod eN (b_table b))).
      { intros c Hc. rewrite !Z.add_0_r, !Z.mod_small by lia. rewrite <- (Cells c x Hc Hx). f_equal. unfold x. lia. }
      assert (Nxt : forall c, type_column c = true -> eadv e2 c ((k + 1) mod eN e2) = eadv (b_table b) c ((b_row b + x + 1) mod eN (b_table b))).
      { intros c Hc. rewrite !Z.mod_small by lia. destruct (Z_lt_dec (x + 1) (b_rows b)) as [L|L].
        - pose proof (Cells c (x + 1) (types_update c Hc) ltac:(lia)) as E. replace (d + (x + 1)) with (k + 1) in E by (unfold x; lia). rewrite E. f_equal. lia.
        - replace (k + 1) with (d + b_rows b) by (unfold x in *; lia). rewrite (Ty c Hc). symmetry. replace (b_row b + x + 1) with (b_row b + b_rows b) by lia. apply (start_types H (b_table b) m Fb Sb); [lia|exact (se_next _ _ Bb)|exact Hc]. }
      split. { pose proof Sb as X. unfold circuit in X. rewrite !sat_seq in X. tauto. }
      split; [lia|]. split; [lia|]. split; [exact (tables_trans _ _ _ Tb TK)|]. split; [exact Sel|]. rewrite <- Cb in EC.
      destruct (Z.eq_dec x 0) as [X0|X0].
      + apply (start_moves H (b_table b) m Fb Sb); try assumption; [lia|]. rewrite X0, Z.add_0_r. exact (se_first _ _ Bb).
      + apply (okcmd_moves _ _ _ _ Sel true EC Cur Nxt); [|apply reads_update]. intros _ c Hc. rewrite !Z.mod_small by lia. pose proof (Cells c (x - 1) Hc ltac:(lia)) as E. replace (d + (x - 1)) with (k + -1) in E by (unfold x; lia). rewrite E. f_equal. lia.
    - exists e, k. assert (Sel : agree e k e2 k (fcur SEL)) by (unfold agree; rewrite !eval_fcur by lia; apply EF).
      assert (Cur : forall c, update_column c = true -> eadv e2 c ((k + 0) mod eN e2) = eadv e c ((k + 0) mod eN e)).
      { intros c _. rewrite EN, Z.add_0_r, Z.mod_small by lia. apply EA. lia. }
      assert (Nxt : forall c, type_column c = true -> eadv e2 c ((k + 1) mod eN e2) = eadv e c ((k + 1) mod eN e)).
      { intros c Hc. rewrite EN. destruct (Z.eq_dec (k + 1) (eN e)) as [E|E]; [rewrite E, Z.mod_same by lia; apply EA; lia|]. rewrite Z.mod_small by lia. destruct (Z.eq_dec (k + 1) j) as [Ej|Ej]; [|apply EA; lia].
        rewrite Ej, (TJ c Hc). symmetry. apply (start_types H e n F SAT); [lia|exact SJ|exact Hc]. }
      split; [exact UPD|]. split; [lia|]. split; [lia|]. split; [exact TK|]. split; [exact Sel|].
      destruct (Z.eq_dec k (j + total bs)) as [Ek|Ek].
      + apply (start_moves H e n F SAT); try assumption; [lia|]. rewrite Ek. exact SJM.
      + apply (okcmd_moves _ _ _ _ Sel true EC Cur Nxt); [|apply reads_update]. intros _ c Hc. rewrite EN. destruct (Z.eq_dec k 0) as [E0|E0].
        * replace (k + -1) with (-1) by lia. replace (-1 mod eN e) with (eN e - 1); [apply EA; lia|]. rewrite <- (Z.mod_small (eN e - 1) (eN e)) by lia. replace (eN e - 1) with (-1 + 1 * eN e) by lia. rewrite Z.mod_add by lia. reflexivity.
        * rewrite Z.mod_small by lia. apply EA. lia.
  Qed.
  Lemma final_kept : sat e2 (circuit_of final_row_configure).
  Proof.
    pose proof SE as (EN & EU & EC & EF & EA). pose proof (total_nonneg bs OK) as T0.
    assert (X : sat e (circuit_of final_row_configure)) by (pose proof SAT as X; unfold circuit in X; rewrite !sat_seq in X; tauto).
    unfold sat, circuit_of in *. destruct (run_spec final_row_configure (builder_new SEL)) as (E1 & E2 & _). rewrite E1, E2 in *. cbn [builder_new constraints lookups conditions app] in *. destruct X as [X _]. split.
    - assert (L : forallb (fun g => local (snd g)) (gates final_row_configure [fcur SEL]) = true) by (vm_compute; reflexivity). rewrite forallb_forall in L. apply Forall_forall. intros g Hg k Hk. rewrite EN in Hk.
      destruct (Z_lt_dec k j) as [A|A]; [|destruct (Z_le_dec (j + total bs) k) as [B|B]].
      + rewrite Forall_forall in X. rewrite (eval_local e e2 k _ EN EC ltac:(lia) (fun c => EA c k ltac:(lia)) (fun c => EF c k) (L g Hg)). exact (X g Hg k Hk).
      + rewrite Forall_forall in X. rewrite (eval_local e e2 k _ EN EC ltac:(lia) (fun c => EA c k ltac:(lia)) (fun c => EF c k) (L g Hg)). exact (X g Hg k Hk).
      + assert (G : Forall (fun g => eval e2 k (snd g) = f0) (gates final_row_configure [fcur SEL])).
        { unfold final_row_configure. cbn [gates app]. apply inactive_gates. apply zero_conj. right. left. rewrite eval_fcur by lia. rewrite EF, (fo_cells e n F) by (try discriminate; lia). cbn [fixed_cell]. destruct (Z.eqb_spec k (n - 1)); [lia|reflexivity]. }
        rewrite Forall_forall in G. exact (G g Hg).
    - assert (L : lkps final_row_configure [fcur SEL] = []) by (vm_compute; reflexivity). rewrite L. constructor.
  Qed.
  Theorem spliced : fixed_ok e2 n /\ sat e2 (circuit_of (circuit H)).
  Proof.
    pose proof SE as (EN & EU & EC & EF & EA). split.
    - destruct F as [F1 F2 F3 F4]. split; rewrite ?EN, ?EU; auto. intros c i Hc Hi. rewrite EF. apply F1; assumption.
    - pose proof SAT as X. unfold circuit in X |- *. rewrite !sat_seq in X |- *. destruct X as (X1 & X2 & X3 & _ & _).
      split; [apply (others_sat e e2 j _ SE); [vm_compute; reflexivity|exact X1]|]. split; [apply (others_sat e e2 j _ SE); [vm_compute; reflexivity|exact X2]|]. split; [apply (others_sat e e2 j _ SE); [vm_compute; reflexivity|exact X3]|].
      split; [|exact final_kept]. apply update_from; [exact spliced_from|rewrite EN, EU; lia].
  Qed.
End Spliced.

(** * What the spliced table says *)
(* the exposed rows i, ..., i + m - 1 *)
Definition table_rows (e : env) (i m : Z) : list (list Fr) := map (fun k => table_row e (i + Z.of_nat k)) (seq 0 (Z.to_nat m)).
Fixpoint reads_current (q : query) : bool := match q with QAdvice c r => update_column c && (r =? 0) | QFixed _ _ => false | QNeg a => reads_current a | QAdd a b | QMul a b => reads_current a && reads_current b | _ => true end.
Lemma eval_reads e k e2 k2 q : echal e2 = echal e -> 0 <= k < eN e -> 0 <= k2 < eN e2 -> (forall c, update_column c = true -> eadv e2 c k2 = eadv e c k) -> reads_current q = true -> eval e2 k2 q = eval e k q.
Proof.
  intros EC Hk Hk2 EA. induction q as [c|c r|c r| |a IHa|a IHa b IHb|a IHa b IHb]; cbn [reads_current eval]; intros E; try reflexivity; try discriminate E.
  - apply andb_true_iff in E. destruct E as [U E]. apply Z.eqb_eq in E. subst r. rewrite !Z.add_0_r, !Z.mod_small by lia. apply EA, U.
  - exact EC.
  - rewrite IHa by exact E. reflexivity.
  - apply andb_true_iff in E. destruct E. rewrite IHa, IHb by assumption. reflexivity.
  - apply andb_true_iff in E. destruct E. rewrite IHa, IHb by assumption. reflexivity.
Qed.
(* a row's entry is a function of that row alone *)
Theorem entry_of_row e k e2 k2 : echal e2 = echal e -> 0 <= k < eN e -> 0 <= k2 < eN e2 -> (forall c, update_column c = true -> eadv e2 c k2 = eadv e c k) -> table_row e2 k2 = table_row e k.
Proof.
  intros EC Hk Hk2 EA. unfold table_row. assert (R : forallb reads_current mpt_update_lookup = true) by (vm_compute; reflexivity). rewrite forallb_forall in R.
  apply map_ext_in. intros q Hq. apply (eval_reads e k e2 k2 q EC Hk Hk2 EA), R, Hq.
Qed.
Lemma seq_shift_map {X} (f : nat -> X) a : forall b s, map f (seq (s + a) b) = map (fun k => f (a + k)%nat) (seq s b).
Proof. induction b as [|b IH]; intros s; cbn [seq map]; [reflexivity|]. f_equal; [f_equal; lia|]. exact (IH (Datatypes.S s)). Qed.
Lemma table_rows_app e i a b : 0 <= a -> 0 <= b -> table_rows e i (a + b) = table_rows e i a ++ table_rows e (i + a) b.
Proof.
  intros Ha Hb. unfold table_rows. rewrite Z2Nat.inj_add, seq_app, map_app by lia. apply (f_equal2 (@app _)); [reflexivity|]. rewrite seq_shift_map. apply map_ext. intros k. f_equal. lia.
Qed.
Section Says.
  Variables (H : Fr -> Fr -> Fr -> Fr) (e e2 : env) (n j : Z) (bs : list block).
  Hypothesis F : fixed_ok e n.
  Hypothesis OK : Forall (block_ok H e) bs.
  Hypothesis J : 1 <= j.
  Hypothesis JM : j + total bs < n.
  Hypothesis SE : same_except e e2 j (total bs).
  Hypothesis HB : holds_blocks e2 j bs.
  Lemma says_outside k : 0 <= k < eN e -> k < j \/ j + total bs <= k -> table_row e2 k = table_row e k.
  Proof. intros Hk O. pose proof SE as (EN & EU & EC & EF & EA). apply entry_of_row; [exact EC|exact Hk|lia|]. intros c _. apply EA. lia. Qed.
  Lemma says_blocks : forall l i, Forall (block_ok H e) l -> holds_blocks e2 i l -> 1 <= i -> i + total l < n ->
    table_rows e2 i (total l) = concat (map (fun b => table_rows (b_table b) (b_row b) (b_rows b)) l).
  Proof.
    pose proof SE as (EN & EU & EC & _). pose proof (fo_rows e n F). pose proof (fo_usable e n F). induction l as [|b l IH]; intros i L Hh Hi Hl; [reflexivity|]. cbn [total map concat holds_blocks] in *. inversion L as [|? ? Lb Ll]; subst. destruct Hh as [Hc Hh].
    pose proof (total_nonneg H e l Ll). destruct Lb as (m & Fb & Sb & Bb & Cb & _). pose proof (se_rows _ _ Bb). pose proof (se_row _ _ Bb). pose proof (se_last _ _ Bb). pose proof (fo_rows _ _ Fb). pose proof (fo_usable _ _ Fb).
    rewrite table_rows_app, IH by (try assumption; lia). apply (f_equal2 (@app _)); [|reflexivity]. unfold table_rows. apply map_ext_in. intros k Hk. apply in_seq in Hk. apply entry_of_row; [congruence|lia|lia|]. intros c U. apply Hc; [exact U|lia].
  Qed.
  Theorem says : table_rows e2 j (total bs) = concat (map (fun b => table_rows (b_table b) (b_row b) (b_rows b)) bs).
  Proof. apply says_blocks; assumption. Qed.
End Says.

(** * There is such a table *)
Fixpoint locate (bs : list block) (x : Z) : option (block * Z) :=
  match bs with [] => None | b :: r => if x <? b_rows b then Some (b, x) else locate r (x - b_rows b) end.
Definition splice (e : env) (j : Z) (bs : list block) : env :=
  mkEnv (eN e) (eusable e) (fun c k => if update_column c && (j <=? k) then match locate bs (k - j) with Some (b, x) => eadv (b_table b) c (b_row b + x) | None => eadv e c k end else eadv e c k) (efix e) (echal e).
Lemma locate_out bs : forall x, Forall (fun b => 0 < b_rows b) bs -> total bs <= x -> locate bs x = None.
Proof.
  induction bs as [|b bs IH]; intros x P L; cbn [locate total] in *; [reflexivity|]. inversion P; subst. assert (0 <= total bs) by (clear - H2; induction H2; cbn [total]; lia).
  destruct (Z.ltb_spec x (b_rows b)); [lia|]. apply IH; [assumption|lia].
Qed.
Lemma splice_same e j bs : Forall (fun b => 0 < b_rows b) bs -> same_except e (splice e j bs) j (total bs).
Proof.
  intros P. repeat split. intros c k [U|[L|G]]; cbn [splice eadv].
  - rewrite U. reflexivity.
  - destruct (Z.leb_spec j k); [lia|]. rewrite andb_false_r. reflexivity.
  - rewrite locate_out by (try assumption; lia). destruct (_ && _); reflexivity.
Qed.
Lemma splice_holds_at e j all : forall bs i, j <= i -> (forall x, 0 <= x -> locate all (i - j + x) = locate bs x) -> Forall (fun b => 0 < b_rows b) bs -> holds_blocks (splice e j all) i bs.
Proof.
  induction bs as [|b bs IH]; intros i Hi E P; cbn [holds_blocks]; [exact Logic.I|]. inversion P; subst. split.
  - intros c k U Hk. cbn [splice eadv]. rewrite U. destruct (Z.leb_spec j (i + k)); [|lia]. cbn [andb]. replace (i + k - j) with (i - j + k) by lia. rewrite E by lia. cbn [locate]. destruct (Z.ltb_spec k (b_rows b)); [reflexivity|lia].
  - apply IH; [lia| |assumption]. intros x Hx. replace (i + b_rows b - j + x) with (i - j + (b_rows b + x)) by lia. rewrite E by lia. cbn [locate]. destruct (Z.ltb_spec (b_rows b + x) (b_rows b)); [lia|]. f_equal. lia.
Qed.
Lemma splice_holds e j bs : Forall (fun b => 0 < b_rows b) bs -> holds_blocks (splice e j bs) j bs.
Proof. apply splice_holds_at; [lia|]. intros x _. f_equal. lia. Qed.

(** * Any order *)
(* consecutive blocks of one table *)
Fixpoint consecutive (e : env) (n j : Z) (bs : list block) : Prop :=
  match bs with [] => True | b :: r => b_table b = e /\ b_row b = j /\ starts_and_ends n b /\ consecutive e n (j + b_rows b) r end.
Lemma total_perm bs bs' : Permutation bs bs' -> total bs' = total bs.
Proof. induction 1; cbn [total]; lia. Qed.
Lemma consecutive_own e n : forall bs j, consecutive e n j bs -> Forall (fun b => b_table b = e /\ starts_and_ends n b) bs.
Proof. induction bs as [|b bs IH]; intros j X; constructor; destruct X as (A & B & C & D); [auto|exact (IH _ D)]. Qed.
Lemma consecutive_says e n : forall bs j, consecutive e n j bs -> table_rows e j (total bs) = concat (map (fun b => table_rows (b_table b) (b_row b) (b_rows b)) bs).
Proof.
  induction bs as [|b bs IH]; intros j X; [reflexivity|]. destruct X as (A & B & C & D). cbn [total map concat]. pose proof (se_rows _ _ C).
  assert (0 <= total bs) by (pose proof (consecutive_own _ _ _ _ D) as Y; clear - Y; induction Y as [|b l [_ S] _ IH]; cbn [total]; [lia|pose proof (se_rows _ _ S); lia]).
  rewrite table_rows_app, (IH _ D), A, B by lia. reflexivity.
Qed.
Lemma perm_concat {X Y} (f : X -> list Y) l l' : Permutation l l' -> Permutation (concat (map f l)) (concat (map f l')).
Proof.
  induction 1 as [|x l l' _ IH|x y l|l l' l'' _ IH1 _ IH2]; cbn [map concat].
  - constructor.
  - apply Permutation_app_head, IH.
  - rewrite !app_assoc. apply Permutation_app_tail, Permutation_app_comm.
  - exact (Permutation_trans IH1 IH2).
Qed.
Section Reorder.
  Variables (H : Fr -> Fr -> Fr -> Fr) (e e2 : env) (n j : Z) (bs bs' : list block).
  Hypothesis F : fixed_ok e n.
  Hypothesis SAT : sat e (circuit_of (circuit H)).
  Hypothesis Cs : consecutive e n j bs.
  Hypothesis Ne : bs <> [].
  Hypothesis Pm : Permutation bs bs'.
  Hypothesis SE : same_except e e2 j (total bs).
  Hypothesis HB : holds_blocks e2 j bs'.
  Lemma reorder_ok : Forall (block_ok H e) bs'.
  Proof. apply (Permutation_Forall Pm). eapply Forall_impl; [|exact (consecutive_own _ _ _ _ Cs)]. intros b [A B]. exists n. rewrite A. repeat (split; [assumption|]). split; [reflexivity|apply tables_refl]. Qed.
  Lemma last_start : forall l i, consecutive e n i l -> l <> [] -> 1 <= i /\ sg e i = SegStart /\ i + total l < n /\ sg e (i + total l) = SegStart.
  Proof.
    induction l as [|b l IH]; intros i C N; [congruence|]. destruct C as (A & B & S & C). cbn [total]. pose proof (se_first _ _ S) as Q. pose proof (se_row _ _ S) as Q2. rewrite A, B in Q. rewrite B in Q2. split; [exact Q2|]. split; [exact Q|]. pose proof (se_last _ _ S) as Q3. pose proof (se_next _ _ S) as Q4. rewrite B in Q3, Q4. rewrite A in Q4.
    destruct l as [|c l]; [cbn [total]; rewrite Z.add_0_r; split; assumption|]. destruct (IH _ C ltac:(discriminate)) as (_ & _ & X & Y). rewrite Z.add_assoc. split; assumption.
  Qed.
  Theorem reordered : sat e2 (circuit_of (circuit H)) /\ Permutation (table_rows e j (total bs)) (table_rows e2 j (total bs)) /\ forall k, 0 <= k < eN e -> k < j \/ j + total bs <= k -> table_row e2 k = table_row e k.
  Proof.
    destruct (last_start bs j Cs Ne) as (A & B & C & D). pose proof (total_perm _ _ Pm) as T. pose proof reorder_ok as O.
    assert (SE' : same_except e e2 j (total bs')) by (rewrite T; exact SE).
    split; [|split].
    - apply (spliced H e e2 n j bs' F SAT O A); rewrite ?T; assumption.
    - rewrite <- T at 2. rewrite (says H e e2 n j bs' F O A ltac:(lia) SE' HB), (consecutive_says _ _ _ _ Cs). apply perm_concat, Pm.
    - intros k Hk Out. apply (says_outside e e2 j bs' SE' k Hk). lia.
  Qed.
End Reorder.
