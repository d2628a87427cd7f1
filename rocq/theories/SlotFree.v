(* The slot of a storage claim can be replaced once one chosen entry is in the byte representation table. *)
From Coq Require Import ZArith String List Bool Lia.
From Verif Require Import Pocklington Fr Query Builder BuilderProofs Gadgets MptUpdate Bytes GadgetProofs Fixed UpdateRows UpdateSound Assign AssignProofs AssignOk MptAssign GadgetMain GadgetMain2 GadgetMain3 TrieSpec TableSpec CircuitOk UpdateProps Splice Edit Freedom Free Retable ByteFree TableFree.
Import ListNotations.
Open Scope Z_scope.

Definition slot_kinds : list MPTProofType := [StorageChanged; StorageDoesNotExist].
Definition reads_slot : touched := fun c r => match c with MU_storage_key_rlc => true | MU_sp 0 => negb (r =? 0) | _ => false end.
Definition reads_slot3 : touched := fun c r => match c with MU_storage_key_rlc | MU_sp 0 => true | _ => false end.
Definition rlc_found : cmd := AddLookup "rlc_high = rlc(high) and high is 16 bytes" [cur (iv 0); qz 15; cur (sp 0)] rlc_lookup.
Definition rlc_joined : cmd := assert_equal "word_rlc = rlc(high) * randomness ^ 16 + rlc(low)" (cur MU_storage_key_rlc)
    (cur (sp 0) * qsquare (qsquare (qsquare (qsquare randomness))) + cur (sp 1))%q.
Lemma slot_todo H t s p : In t slot_kinds -> s <> AccountLeaf3 -> (s = SegStart <-> p = PathStart) ->
  Forall (keeps MU_storage_key_rlc s) (todo reads_slot (Kind t s p None) [] (mpt_update_configure H)).
Proof.
  intros T A C. unfold slot_kinds in T. cbn [In] in T.
  destruct p; destruct s; try (exfalso; apply A; reflexivity); try (exfalso; destruct C as [C1 C2]; (discriminate (C1 eq_refl) || discriminate (C2 eq_refl))); clear A C; destruct T as [<-|[<-|[]]].
  all: match goal with |- Forall ?P ?l => let l' := eval lazy in l in change (Forall P l') end.
  all: repeat (apply Forall_cons || apply Forall_nil); (split; [discriminate|reflexivity]).
Qed.
Definition slot_conditions (t : MPTProofType) : list query := [cur_seg [AccountLeaf3]; current_matches oh_proof [t]].
Definition slot_rows (t : MPTProofType) (a : list query * cmd) : Prop :=
  match snd a with
  | AssertZero _ q => q = (cur MU_storage_key_rlc - prev MU_storage_key_rlc)%q \/ q = match rlc_joined with AssertZero _ q => q | _ => q end
  | AddLookup _ l r => (l = [cur (iv 0); qz 15; cur (sp 0)] /\ r = rlc_lookup) /\ fst a = slot_conditions t
  | _ => False
  end.
Lemma slot3_todo H t p : In t slot_kinds -> p <> PathStart -> Forall (slot_rows t) (todo reads_slot3 (Kind t AccountLeaf3 p None) [] (mpt_update_configure H)).
Proof.
  intros T A. unfold slot_kinds in T. cbn [In] in T.
  destruct p; try (exfalso; apply A; reflexivity); clear A; destruct T as [<-|[<-|[]]].
  all: match goal with |- Forall ?P ?l => let l' := eval lazy in l in change (Forall P l') end.
  all: repeat (apply Forall_cons || apply Forall_nil). 
  all: unfold slot_rows; cbn [snd fst].
  all: match goal with |- (_ /\ _) /\ _ => repeat split; reflexivity | |- _ \/ _ => (left; reflexivity) || (right; reflexivity) end.
Qed.
Lemma slot_after_todo H p : todo (reads_prev [MU_storage_key_rlc; MU_sp 0]) (Kind p SegStart PathStart None) [] (mpt_update_configure H) = [].
Proof. destruct p; lazy; reflexivity. Qed.

(* the slot of the update in rows i to i + m - 1 replaced, with the RLC of its high half in row q *)
Definition set_slot (e : env) (i m q : Z) (Y y : Fr) : env :=
  {| eN := eN e; eusable := eusable e; echal := echal e; efix := efix e;
     eadv := fun c k => if (i <=? k) && (k <? i + m) then match c with MU_storage_key_rlc => Y | MU_sp 0 => if k =? q then y else eadv e c k | _ => eadv e c k end else eadv e c k |}.
Section Slot.
  Variables (H : Fr -> Fr -> Fr -> Fr) (e : env) (n i m q : Z) (Y y : Fr).
  Hypothesis F : fixed_ok e n.
  Hypothesis SAT : sat e (circuit_of (circuit H)).
  Hypothesis B : starts_and_ends n (Block e i m).
  Hypothesis Inner : forall k, i < k < i + m -> sg e k <> SegStart.
  Hypothesis Ty : In (pt e i) slot_kinds.
  Hypothesis Only : forall k, i <= k < i + m -> (sg e k = AccountLeaf3 <-> k = q).
  Hypothesis Ent : i <= q < i + m -> accepts e rlc_lookup [eadv e (iv 0) q; fz 15; y].
  Hypothesis Join : i <= q < i + m -> Y = (y * fpow (echal e) 16 + eadv e (sp 1) q)%fr.
  Let HD := HD0 H e n F SAT.
  Let Hn := fo_rows e n F.
  Let Hu := fo_usable e n F.
  Let Hi : 1 <= i. Proof. exact (se_row _ _ B). Qed.
  Let Hm : 0 < m. Proof. exact (se_rows _ _ B). Qed.
  Let Hl : i + m < n. Proof. exact (se_last _ _ B). Qed.
  Let e2 := set_slot e i m q Y y.
  Let Pc k : i <= k < i + m -> pt e k = pt e i. Proof. exact (pt_const H e n i m F SAT B Inner k). Qed.
  Lemma slot_same : same_except e e2 i m.
  Proof.
    unfold e2, set_slot. repeat split. cbn [eadv]. intros c k D. destruct ((i <=? k) && (k <? i + m)) eqn:Q; [|reflexivity]. apply andb_true_iff in Q. rewrite Z.leb_le, Z.ltb_lt in Q. destruct D as [D|D]; [|lia]. destruct c; try reflexivity; try discriminate D.
  Qed.
  Lemma slot_unread c k : reads_slot3 c 0 = false -> eadv e2 c k = eadv e c k.
  Proof. intros N. unfold e2, set_slot. cbn [eadv]. destruct ((i <=? k) && (k <? i + m)); [|reflexivity]. destruct c; try reflexivity; try discriminate N. destruct i0; [discriminate N|reflexivity]. Qed.
  Lemma slot_type c k : type_column c = true -> eadv e2 c k = eadv e c k.
  Proof. intros N. apply slot_unread. destruct c; try discriminate N; reflexivity. Qed.
  Lemma slot_in k : i <= k < i + m -> eadv e2 MU_storage_key_rlc k = Y.
  Proof. intros Hk. unfold e2, set_slot. cbn [eadv]. replace ((i <=? k) && (k <? i + m)) with true by (symmetry; apply andb_true_iff; rewrite Z.leb_le, Z.ltb_lt; lia). reflexivity. Qed.
  Lemma slot_high k : k <> q -> eadv e2 (MU_sp 0) k = eadv e (MU_sp 0) k.
  Proof. intros Hk. unfold e2, set_slot. cbn [eadv]. destruct ((i <=? k) && (k <? i + m)); [|reflexivity]. destruct (Z.eqb_spec k q); [contradiction|reflexivity]. Qed.
  Lemma slot_high_in : i <= q < i + m -> eadv e2 (MU_sp 0) q = y.
  Proof. intros Hk. unfold e2, set_slot. cbn [eadv]. replace ((i <=? q) && (q <? i + m)) with true by (symmetry; apply andb_true_iff; rewrite Z.leb_le, Z.ltb_lt; lia). rewrite Z.eqb_refl. reflexivity. Qed.
  Let W : wf_env e. Proof. unfold wf_env. lia. Qed.
  Let sel_one k : 1 <= k < n -> eval e k (fcur SEL) = f1.
  Proof. intros Hk. rewrite eval_fcur by lia. rewrite (fo_cells e n F) by (try discriminate; lia). cbn [fixed_cell]. rewrite (proj2 (Fixed.in_range_true 1 k n) Hk). reflexivity. Qed.
  Let conditions_one k : 1 <= k < n -> sg e k = AccountLeaf3 -> all_one e k (slot_conditions (pt e k)).
  Proof.
    intros Hk S. repeat constructor.
    - unfold cur_seg, current_matches. rewrite (ev_seg H e n F HD) by (try nodup; lia). rewrite Z.add_0_r, S. reflexivity.
    - unfold current_matches. rewrite (ev_pt H e n F HD) by (try nodup; lia). rewrite Z.add_0_r. cbn [existsb]. destruct (pt e k); reflexivity.
  Qed.
  Lemma rlc_hit_moves k vals : map (eval e2 k) [cur (iv 0); qz 15; cur (sp 0)] = vals -> accepts e rlc_lookup vals -> lookup_hit e2 k [cur (iv 0); qz 15; cur (sp 0)] rlc_lookup.
  Proof.
    intros E (t & (T1 & T2) & M). exists t. split; [exact T1|]. split; [exact T2|]. unfold tuple_match.
    assert (Tb : map (eval e2 t) rlc_lookup = map (eval e t) rlc_lookup).
    { apply map_ext_in. intros w Hw. pose proof (tables_other) as X. rewrite Forall_forall in X. specialize (X (rlc_lookup ++ [fcur SEL]) ltac:(cbn; auto)). rewrite Forall_forall in X. apply (eval_other e e2 i m slot_same), X, in_or_app. auto. }
    rewrite <- M in E. rewrite <- Tb in E. clear - E. revert E. generalize [cur (iv 0); qz 15; cur (sp 0)] as l. generalize rlc_lookup as table. intros table l. revert table. induction l as [|x l IH]; intros [|z r] E; cbn [map] in E; try discriminate E; constructor; [exact (f_equal (hd f0) E)|exact (IH r (f_equal (@tl Fr) E))].
  Qed.
  Theorem slot_edited : fixed_ok e2 n /\ sat e2 (circuit_of (circuit H)).
  Proof.
    apply (edited H e e2 n i m F SAT ltac:(lia) Hl slot_same slot_type). intros k Hk. assert (Kb : 0 <= k < eN e) by lia.
    assert (Fk : forall k, i < k < i + m -> eval e2 k (cur MU_storage_key_rlc - prev MU_storage_key_rlc)%q = f0).
    { intros k0 K0. change (eval e2 k0 (cur MU_storage_key_rlc) + - eval e2 k0 (prev MU_storage_key_rlc) = f0)%fr. rewrite eval_cur, eval_prev by (unfold e2, set_slot; cbn [eN]; lia). rewrite !slot_in by lia. ring. }
    destruct (Z.eq_dec k (i + m)) as [->|Ne].
    - pose proof (kind_known H e n F SAT (i + m) None ltac:(lia) ltac:(discriminate)) as Kn. assert (S : sg e (i + m) = SegStart) by exact (se_next _ _ B). rewrite S, (proj1 (r_start_iff H e n F HD (i + m) ltac:(lia)) S) in Kn.
      refine (todo_fine e e2 (i + m) eq_refl eq_refl (fun _ _ => eq_refl) (reads_prev [MU_storage_key_rlc; MU_sp 0]) _ _ Kn eq_refl W Kb (mpt_update_configure H) [] (Forall_nil _) _).
      + intros c r Q. destruct (reads_slot3 c 0) eqn:Rd; [|apply slot_unread; exact Rd]. apply slot_same. right. unfold reads_prev in Q. apply andb_false_iff in Q. destruct Q as [Q|Q].
        * assert (R : r = 0 \/ r = 1) by (destruct (Z.eqb_spec r 0), (Z.eqb_spec r 1); cbn in Q; auto; discriminate Q). destruct R as [->| ->].
          -- rewrite Z.mod_small; lia.
          -- destruct (Z.eq_dec (i + m + 1) (eN e)) as [->|]; [rewrite Z_mod_same_full; lia|rewrite Z.mod_small; lia].
        * exfalso. destruct (in_dec acol_eq_dec c _) as [I|I]; [discriminate Q|]. apply I. clear - Rd. destruct c; try discriminate Rd; [cbn; auto|]. destruct i; [cbn; auto|discriminate Rd].
      + rewrite slot_after_todo. constructor.
    - assert (Hk' : i <= k < i + m) by lia. pose proof (kind_known H e n F SAT k None ltac:(lia) ltac:(discriminate)) as Kn.
      pose proof (start_path H e n i m F SAT B k Hk') as Sp. assert (Tk : In (pt e k) slot_kinds) by (rewrite (Pc k Hk'); exact Ty).
      assert (Ni : sg e k <> SegStart -> i < k) by (intros N; destruct (Z.eq_dec k i) as [->|]; [exfalso; apply N, (se_first _ _ B)|lia]).
      destruct (Z.eq_dec k q) as [Eq|Nq].
      + assert (S : sg e k = AccountLeaf3) by (apply (Only k Hk'); exact Eq). assert (Hq : i <= q < i + m) by lia. rewrite S in Kn.
        assert (Np : pa e k <> PathStart) by (intros Q; apply Sp in Q; congruence).
        refine (todo_fine e e2 k eq_refl eq_refl (fun _ _ => eq_refl) reads_slot3 _ _ Kn eq_refl W Kb (mpt_update_configure H) [] (Forall_nil _) _).
        * intros c r Q. apply slot_unread. destruct c; exact Q.
        * eapply Forall_impl; [|exact (slot3_todo H (pt e k) (pa e k) Tk Np)]. intros [cs c] K. unfold slot_rows in K. cbn [snd fst] in K. right. cbn [snd fst]. destruct c; try contradiction.
          -- destruct K as [->| ->]; [apply Fk; split; [apply Ni; congruence|lia]|]. cbn [rlc_joined assert_equal]. rewrite eval_sub.
             change (eval e2 k (cur MU_storage_key_rlc) - (eval e2 k (cur (sp 0)) * eval e2 k (qsquare (qsquare (qsquare (qsquare randomness)))) + eval e2 k (cur (sp 1))) = f0)%fr.
             rewrite !eval_cur by exact Kb. rewrite slot_in by exact Hk'. rewrite Eq. change (sp 0) with (MU_sp 0). rewrite (slot_high_in Hq). rewrite (slot_unread (sp 1)) by reflexivity.
             change (eval e2 q (qsquare (qsquare (qsquare (qsquare randomness))))) with (let x := echal e in let a := (x * x)%fr in let b := (a * a)%fr in let c := (b * b)%fr in c * c)%fr. cbv zeta. rewrite (Join Hq). cbn [fpow]. ring.
          -- destruct K as [[-> ->] ->]. split; [apply conditions_one; [lia|exact S]|]. intros _. split; [apply sel_one; lia|].
             apply (rlc_hit_moves k [eadv e (iv 0) q; fz 15; y]); [|exact (Ent Hq)]. cbn [map]. rewrite !eval_cur by exact Kb. rewrite Eq. change (sp 0) with (MU_sp 0). rewrite (slot_high_in Hq), (slot_unread (iv 0)) by reflexivity. reflexivity.
      + assert (S : sg e k <> AccountLeaf3) by (intros S; apply Nq, (Only k Hk'), S).
        refine (todo_fine e e2 k eq_refl eq_refl (fun _ _ => eq_refl) reads_slot _ _ Kn eq_refl W Kb (mpt_update_configure H) [] (Forall_nil _) _).
        * intros c r Q. destruct (reads_slot3 c 0) eqn:Rd; [|apply slot_unread; exact Rd]. destruct c; try discriminate Rd; try discriminate Q. destruct i0; [|discriminate Rd]. cbn [reads_slot] in Q. apply negb_false_iff, Z.eqb_eq in Q. subst r. rewrite Z.add_0_r, Z.mod_small by lia. apply slot_high, Nq.
        * eapply Forall_impl; [|exact (slot_todo H (pt e k) (sg e k) (pa e k) Tk S Sp)]. intros [cs c] [Sk K]. cbn [snd] in K. right. cbn [snd]. destruct c; try contradiction. rewrite K. apply Fk. split; [apply Ni, Sk|lia].
  Qed.
  Let clean_same k w : clean reads_slot w = true -> k <> q -> 0 <= k < eN e -> eval e2 k w = eval e k w.
  Proof.
    intros Q Nq Kb. refine (clean_agree e e2 k eq_refl eq_refl (fun _ _ => eq_refl) reads_slot _ w Q). intros c r Q'.
    destruct (reads_slot3 c 0) eqn:Rd; [|apply slot_unread; exact Rd]. destruct c; try discriminate Rd; try discriminate Q'. destruct i0; [|discriminate Rd]. cbn [reads_slot] in Q'. apply negb_false_iff, Z.eqb_eq in Q'. subst r. rewrite Z.add_0_r, Z.mod_small by lia. apply slot_high, Nq.
  Qed.
  Let iq : i <> q. Proof. intros E. pose proof (proj2 (Only i ltac:(lia)) E) as S. pose proof (se_first _ _ B) as S'. cbn [b_table b_row] in S'. congruence. Qed.
  Lemma slot_entry : table_row e2 i = firstn 1 (table_row e i) ++ [Y] ++ skipn 2 (table_row e i).
  Proof.
    assert (C : forall w, clean reads_slot w = true -> eval e2 i w = eval e i w) by (intros w Q; apply clean_same; [exact Q|exact iq|lia]).
    assert (S1 : eval e2 i (cur_seg [SegStart]) = f1).
    { rewrite C by (vm_compute; reflexivity). unfold cur_seg, current_matches. rewrite (ev_seg H e n F HD) by (try nodup; lia). rewrite Z.add_0_r. replace (sg e i) with SegStart by (symmetry; exact (se_first _ _ B)). reflexivity. }
    assert (V : eval e2 i (cur MU_storage_key_rlc * cur_seg [SegStart])%q = Y).
    { change (eval e2 i (cur MU_storage_key_rlc) * eval e2 i (cur_seg [SegStart]) = Y)%fr. rewrite S1, eval_cur, slot_in by (unfold e2, set_slot; cbn [eN]; lia). ring. }
    unfold table_row, mpt_update_lookup. cbn [map firstn skipn app]. rewrite V. rewrite !C by (vm_compute; reflexivity). reflexivity.
  Qed.
  Lemma slot_entries k : 1 <= k < n -> k <> i -> table_row e2 k = table_row e k.
  Proof.
    intros Hk Ne. destruct (Z_lt_le_dec k i) as [A|A]; [apply (edited_entries e e2 n i m F ltac:(lia) Hl slot_same); lia|]. destruct (Z_le_dec (i + m) k) as [A'|A']; [apply (edited_entries e e2 n i m F ltac:(lia) Hl slot_same); lia|].
    assert (Z0 : eval e k (cur_seg [SegStart]) = f0).
    { unfold cur_seg, current_matches. rewrite (ev_seg H e n F HD) by (try nodup; lia). rewrite Z.add_0_r. pose proof (Inner k ltac:(lia)) as S. destruct (sg e k); try contradiction; reflexivity. }
    assert (Z2 : eval e2 k (cur_seg [SegStart]) = f0).
    { rewrite <- Z0. refine (clean_agree e e2 k eq_refl eq_refl (fun _ _ => eq_refl) reads_slot3 _ (cur_seg [SegStart]) ltac:(vm_compute; reflexivity)). intros c r Q. apply slot_unread. destruct c; exact Q. }
    unfold table_row. apply map_ext_in. intros w Hw. assert (P : exists u, w = QMul u (cur_seg [SegStart])) by (unfold mpt_update_lookup in Hw; cbn [In] in Hw; intuition (eexists; symmetry; eassumption)). destruct P as (u & ->). cbn [eval]. rewrite Z0, Z2. ring.
  Qed.
End Slot.

Section After.
  Variables (H : Fr -> Fr -> Fr -> Fr) (e : env) (n i m : Z).
  Hypothesis F : fixed_ok e n.
  Hypothesis SAT : sat e (circuit_of (circuit H)).
  Hypothesis B : starts_and_ends n (Block e i m).
  Hypothesis Inner : forall k, i < k < i + m -> sg e k <> SegStart.
  Hypothesis Ty : In (pt e i) slot_kinds.
  Let HD := HD0 H e n F SAT.
  Let Hi : 1 <= i. Proof. exact (se_row _ _ B). Qed.
  Let Hm : 0 < m. Proof. exact (se_rows _ _ B). Qed.
  Let Hl : i + m < n. Proof. exact (se_last _ _ B). Qed.
  Let Pc k : i <= k < i + m -> pt e k = pt e i. Proof. exact (pt_const H e n i m F SAT B Inner k). Qed.
  Lemma after_leaf3 q (d : nat) : i <= q -> sg e q = AccountLeaf3 -> q + Z.of_nat (Datatypes.S d) < i + m -> In (sg e (q + Z.of_nat (Datatypes.S d))) [StorageTrie; StorageLeaf0].
  Proof.
    intros Hq S. induction d as [|d IH]; intros L.
    - destruct (r_seg_trans H e n F HD q ltac:(lia) ltac:(lia)) as (l & T & I). rewrite (Pc q ltac:(lia)), S in T. change (Z.of_nat 1) with 1. pose proof (Inner (q + 1) ltac:(lia)) as N.
      unfold slot_kinds in Ty. cbn [In] in Ty. destruct Ty as [E|[E|[]]]; rewrite <- E in T; cbn in T; injection T as <-; cbn [In] in I |- *; intuition congruence.
    - specialize (IH ltac:(lia)). set (k := q + Z.of_nat (Datatypes.S d)) in *. destruct (r_seg_trans H e n F HD k ltac:(lia) ltac:(lia)) as (l & T & I). rewrite (Pc k ltac:(lia)) in T. replace (q + Z.of_nat (Datatypes.S (Datatypes.S d))) with (k + 1) by lia. pose proof (Inner (k + 1) ltac:(lia)) as N.
      unfold slot_kinds in Ty. cbn [In] in Ty, IH. destruct IH as [Ek|[Ek|[]]]; rewrite <- Ek in T; destruct Ty as [E|[E|[]]]; rewrite <- E in T; cbn in T; try discriminate T; injection T as <-; cbn [In] in I |- *; intuition congruence.
  Qed.
  Lemma one_leaf3 : exists q, forall k, i <= k < i + m -> (sg e k = AccountLeaf3 <-> k = q).
  Proof.
    assert (G : forall d : nat, (exists q, i <= q < i + Z.of_nat d /\ sg e q = AccountLeaf3) \/ forall k, i <= k < i + Z.of_nat d -> sg e k <> AccountLeaf3).
    { induction d as [|d [IH|IH]]; [right; intros; lia|left; destruct IH as (q & A & C); exists q; split; [lia|exact C]|].
      destruct (seg_eqb (sg e (i + Z.of_nat d)) AccountLeaf3) eqn:S; [left|right].
      - exists (i + Z.of_nat d). split; [lia|]. destruct (sg e (i + Z.of_nat d)); try discriminate S; reflexivity.
      - intros k Hk. destruct (Z.eq_dec k (i + Z.of_nat d)) as [->|]; [|apply IH; lia]. intros Q. rewrite Q in S. discriminate S. }
    destruct (G (Z.to_nat m)) as [(q & A & C)|A]; rewrite Z2Nat.id in A by lia.
    - exists q. intros k Hk. split; [|intros ->; exact C]. intros S. destruct (Z.lt_trichotomy k q) as [L|[L|L]]; [|exact L|]; exfalso.
      + pose proof (after_leaf3 k (Z.to_nat (q - k - 1)) ltac:(lia) S) as X. replace (k + Z.of_nat (Datatypes.S (Z.to_nat (q - k - 1)))) with q in X by lia. rewrite C in X. specialize (X ltac:(lia)). cbn [In] in X. intuition discriminate.
      + pose proof (after_leaf3 q (Z.to_nat (k - q - 1)) ltac:(lia) C) as X. replace (q + Z.of_nat (Datatypes.S (Z.to_nat (k - q - 1)))) with k in X by lia. rewrite S in X. specialize (X ltac:(lia)). cbn [In] in X. intuition discriminate.
    - exists (i - 1). intros k Hk. split; [intros S; destruct (A k Hk S)|lia].
  Qed.
End After.
Lemma fpow_nz x k : x <> f0 -> fpow x k <> f0.
Proof. intros N. induction k as [|k IH]; cbn [fpow]; [intros E; apply (f_equal val) in E; vm_compute in E; discriminate E|]. intros E. apply fmul_eq0 in E. destruct E; contradiction. Qed.
(* the columns of the updates decide their types *)
Lemma find_same {T} (f g : T -> bool) l : (forall x, f x = g x) -> find f l = find g l.
Proof. intros E. induction l as [|x l IH]; cbn [find]; [reflexivity|]. rewrite E, IH. reflexivity. Qed.
Lemma dec_same {T} (o : OneHot T) (v0 : T) e e2 k : (forall v, eadv e2 (oh_col o v) k = eadv e (oh_col o v) k) -> oh_dec o v0 e2 k = oh_dec o v0 e k.
Proof. intros E. unfold oh_dec. rewrite (find_same (oh_set o e2 k) (oh_set o e k)); [reflexivity|]. intros v. unfold oh_set. rewrite E. reflexivity. Qed.

Theorem slot_free_rows H e n : circuit_ok H e n -> echal e <> f0 -> n < eusable e -> (forall c, In c BR_cols -> eadv e c (n - 1) = eadv e c (n - 2) /\ eadv e c n = eadv e c 0) ->
  forall row p, exposes e row -> In p slot_kinds -> nth 2 row f0 = fz (kind_number p) ->
  forall Y, exists e', fixed_ok e' n /\ sat e' (circuit_of (circuit H)) /\ echal e' = echal e /\ (forall l r d h, poseidon_hit e' l r d h <-> poseidon_hit e l r d h) /\
  exposes e' (firstn 1 row ++ [Y] ++ skipn 2 row) /\ (forall row', exposes e row' -> row' <> row -> exposes e' row') /\
  exists i m, table_row e i = row /\ starts_and_ends n (Block e i m) /\ (forall k, i < k < i + m -> sg e k <> SegStart) /\
    (forall k, i <= k < i + m -> eadv e' MU_storage_key_rlc k = Y) /\ (forall k, sg e' k = sg e k) /\ (forall k, pt e' k = pt e k) /\ forall k, eadv e' MU_key k = eadv e MU_key k.
Proof.
  intros OK R U SP row p Ex Kp K. pose proof (co_fixed H e n OK) as F. pose proof (fo_rows e n F) as Hn. pose proof (fo_usable e n F) as Hu.
  assert (Np : p <> NonceChanged /\ p <> AccountDoesNotExist) by (unfold slot_kinds in Kp; cbn [In] in Kp; destruct Kp as [<-|[<-|[]]]; split; discriminate).
  destruct (decode_at H e n OK row p Ex K (proj1 Np) (or_introl (proj2 Np))) as (i & s & I1 & I2 & Rs & Ei & E & Ks).
  intros Y.
  destruct (block_of H e n OK i I1 I2 (rs_seg _ _ _ _ Rs)) as (m & B & Inner).
  assert (Ty : In (pt e i) slot_kinds) by (rewrite <- (rs_kind _ _ _ _ Rs), Ks; exact Kp).
  destruct (one_leaf3 H e n i m F (co_sat H e n OK) B Inner Ty) as (q & Only).
  set (y := ((Y - eadv e (sp 1) q) * finv (fpow (echal e) 16))%fr).
  assert (M15 : fz 15 <> f0) by (intros Q; apply (f_equal val) in Q; vm_compute in Q; discriminate Q).
  destruct (put_ok H e n (eadv e (iv 0) q) 15 y OK (conj U SP) R M15) as (F1 & S1 & C1 & P1 & X1 & A1 & _). set (e1 := br_put e n (eadv e (iv 0) q) 15 y) in *.
  assert (EU : forall c k, update_column c = true -> eadv e1 c k = eadv e c k) by (intros c k Hc; apply (put_other e n (eadv e (iv 0) q) 15 y); destruct c; try discriminate Hc; reflexivity).
  assert (Esg : forall k, sg e1 k = sg e k) by (intros k; apply dec_same; intros v; apply EU; reflexivity).
  assert (Ept : forall k, pt e1 k = pt e k) by (intros k; apply dec_same; intros v; apply EU; reflexivity).
  assert (B1 : starts_and_ends n (Block e1 i m)) by (destruct B as [b1 b2 b3 b4 b5]; cbn [b_table b_row b_rows] in *; constructor; cbn [b_table b_row b_rows]; rewrite ?Esg; assumption).
  assert (Inner1 : forall k, i < k < i + m -> sg e1 k <> SegStart) by (intros k Hk; rewrite Esg; apply Inner, Hk).
  assert (Ty1 : In (pt e1 i) slot_kinds) by (rewrite Ept; exact Ty).
  assert (Only1 : forall k, i <= k < i + m -> (sg e1 k = AccountLeaf3 <-> k = q)) by (intros k Hk; rewrite Esg; apply Only, Hk).
  assert (Ent1 : i <= q < i + m -> accepts e1 rlc_lookup [eadv e1 (iv 0) q; fz 15; y]) by (intros _; rewrite (EU (iv 0)) by reflexivity; exact A1).
  assert (Join1 : i <= q < i + m -> Y = (y * fpow (echal e1) 16 + eadv e1 (sp 1) q)%fr).
  { intros _. rewrite C1, (EU (sp 1)) by reflexivity. unfold y. pose proof (finv_l (fpow (echal e) 16) (fpow_nz _ 16 R)) as L.
    transitivity ((Y - eadv e (sp 1) q) * (finv (fpow (echal e) 16) * fpow (echal e) 16) + eadv e (sp 1) q)%fr; [rewrite L; ring|ring]. }
  destruct (slot_edited H e1 n i m q Y y F1 S1 B1 Inner1 Ty1 Only1 Ent1 Join1) as [F2 S2].
  pose proof (slot_entry H e1 n i m q Y y F1 S1 B1 Only1 Ent1 Join1) as T1. pose proof (slot_entries H e1 n i m q Y y F1 S1 B1 Inner1 Ent1 Join1) as T2.
  pose proof (slot_same e1 i m q Y y) as SE. set (e2 := set_slot e1 i m q Y y) in *.
  assert (Tr : forall k, 1 <= k < n -> table_row e1 k = table_row e k).
  { intros k Hk. apply entry_of_row; [exact C1|lia|change (eN e1) with (eN e); lia|]. intros c Hc. apply EU, Hc. }
  exists e2. split; [exact F2|]. split; [exact S2|]. split; [reflexivity|]. split; [intros l r d h; rewrite (hits_kept e1 e2 i m SE); apply P1|]. split; [|split].
  - assert (Hin : 1 <= i < n) by lia. exists i. split; [apply (proj2 (fix_enabled e2 n i F2)); exact Hin|]. rewrite T1. rewrite (Tr i Hin), Ei. reflexivity.
  - intros row' (k & En & Ek) N. apply (proj1 (fix_enabled e n k F)) in En. exists k. split; [apply (proj2 (fix_enabled e2 n k F2)); exact En|]. rewrite T2, Tr; [exact Ek|exact En|exact En|]. intros ->. apply N. rewrite <- Ek. exact Ei.
  - exists i, m. split; [exact Ei|]. split; [exact B|]. split; [exact Inner|]. split; [intros k Hk; apply (slot_in e1 i m q Y y k Hk)|].
    assert (Q : forall c k, update_column c = true -> reads_slot3 c 0 = false -> eadv e2 c k = eadv e c k) by (intros c k Qc Qr; unfold e2; rewrite slot_unread by exact Qr; apply EU, Qc).
    split; [intros k; apply dec_same; intros v; apply Q; reflexivity|]. split; [intros k; apply dec_same; intros v; apply Q; reflexivity|]. intros k. apply Q; reflexivity.
Qed.
Theorem slot_free H e n : circuit_ok H e n -> echal e <> f0 -> n < eusable e -> (forall c, In c BR_cols -> eadv e c (n - 1) = eadv e c (n - 2) /\ eadv e c n = eadv e c 0) ->
  forall row p, exposes e row -> In p slot_kinds -> nth 2 row f0 = fz (kind_number p) ->
  forall Y, exists e', fixed_ok e' n /\ sat e' (circuit_of (circuit H)) /\ echal e' = echal e /\ (forall l r d h, poseidon_hit e' l r d h <-> poseidon_hit e l r d h) /\
  exposes e' (firstn 1 row ++ [Y] ++ skipn 2 row) /\ forall row', exposes e row' -> row' <> row -> exposes e' row'.
Proof. intros OK R U SP row p Ex Kp K Y. destruct (slot_free_rows H e n OK R U SP row p Ex Kp K Y) as (e' & A & B & C & D & E & G & _). exists e'. auto 8. Qed.
(* where the circuit relates the slot to the key that is hashed *)
Lemma slot_gadget H : occurs (word_rlc_configure MU_key (iv 0) (iv 1) MU_storage_key_rlc (sp 0) (sp 1)) [current_matches oh_proof [StorageChanged]; cur_seg [AccountLeaf3]] (circuit H).
Proof.
  unfold circuit. do 3 apply occ_right. apply occ_left. unfold mpt_update_configure. do 9 apply occ_right. cbv zeta.
  apply (occurs_for_each _ _ ptype_variants StorageChanged); [cbn; auto 10|]. apply occ_cond. unfold configure_proof. apply occ_right. unfold configure_storage, by_segment.
  apply (occurs_for_each _ _ seg_variants AccountLeaf3); [cbn; auto 10|]. apply occ_cond. apply occ_right, occ_here.
Qed.
Lemma has_leaf3 H e n i m : fixed_ok e n -> sat e (circuit_of (circuit H)) -> starts_and_ends n (Block e i m) -> (forall k, i < k < i + m -> sg e k <> SegStart) -> pt e i = StorageChanged ->
  exists q, i <= q < i + m /\ sg e q = AccountLeaf3.
Proof.
  intros F SAT B Inner Ty. pose proof (HD0 H e n F SAT) as HD. pose proof (se_row _ _ B) as Hi. pose proof (se_rows _ _ B) as Hm. pose proof (se_last _ _ B) as Hl. pose proof (se_first _ _ B) as S0. pose proof (se_next _ _ B) as Sn. cbn [b_table b_row b_rows] in *.
  destruct (one_leaf3 H e n i m F SAT B Inner ltac:(rewrite Ty; cbn; auto)) as (q & Only). destruct (Z_le_dec i q) as [L|L]; [destruct (Z_lt_dec q (i + m)) as [L'|L']|]; [exists q; split; [lia|]; apply Only; [lia|reflexivity]| |]; exfalso.
  all: assert (No : forall k, i <= k < i + m -> sg e k <> AccountLeaf3) by (intros k Hk Q; apply (Only k Hk) in Q; lia).
  all: assert (G : forall d : nat, Z.of_nat d < m -> In (sg e (i + Z.of_nat d)) [SegStart; AccountTrie; AccountLeaf0; AccountLeaf1; AccountLeaf2]).
  1, 3: induction d as [|d IH]; intros Hd; [replace (i + Z.of_nat 0) with i by lia; left; symmetry; exact S0|];
    specialize (IH ltac:(lia)); destruct (r_seg_trans H e n F HD (i + Z.of_nat d) ltac:(lia) ltac:(lia)) as (l & T & I); rewrite (pt_const H e n i m F SAT B Inner (i + Z.of_nat d)) in T by lia; rewrite Ty in T;
    replace (i + Z.of_nat d + 1) with (i + Z.of_nat (Datatypes.S d)) in I by lia; pose proof (No (i + Z.of_nat (Datatypes.S d)) ltac:(lia)) as N;
    cbn [In] in IH; repeat (destruct IH as [Q|IH]; [rewrite <- Q in T; cbn in T; injection T as <-; cbn [In] in I |- *; intuition congruence|]); destruct IH.
  all: specialize (G (Z.to_nat (m - 1)) ltac:(lia)); replace (i + Z.of_nat (Z.to_nat (m - 1))) with (i + m - 1) in G by lia.
  all: destruct (r_seg_trans H e n F HD (i + m - 1) ltac:(lia) ltac:(lia)) as (l & T & I); rewrite (pt_const H e n i m F SAT B Inner (i + m - 1)) in T by lia; rewrite Ty in T; replace (i + m - 1 + 1) with (i + m) in I by lia; rewrite Sn in I.
  all: cbn [In] in G; repeat (destruct G as [Q|G]; [rewrite <- Q in T; cbn in T; injection T as <-; cbn [In] in I; intuition discriminate|]); destruct G.
Qed.
(* the value that the gadget gives to the word that is hashed is arbitrary *)
Theorem word_value_free H e n : circuit_ok H e n -> echal e <> f0 -> n < eusable e -> (forall c, In c BR_cols -> eadv e c (n - 1) = eadv e c (n - 2) /\ eadv e c n = eadv e c 0) ->
  forall row, exposes e row -> nth 2 row f0 = fz (kind_number StorageChanged) ->
  forall Y, exists e' i, fixed_ok e' n /\ sat e' (circuit_of (circuit H)) /\ echal e' = echal e /\ (forall l r d h, poseidon_hit e' l r d h <-> poseidon_hit e l r d h) /\ enabled e' i /\
  GadgetMain.all_one e' i [current_matches oh_proof [StorageChanged]; cur_seg [AccountLeaf3]] /\ eadv e' MU_storage_key_rlc i = Y.
Proof.
  intros OK R U SP row Ex K Y. destruct (slot_free_rows H e n OK R U SP row StorageChanged Ex ltac:(cbn; auto) K Y) as (e' & A & B & C & D & _ & _ & i & m & Ei & Bk & Inner & V & Es & Et & _).
  pose proof (co_fixed H e n OK) as F. pose proof (co_sat H e n OK) as SAT.
  assert (Ty : pt e i = StorageChanged).
  { destruct (decode_at H e n OK row StorageChanged Ex K ltac:(discriminate) ltac:(left; discriminate)) as (i' & s & I1 & I2 & Rs & Ei' & E & Ks).
    pose proof (se_row _ _ Bk) as Hi. pose proof (se_rows _ _ Bk) as Hm. pose proof (se_last _ _ Bk) as Hl. cbn [b_table b_row b_rows] in *.
    destruct (UpdateProps.table_rows H e n OK i ltac:(apply (proj2 (fix_enabled e n i F)); lia)) as [X|[(_ & X)|(Lt & s' & R' & X)]].
    - exfalso. rewrite Ei in X. rewrite X in K. pose proof (kind_inj NonceChanged StorageChanged K) as Q. discriminate Q.
    - exfalso. rewrite Ei in X. rewrite X in K. pose proof (kind_inj AccountDoesNotExist StorageChanged K) as Q. discriminate Q.
    - rewrite <- (rs_kind _ _ _ _ R'). rewrite Ei in X. rewrite X in K. apply kind_inj. exact K. }
  destruct (has_leaf3 H e n i m F SAT Bk Inner Ty) as (q & Hq & Sq). pose proof (se_row _ _ Bk) as Hi. pose proof (se_last _ _ Bk) as Hl. cbn [b_table b_row b_rows] in *. pose proof (HD0 H e' n A B) as HD.
  exists e', q. split; [exact A|]. split; [exact B|]. split; [exact C|]. split; [exact D|]. split; [apply (proj2 (fix_enabled e' n q A)); lia|]. split; [|exact (V q Hq)].
  repeat constructor.
  - unfold current_matches. rewrite (ev_pt H e' n A HD) by (try nodup; lia). rewrite Z.add_0_r, Et, (pt_const H e n i m F SAT Bk Inner q Hq), Ty. reflexivity.
  - unfold cur_seg, current_matches. rewrite (ev_seg H e' n A HD) by (try nodup; lia). rewrite Z.add_0_r, Es, Sq. reflexivity.
Qed.
