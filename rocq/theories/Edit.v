(* Changing cells of a satisfied table: which constraints read the changed cells, and when the table stays satisfied. *)
From Coq Require Import ZArith String List Bool Lia.
From Verif Require Import Pocklington Fr Query Builder BuilderProofs Gadgets MptUpdate Bytes GadgetProofs Fixed UpdateRows UpdateSound Assign MptAssign GadgetMain CircuitOk UpdateProps Splice.
Import ListNotations.
Open Scope Z_scope.

(** * What is known of a row: its types and the segment of the next row *)
Record kind_of_row := Kind { k_proof : MPTProofType; k_seg : SegmentType; k_path : PathType; k_next : option SegmentType }.
Definition known (kr : kind_of_row) (c : acol) (r : Z) : option Z :=
  match c, r with
  | MU_seg SegStart, _ | MU_path PathStart, _ | MU_proof NonceChanged, _ => None
  | MU_seg v, 0 => Some (Z.b2z (seg_eqb (k_seg kr) v))
  | MU_path v, 0 => Some (Z.b2z (path_eqb (k_path kr) v))
  | MU_proof v, 0 => Some (Z.b2z (ptype_eqb (k_proof kr) v))
  | MU_seg v, 1 => match k_next kr with Some s => Some (Z.b2z (seg_eqb s v)) | None => None end
  | _, _ => None
  end.
Fixpoint peval (kr : kind_of_row) (q : query) : option Z :=
  match q with
  | QConst c => Some (val c)
  | QAdvice c r => known kr c r
  | QFixed _ _ | QChallenge => None
  | QNeg a => match peval kr a with Some x => Some (- x) | None => None end
  | QAdd a b => match peval kr a, peval kr b with Some x, Some y => Some (x + y) | _, _ => None end
  | QMul a b =>
      match peval kr a, peval kr b with
      | Some 0, _ | _, Some 0 => Some 0
      | Some x, Some y => Some (x * y)
      | _, _ => None
      end
  end.
Definition dead (kr : kind_of_row) (q : query) : bool := match peval kr q with Some x => x mod modulus =? 0 | None => false end.

(** * Which commands read a changed cell *)
Definition touched := acol -> Z -> bool.
Fixpoint clean (tch : touched) (q : query) : bool :=
  match q with QAdvice c r => negb (tch c r) | QNeg a => clean tch a | QAdd a b | QMul a b => clean tch a && clean tch b | _ => true end.
(* the commands that do, with the conditions they are under; those of conditions that are 0 are left out *)
Fixpoint todo (tch : touched) (kr : kind_of_row) (cs : list query) (c : cmd) : list (list query * cmd) :=
  match c with
  | Skip => []
  | Seq a b => todo tch kr cs a ++ todo tch kr cs b
  | AssertZero _ q => if clean tch q then [] else [(cs, c)]
  | Condition b body => if clean tch b then if dead kr b then [] else todo tch kr (b :: cs) body else [(cs, c)]
  | AddLookup _ l _ => if forallb (clean tch) l then [] else [(cs, c)]
  | PoseidonLookup _ l r d h => if clean tch l && clean tch r && clean tch d && clean tch h then [] else [(cs, c)]
  end.

Section Row.
  Variables (e e2 : env) (k : Z).
  Hypothesis EN : eN e2 = eN e.
  Hypothesis EC : echal e2 = echal e.
  Hypothesis EF : forall c i, efix e2 c i = efix e c i.
  Variable tch : touched.
  Hypothesis Tch : forall c r, tch c r = false -> eadv e2 c ((k + r) mod eN e) = eadv e c ((k + r) mod eN e).
  Lemma clean_agree q : clean tch q = true -> eval e2 k q = eval e k q.
  Proof.
    induction q as [c|c r|c r| |a IHa|a IHa b IHb|a IHa b IHb]; cbn [clean eval]; intros E; rewrite ?EN; auto.
    - apply Tch. destruct (tch c r); [discriminate E|reflexivity].
    - rewrite IHa by exact E. reflexivity.
    - apply andb_true_iff in E. destruct E. rewrite IHa, IHb by assumption. reflexivity.
    - apply andb_true_iff in E. destruct E. rewrite IHa, IHb by assumption. reflexivity.
  Qed.
  Variable kr : kind_of_row.
  Hypothesis Kn : forall c r x, known kr c r = Some x -> eadv e c ((k + r) mod eN e) = fz x.
  Lemma peval_eval q : forall x, peval kr q = Some x -> eval e k q = fz x.
  Proof.
    induction q as [c|c r|c r| |a IHa|a IHa b IHb|a IHa b IHb]; cbn [peval eval]; intros x E; try discriminate E.
    - injection E as <-. symmetry. apply fz_val.
    - exact (Kn c r x E).
    - destruct (peval kr a) as [y|]; [|discriminate E]. injection E as <-. rewrite (IHa y eq_refl). symmetry. apply fz_opp.
    - destruct (peval kr a) as [y|]; [|discriminate E]. destruct (peval kr b) as [z|]; [|discriminate E]. injection E as <-. rewrite (IHa y eq_refl), (IHb z eq_refl). symmetry. apply fz_add.
    - assert (M : forall y z, peval kr a = Some y -> peval kr b = Some z -> (eval e k a * eval e k b)%fr = fz (y * z)).
      { intros y z Ea Eb. rewrite (IHa y Ea), (IHb z Eb). symmetry. apply fz_mul. }
      assert (Z1 : peval kr a = Some 0 -> (eval e k a * eval e k b)%fr = f0) by (intros Ea; rewrite (IHa 0 Ea); change (fz 0) with f0; ring).
      assert (Z2 : peval kr b = Some 0 -> (eval e k a * eval e k b)%fr = f0) by (intros Ea; rewrite (IHb 0 Ea); change (fz 0) with f0; ring).
      destruct (peval kr a) as [[|y|y]|]; destruct (peval kr b) as [[|z|z]|]; try discriminate E; injection E as <-; first [exact (Z1 eq_refl)|exact (Z2 eq_refl)|exact (M _ _ eq_refl eq_refl)].
  Qed.
  Lemma dead_eval q : dead kr q = true -> eval e k q = f0.
  Proof.
    unfold dead. destruct (peval kr q) as [x|] eqn:E; [|discriminate]. intros D. apply Z.eqb_eq in D. rewrite (peval_eval q x E). change f0 with (fz 0). apply fz_eq_mod. rewrite D. reflexivity.
  Qed.
  (* a command that reads a changed cell is satisfied all the same *)
  Definition zero_in (cs : list query) : Prop := Exists (fun q => eval e k q = f0) cs.
  Definition all_one (cs : list query) : Prop := Forall (fun q => eval e k q = f1) cs.
  Definition fine (a : list query * cmd) : Prop :=
    zero_in (fst a) \/
    match snd a with
    | AssertZero _ q => eval e2 k q = f0
    | AddLookup _ l r => all_one (fst a) /\ (k < eusable e -> eval e k (fcur SEL) = f1 /\ lookup_hit e2 k l r)
    | PoseidonLookup _ l r d h => all_one (fst a) /\ (k < eusable e -> poseidon_hit e2 (eval e2 k l) (eval e2 k r) (eval e2 k d) (eval e2 k h))
    | _ => False
    end.
  Hypothesis EU : eusable e2 = eusable e.
  Hypothesis W : wf_env e.
  Hypothesis Hk : 0 <= k < eN e.
  Let W2 : wf_env e2. Proof. unfold wf_env in *. lia. Qed.
  Hypothesis Tab : forall t columns q, 0 <= t < eusable e -> In columns table_columns -> In q columns -> eval e2 t q = eval e t q.
  Let Sel : agree e k e2 k (fcur SEL). Proof. unfold agree. rewrite !eval_fcur by lia. apply EF. Qed.
  Let agree_cs cs : Forall (fun q => eval e2 k q = eval e k q) cs -> eval e2 k (conjunction cs) = eval e k (conjunction cs).
  Proof. intros A. rewrite !eval_conjunction. f_equal. apply map_ext_in. intros q Hq. rewrite Forall_forall in A. exact (A q Hq). Qed.
  Definition gate_fine (g : string * query) : Prop := eval e2 k (snd g) = f0 \/ eval e2 k (snd g) = eval e k (snd g).
  Definition lookup_fine (l : string * list (query * query)) : Prop :=
    (k < eusable e -> lookup_at e2 k (snd l)) \/ Forall (fun p => eval e2 k (fst p) = eval e k (fst p)) (snd l).
  Let conj_rev cs : eval e k (conjunction (rev cs)) = prodF (map (eval e k) cs).
  Proof. rewrite eval_conjunction, map_rev. induction (map (eval e k) cs) as [|x l IH]; cbn [rev prodF]; [reflexivity|]. rewrite prodF_app, IH. cbn [prodF]. ring. Qed.
  Let conj_zero cs : zero_in cs -> eval e k (conjunction (rev cs)) = f0.
  Proof. intros Z. rewrite conj_rev. apply prodF_zero. apply Exists_exists in Z. destruct Z as (q & Hq & E). apply in_map_iff. exists q. auto. Qed.
  Let conj_one cs : all_one cs -> eval e k (conjunction (rev cs)) = f1.
  Proof. intros Z. rewrite conj_rev. apply prodF_ones. apply Forall_map. eapply Forall_impl; [|exact Z]. cbn. auto. Qed.
  Let zeros c cs : eval e2 k (conjunction cs) = f0 -> eval e k (conjunction cs) = f0 -> Forall lookup_fine (lkps c (fcur SEL :: cs)).
  Proof.
    revert cs. induction c as [|x IHx y IHy|nm q|q body IH|nm l r|nm l r d h]; intros cs A B; cbn [lkps]; auto.
    - apply Forall_app. split; auto.
    - apply (IH (cs ++ [q])); rewrite conj_snoc, ?A, ?B; ring.
    - constructor; [|constructor]. right. cbn [snd]. apply Forall_app. split.
      + apply Forall_forall. intros [a b] Hp. apply in_combine_l in Hp. apply in_map_iff in Hp. destruct Hp as (q & <- & Hq). cbn [fst eval]. rewrite !conj_cons, A, B. ring.
      + constructor; [|constructor]. cbn [fst]. rewrite !conj_cons, A, B. ring.
    - constructor; [|constructor]. right. cbn [snd tl]. apply Forall_forall. intros [a b] Hp. apply in_combine_l in Hp. apply in_map_iff in Hp. destruct Hp as (q & <- & Hq). cbn [fst eval]. rewrite A, B. ring.
  Qed.
  Let conj_zero2 cs : Forall (fun q => eval e2 k q = eval e k q) cs -> zero_in cs -> eval e2 k (conjunction (rev cs)) = f0.
  Proof. intros A Z. rewrite agree_cs by (apply Forall_rev, A). apply conj_zero, Z. Qed.
  (* stack in reverse order *)
  Lemma todo_fine c : forall cs, Forall (fun q => eval e2 k q = eval e k q) cs -> Forall fine (todo tch kr cs c) ->
    Forall gate_fine (gates c (fcur SEL :: rev cs)) /\ Forall lookup_fine (lkps c (fcur SEL :: rev cs)).
  Proof.
    induction c as [|x IHx y IHy|nm q|q body IH|nm l r|nm l r d h]; intros cs A T; cbn [gates lkps todo] in *.
    - split; constructor.
    - apply Forall_app in T. destruct T as [T1 T2]. destruct (IHx cs A T1). destruct (IHy cs A T2). split; apply Forall_app; auto.
    - split; [|constructor]. constructor; [|constructor]. unfold gate_fine. cbn [snd]. unfold bcondition. cbn [eval]. rewrite !conj_cons, Sel, (agree_cs (rev cs)) by (apply Forall_rev, A).
      destruct (clean tch q) eqn:C. { right. rewrite (clean_agree q C). reflexivity. } apply Forall_inv in T. destruct T as [T|T]; cbn [fst snd] in T.
      + left. rewrite (conj_zero cs T). ring.
      + left. rewrite T. ring.
    - destruct (clean tch q) eqn:C.
      + destruct (dead kr q) eqn:D.
        * assert (E1 : eval e k (conjunction (rev cs ++ [q])) = f0) by (rewrite conj_snoc, (dead_eval q D); ring).
          assert (E2 : eval e2 k (conjunction (rev cs ++ [q])) = f0) by (rewrite conj_snoc, (clean_agree q C), (dead_eval q D); ring).
          split; [|apply (zeros body (rev cs ++ [q]) E2 E1)]. apply (Forall_impl gate_fine (P := fun g => eval e2 k (snd g) = f0)); [intros g Hg; left; exact Hg|].
          apply inactive_gates. cbn [app]. rewrite conj_cons, E2. ring.
        * apply (IH (q :: cs)); [constructor; [apply clean_agree, C|exact A]|exact T].
      + apply Forall_inv in T. destruct T as [T|[]]. cbn [fst snd] in T.
        assert (E1 : eval e k (conjunction (rev cs ++ [q])) = f0) by (rewrite conj_snoc, (conj_zero cs T); ring).
        assert (E2 : eval e2 k (conjunction (rev cs ++ [q])) = f0) by (rewrite conj_snoc, (conj_zero2 cs A T); ring).
        split; [|apply (zeros body (rev cs ++ [q]) E2 E1)]. apply (Forall_impl gate_fine (P := fun g => eval e2 k (snd g) = f0)); [intros g Hg; left; exact Hg|].
        apply inactive_gates. cbn [app]. rewrite conj_cons, E2. ring.
    - split; [constructor|]. destruct (forallb (clean tch) l) eqn:C.
      + constructor; [|constructor]. right. cbn [snd]. apply Forall_app. split.
        * apply Forall_forall. intros [a b] Hp. apply in_combine_l in Hp. apply in_map_iff in Hp. destruct Hp as (q & <- & Hq). rewrite forallb_forall in C. cbn [fst eval]. rewrite !conj_cons, Sel, (agree_cs (rev cs)) by (apply Forall_rev, A). rewrite (clean_agree q (C q Hq)). reflexivity.
        * constructor; [|constructor]. cbn [fst]. rewrite !conj_cons, Sel, (agree_cs (rev cs)) by (apply Forall_rev, A). reflexivity.
      + apply Forall_inv in T. destruct T as [T|[T1 T2]]; cbn [fst snd] in *.
        * exact (zeros (AddLookup nm l r) (rev cs) (conj_zero2 cs A T) (conj_zero cs T)).
        * constructor; [|constructor]. left. intros Hu. destruct (T2 Hu) as (S1 & t & Ht & St & M). exists t. split; [exact Ht|]. cbn [snd].
          assert (O : eval e2 k (conjunction (fcur SEL :: rev cs)) = f1) by (rewrite conj_cons, Sel, S1, (agree_cs (rev cs)) by (apply Forall_rev, A); rewrite (conj_one cs T1); ring).
          apply Forall_app. split; [apply combine_one; assumption|]. constructor; [|constructor]. cbn [fst snd hd]. rewrite O, eval_fcur by (unfold wf_env in W2; lia). auto.
    - split; [constructor|]. destruct (clean tch l && clean tch r && clean tch d && clean tch h) eqn:C.
      + rewrite !andb_true_iff in C. destruct C as [[[C1 C2] C3] C4]. constructor; [|constructor]. right. cbn [snd tl]. apply Forall_forall. intros [a b] Hp. apply in_combine_l in Hp. apply in_map_iff in Hp. destruct Hp as (q & <- & Hq). cbn [fst eval]. rewrite (agree_cs (rev cs)) by (apply Forall_rev, A).
        cbn [In] in Hq. destruct Hq as [<-|[<-|[<-|[<-|[<-|[<-|[<-|[]]]]]]]]; rewrite ?(clean_agree _ C1), ?(clean_agree _ C2), ?(clean_agree _ C3), ?(clean_agree _ C4); reflexivity.
      + apply Forall_inv in T. destruct T as [T|[T1 T2]]; cbn [fst snd] in *.
        * exact (zeros (PoseidonLookup nm l r d h) (rev cs) (conj_zero2 cs A T) (conj_zero cs T)).
        * constructor; [|constructor]. left. intros Hu. destruct (T2 Hu) as (t & Ht & A1 & A2 & A3 & A4 & A5 & A6 & A7). exists t. split; [exact Ht|]. cbn [snd tl].
          assert (HtN : 0 <= t < eN e2) by (unfold wf_env in W2; lia).
          apply combine_one; [rewrite (agree_cs (rev cs)) by (apply Forall_rev, A); apply (conj_one cs T1)|]. unfold tuple_match, poseidon_table. repeat constructor; rewrite ?eval_fcur, ?eval_cur by exact HtN; auto.
  Qed.
End Row.

(** * Editing a whole table *)
Section Whole.
  Variables (H : Fr -> Fr -> Fr -> Fr) (e e2 : env) (n j m : Z).
  Hypothesis F : fixed_ok e n.
  Hypothesis SAT : sat e (circuit_of (circuit H)).
  Hypothesis J : 1 <= j.
  Hypothesis M0 : 0 <= m.
  Hypothesis JM : j + m < n.
  Hypothesis SE : same_except e e2 j m.
  Let HD := HD0 H e n F SAT.
  Let Hn := fo_rows e n F.
  Let Hu := fo_usable e n F.
  (* the types of the rows stay the same *)
  Hypothesis TY : forall c i, type_column c = true -> eadv e2 c i = eadv e c i.
  (* the rows whose constraints read a changed cell *)
  Hypothesis R : forall k, j <= k <= j + m -> Forall (gate_fine e e2 k) (gates (mpt_update_configure H) [fcur SEL]) /\ Forall (lookup_fine e e2 k) (lkps (mpt_update_configure H) [fcur SEL]).
  Let UPD : sat e (circuit_of (mpt_update_configure H)).
  Proof. pose proof SAT as X. unfold circuit in X. rewrite !sat_seq in X. tauto. Qed.
  Lemma all_fine k : 0 <= k < eN e -> Forall (gate_fine e e2 k) (gates (mpt_update_configure H) [fcur SEL]) /\ Forall (lookup_fine e e2 k) (lkps (mpt_update_configure H) [fcur SEL]).
  Proof.
    intros Hk. pose proof SE as (EN & EU & EC & EF & EA). assert (D : j <= k <= j + m \/ (k < j \/ j + m < k)) by lia. destruct D as [D|D]; [exact (R k D)|].
    assert (Sel : agree e k e2 k (fcur SEL)) by (unfold agree; rewrite !eval_fcur by lia; apply EF).
    assert (Cur : forall c, update_column c = true -> eadv e2 c ((k + 0) mod eN e2) = eadv e c ((k + 0) mod eN e)).
    { intros c _. rewrite EN, Z.add_0_r, Z.mod_small by lia. apply EA. lia. }
    assert (Nxt : forall c, type_column c = true -> eadv e2 c ((k + 1) mod eN e2) = eadv e c ((k + 1) mod eN e)).
    { intros c Hc. rewrite EN. apply TY, Hc. }
    assert (Prv : true = true -> forall c, update_column c = true -> eadv e2 c ((k + -1) mod eN e2) = eadv e c ((k + -1) mod eN e)).
    { intros _ c _. rewrite EN. destruct (Z.eq_dec k 0) as [E0|E0].
      - replace (k + -1) with (-1) by lia. replace (-1 mod eN e) with (eN e - 1); [apply EA; lia|]. rewrite <- (Z.mod_small (eN e - 1) (eN e)) by lia. replace (eN e - 1) with (-1 + 1 * eN e) by lia. rewrite Z.mod_add by lia. reflexivity.
      - rewrite Z.mod_small by lia. apply EA. lia. }
    destruct (moves_flat e k e2 k Sel (mpt_update_configure H) [] eq_refl (or_intror (okcmd_moves e k e2 k Sel true EC Cur Nxt Prv _ (reads_update H)))) as [M1 M2].
    split; [eapply Forall_impl; [|exact M1]|eapply Forall_impl; [|exact M2]]; intros x Hx; right; exact Hx.
  Qed.
  Lemma edited_update : sat e2 (circuit_of (mpt_update_configure H)).
  Proof.
    pose proof SE as (EN & EU & EC & EF & EA). pose proof UPD as U. unfold sat, circuit_of in *. destruct (run_spec (mpt_update_configure H) (builder_new SEL)) as (E1 & E2 & _). rewrite E1, E2 in *. cbn [builder_new constraints lookups conditions app] in *. destruct U as [U1 U2]. rewrite Forall_forall in U1, U2.
    split; apply Forall_forall; intros x Hx k Hk.
    - rewrite EN in Hk. destruct (all_fine k Hk) as [A _]. rewrite Forall_forall in A. destruct (A x Hx) as [A1|A1]; [exact A1|rewrite A1; exact (U1 x Hx k Hk)].
    - rewrite EU in Hk. destruct (all_fine k ltac:(lia)) as [_ A]. rewrite Forall_forall in A. destruct (A x Hx) as [A1|A1]; [apply A1; lia|].
      destruct (U2 x Hx k Hk) as (t & Ht & Mt). destruct (lkps_columns H x Hx) as (columns & Hc & In_c). destruct (tables_kept e e2 j m SE columns t Hc Ht) as (t' & Ht' & E). exists t'. split; [exact Ht'|].
      rewrite Forall_forall in *. intros p Hp. rewrite (A1 p Hp), (Mt p Hp). symmetry. exact (map_eq_at _ _ _ _ _ _ E (In_c p Hp)).
  Qed.
  Lemma edited_final : sat e2 (circuit_of final_row_configure).
  Proof.
    pose proof SE as (EN & EU & EC & EF & EA).
    assert (X : sat e (circuit_of final_row_configure)) by (pose proof SAT as X; unfold circuit in X; rewrite !sat_seq in X; tauto).
    unfold sat, circuit_of in *. destruct (run_spec final_row_configure (builder_new SEL)) as (E1 & E2 & _). rewrite E1, E2 in *. cbn [builder_new constraints lookups conditions app] in *. destruct X as [X _]. split.
    - assert (L : forallb (fun g => local (snd g)) (gates final_row_configure [fcur SEL]) = true) by (vm_compute; reflexivity). rewrite forallb_forall in L. apply Forall_forall. intros g Hg k Hk. rewrite EN in Hk.
      destruct (Z_lt_dec k j) as [A|A]; [|destruct (Z_le_dec (j + m) k) as [B|B]].
      + rewrite Forall_forall in X. rewrite (eval_local e e2 k _ EN EC ltac:(lia) (fun c => EA c k ltac:(lia)) (fun c => EF c k) (L g Hg)). exact (X g Hg k Hk).
      + rewrite Forall_forall in X. rewrite (eval_local e e2 k _ EN EC ltac:(lia) (fun c => EA c k ltac:(lia)) (fun c => EF c k) (L g Hg)). exact (X g Hg k Hk).
      + assert (G : Forall (fun g => eval e2 k (snd g) = f0) (gates final_row_configure [fcur SEL])).
        { unfold final_row_configure. cbn [gates app]. apply inactive_gates. apply zero_conj. right. left. rewrite eval_fcur by lia. rewrite EF, (fo_cells e n F) by (try discriminate; lia). cbn [fixed_cell]. destruct (Z.eqb_spec k (n - 1)); [lia|reflexivity]. }
        rewrite Forall_forall in G. exact (G g Hg).
    - assert (L : lkps final_row_configure [fcur SEL] = []) by (vm_compute; reflexivity). rewrite L. constructor.
  Qed.
  Theorem edited : fixed_ok e2 n /\ sat e2 (circuit_of (circuit H)).
  Proof.
    pose proof SE as (EN & EU & EC & EF & EA). split.
    - destruct F as [F1 F2 F3 F4]. split; rewrite ?EN, ?EU; auto. intros c i Hc Hi. rewrite EF. apply F1; assumption.
    - pose proof SAT as X. unfold circuit in X |- *. rewrite !sat_seq in X |- *. destruct X as (X1 & X2 & X3 & _ & _).
      split; [apply (others_sat e e2 j _ SE); [vm_compute; reflexivity|exact X1]|]. split; [apply (others_sat e e2 j _ SE); [vm_compute; reflexivity|exact X2]|]. split; [apply (others_sat e e2 j _ SE); [vm_compute; reflexivity|exact X3]|].
      split; [exact edited_update|exact edited_final].
  Qed.
  (* the entries of the rows that are not changed *)
  Lemma edited_entries k : 0 <= k < eN e -> k < j \/ j + m <= k -> table_row e2 k = table_row e k.
  Proof. intros Hk O. pose proof SE as (EN & EU & EC & EF & EA). apply entry_of_row; [exact EC|exact Hk|lia|]. intros c _. apply EA. lia. Qed.
  (* the types of an enabled row *)
  Lemma kind_known k nxt : 1 <= k < n -> (forall s, nxt = Some s -> k + 1 < n /\ sg e (k + 1) = s) ->
    forall c r x, known (Kind (pt e k) (sg e k) (pa e k) nxt) c r = Some x -> eadv e c ((k + r) mod eN e) = fz x.
  Proof.
    intros Hk Nx c r x. assert (Fb : forall b, fb b = fz (Z.b2z b)) by (intros [|]; reflexivity).
    assert (M0' : (k + 0) mod eN e = k) by (rewrite Z.add_0_r; apply Z.mod_small; lia).
    assert (A : forall v, In v (oh_nonfirst oh_segment) -> eadv e (MU_seg v) k = fz (Z.b2z (seg_eqb (sg e k) v))).
    { intros v Hv. rewrite <- Fb. exact (oh_dec_set oh_segment seg_wf SegStart e k v (row_sg H e n F HD k Hk) Hv). }
    assert (B : forall v, In v (oh_nonfirst oh_path) -> eadv e (MU_path v) k = fz (Z.b2z (path_eqb (pa e k) v))).
    { intros v Hv. rewrite <- Fb. exact (oh_dec_set oh_path path_wf PathStart e k v (row_pa H e n F HD k Hk) Hv). }
    assert (C : forall v, In v (oh_nonfirst oh_proof) -> eadv e (MU_proof v) k = fz (Z.b2z (ptype_eqb (pt e k) v))).
    { intros v Hv. rewrite <- Fb. exact (oh_dec_set oh_proof ptype_wf NonceChanged e k v (row_pt H e n F HD k Hk) Hv). }
    assert (D : forall s v, nxt = Some s -> In v (oh_nonfirst oh_segment) -> eadv e (MU_seg v) ((k + 1) mod eN e) = fz (Z.b2z (seg_eqb s v))).
    { intros s v Es Hv. destruct (Nx s Es) as [Hl Hs]. rewrite Z.mod_small by lia. rewrite <- Fb, <- Hs. exact (oh_dec_set oh_segment seg_wf SegStart e (k + 1) v (row_sg H e n F HD (k + 1) ltac:(lia)) Hv). }
    clear - A B C D M0'. intros E. destruct c as [ | | | | | | | | | | | | | | | | | | | | | | | | | | | | | | | |v|v|v| | | | | |]; try discriminate E.
    - destruct r as [|r|r]; [|destruct v; discriminate E..]. rewrite M0', C by (destruct v; try discriminate E; cbn; tauto). destruct v; try discriminate E; injection E as <-; reflexivity.
    - destruct r as [|r|r]; [| |destruct v; discriminate E].
      + rewrite M0', A by (destruct v; try discriminate E; cbn; tauto). destruct v; try discriminate E; injection E as <-; reflexivity.
      + destruct r; try (destruct v; discriminate E). destruct nxt as [s|]; [|destruct v; discriminate E]. rewrite (D s v eq_refl) by (destruct v; try discriminate E; cbn; tauto). destruct v; try discriminate E; injection E as <-; reflexivity.
    - destruct r as [|r|r]; [|destruct v; discriminate E..]. rewrite M0', B by (destruct v; try discriminate E; cbn; tauto). destruct v; try discriminate E; injection E as <-; reflexivity.
  Qed.
End Whole.
