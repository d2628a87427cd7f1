(* Meaning of builder programs: what a satisfied circuit enforces on a row ([den]) and what has to be
   checked to satisfy it ([okc], [okpos], [dummies]). *)
From Coq Require Import ZArith String List Lia.
From Verif Require Import Fr Query Builder.
Import ListNotations.
Open Scope Z_scope.

(* eval simplification *)
Lemma eval_sub e i a b : eval e i (a - b)%q = (eval e i a - eval e i b)%fr.
Proof. cbn. ring. Qed.
Lemma eval_qz e i z : eval e i (qz z) = fz z. Proof. reflexivity. Qed.
Lemma eval_bnot e i a : eval e i (bnot a) = (1 - eval e i a)%fr.
Proof. unfold bnot. rewrite eval_sub. reflexivity. Qed.
Lemma eval_band e i a b : eval e i (band a b) = (eval e i a * eval e i b)%fr.
Proof. reflexivity. Qed.
Lemma eval_bor e i a b : eval e i (bor a b)
  = (1 - (1 - eval e i a) * (1 - eval e i b))%fr.
Proof. unfold bor. rewrite eval_bnot, eval_band, !eval_bnot. reflexivity. Qed.
Lemma eval_bselect e i b t f : eval e i (bselect b t f)
  = (eval e i t * eval e i b + eval e i f * (1 - eval e i b))%fr.
Proof. unfold bselect. cbn [eval]. rewrite eval_bnot. reflexivity. Qed.

Fixpoint prodF (l : list Fr) : Fr := match l with [] => f1 | x :: r => (x * prodF r)%fr end.
Lemma eval_conjunction e i cs : eval e i (conjunction cs) = prodF (map (eval e i) cs).
Proof.
  unfold conjunction.
  assert (G : forall cs a, eval e i (fold_left band cs a) = (eval e i a * prodF (map (eval e i) cs))%fr).
  { induction cs0 as [|c cs0 IH]; intros a; cbn [fold_left map prodF]; [ring|].
    rewrite IH, eval_band. ring. }
  rewrite G. change (eval e i bone) with f1. ring.
Qed.
Lemma prodF_ones l : Forall (eq f1) l -> prodF l = f1.
Proof. induction 1; cbn; [reflexivity|]. subst. rewrite IHForall. ring. Qed.
Lemma prodF_zero l : In f0 l -> prodF l = f0.
Proof. induction l as [|x l IH]; cbn; [tauto|]. intros [->|H]; [ring|]. rewrite IH by exact H. ring. Qed.
Lemma prodF_app a b : prodF (a ++ b) = (prodF a * prodF b)%fr.
Proof. induction a; cbn; [ring|rewrite IHa; ring]. Qed.

(* what a command adds, given the stack of conditions *)
Fixpoint gates (c : cmd) (cs : list query) : list (string * query) :=
  match c with
  | Seq a b => gates a cs ++ gates b cs
  | AssertZero n q => [(n, bcondition (conjunction cs) q)]
  | Condition q body => gates body (cs ++ [q])
  | _ => []
  end.
Fixpoint lkps (c : cmd) (cs : list query) : list (string * list (query * query)) :=
  match c with
  | Seq a b => lkps a cs ++ lkps b cs
  | Condition q body => lkps body (cs ++ [q])
  | AddLookup n l r => [(n, combine (map (fun q => (q * conjunction cs)%q) l) r
                            ++ [(conjunction cs, hd bone cs)])]
  | PoseidonLookup n l r d h =>
     [(n, combine (map (fun q => (q * conjunction (tl cs))%q)
                             [qone; h; l; r; qzero; d; qone]) poseidon_table)]
  | _ => []
  end.

Lemma run_spec c : forall b,
  constraints (run c b) = constraints b ++ gates c (conditions b) /\
  lookups (run c b) = lookups b ++ lkps c (conditions b) /\
  conditions (run c b) = conditions b.
Proof.
  induction c as [|x IHx y IHy|n q|q body IH|n l r|n l r d h]; intros b; cbn [run gates lkps].
  - rewrite !app_nil_r. auto.
  - destruct (IHx b) as (A1 & A2 & A3). destruct (IHy (run x b)) as (B1 & B2 & B3).
    rewrite B1, B2, B3, A1, A2, A3, !app_assoc. auto.
  - cbn. rewrite app_nil_r. auto.
  - destruct (IH (push_condition q b)) as (A1 & A2 & A3). cbn [pop_condition constraints lookups conditions].
    rewrite A1, A2, A3. cbn [push_condition constraints lookups conditions].
    rewrite removelast_last. auto.
  - cbn. rewrite app_nil_r. auto.
  - cbn. rewrite app_nil_r. auto.
Qed.

(* condition(..) restores the stack, so `build`'s assert (conditions.len() == 1) holds and
   every_row_selector is always the selector *)
Lemma run_conditions c b : conditions (run c b) = conditions b.
Proof. apply (run_spec c b). Qed.

Definition tuple_match (e : env) (i t : Z) (l r : list query) : Prop :=
  Forall2 (fun a b => eval e i a = eval e t b) l r.

(* Soundness reading on one row. *)
Definition lookup_hit (e : env) (i : Z) (l r : list query) : Prop :=
  exists t, 0 <= t < eusable e /\ efix e SEL t = f1 /\ tuple_match e i t l r.
Definition poseidon_hit (e : env) (l r d h : Fr) : Prop :=
  exists t, 0 <= t < eusable e /\
    efix e P_q_enable t = f1 /\ eadv e P_hash t = h /\ eadv e P_left t = l /\
    eadv e P_right t = r /\ eadv e P_control t = f0 /\ eadv e P_domain t = d /\
    eadv e P_head t = f1.
Fixpoint den (e : env) (i : Z) (c : cmd) : Prop :=
  match c with
  | Skip => True
  | Seq a b => den e i a /\ den e i b
  | AssertZero _ q => eval e i q = f0
  | Condition b body => eval e i b = f1 -> den e i body
  | AddLookup _ l r => length l = length r -> lookup_hit e i l r
  | PoseidonLookup _ l r d h => poseidon_hit e (eval e i l) (eval e i r) (eval e i d) (eval e i h)
  end.

Definition wf_env (e : env) : Prop := 0 < eusable e <= eN e.

Lemma eval_fcur e i c : 0 <= i < eN e -> eval e i (fcur c) = efix e c i.
Proof. intros H. cbn. rewrite Z.add_0_r, Z.mod_small by lia. reflexivity. Qed.
Lemma eval_cur e i c : 0 <= i < eN e -> eval e i (cur c) = eadv e c i.
Proof. intros H. cbn. rewrite Z.add_0_r, Z.mod_small by lia. reflexivity. Qed.
Lemma eval_prev e i c : 1 <= i < eN e -> eval e i (prev c) = eadv e c (i - 1).
Proof. intros H. cbn. rewrite Z.mod_small by lia. reflexivity. Qed.
Lemma eval_next e i c : 0 <= i -> i + 1 < eN e -> eval e i (next c) = eadv e c (i + 1).
Proof. intros H H1. cbn. rewrite Z.mod_small by lia. reflexivity. Qed.

Definition ones (e : env) (i : Z) (cs : list query) := Forall (fun q => eval e i q = f1) cs.
Lemma ones_conj e i cs : ones e i cs -> eval e i (conjunction cs) = f1.
Proof.
  intros H. rewrite eval_conjunction. apply prodF_ones. apply Forall_map.
  eapply Forall_impl; [|exact H]. cbn. auto.
Qed.
Lemma ones_tl e i cs : ones e i cs -> ones e i (tl cs).
Proof. destruct 1; [constructor|assumption]. Qed.

Lemma Forall_combine_mul e i t c l r :
  eval e i c = f1 -> length l = length r ->
  Forall (fun p => eval e i (fst p) = eval e t (snd p)) (combine (map (fun q => (q * c)%q) l) r) ->
  tuple_match e i t l r.
Proof.
  intros Hc. revert r. induction l as [|x l IH]; intros [|y r] Hlen H; try discriminate; [constructor|].
  cbn in H. inversion H as [|? ? H1 H2]; subst. cbn in H1. constructor.
  - rewrite <- H1, Hc. ring.
  - apply IH; [cbn in Hlen; congruence|exact H2].
Qed.

Lemma hd_SEL e t s cs : wf_env e -> 0 <= t < eusable e -> hd bone (fcur s :: cs) = fcur s /\
  eval e t (fcur s) = efix e s t.
Proof. intros W H. split; [reflexivity|]. apply eval_fcur. unfold wf_env in W. lia. Qed.

Lemma den_sound e i c : wf_env e -> 0 <= i < eusable e ->
  forall cs, ones e i (fcur SEL :: cs) ->
  Forall (fun g => gate_sat e (snd g)) (gates c (fcur SEL :: cs)) ->
  Forall (fun l => lookup_sat e (snd l)) (lkps c (fcur SEL :: cs)) -> den e i c.
Proof.
  intros W Hi. assert (HiN : 0 <= i < eN e) by (unfold wf_env in W; lia).
  induction c as [|x IHx y IHy|n q|q body IH|n l r|n l r d h]; intros cs Hone HG HL; cbn [den].
  - exact I.
  - cbn [gates lkps] in HG, HL. apply Forall_app in HG, HL. destruct HG, HL.
    split; [eapply IHx|eapply IHy]; eauto.
  - cbn [gates] in HG. inversion HG as [|? ? H1 _]; subst. specialize (H1 i HiN).
    cbn [snd] in H1. unfold bcondition in H1. cbn [eval] in H1.
    rewrite ones_conj in H1 by exact Hone. rewrite <- H1. ring.
  - intros Hq. cbn [gates lkps] in HG, HL. apply (IH (cs ++ [q])); auto.
    inversion Hone; subst. constructor; [assumption|]. apply Forall_app. split; [assumption|].
    constructor; [exact Hq|constructor].
  - intros Hlen. cbn [lkps] in HL. inversion HL as [|? ? H1 _]; subst. cbn [snd] in H1.
    destruct (H1 i Hi) as (t & Ht & Hm). apply Forall_app in Hm. destruct Hm as [Hm Hs].
    inversion Hs as [|? ? Hs1 _]; subst. cbn [fst snd hd] in Hs1.
    pose proof (ones_conj e i _ Hone) as Hc. rewrite Hc in Hs1.
    exists t. split; [exact Ht|]. split.
    + rewrite eval_fcur in Hs1 by (unfold wf_env in W; lia). auto.
    + eapply Forall_combine_mul; eauto.
  - cbn [lkps] in HL. inversion HL as [|? ? H1 _]; subst. cbn [snd] in H1.
    destruct (H1 i Hi) as (t & Ht & Hm).
    assert (HtN : 0 <= t < eN e) by (unfold wf_env in W; lia).
    pose proof (ones_conj e i _ (ones_tl _ _ _ Hone)) as Hc.
    apply (Forall_combine_mul e i t _ [qone; h; l; r; qzero; d; qone] poseidon_table Hc eq_refl) in Hm.
    unfold tuple_match, poseidon_table in Hm.
    repeat match goal with H : Forall2 _ (_ :: _) (_ :: _) |- _ => inversion H; clear H; subst end.
    repeat match goal with H : eval e i _ = eval e t _ |- _ =>
      first [rewrite eval_fcur in H by exact HtN | rewrite eval_cur in H by exact HtN] end.
    exists t. split; [exact Ht|]. repeat split; auto.
Qed.

Theorem sat_den e c : wf_env e -> sat e (run c (builder_new SEL)) ->
  forall i, 0 <= i < eusable e -> efix e SEL i = f1 -> den e i c.
Proof.
  intros W [HG HL] i Hi Hs. destruct (run_spec c (builder_new SEL)) as (A1 & A2 & _).
  rewrite A1 in HG. rewrite A2 in HL. cbn in HG, HL.
  apply (den_sound e i c W Hi []); auto.
  constructor; [|constructor]. rewrite eval_fcur by (unfold wf_env in W; lia). exact Hs.
Qed.

(* Completeness reading. *)
Fixpoint okc (e : env) (i : Z) (c : cmd) : Prop :=
  match c with
  | Skip => True
  | Seq a b => okc e i a /\ okc e i b
  | AssertZero _ q => eval e i q = f0
  | Condition b body => eval e i b = f0 \/ (eval e i b = f1 /\ okc e i body)
  | AddLookup _ l r => length l = length r /\ lookup_hit e i l r
  | PoseidonLookup _ l r d h => poseidon_hit e (eval e i l) (eval e i r) (eval e i d) (eval e i h)
  end.
(* on rows where the selector is off only poseidon lookups are live *)
Fixpoint okpos (e : env) (i : Z) (c : cmd) : Prop :=
  match c with
  | Seq a b => okpos e i a /\ okpos e i b
  | Condition b body => eval e i b = f0 \/ (eval e i b = f1 /\ okpos e i body)
  | PoseidonLookup _ l r d h => poseidon_hit e (eval e i l) (eval e i r) (eval e i d) (eval e i h)
  | _ => True
  end.
(* inactive lookups present the all-zero tuple, which must be in the table with the selector off *)
Fixpoint dummies (e : env) (c : cmd) : Prop :=
  match c with
  | Seq a b => dummies e a /\ dummies e b
  | Condition b body => dummies e body
  | AddLookup _ l r => exists t, 0 <= t < eusable e /\ efix e SEL t = f0 /\
                         Forall (fun q => eval e t q = f0) r
  | PoseidonLookup _ _ _ _ _ => exists t, 0 <= t < eusable e /\
                         Forall (fun q => eval e t q = f0) poseidon_table
  | _ => True
  end.

Lemma zero_conj e i cs : Exists (fun q => eval e i q = f0) cs -> eval e i (conjunction cs) = f0.
Proof.
  intros H. rewrite eval_conjunction. apply prodF_zero. apply in_map_iff.
  apply Exists_exists in H. destruct H as (q & Hin & Hq). exists q. auto.
Qed.

Lemma inactive_gates e i c : forall cs, eval e i (conjunction cs) = f0 ->
  Forall (fun g => eval e i (snd g) = f0) (gates c cs).
Proof.
  induction c as [|x IHx y IHy|n q|q body IH|n l r|n l r d h]; intros cs H; cbn [gates]; auto.
  - apply Forall_app; split; auto.
  - constructor; [|constructor]. cbn. rewrite H. ring.
  - apply IH. rewrite eval_conjunction in *. rewrite map_app, prodF_app, H. ring.
Qed.

Definition lookup_at (e : env) (i : Z) (l : list (query * query)) : Prop :=
  exists t, 0 <= t < eusable e /\ Forall (fun p => eval e i (fst p) = eval e t (snd p)) l.

Lemma combine_zero e i t c l r : eval e i c = f0 -> Forall (fun q => eval e t q = f0) r ->
  Forall (fun p => eval e i (fst p) = eval e t (snd p)) (combine (map (fun q => (q * c)%q) l) r).
Proof.
  intros Hc. revert r. induction l as [|x l IH]; intros r Hr; [constructor|].
  destruct Hr as [|y r Hy Hr]; [constructor|]. cbn. constructor; auto.
  cbn. rewrite Hc, Hy. ring.
Qed.
Lemma combine_one e i t c l r : eval e i c = f1 -> tuple_match e i t l r ->
  Forall (fun p => eval e i (fst p) = eval e t (snd p)) (combine (map (fun q => (q * c)%q) l) r).
Proof.
  intros Hc H. induction H as [|a b l r H1 H2 IH]; cbn; constructor; auto.
  cbn. rewrite Hc, <- H1. ring.
Qed.

(* the poseidon part of the condition stack, i.e. everything but the selector, may still be 1 *)
Lemma sel_off_lkps e i c : wf_env e -> 0 <= i < eusable e -> efix e SEL i = f0 ->
  dummies e c ->
  forall cs, (eval e i (conjunction cs) = f0 \/ (eval e i (conjunction cs) = f1 /\ okpos e i c)) ->
  Forall (fun l => lookup_at e i (snd l)) (lkps c (fcur SEL :: cs)).
Proof.
  intros W Hi Hs. assert (HiN : 0 <= i < eN e) by (unfold wf_env in W; lia).
  assert (Hoff : forall cs, eval e i (conjunction (fcur SEL :: cs)) = f0).
  { intros cs. apply zero_conj. constructor. rewrite eval_fcur by exact HiN. exact Hs. }
  induction c as [|x IHx y IHy|n q|q body IH|n l r|n l r d h]; intros HD cs H; cbn [lkps]; auto.
  - destruct HD as [HDx HDy]. apply Forall_app. split; [apply IHx|apply IHy]; auto; cbn in H; tauto.
  - apply (IH HD (cs ++ [q])). rewrite eval_conjunction in *. rewrite map_app, prodF_app. cbn [map prodF].
    destruct H as [H|[H Hok]].
    + left. rewrite H. ring.
    + cbn in Hok. destruct Hok as [Hq|[Hq Hok]].
      * left. rewrite Hq. ring.
      * right. split; [rewrite H, Hq; ring|exact Hok].
  - constructor; [|constructor]. cbn [snd hd]. destruct HD as (t & Ht & Hst & Hz).
    exists t. split; [exact Ht|]. apply Forall_app. split.
    + apply combine_zero; auto.
    + constructor; [|constructor]. cbn [fst snd]. rewrite Hoff, eval_fcur by (unfold wf_env in W; lia).
      auto.
  - constructor; [|constructor]. cbn [snd tl]. destruct H as [H|[H Hok]].
    + destruct HD as (t & Ht & Hz). exists t. split; [exact Ht|]. apply combine_zero; auto.
    + destruct Hok as (t & Ht & A1 & A2 & A3 & A4 & A5 & A6 & A7).
      exists t. split; [exact Ht|]. apply combine_one; auto.
      assert (HtN : 0 <= t < eN e) by (unfold wf_env in W; lia).
      unfold tuple_match, poseidon_table.
      repeat constructor; rewrite ?eval_fcur, ?eval_cur by exact HtN; auto.
Qed.

Lemma inactive_lkps e i c : wf_env e -> 0 <= i < eusable e -> dummies e c ->
  forall cs, eval e i (conjunction cs) = f0 ->
  Forall (fun l => lookup_at e i (snd l)) (lkps c (fcur SEL :: cs)).
Proof.
  intros W Hi.
  induction c as [|x IHx y IHy|n q|q body IH|n l r|n l r d h]; intros HD cs H; cbn [lkps]; auto.
  - destruct HD as [HDx HDy]. apply Forall_app; split; auto.
  - apply (IH HD (cs ++ [q])). rewrite eval_conjunction in *. rewrite map_app, prodF_app, H. ring.
  - constructor; [|constructor]. cbn [snd hd]. destruct HD as (t & Ht & Hst & Hz).
    assert (Hc : eval e i (conjunction (fcur SEL :: cs)) = f0).
    { rewrite eval_conjunction in *. cbn [map prodF]. rewrite H. ring. }
    exists t. split; [exact Ht|]. apply Forall_app. split.
    + apply combine_zero; auto.
    + constructor; [|constructor]. cbn [fst snd]. rewrite Hc, eval_fcur by (unfold wf_env in W; lia).
      auto.
  - constructor; [|constructor]. cbn [snd tl].
    destruct HD as (t & Ht & Hz). exists t. split; [exact Ht|]. apply combine_zero; auto.
Qed.

Lemma okc_complete e i c : wf_env e -> 0 <= i < eusable e -> efix e SEL i = f1 -> dummies e c ->
  forall cs, eval e i (conjunction cs) = f1 -> okc e i c ->
  Forall (fun g => eval e i (snd g) = f0) (gates c (fcur SEL :: cs)) /\
  Forall (fun l => lookup_at e i (snd l)) (lkps c (fcur SEL :: cs)).
Proof.
  intros W Hi Hs. assert (HiN : 0 <= i < eN e) by (unfold wf_env in W; lia).
  assert (Hfull : forall cs, eval e i (conjunction cs) = f1 -> eval e i (conjunction (fcur SEL :: cs)) = f1).
  { intros cs H. rewrite eval_conjunction in *. cbn [map prodF].
    rewrite H, eval_fcur, Hs by exact HiN. ring. }
  induction c as [|x IHx y IHy|n q|q body IH|n l r|n l r d h]; intros HD cs Hc Hok; cbn [lkps gates]; auto.
  - destruct HD as [HDx HDy]. destruct Hok as [Hx Hy].
    destruct (IHx HDx cs Hc Hx). destruct (IHy HDy cs Hc Hy). split; apply Forall_app; auto.
  - split; [|constructor]. constructor; [|constructor]. cbn in *. rewrite Hok. ring.
  - cbn in Hok.
    assert (E : eval e i (conjunction (cs ++ [q])) = eval e i q).
    { rewrite eval_conjunction in *. rewrite map_app, prodF_app, Hc. cbn [map prodF]. ring. }
    destruct Hok as [Hq|[Hq Hok]].
    + split.
      * apply (inactive_gates e i body (fcur SEL :: cs ++ [q])).
        rewrite eval_conjunction in *. cbn [map prodF]. rewrite E, Hq. ring.
      * apply (inactive_lkps e i body W Hi HD (cs ++ [q])). rewrite E. exact Hq.
    + apply (IH HD (cs ++ [q])); [rewrite E; exact Hq|exact Hok].
  - split; [constructor|]. destruct Hok as [_ (t & Ht & Hst & Hm)].
    constructor; [|constructor]. cbn [snd hd]. exists t. split; [exact Ht|]. apply Forall_app. split.
    + apply combine_one; auto.
    + constructor; [|constructor]. cbn [fst snd]. rewrite Hfull by exact Hc.
      rewrite eval_fcur by (unfold wf_env in W; lia). auto.
  - split; [constructor|]. constructor; [|constructor]. cbn [snd tl].
    destruct Hok as (t & Ht & A1 & A2 & A3 & A4 & A5 & A6 & A7).
    exists t. split; [exact Ht|]. apply combine_one; auto.
    assert (HtN : 0 <= t < eN e) by (unfold wf_env in W; lia).
    unfold tuple_match, poseidon_table.
    repeat constructor; rewrite ?eval_fcur, ?eval_cur by exact HtN; auto.
Qed.

Theorem sat_complete e c : wf_env e ->
  (forall i, 0 <= i < eusable e -> efix e SEL i = f0 \/ efix e SEL i = f1) ->
  (forall i, eusable e <= i < eN e -> efix e SEL i = f0) ->
  dummies e c ->
  (forall i, 0 <= i < eusable e -> efix e SEL i = f1 -> okc e i c) ->
  (forall i, 0 <= i < eusable e -> efix e SEL i = f0 -> okpos e i c) ->
  sat e (run c (builder_new SEL)).
Proof.
  intros W Hbin Htail HD Hon Hoff.
  destruct (run_spec c (builder_new SEL)) as (A1 & A2 & _).
  unfold sat. rewrite A1, A2. cbn [builder_new constraints lookups conditions app].
  assert (HG : forall i, 0 <= i < eN e -> Forall (fun g => eval e i (snd g) = f0) (gates c [fcur SEL])).
  { intros i Hi. destruct (Z_lt_dec i (eusable e)) as [Hlt|Hge].
    - destruct (Hbin i ltac:(lia)) as [H0|H1].
      + apply inactive_gates. apply zero_conj. constructor. rewrite eval_fcur by lia. exact H0.
      + apply (okc_complete e i c W ltac:(lia) H1 HD []); [reflexivity|]. apply Hon; auto; lia.
    - apply inactive_gates. apply zero_conj. constructor. rewrite eval_fcur by lia. apply Htail. lia. }
  assert (HL : forall i, 0 <= i < eusable e -> Forall (fun l => lookup_at e i (snd l)) (lkps c [fcur SEL])).
  { intros i Hi. destruct (Hbin i Hi) as [H0|H1].
    - apply (sel_off_lkps e i c W Hi H0 HD []). right. split; [reflexivity|]. apply Hoff; auto.
    - apply (okc_complete e i c W Hi H1 HD []); [reflexivity|]. apply Hon; auto. }
  split.
  - apply Forall_forall. intros g Hg i Hi. specialize (HG i Hi). rewrite Forall_forall in HG. auto.
  - apply Forall_forall. intros g Hg i Hi. specialize (HL i Hi). rewrite Forall_forall in HL. apply HL. auto.
Qed.

(* convenience *)
Lemma den_for_each {A} e i (xs : list A) f : den e i (for_each xs f) <-> Forall (fun x => den e i (f x)) xs.
Proof.
  induction xs as [|x xs IH]; cbn; split; intros H; try constructor; try tauto.
  - inversion H; subst. assumption.
  - inversion H; subst. tauto.
Qed.
Lemma okc_for_each {A} e i (xs : list A) f : okc e i (for_each xs f) <-> Forall (fun x => okc e i (f x)) xs.
Proof.
  induction xs as [|x xs IH]; cbn; split; intros H; try constructor; try tauto.
  - inversion H; subst. assumption.
  - inversion H; subst. tauto.
Qed.
Lemma den_assert_equal e i n a b : den e i (assert_equal n a b) <-> eval e i a = eval e i b.
Proof. unfold assert_equal. cbn [den]. rewrite eval_sub. apply fsub_eq0. Qed.
Lemma okc_assert_equal e i n a b : okc e i (assert_equal n a b) <-> eval e i a = eval e i b.
Proof. exact (den_assert_equal e i n a b). Qed.
Lemma den_assert e i n b : den e i (assert_ n b) <-> eval e i b = f1.
Proof.
  unfold assert_. cbn [den]. rewrite eval_sub. rewrite fsub_eq0. change (eval e i qone) with f1.
  split; congruence.
Qed.
Lemma okc_assert e i n b : okc e i (assert_ n b) <-> eval e i b = f1.
Proof. exact (den_assert e i n b). Qed.

Lemma den_binary e i c : 0 <= i < eN e -> den e i (binary_column c) ->
  eadv e c i = f0 \/ eadv e c i = f1.
Proof.
  intros Hi H. apply den_assert in H. rewrite eval_bor, eval_bnot, !eval_cur in H by exact Hi.
  assert (E : (eadv e c i * (1 - eadv e c i) = 0)%fr).
  { transitivity (1 - (1 - (1 - eadv e c i) * (1 - (1 - eadv e c i))))%fr; [ring|]. rewrite H. ring. }
  apply fmul_eq0 in E. destruct E as [E|E]; [left; exact E|right]. symmetry. apply fsub_eq0. exact E.
Qed.
