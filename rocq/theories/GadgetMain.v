(* The gadget theorems in the form in which PropsGadgets states them. *)
From Coq Require Import ZArith String List Bool Lia.
From Verif Require Import Pocklington Fr Query Builder BuilderProofs Bytes Gadgets MptUpdate GadgetProofs Fixed CanonProofs LagrangeProofs Assign AssignProofs AssignOk AssignRegion UpdateRows UpdateSound TrieSpec UpdateWalk UpdateAccount.
Import ListNotations.
Open Scope Z_scope.

(** * Vocabulary of the statements *)
(* [part_of g c]: the gadget's configure function g was called, outside any condition, while building c *)
Inductive part_of (g : cmd) : cmd -> Prop :=
| part_here : part_of g g
| part_left a b : part_of g a -> part_of g (a ;; b)
| part_right a b : part_of g b -> part_of g (a ;; b).
(* e satisfies all gates and lookups of the circuit built by c *)
Definition satisfied (e : env) (c : cmd) : Prop := wf_env e /\ sat e (run c (builder_new SEL)).
(* the selector is on in row i *)
Definition enabled (e : env) (i : Z) : Prop := 0 <= i < eusable e /\ efix e SEL i = f1.
(* the value of e's cell in column c, row i *)
Definition at_ (e : env) (c : col) (i : Z) : Fr := match c with A c => eadv e c i | Fx c => efix e c i end.
(* the assignments of r were made in row i *)
Definition written (e : env) (i : Z) (r : row) : Prop := Forall (fun p => at_ e (fst p) i = snd p) r.
(* what the command c adds to a builder with conditions cs, evaluated at row i *)
Definition gates_at (e : env) (i : Z) (c : cmd) (b : builder) : list Fr :=
  map (fun p => eval e i (snd p)) (skipn (List.length (constraints b)) (constraints (run c b))).

Lemma part_den e c g i : satisfied e c -> part_of g c -> enabled e i -> den e i g.
Proof.
  intros [W S] P [Hi Si]. pose proof (sat_den e c W S i Hi Si) as D. clear S. revert D.
  induction P as [|a b P IH|a b P IH]; cbn [den]; tauto.
Qed.
Lemma enabled_lt e c i : satisfied e c -> enabled e i -> 0 <= i < eN e.
Proof. intros [[_ W] _] [Hi _]. lia. Qed.
Lemma fix_enabled e n i : fixed_ok e n -> (enabled e i <-> 1 <= i < n).
Proof.
  intros F. pose proof (fo_rows e n F). pose proof (fo_usable e n F). split.
  - intros [Hi Si]. apply (sel_inv e n F); [lia|exact Si].
  - intros Hi. split; [lia|apply (sel_on e n F); exact Hi].
Qed.

(** * C01 *)
Lemma is_zero_exact e c g : satisfied e c -> part_of (is_zero_configure g) c ->
  (forall i, enabled e i -> eval e i (iz_current g) = if Fr_eq_dec (eadv e (iz_value g) i) f0 then f1 else f0) /\
  (forall i, 1 <= i < eN e -> enabled e (i - 1) ->
     eval e i (iz_previous g) = if Fr_eq_dec (eadv e (iz_value g) (i - 1)) f0 then f1 else f0).
Proof.
  intros S P.
  assert (G : forall x, fb (feqb x f0) = if Fr_eq_dec x f0 then f1 else f0).
  { intros x. destruct (Fr_eq_dec x f0) as [->|N]; [rewrite feqb_refl; reflexivity|].
    apply feqb_neq in N. rewrite N. reflexivity. }
  split; intros i Hi.
  - rewrite (iz_current_sound e i g); [apply G|apply (enabled_lt e c); assumption|apply (part_den e c); assumption].
  - intros En. rewrite (iz_previous_sound e i g Hi); [apply G|apply (part_den e c); assumption].
Qed.
Lemma gates_at_gates e i c b : gates_at e i c b = map (fun p => eval e i (snd p)) (gates c (conditions b)).
Proof.
  unfold gates_at. destruct (run_spec c b) as (-> & _ & _). rewrite skipn_app, Nat.sub_diag, skipn_all. reflexivity.
Qed.
Lemma is_zero_complete e i g v b : 0 <= i < eN e -> written e i (iz_assign_value_and_inverse g v) ->
  Forall (eq f0) (gates_at e i (is_zero_configure g) b) /\ lookups (run (is_zero_configure g) b) = lookups b.
Proof.
  intros Hi W. unfold written, iz_assign_value_and_inverse, iz_assign in W. inversion W as [|? ? W1 W2]; subst.
  inversion W2 as [|? ? W3 W4]; subst. cbn in W1, W3.
  destruct (iz_complete e i g Hi) as [O1 O2]; [congruence|]. cbn [okc] in O1, O2.
  split.
  - rewrite gates_at_gates. cbn [gates is_zero_configure map app].
    assert (Z : forall x q, eval e i q = f0 -> f0 = eval e i (bcondition x q)).
    { intros x q E. unfold bcondition. cbn [eval]. rewrite E. ring. }
    constructor; [apply Z; exact O1|]. constructor; [apply Z; exact O2|constructor].
  - destruct (run_spec (is_zero_configure g) b) as (_ & -> & _). cbn. apply app_nil_r.
Qed.

(** * C02 *)
Section OH.
  Context {T : Type} (o : OneHot T).
  (* row j of e encodes variant v, as seen through every query the gadget offers *)
  Definition encodes (e : env) (j : Z) (v : T) : Prop :=
    forall i r, (i + r) mod eN e = j ->
      (forall vs, NoDup vs -> eval e i (oh_matches o vs r) = if existsb (oh_eqb o v) vs then f1 else f0) /\
      (exists k, nth_error (oh_variants o) k = Some v /\ eval e i (oh_index o r) = fz (Z.of_nat k)).
  Lemma encodes_unique e j v w : oh_wf o -> 0 <= j < eN e -> encodes e j v -> encodes e j w -> v = w.
  Proof.
    intros W Hj Ev Ew. destruct (Ev j 0) as [A _]; [rewrite Z.add_0_r; apply Z.mod_small; lia|].
    destruct (Ew j 0) as [B _]; [rewrite Z.add_0_r; apply Z.mod_small; lia|].
    specialize (A [v] ltac:(repeat constructor; intros [])). specialize (B [v] ltac:(repeat constructor; intros [])).
    cbn [existsb] in A, B. rewrite orb_false_r in A, B. rewrite (oh_eqb_refl o W) in A.
    destruct (oh_eqb o w v) eqn:E; [symmetry; apply (ohw_eqb o W); exact E|].
    exfalso. apply f1_neq_f0. congruence.
  Qed.
  Lemma oh_row_encodes e j d : oh_wf o -> oh_row o e j -> encodes e j (oh_dec o d e j).
  Proof.
    intros W R i r E. split.
    - intros vs Nd. rewrite (eval_matches o W d e i r j vs E R Nd). destruct (existsb _ vs); reflexivity.
    - apply (eval_oh_index o W d e i r j E R).
  Qed.
  Lemma one_hot_exact e c : oh_wf o -> oh_variants o <> [] -> satisfied e c -> part_of (one_hot_configure o) c ->
    forall i, enabled e i -> exists! v, encodes e i v.
  Proof.
    intros W Ne S P i En. pose proof (enabled_lt e c i S En) as Hi.
    pose proof (oh_row_of_den o e i Hi (part_den e c _ i S P En)) as R.
    destruct (oh_variants o) as [|d vs] eqn:Q; [congruence|].
    exists (oh_dec o d e i). split; [apply oh_row_encodes; assumption|].
    intros w Hw. apply (encodes_unique e i); auto. apply oh_row_encodes; assumption.
  Qed.
  (* assign(v) on a fresh row *)
  Lemma one_hot_assign e i v b : oh_wf o -> NoDup (map (oh_col o) (oh_nonfirst o)) -> 0 <= i < eN e ->
    (forall w, In w (oh_nonfirst o) -> eadv e (oh_col o w) i = rcell (oh_assign o v) (A (oh_col o w))) ->
    encodes e i v /\ Forall (eq f0) (gates_at e i (one_hot_configure o) b).
  Proof.
    intros W Nd Hi Hw.
    assert (As : oh_assigned o e i v).
    { intros w Hin. rewrite (Hw w Hin). unfold oh_assign, oh_get.
      destruct (existsb (oh_eqb o v) (oh_nonfirst o)) eqn:Ex.
      - apply existsb_exists in Ex. destruct Ex as (v' & Iv & Ev). apply (ohw_eqb o W) in Ev. subst v'.
        unfold rcell, rfind. destruct (col_eq_dec (A (oh_col o w)) (A (oh_col o v))) as [Ec|Ec].
        + assert (Ec' : oh_col o w = oh_col o v) by congruence.
          assert (w = v).
          { clear - Nd Hin Iv Ec'. revert Hin Iv Nd. induction (oh_nonfirst o) as [|x l IH]; cbn; [tauto|].
            intros H1 H2 Nd. inversion Nd as [|? ? N1 N2]; subst.
            destruct H1 as [->|H1], H2 as [->|H2]; auto.
            - exfalso. apply N1. rewrite Ec'. apply in_map. exact H2.
            - exfalso. apply N1. rewrite <- Ec'. apply in_map. exact H1. }
          subst w. rewrite (oh_eqb_refl o W). reflexivity.
        + assert (oh_eqb o w v = false) as ->; [|reflexivity]. apply (oh_eqb_neq o W). intros ->. apply Ec. reflexivity.
      - unfold rcell, rfind. assert (oh_eqb o w v = false) as ->; [|reflexivity]. apply (oh_eqb_neq o W). intros ->.
        rewrite <- not_true_iff_false in Ex. apply Ex. apply existsb_exists. exists v. split; [exact Hin|apply (oh_eqb_refl o W)]. }
    assert (R : oh_row o e i) by (apply (oh_assigned_row o W v e i v As)).
    split.
    - rewrite <- (oh_assigned_dec o W v e i v As). apply oh_row_encodes; assumption.
    - pose proof (oh_row_okc o e i Hi R) as O. rewrite gates_at_gates.
      set (cs := conditions b). clearbody cs. unfold one_hot_configure in *.
      assert (G : forall c, okc e i c -> (forall q x, c <> Condition q x) -> True) by auto. clear G.
      assert (Z : forall x q, eval e i q = f0 -> f0 = eval e i (bcondition x q)).
      { intros x q E. unfold bcondition. cbn [eval]. rewrite E. ring. }
      cbn [gates okc] in *. destruct O as [O1 O2]. rewrite map_app. apply Forall_app. split.
      + revert O1. generalize (oh_nonfirst o). intros l.
        induction l as [|x l IH]; cbn [for_each fold_right gates okc]; [constructor|].
        intros [O1 O3]. rewrite map_app. apply Forall_app. split; [|apply IH; exact O3].
        unfold binary_columns in O1 |- *. cbn [for_each fold_right okc gates] in O1 |- *. destruct O1 as [O1 _].
        unfold binary_column, assert_ in O1 |- *. cbn [okc gates] in O1 |- *. rewrite app_nil_r. cbn [map].
        constructor; [apply Z; exact O1|constructor].
      + unfold assert_ in O2 |- *. cbn [gates okc map] in O2 |- *. constructor; [apply Z; exact O2|constructor].
  Qed.
End OH.

(** * C03 *)
(* a command inside nested conditions, outermost first *)
Definition nest (bs : list query) (body : cmd) : cmd := fold_right Condition body bs.
Lemma nest_gates body bs : forall cs, gates (nest bs body) cs = gates body (cs ++ bs).
Proof.
  induction bs as [|b bs IH]; intros cs; cbn [nest fold_right]; [rewrite app_nil_r; reflexivity|].
  cbn [gates]. change (fold_right Condition body bs) with (nest bs body). rewrite IH, <- app_assoc. reflexivity.
Qed.
Lemma nest_lkps body bs : forall cs, lkps (nest bs body) cs = lkps body (cs ++ bs).
Proof.
  induction bs as [|b bs IH]; intros cs; cbn [nest fold_right]; [rewrite app_nil_r; reflexivity|].
  cbn [lkps]. change (fold_right Condition body bs) with (nest bs body). rewrite IH, <- app_assoc. reflexivity.
Qed.
Definition circuit_of (c : cmd) : builder := run c (builder_new SEL).
Definition all_one (e : env) (i : Z) (bs : list query) : Prop := Forall (fun b => eval e i b = f1) bs.
Definition some_zero (e : env) (i : Z) (bs : list query) : Prop := Exists (fun b => eval e i b = f0) bs.

Lemma sat_seq e a b : sat e (circuit_of (a ;; b)) <-> sat e (circuit_of a) /\ sat e (circuit_of b).
Proof.
  unfold sat, circuit_of. destruct (run_spec (a ;; b) (builder_new SEL)) as (-> & -> & _).
  destruct (run_spec a (builder_new SEL)) as (-> & -> & _). destruct (run_spec b (builder_new SEL)) as (-> & -> & _).
  cbn [builder_new constraints lookups conditions app gates lkps]. rewrite !Forall_app. tauto.
Qed.
Lemma nested_assert e bs nm q : exists g, constraints (circuit_of (nest bs (AssertZero nm q))) = [(nm, g)] /\
  lookups (circuit_of (nest bs (AssertZero nm q))) = [] /\
  forall i, 0 <= i < eN e ->
    (efix e SEL i = f1 -> all_one e i bs -> eval e i g = eval e i q) /\
    (efix e SEL i = f0 \/ some_zero e i bs -> eval e i g = f0).
Proof.
  unfold circuit_of. destruct (run_spec (nest bs (AssertZero nm q)) (builder_new SEL)) as (-> & -> & _).
  cbn [builder_new constraints lookups conditions app]. rewrite nest_gates, nest_lkps. cbn [gates lkps].
  eexists. split; [reflexivity|]. split; [reflexivity|]. intros i Hi. unfold bcondition. cbn [eval].
  split.
  - intros S O. rewrite ones_conj; [ring|]. cbn [app]. constructor; [rewrite eval_fcur by lia; exact S|exact O].
  - intros Z. rewrite zero_conj; [ring|]. cbn [app]. destruct Z as [Z|Z].
    + apply Exists_cons_hd. rewrite eval_fcur by lia. exact Z.
    + apply Exists_cons_tl. exact Z.
Qed.
(* what the i-th row demands of a lookup argument *)
Definition row_demand (e : env) (i : Z) (l : list (query * query)) : Prop :=
  exists t, 0 <= t < eusable e /\ Forall (fun p => eval e i (fst p) = eval e t (snd p)) l.
Lemma nested_lookup e bs nm left right : wf_env e -> List.length left = List.length right ->
  exists l, lookups (circuit_of (nest bs (AddLookup nm left right))) = [(nm, l)] /\
  constraints (circuit_of (nest bs (AddLookup nm left right))) = [] /\
  forall i, 0 <= i < eusable e ->
    (efix e SEL i = f1 -> all_one e i bs ->
       (row_demand e i l <-> exists t, enabled e t /\ Forall2 (fun a b => eval e i a = eval e t b) left right)) /\
    (efix e SEL i = f0 \/ some_zero e i bs ->
       (row_demand e i l <-> exists t, 0 <= t < eusable e /\ efix e SEL t = f0 /\ Forall (fun b => eval e t b = f0) right)).
Proof.
  intros W Len. unfold circuit_of. destruct (run_spec (nest bs (AddLookup nm left right)) (builder_new SEL)) as (-> & -> & _).
  cbn [builder_new constraints lookups conditions app]. rewrite nest_gates, nest_lkps. cbn [gates lkps].
  eexists. split; [reflexivity|]. split; [reflexivity|]. intros i Hi. cbn [app hd]. pose proof W as [_ W2].
  split.
  - intros S O. assert (C : eval e i (conjunction (fcur SEL :: bs)) = f1).
    { apply ones_conj. constructor; [rewrite eval_fcur by lia; exact S|exact O]. }
    split.
    + intros (t & Ht & Fa). apply Forall_app in Fa. destruct Fa as [Fa Fs]. inversion Fs as [|? ? Fs1 _]; subst. cbn [fst snd] in Fs1.
      rewrite C, eval_fcur in Fs1 by lia. exists t. split; [split; [exact Ht|congruence]|].
      apply (Forall_combine_mul e i t _ left right C Len Fa).
    + intros (t & [Ht Et] & M). exists t. split; [exact Ht|]. apply Forall_app. split.
      * apply combine_one; assumption.
      * constructor; [|constructor]. cbn [fst snd]. rewrite C, eval_fcur by lia. congruence.
  - intros Z. assert (C : eval e i (conjunction (fcur SEL :: bs)) = f0).
    { apply zero_conj. destruct Z as [Z|Z]; [apply Exists_cons_hd; rewrite eval_fcur by lia; exact Z|apply Exists_cons_tl; exact Z]. }
    split.
    + intros (t & Ht & Fa). apply Forall_app in Fa. destruct Fa as [Fa Fs]. inversion Fs as [|? ? Fs1 _]; subst. cbn [fst snd] in Fs1.
      rewrite C, eval_fcur in Fs1 by lia. exists t. split; [exact Ht|]. split; [congruence|].
      clear - C Fa Len. revert right Len Fa. induction left as [|a l IH]; intros [|b r] Len Fa; try discriminate; [constructor|].
      cbn [map combine] in Fa. inversion Fa as [|? ? F1 F2]; subst. constructor.
      * cbn [fst snd eval] in F1. rewrite <- F1, C. ring.
      * apply IH; [injection Len as Len; exact Len|exact F2].
    + intros (t & Ht & Et & Fr0). exists t. split; [exact Ht|]. apply Forall_app. split.
      * apply combine_zero; assumption.
      * constructor; [|constructor]. cbn [fst snd]. rewrite C, eval_fcur by lia. congruence.
Qed.
Lemma nested_poseidon e bs nm l r d h : wf_env e ->
  exists lk, lookups (circuit_of (nest bs (PoseidonLookup nm l r d h))) = [(nm, lk)] /\
  constraints (circuit_of (nest bs (PoseidonLookup nm l r d h))) = [] /\
  forall i, 0 <= i < eusable e ->
    (all_one e i bs ->
       (row_demand e i lk <-> exists t, 0 <= t < eusable e /\ efix e P_q_enable t = f1 /\ eadv e P_hash t = eval e i h /\
          eadv e P_left t = eval e i l /\ eadv e P_right t = eval e i r /\ eadv e P_control t = f0 /\
          eadv e P_domain t = eval e i d /\ eadv e P_head t = f1)) /\
    (some_zero e i bs ->
       (row_demand e i lk <-> exists t, 0 <= t < eusable e /\ Forall (fun b => eval e t b = f0) poseidon_table)).
Proof.
  intros W. unfold circuit_of. destruct (run_spec (nest bs (PoseidonLookup nm l r d h)) (builder_new SEL)) as (-> & -> & _).
  cbn [builder_new constraints lookups conditions app]. rewrite nest_gates, nest_lkps. cbn [gates lkps].
  eexists. split; [reflexivity|]. split; [reflexivity|]. intros i Hi. cbn [app tl]. pose proof W as [_ W2].
  split.
  - intros O. assert (C : eval e i (conjunction bs) = f1) by (apply ones_conj; exact O).
    split.
    + intros (t & Ht & Fa). exists t. split; [exact Ht|].
      apply (Forall_combine_mul e i t _ [qone; h; l; r; qzero; d; qone] poseidon_table C eq_refl) in Fa.
      unfold tuple_match, poseidon_table in Fa.
      inversion Fa as [|? ? ? ? M1 R1]; subst. inversion R1 as [|? ? ? ? M2 R2]; subst. inversion R2 as [|? ? ? ? M3 R3]; subst.
      inversion R3 as [|? ? ? ? M4 R4]; subst. inversion R4 as [|? ? ? ? M5 R5]; subst. inversion R5 as [|? ? ? ? M6 R6]; subst.
      inversion R6 as [|? ? ? ? M7 _]; subst. clear Fa R1 R2 R3 R4 R5 R6.
      rewrite eval_fcur in M1 by lia. rewrite (eval_cur e t) in M2, M3, M4, M5, M6, M7 by lia.
      change (eval e i qone) with f1 in M1, M7. change (eval e i qzero) with f0 in M5. auto 10.
    + intros (t & Ht & E1 & E2 & E3 & E4 & E5 & E6 & E7). exists t. split; [exact Ht|].
      apply combine_one; [exact C|]. unfold tuple_match, poseidon_table.
      repeat (constructor; [rewrite ?eval_fcur by lia; rewrite ?(eval_cur e t) by lia; symmetry; assumption|]). constructor.
  - intros Z. assert (C : eval e i (conjunction bs) = f0) by (apply zero_conj; exact Z).
    split.
    + intros (t & Ht & Fa). exists t. split; [exact Ht|].
      assert (G : forall left right, List.length left = List.length right ->
        Forall (fun p => eval e i (fst p) = eval e t (snd p)) (combine (map (fun q => (q * conjunction bs)%q) left) right) ->
        Forall (fun b => eval e t b = f0) right).
      { clear Fa. induction left as [|a left IH]; intros [|b right] Len Fa; try discriminate; [constructor|].
        cbn [map combine] in Fa. inversion Fa as [|? ? F1 F2]; subst. constructor.
        - cbn [fst snd eval] in F1. rewrite <- F1, C. ring.
        - apply IH; [injection Len as Len; exact Len|exact F2]. }
      apply (G [qone; h; l; r; qzero; d; qone]); [reflexivity|exact Fa].
    + intros (t & Ht & Fz). exists t. split; [exact Ht|]. apply combine_zero; assumption.
Qed.
Lemma boolean_ops e i a b (x y : bool) t f : eval e i a = fb x -> eval e i b = fb y ->
  eval e i (band a b) = fb (x && y) /\ eval e i (bor a b) = fb (x || y) /\ eval e i (bnot a) = fb (negb x) /\
  eval e i (bselect a t f) = (if x then eval e i t else eval e i f) /\
  eval e i (bcondition a t) = (if x then eval e i t else f0).
Proof.
  intros A B. rewrite eval_band, eval_bor, eval_bnot, eval_bselect. unfold bcondition. cbn [eval]. rewrite A, B.
  split; [apply fb_and|]. split; [apply fb_or|]. split; [apply fb_not|]. split; destruct x; cbn [fb]; ring.
Qed.
