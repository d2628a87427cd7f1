(* What the is-zero and one-hot gadgets enforce. *)
From Coq Require Import ZArith String List Bool Lia.
From Verif Require Import Pocklington Fr Query Builder BuilderProofs Gadgets MptUpdate Bytes.
Import ListNotations.
Open Scope Z_scope.

Lemma feqb_fz_small a b : 0 <= a < modulus -> 0 <= b < modulus -> feqb (fz a) (fz b) = (a =? b).
Proof. intros Ha Hb. unfold feqb. rewrite !val_fz_small by assumption. reflexivity. Qed.
Lemma fb_true b : fb b = f1 -> b = true.
Proof. intros H. apply fb_inj. exact H. Qed.
Lemma fb_false b : fb b = f0 -> b = false.
Proof. intros H. apply fb_inj. exact H. Qed.
Lemma fb_not b : (1 - fb b)%fr = fb (negb b). Proof. destruct b; cbn [fb negb]; ring. Qed.
Lemma fb_and a b : (fb a * fb b)%fr = fb (a && b). Proof. destruct a, b; cbn [fb andb]; ring. Qed.
Lemma fb_or a b : (1 - (1 - fb a) * (1 - fb b))%fr = fb (a || b).
Proof. destruct a, b; cbn [fb orb]; ring. Qed.
Lemma fb_mul_l b x : (fb b * x)%fr = if b then x else f0. Proof. destruct b; cbn [fb]; ring. Qed.

(** ** is_zero *)
Lemma iz_eqs e i g : 0 <= i < eN e -> den e i (is_zero_configure g) ->
  (1 - eadv e (iz_value g) i * eadv e (iz_inv g) i)%fr = fb (feqb (eadv e (iz_value g) i) f0).
Proof.
  intros Hi [H1 H2]. cbn [den] in H1, H2. cbn [eval] in H1, H2.
  rewrite eval_sub in H1, H2. cbn [eval] in H1, H2.
  change (eval e i (cur ?c)) with (eadv e c ((i + 0) mod eN e)) in *.
  rewrite Z.add_0_r, Z.mod_small in H1, H2 by lia.
  set (v := eadv e (iz_value g) i) in *. set (w := eadv e (iz_inv g) i) in *.
  change (eval e i qone) with f1 in H1, H2.
  destruct (feqb_spec v f0) as [Hv|Hv]; cbn [fb].
  - rewrite Hv. ring.
  - apply fmul_eq0 in H1. destruct H1 as [H1|H1]; [contradiction|exact H1].
Qed.
Lemma iz_current_sound e i g : 0 <= i < eN e -> den e i (is_zero_configure g) ->
  eval e i (iz_current g) = fb (feqb (eadv e (iz_value g) i) f0).
Proof.
  intros Hi H. unfold iz_current. rewrite eval_sub. cbn [eval].
  change (eval e i qone) with f1. rewrite !eval_cur by exact Hi. apply iz_eqs; assumption.
Qed.
Lemma iz_previous_sound e i g : 1 <= i < eN e -> den e (i - 1) (is_zero_configure g) ->
  eval e i (iz_previous g) = fb (feqb (eadv e (iz_value g) (i - 1)) f0).
Proof.
  intros Hi H. unfold iz_previous. rewrite eval_sub. cbn [eval].
  change (eval e i qone) with f1. rewrite !eval_prev by exact Hi. apply iz_eqs; [lia|assumption].
Qed.
(* completeness: is_zero.rs:24-38, 41-50 write the value and the inverse (or 0) *)
Lemma iz_complete e i g : 0 <= i < eN e -> eadv e (iz_inv g) i = finv (eadv e (iz_value g) i) ->
  okc e i (is_zero_configure g).
Proof.
  intros Hi H. unfold is_zero_configure. cbn [okc eval]. rewrite eval_sub. cbn [eval].
  change (eval e i qone) with f1. rewrite !eval_cur by exact Hi. rewrite H.
  destruct (Fr_eq_dec (eadv e (iz_value g) i) f0) as [->|Hne].
  - rewrite finv_0. split; ring.
  - pose proof (finv_l _ Hne) as E.
    split; [replace (eadv e (iz_value g) i * finv (eadv e (iz_value g) i))%fr
              with (finv (eadv e (iz_value g) i) * eadv e (iz_value g) i)%fr by ring; rewrite E; ring|].
    replace (eadv e (iz_value g) i * finv (eadv e (iz_value g) i))%fr
              with (finv (eadv e (iz_value g) i) * eadv e (iz_value g) i)%fr by ring. rewrite E; ring.
Qed.

(** ** one_hot *)
Section OneHot.
  Context {T : Type} (o : OneHot T).
  Record oh_wf : Prop := {
    ohw_eqb : forall a b, oh_eqb o a b = true <-> a = b;
    ohw_nodup : NoDup (oh_variants o);
    ohw_all : forall v, In v (oh_variants o);
    ohw_len : (List.length (oh_variants o) < 100)%nat }.
  Hypothesis W : oh_wf.
  Variable dflt : T.
  Definition oh_first : T := hd dflt (oh_variants o).
  Definition oh_set (e : env) (j : Z) (v : T) : bool := feqb (eadv e (oh_col o v) j) f1.
  Definition oh_dec (e : env) (j : Z) : T :=
    match find (oh_set e j) (oh_nonfirst o) with Some v => v | None => oh_first end.
  Definition oh_row (e : env) (j : Z) : Prop :=
    Forall (fun v => eadv e (oh_col o v) j = f0 \/ eadv e (oh_col o v) j = f1) (oh_nonfirst o) /\
    let s := fold_left (fun a v => (a + eadv e (oh_col o v) j)%fr) (oh_nonfirst o) f0 in
    s = f0 \/ s = f1.

  Lemma eval_rotation e i c r j : (i + r) mod eN e = j -> eval e i (rotation c r) = eadv e c j.
  Proof. intros <-. reflexivity. Qed.
  Lemma eval_oh_sum e i r j : (i + r) mod eN e = j ->
    eval e i (oh_sum o r) = fold_left (fun a v => (a + eadv e (oh_col o v) j)%fr) (oh_nonfirst o) f0.
  Proof.
    intros Hj. unfold oh_sum.
    assert (G : forall l a, eval e i (fold_left (fun a v => (a + rotation (oh_col o v) r)%q) l a)
      = fold_left (fun a v => (a + eadv e (oh_col o v) j)%fr) l (eval e i a)).
    { induction l as [|v l IH]; intros a; cbn [fold_left]; [reflexivity|].
      rewrite IH. cbn [eval]. rewrite <- (eval_rotation e i _ r j Hj). reflexivity. }
    rewrite G. reflexivity.
  Qed.
  Lemma oh_row_of_den e i : 0 <= i < eN e -> den e i (one_hot_configure o) -> oh_row e i.
  Proof.
    intros Hi [H1 H2]. split.
    - apply den_for_each in H1. eapply Forall_impl; [|exact H1]. cbn beta. intros v Hv.
      apply (den_binary e i _ Hi). apply Hv.
    - apply den_assert in H2. rewrite eval_bor, eval_bnot in H2.
      rewrite !(eval_oh_sum e i 0 i) in H2 by (rewrite Z.add_0_r; apply Z.mod_small; lia).
      cbv zeta. set (s := fold_left _ _ f0) in *.
      assert (E : (s * (1 - s) = 0)%fr).
      { transitivity (1 - (1 - (1 - s) * (1 - (1 - s))))%fr; [ring|]. rewrite H2. ring. }
      apply fmul_eq0 in E. destruct E as [E|E]; [left; exact E|right]. symmetry. apply fsub_eq0. exact E.
  Qed.

  Lemma sum_count e j l a : Forall (fun v => eadv e (oh_col o v) j = f0 \/ eadv e (oh_col o v) j = f1) l ->
    fold_left (fun a v => (a + eadv e (oh_col o v) j)%fr) l a
    = (a + fz (Z.of_nat (List.length (filter (oh_set e j) l))))%fr.
  Proof.
    intros H. revert a. induction H as [|v l Hv H IH]; intros a; cbn [fold_left filter].
    - change (fz (Z.of_nat (List.length (@nil T)))) with f0. ring.
    - rewrite IH. unfold oh_set at 2. destruct Hv as [Hv|Hv]; rewrite Hv.
      + destruct (feqb_spec f0 f1) as [E|_]; [symmetry in E; apply f1_neq_f0 in E; contradiction|]. ring.
      + rewrite feqb_refl. cbn [List.length]. rewrite Nat2Z.inj_succ. unfold Z.succ. rewrite fz_add.
        change (fz 1) with f1. ring.
  Qed.

  Lemma nonfirst_len : (List.length (oh_nonfirst o) <= List.length (oh_variants o))%nat.
  Proof. unfold oh_nonfirst. destruct (oh_variants o); cbn; lia. Qed.
  Lemma filter_len {A} (f : A -> bool) l : (List.length (filter f l) <= List.length l)%nat.
  Proof. induction l as [|x l IH]; cbn; [lia|]. destruct (f x); cbn; lia. Qed.
  Lemma small_lt_modulus z : 0 <= z < 2 ^ 250 -> 0 <= z < modulus.
  Proof. unfold modulus. lia. Qed.

  Lemma oh_count e j : oh_row e j -> (List.length (filter (oh_set e j) (oh_nonfirst o)) <= 1)%nat /\
    fold_left (fun a v => (a + eadv e (oh_col o v) j)%fr) (oh_nonfirst o) f0
    = fz (Z.of_nat (List.length (filter (oh_set e j) (oh_nonfirst o)))).
  Proof.
    intros [H1 H2]. cbv zeta in H2. rewrite sum_count in * by exact H1.
    replace (f0 + fz (Z.of_nat (List.length (filter (oh_set e j) (oh_nonfirst o)))))%fr
      with (fz (Z.of_nat (List.length (filter (oh_set e j) (oh_nonfirst o))))) in * by ring.
    split; [|reflexivity].
    pose proof (filter_len (oh_set e j) (oh_nonfirst o)). pose proof nonfirst_len. pose proof (ohw_len W).
    set (n := List.length (filter _ _)) in *.
    destruct H2 as [H2|H2]; apply fz_inj in H2; try (apply small_lt_modulus); lia.
  Qed.

  Lemma find_filter {A} (f : A -> bool) l : find f l = hd_error (filter f l).
  Proof. induction l as [|x l IH]; cbn; [reflexivity|]. destruct (f x); [reflexivity|exact IH]. Qed.

  Lemma variants_cons : oh_variants o = oh_first :: oh_nonfirst o.
  Proof.
    unfold oh_first, oh_nonfirst. pose proof (ohw_all W dflt) as H. destruct (oh_variants o); [contradiction|reflexivity].
  Qed.
  Lemma first_not_nonfirst : ~ In oh_first (oh_nonfirst o).
  Proof. pose proof (ohw_nodup W) as H. rewrite variants_cons in H. inversion H; assumption. Qed.

  Lemma oh_eqb_refl v : oh_eqb o v v = true. Proof. apply (ohw_eqb W). reflexivity. Qed.
  Lemma oh_eqb_neq a b : a <> b -> oh_eqb o a b = false.
  Proof. intros H. destruct (oh_eqb o a b) eqn:E; [apply (ohw_eqb W) in E; contradiction|reflexivity]. Qed.

  Lemma oh_get_spec v : (In v (oh_nonfirst o) /\ oh_get o v = Some (oh_col o v)) \/
    (v = oh_first /\ oh_get o v = None).
  Proof.
    unfold oh_get. destruct (existsb (oh_eqb o v) (oh_nonfirst o)) eqn:E.
    - left. apply existsb_exists in E. destruct E as (x & Hx & E). apply (ohw_eqb W) in E. subst. auto.
    - right. split; [|reflexivity]. pose proof (ohw_all W v) as H. rewrite variants_cons in H.
      destruct H as [H|H]; [congruence|]. exfalso.
      assert (existsb (oh_eqb o v) (oh_nonfirst o) = true).
      { apply existsb_exists. exists v. split; [exact H|apply oh_eqb_refl]. }
      congruence.
  Qed.

  Lemma oh_dec_set e j v : oh_row e j -> In v (oh_nonfirst o) ->
    eadv e (oh_col o v) j = fb (oh_eqb o (oh_dec e j) v).
  Proof.
    intros Hr Hv. destruct (oh_count e j Hr) as [Hc _]. destruct Hr as [Hb _].
    rewrite Forall_forall in Hb. specialize (Hb v Hv).
    unfold oh_dec. rewrite find_filter.
    destruct (filter (oh_set e j) (oh_nonfirst o)) as [|w [|x l]] eqn:E; cbn [hd_error List.length] in *; [| |lia].
    - rewrite oh_eqb_neq; [|intros <-; apply first_not_nonfirst; exact Hv].
      destruct Hb as [Hb|Hb]; [exact Hb|]. exfalso.
      assert (In v (filter (oh_set e j) (oh_nonfirst o))).
      { apply filter_In. split; [exact Hv|]. unfold oh_set. rewrite Hb. apply feqb_refl. }
      rewrite E in H. contradiction.
    - destruct Hb as [Hb|Hb]; rewrite Hb.
      + rewrite oh_eqb_neq; [reflexivity|]. intros ->.
        assert (H : In v (filter (oh_set e j) (oh_nonfirst o))) by (rewrite E; left; reflexivity).
        apply filter_In in H. destruct H as [_ H]. unfold oh_set in H. rewrite Hb in H.
        apply feqb_eq in H. symmetry in H. apply f1_neq_f0 in H. contradiction.
      + assert (In v (filter (oh_set e j) (oh_nonfirst o))).
        { apply filter_In. split; [exact Hv|]. unfold oh_set. rewrite Hb. apply feqb_refl. }
        rewrite E in H. destruct H as [->|[]]. rewrite oh_eqb_refl. reflexivity.
  Qed.
  Lemma oh_dec_first e j : oh_row e j ->
    (1 - fold_left (fun a v => (a + eadv e (oh_col o v) j)%fr) (oh_nonfirst o) f0)%fr
    = fb (oh_eqb o (oh_dec e j) oh_first).
  Proof.
    intros Hr. destruct (oh_count e j Hr) as [Hc Hs]. rewrite Hs.
    unfold oh_dec. rewrite find_filter.
    destruct (filter (oh_set e j) (oh_nonfirst o)) as [|w [|x l]] eqn:E; cbn [hd_error List.length] in *; [| |lia].
    - rewrite oh_eqb_refl. change (fz (Z.of_nat 0)) with f0. cbn [fb]. ring.
    - rewrite oh_eqb_neq.
      + change (fz (Z.of_nat 1)) with f1. cbn [fb]. ring.
      + intros ->. apply first_not_nonfirst.
        assert (H : In oh_first (filter (oh_set e j) (oh_nonfirst o))) by (rewrite E; left; reflexivity).
        apply filter_In in H. apply H.
  Qed.
  Lemma eval_oh_term e i r j v : (i + r) mod eN e = j -> oh_row e j ->
    eval e i (oh_term o v r) = fb (oh_eqb o (oh_dec e j) v).
  Proof.
    intros Hj Hr. unfold oh_term. destruct (oh_get_spec v) as [[Hv ->]|[-> ->]].
    - rewrite (eval_rotation e i _ r j Hj). apply oh_dec_set; assumption.
    - rewrite eval_bnot, (eval_oh_sum e i r j Hj). apply oh_dec_first. exact Hr.
  Qed.

  Lemma sum_terms e i r j vs a : (i + r) mod eN e = j -> oh_row e j -> NoDup vs ->
    eval e i (fold_left (fun a b => (a + b)%q) (map (fun v => oh_term o v r) vs) a)
    = (eval e i a + fb (existsb (oh_eqb o (oh_dec e j)) vs))%fr.
  Proof.
    intros Hj Hr Hn. revert a. induction Hn as [|v vs Hv Hn IH]; intros a; cbn [map fold_left existsb].
    - cbn [fb]. ring.
    - rewrite IH. cbn [eval]. rewrite (eval_oh_term e i r j v Hj Hr).
      destruct (oh_eqb o (oh_dec e j) v) eqn:E; cbn [orb]; [|cbn [fb]; ring].
      apply (ohw_eqb W) in E. replace (existsb (oh_eqb o (oh_dec e j)) vs) with false; [cbn [fb]; ring|].
      symmetry. apply not_true_is_false. intros H. apply existsb_exists in H.
      destruct H as (x & Hx & H). apply (ohw_eqb W) in H. subst. congruence.
  Qed.
  Lemma eval_matches e i r j vs : (i + r) mod eN e = j -> oh_row e j -> NoDup vs ->
    eval e i (oh_matches o vs r) = fb (existsb (oh_eqb o (oh_dec e j)) vs).
  Proof. intros Hj Hr Hn. unfold oh_matches. rewrite (sum_terms e i r j) by assumption. change (eval e i qzero) with f0. ring. Qed.

  Lemma eval_oh_index e i r j : (i + r) mod eN e = j -> oh_row e j ->
    exists k, nth_error (oh_variants o) k = Some (oh_dec e j) /\ eval e i (oh_index o r) = fz (Z.of_nat k).
  Proof.
    intros Hj Hr. unfold oh_index.
    assert (G : forall l s a, NoDup l ->
      eval e i (fold_left (fun acc p => (acc + qz (Z.of_nat (fst p)) * oh_term o (snd p) r)%q)
                 (combine (seq s (List.length l)) l) a) =
      match find (fun p => oh_eqb o (oh_dec e j) (snd p)) (combine (seq s (List.length l)) l) with
      | Some p => (eval e i a + fz (Z.of_nat (fst p)))%fr | None => eval e i a end).
    { induction l as [|v l IH]; intros s a Hn; cbn [List.length seq combine fold_left find fst snd]; [reflexivity|].
      apply NoDup_cons_iff in Hn. destruct Hn as [Hv Hn]. rewrite IH by assumption. cbn [eval].
      rewrite (eval_oh_term e i r j v Hj Hr), eval_qz.
      destruct (oh_eqb o (oh_dec e j) v) eqn:E.
      - apply (ohw_eqb W) in E.
        destruct (find _ (combine (seq (S s) (List.length l)) l)) as [p|] eqn:F.
        + apply find_some in F. destruct F as [F1 F2]. apply (ohw_eqb W) in F2. destruct p as [k x].
          apply in_combine_r in F1. cbn in F2. congruence.
        + cbn [fb fst]. ring.
      - destruct (find _ (combine (seq (S s) (List.length l)) l)); cbn [fb]; ring. }
    rewrite G by apply (ohw_nodup W).
    destruct (find _ _) as [[k v]|] eqn:F.
    - apply find_some in F. destruct F as [F1 F2]. cbn [snd] in F2. apply (ohw_eqb W) in F2. subst v.
      exists k. split; [|cbn [fst]; change (eval e i qzero) with f0; ring].
      assert (K : forall (l : list T) (s k : nat) (v : T), In (k, v) (combine (seq s (List.length l)) l) -> (s <= k)%nat /\ nth_error l (k - s) = Some v).
      { clear. induction l as [|x l IH]; intros s k v H; cbn in H; [contradiction|]. destruct H as [H|H].
        - injection H as <- <-. rewrite Nat.sub_diag. split; [lia|reflexivity].
        - apply IH in H. destruct H as [H1 H2]. split; [lia|]. replace (k - s)%nat with (S (k - S s)) by lia. exact H2. }
      apply K in F1. rewrite Nat.sub_0_r in F1. apply F1.
    - exfalso. pose proof (ohw_all W (oh_dec e j)) as H. apply In_nth_error in H. destruct H as [k Hk].
      pose proof (find_none _ _ F (k, oh_dec e j)) as N. cbn [snd] in N. rewrite oh_eqb_refl in N.
      enough (true = false) by discriminate. apply N.
      assert (K : forall (l : list T) (s k : nat) (v : T), nth_error l k = Some v -> In ((s + k)%nat, v) (combine (seq s (List.length l)) l)).
      { clear. induction l as [|x l IH]; intros s k v H; [destruct k; discriminate|]. cbn. destruct k; cbn in H.
        - injection H as <-. left. f_equal. lia.
        - right. specialize (IH (S s) k v H). rewrite Nat.add_succ_r. exact IH. }
      apply (K _ 0%nat) in Hk. exact Hk.
  Qed.

  (* one_hot.rs:31-40: assign v sets the column of v (if it has one) over all-zero cells *)
  Definition oh_assigned (e : env) (j : Z) (v : T) : Prop :=
    forall w, In w (oh_nonfirst o) -> eadv e (oh_col o w) j = fb (oh_eqb o w v).
  Lemma filter_eqb_len v l : NoDup l -> List.length (filter (fun w => oh_eqb o w v) l) = (if existsb (oh_eqb o v) l then 1 else 0)%nat.
  Proof.
    induction 1 as [|x l Hx Hn IH]; cbn; [reflexivity|].
    destruct (oh_eqb o x v) eqn:E.
    - apply (ohw_eqb W) in E. subst x. rewrite oh_eqb_refl. cbn. rewrite IH.
      replace (existsb (oh_eqb o v) l) with false; [reflexivity|]. symmetry. apply not_true_is_false. intros H.
      apply existsb_exists in H. destruct H as (y & Hy & E). apply (ohw_eqb W) in E. subst. contradiction.
    - rewrite IH. replace (oh_eqb o v x) with false; [reflexivity|]. symmetry. apply oh_eqb_neq. intros ->.
      rewrite oh_eqb_refl in E. discriminate.
  Qed.
  Lemma nonfirst_nodup : NoDup (oh_nonfirst o).
  Proof. pose proof (ohw_nodup W) as H. rewrite variants_cons in H. inversion H; assumption. Qed.
  Lemma oh_assigned_row e j v : oh_assigned e j v -> oh_row e j.
  Proof.
    intros H. assert (B : Forall (fun v => eadv e (oh_col o v) j = f0 \/ eadv e (oh_col o v) j = f1) (oh_nonfirst o)).
    { apply Forall_forall. intros w Hw. rewrite (H w Hw). destruct (oh_eqb o w v); auto. }
    split; [exact B|]. cbv zeta. rewrite sum_count by exact B.
    replace (filter (oh_set e j) (oh_nonfirst o)) with (filter (fun w => oh_eqb o w v) (oh_nonfirst o)).
    - rewrite filter_eqb_len by apply nonfirst_nodup. destruct (existsb _ _); [right|left].
      + change (fz (Z.of_nat 1)) with f1. ring.
      + change (fz (Z.of_nat 0)) with f0. ring.
    - apply filter_ext_in. intros w Hw. unfold oh_set. rewrite (H w Hw).
      destruct (oh_eqb o w v); cbn [fb]; [symmetry; apply feqb_refl|].
      symmetry. apply feqb_neq. intros E. symmetry in E. apply f1_neq_f0 in E. exact E.
  Qed.
  Lemma oh_assigned_dec e j v : oh_assigned e j v -> oh_dec e j = v.
  Proof.
    intros H. pose proof (oh_assigned_row e j v H) as Hr.
    pose proof (ohw_all W v) as Hv. rewrite variants_cons in Hv. destruct Hv as [Hv|Hv].
    - subst v. unfold oh_dec. destruct (find _ _) as [w|] eqn:F; [|reflexivity]. exfalso.
      apply find_some in F. destruct F as [F1 F2]. unfold oh_set in F2. rewrite (H w F1) in F2.
      destruct (oh_eqb o w oh_first) eqn:E; [apply (ohw_eqb W) in E; subst; apply first_not_nonfirst; exact F1|].
      cbn [fb] in F2. apply feqb_eq in F2. symmetry in F2. apply f1_neq_f0 in F2. exact F2.
    - pose proof (oh_dec_set e j v Hr Hv) as E. rewrite (H v Hv), oh_eqb_refl in E. cbn [fb] in E.
      symmetry in E. apply fb_true in E. apply (ohw_eqb W). exact E.
  Qed.
  Lemma okc_binary e i c : 0 <= i < eN e -> (eadv e c i = f0 \/ eadv e c i = f1) -> okc e i (binary_column c).
  Proof.
    intros Hi H. apply okc_assert. rewrite eval_bor, eval_bnot, !eval_cur by exact Hi.
    destruct H as [-> | ->]; ring.
  Qed.
  Lemma oh_row_okc e i : 0 <= i < eN e -> oh_row e i -> okc e i (one_hot_configure o).
  Proof.
    intros Hi [H1 H2]. split.
    - apply okc_for_each. eapply Forall_impl; [|exact H1]. cbn beta. intros v Hv. split; [|exact I].
      apply okc_binary; assumption.
    - apply okc_assert. rewrite eval_bor, eval_bnot.
      rewrite !(eval_oh_sum e i 0 i) by (rewrite Z.add_0_r; apply Z.mod_small; lia).
      cbv zeta in H2. destruct H2 as [-> | ->]; ring.
  Qed.
End OneHot.

(* the three instances used by the update gadget, mpt_update.rs:113-117 *)
Ltac oh_wf_tac := constructor; [ intros [] []; split; (reflexivity || discriminate)
  | repeat constructor; cbn; intuition discriminate | intros []; cbn; tauto | cbn; lia ].
Lemma seg_wf : oh_wf oh_segment. Proof. oh_wf_tac. Qed.
Lemma path_wf : oh_wf oh_path. Proof. oh_wf_tac. Qed.
Lemma ptype_wf : oh_wf oh_proof. Proof. oh_wf_tac. Qed.
