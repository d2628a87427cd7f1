(* What the constraints of the MPT update gadget say about one enabled row, in terms of the decoded
   segment / path / proof types of the row and its neighbours. *)
From Coq Require Import ZArith String List Bool Lia.
From Verif Require Import Pocklington Fr Query Builder BuilderProofs Gadgets MptUpdate Bytes GadgetProofs LagrangeProofs Fixed.
Import ListNotations.
Open Scope Z_scope.

Section Rows.
  Variables (H : Fr -> Fr -> Fr -> Fr) (e : env) (n : Z).
  Hypothesis F : fixed_ok e n.
  Hypothesis HD : forall i, 1 <= i < n -> den e i (mpt_update_configure H).
  Let Hn := fo_rows e n F.
  Let Hu := fo_usable e n F.

  Definition pt (i : Z) : MPTProofType := oh_dec oh_proof NonceChanged e i.
  Definition sg (i : Z) : SegmentType := oh_dec oh_segment SegStart e i.
  Definition pa (i : Z) : PathType := oh_dec oh_path PathStart e i.
  Definition adv (c : acol) (i : Z) : Fr := eadv e c i.
  Definition PH := poseidon_hit e.
  (* left and right input of the hash of a node whose child on side d is h and other child is s *)
  Definition lc (d s h : Fr) : Fr := (d * s + (1 - d) * h)%fr.
  Definition rc (d s h : Fr) : Fr := (d * h + (1 - d) * s)%fr.

  Lemma row_pt i : 1 <= i < n -> oh_row oh_proof e i.
  Proof. intros Hi. apply oh_row_of_den; [lia|]. pose proof (HD i Hi) as D. exact (proj1 D). Qed.
  Lemma row_sg i : 1 <= i < n -> oh_row oh_segment e i.
  Proof. intros Hi. apply oh_row_of_den; [lia|]. pose proof (HD i Hi) as D. destruct D as (_ & _ & D & _). exact D. Qed.
  Lemma row_pa i : 1 <= i < n -> oh_row oh_path e i.
  Proof. intros Hi. apply oh_row_of_den; [lia|]. pose proof (HD i Hi) as D. destruct D as (_ & _ & _ & D & _). exact D. Qed.

  Lemma ev_seg i r vs : 1 <= i + r < n -> NoDup vs ->
    eval e i (oh_matches oh_segment vs r) = fb (existsb (seg_eqb (sg (i + r))) vs).
  Proof.
    intros Hi Hv. apply (eval_matches oh_segment seg_wf SegStart); [apply Z.mod_small; lia|apply row_sg; exact Hi|exact Hv].
  Qed.
  Lemma ev_path i r vs : 1 <= i + r < n -> NoDup vs ->
    eval e i (oh_matches oh_path vs r) = fb (existsb (path_eqb (pa (i + r))) vs).
  Proof.
    intros Hi Hv. apply (eval_matches oh_path path_wf PathStart); [apply Z.mod_small; lia|apply row_pa; exact Hi|exact Hv].
  Qed.
  Lemma ev_pt i r vs : 1 <= i + r < n -> NoDup vs ->
    eval e i (oh_matches oh_proof vs r) = fb (existsb (ptype_eqb (pt (i + r))) vs).
  Proof.
    intros Hi Hv. apply (eval_matches oh_proof ptype_wf NonceChanged); [apply Z.mod_small; lia|apply row_pt; exact Hi|exact Hv].
  Qed.
  Lemma ev_cur i c : 1 <= i < n -> eval e i (cur c) = adv c i.
  Proof. intros Hi. apply eval_cur. lia. Qed.
  Lemma ev_prev i c : 1 <= i < n -> eval e i (prev c) = adv c (i - 1).
  Proof. intros Hi. apply eval_prev. lia. Qed.
  Lemma ev_iz i k : (k < 4)%nat -> 1 <= i < n -> eval e i (iz_current (izg k)) = fb (feqb (adv (MU_zero_value k) i) f0).
  Proof.
    intros Hk Hi. apply iz_current_sound; [lia|]. pose proof (HD i Hi) as D.
    destruct D as (_ & D & _). apply den_for_each in D. rewrite Forall_forall in D. apply D.
    destruct k as [|[|[|[|k]]]]; cbn; auto. lia.
  Qed.

  (** ** row conditions *)
  Ltac nodup := repeat constructor; cbn; intuition discriminate.

  Lemma den_cond i b body v : den e i (Condition b body) -> eval e i b = fb v -> v = true -> den e i body.
  Proof. intros D E ->. apply D. exact E. Qed.

  Lemma r_start_iff i : 1 <= i < n -> (sg i = SegStart <-> pa i = PathStart).
  Proof.
    intros Hi. pose proof (HD i Hi) as D. destruct D as (_ & _ & _ & _ & (D & _) & _).
    apply (proj1 (den_assert_equal e i _ _ _)) in D. unfold cur_seg, cur_path, current_matches in D.
    rewrite ev_seg, ev_path in D by (try nodup; lia). rewrite Z.add_0_r in D. apply fb_inj in D.
    destruct (sg i), (pa i); cbn in D; split; congruence.
  Qed.

  Definition r_start_facts i :=
    PH (adv (iv 0) i) (adv (iv 1) i * fz (2 ^ 96))%fr (fdom DPair) (adv MU_key i) /\
    lookup_hit e i [cur (iv 0); qz 15] bytes_lookup /\
    lookup_hit e i [cur (iv 1); qz 3] bytes_lookup /\
    lookup_hit e i [cur MU_old_hash; cur (sp 0)] fr_rlc_lookup /\
    lookup_hit e i [cur MU_new_hash; cur (sp 1)] fr_rlc_lookup.
  Lemma r_start i : 1 <= i < n -> sg i = SegStart -> r_start_facts i.
  Proof.
    intros Hi Hs. pose proof (HD i Hi) as D. destruct D as (_ & _ & _ & _ & (_ & D & _) & _).
    assert (E : eval e i (band (cur_seg [SegStart]) (fcur SEL)) = f1).
    { rewrite eval_band. unfold cur_seg, current_matches. rewrite ev_seg by (try nodup; lia).
      rewrite Z.add_0_r, Hs. rewrite eval_fcur by lia. rewrite (fo_cells e n F SEL i) by (try discriminate; lia).
      cbn [fixed_cell]. replace (in_range 1 i n) with true by (symmetry; apply in_range_true; lia). cbn. ring. }
    specialize (D E). destruct D as (D1 & D2 & D3 & D4 & D5).
    cbn [den] in D1. rewrite !ev_cur in D1 by lia. cbn [eval] in D1.
    unfold r_start_facts. refine (conj _ (conj (D2 eq_refl) (conj (D3 eq_refl) (conj (D4 eq_refl) (D5 eq_refl))))).
    unfold PH. rewrite ev_cur in D1 by lia. exact D1.
  Qed.

  Lemma r_nonstart i : 2 <= i < n -> sg i <> SegStart ->
    pt i = pt (i - 1) /\ adv MU_storage_key_rlc i = adv MU_storage_key_rlc (i - 1) /\
    adv MU_old_value i = adv MU_old_value (i - 1) /\ adv MU_new_value i = adv MU_new_value (i - 1).
  Proof.
    intros Hi Hs. pose proof (HD i ltac:(lia)) as D. destruct D as (_ & _ & _ & _ & (_ & _ & D) & _).
    assert (E : eval e i (bnot (cur_seg [SegStart])) = f1).
    { rewrite eval_bnot. unfold cur_seg, current_matches. rewrite ev_seg by (try nodup; lia).
      clear D; rewrite Z.add_0_r. destruct (sg i); cbn; try congruence; ring. }
    specialize (D E). destruct D as (D1 & D2 & D3 & D4).
    apply (proj1 (den_assert_equal e i _ _ _)) in D1, D2, D3, D4.
    rewrite ev_cur, ev_prev in D2 by lia. rewrite ev_cur, ev_prev in D3 by lia. rewrite ev_cur, ev_prev in D4 by lia.
    refine (conj _ (conj D2 (conj D3 D4))).
    unfold oh_current, oh_previous in D1.
    destruct (eval_oh_index oh_proof ptype_wf NonceChanged e i 0 i) as (k & K1 & K2); [rewrite Z.add_0_r; apply Z.mod_small; lia|apply row_pt; lia|].
    destruct (eval_oh_index oh_proof ptype_wf NonceChanged e i (-1) (i - 1)) as (k' & K1' & K2'); [apply Z.mod_small; lia|apply row_pt; lia|].
    rewrite K2, K2' in D1.
    assert (L : (k < 9)%nat) by (change 9%nat with (List.length ptype_variants); apply nth_error_Some; unfold oh_variants, oh_proof in K1; congruence).
    assert (L' : (k' < 9)%nat) by (change 9%nat with (List.length ptype_variants); apply nth_error_Some; unfold oh_variants, oh_proof in K1'; congruence).
    apply fz_inj in D1; [|apply small_lt_modulus; lia|apply small_lt_modulus; lia].
    apply Nat2Z.inj in D1. subst k'. unfold pt. congruence.
  Qed.

  Lemma r_key i : 1 <= i < n -> sg i <> SegStart -> sg i <> AccountLeaf3 ->
    adv MU_key i = adv MU_key (i - 1) /\ adv MU_other_key i = adv MU_other_key (i - 1).
  Proof.
    intros Hi Hs Hs'. pose proof (HD i ltac:(lia)) as D. destruct D as (_ & _ & _ & _ & _ & D & _).
    assert (E : eval e i (bnot (cur_seg [SegStart; AccountLeaf3])) = f1).
    { rewrite eval_bnot. unfold cur_seg, current_matches. rewrite ev_seg by (try nodup; lia).
      clear D; rewrite Z.add_0_r. destruct (sg i); cbn; try congruence; ring. }
    specialize (D E). destruct D as (D1 & D2).
    apply (proj1 (den_assert_equal e i _ _ _)) in D1, D2.
    rewrite ev_cur, ev_prev in D1 by lia. rewrite ev_cur, ev_prev in D2 by lia. auto.
  Qed.

  Definition is_trie_seg (s : SegmentType) := match s with AccountTrie | StorageTrie => true | _ => false end.
  Lemma r_trie i : 1 <= i < n -> is_trie_seg (sg i) = true ->
    lookup_hit e i [cur MU_key; (cur MU_depth - qone)%q; cur MU_direction] key_bit_lookup /\
    adv MU_depth i = (adv MU_depth (i - 1) + 1)%fr /\
    (pa i = Common -> lookup_hit e i [cur MU_other_key; (cur MU_depth - qone)%q; cur MU_direction] key_bit_lookup).
  Proof.
    intros Hi Hs. pose proof (HD i ltac:(lia)) as D. destruct D as (_ & _ & _ & _ & _ & _ & (D & _) & _).
    assert (E : eval e i (cur_seg [AccountTrie; StorageTrie]) = f1).
    { unfold cur_seg, current_matches. rewrite ev_seg by (try nodup; lia).
      rewrite Z.add_0_r. clear D; destruct (sg i); cbn in Hs |- *; try congruence. }
    specialize (D E). destruct D as (D1 & D2 & D3).
    apply (proj1 (den_assert_equal e i _ _ _)) in D2. cbn [eval] in D2.
    refine (conj (D1 eq_refl) (conj _ _)).
    - rewrite ev_cur, ev_prev in D2 by lia. exact D2.
    - intros Hp. apply D3; [|reflexivity]. unfold cur_path, current_matches. rewrite ev_path by (try nodup; lia).
      rewrite Z.add_0_r, Hp. reflexivity.
  Qed.
  Lemma r_depth0 i : 1 <= i < n -> is_trie_seg (sg i) = false -> adv MU_depth i = f0.
  Proof.
    intros Hi Hs. pose proof (HD i ltac:(lia)) as D. destruct D as (_ & _ & _ & _ & _ & _ & (_ & D) & _).
    assert (E : eval e i (bnot (cur_seg [AccountTrie; StorageTrie])) = f1).
    { rewrite eval_bnot. unfold cur_seg, current_matches. rewrite ev_seg by (try nodup; lia).
      clear D; rewrite Z.add_0_r. destruct (sg i); cbn in Hs |- *; try congruence; ring. }
    specialize (D E). cbn [den] in D. rewrite ev_cur in D by lia. exact D.
  Qed.

  (** ** path types *)
  Lemma path_in p : In p path_variants. Proof. destruct p; cbn; tauto. Qed.
  Lemma seg_in s : In s seg_variants. Proof. destruct s; cbn; tauto. Qed.
  Lemma pt_in t : In t ptype_variants. Proof. destruct t; cbn; tauto. Qed.
  Lemma path_eqb_refl p : path_eqb p p = true. Proof. destruct p; reflexivity. Qed.
  Lemma seg_eqb_refl p : seg_eqb p p = true. Proof. destruct p; reflexivity. Qed.
  Lemma ptype_eqb_refl p : ptype_eqb p p = true. Proof. destruct p; reflexivity. Qed.

  Lemma den_path i : 1 <= i < n -> den e i (configure_path (pa i)).
  Proof.
    intros Hi. pose proof (HD i ltac:(lia)) as D. destruct D as (_ & _ & _ & _ & _ & _ & _ & D & _).
    apply den_for_each in D. rewrite Forall_forall in D. specialize (D (pa i) (path_in _)). apply D.
    unfold cur_path, current_matches. rewrite ev_path by (try nodup; lia). rewrite Z.add_0_r. cbn.
    rewrite path_eqb_refl. reflexivity.
  Qed.
  Lemma den_domain i : 1 <= i < n -> den e i (configure_domain (sg i)).
  Proof.
    intros Hi. pose proof (HD i ltac:(lia)) as D. destruct D as (_ & _ & _ & _ & _ & _ & _ & _ & D & _).
    apply den_for_each in D. rewrite Forall_forall in D. specialize (D (sg i) (seg_in _)). apply D.
    unfold cur_seg, current_matches. rewrite ev_seg by (try nodup; lia). rewrite Z.add_0_r. cbn.
    rewrite seg_eqb_refl. reflexivity.
  Qed.
  Lemma den_proof i : 1 <= i < n -> den e i (configure_proof H (pt i)).
  Proof.
    intros Hi. pose proof (HD i ltac:(lia)) as D. destruct D as (_ & _ & _ & _ & _ & _ & _ & _ & _ & D).
    apply den_for_each in D. rewrite Forall_forall in D. specialize (D (pt i) (pt_in _)). apply D.
    unfold current_matches. rewrite ev_pt by (try nodup; lia). rewrite Z.add_0_r. cbn.
    rewrite ptype_eqb_refl. reflexivity.
  Qed.

  Lemma r_domain i : 1 <= i < n -> exists d, In d (seg_domains (sg i)) /\ adv MU_domain i = fdom d.
  Proof.
    intros Hi. pose proof (den_domain i Hi) as D. unfold configure_domain in D. cbn [den] in D.
    assert (G : forall l a, eval e i (fold_left (fun product d => (product * (cur MU_domain - qdom d))%q) l a) = f0 ->
      eval e i a = f0 \/ exists d, In d l /\ adv MU_domain i = fdom d).
    { induction l as [|d l IH]; intros a Ha; cbn [fold_left] in Ha; [left; exact Ha|].
      apply IH in Ha. destruct Ha as [Ha|(d' & A & B)].
      - change (eval e i (a * (cur MU_domain - qdom d))%q) with (eval e i a * eval e i (cur MU_domain - qdom d)%q)%fr in Ha.
        apply fmul_eq0 in Ha. destruct Ha as [Ha|Ha]; [left; exact Ha|right]. exists d. split; [left; reflexivity|].
        rewrite eval_sub, ev_cur in Ha by lia. apply (proj1 (fsub_eq0 _ _)) in Ha. exact Ha.
      - right. exists d'. split; [right; exact A|exact B]. }
    apply G in D. destruct D as [D|D]; [|exact D]. exfalso. apply f1_neq_f0. exact D.
  Qed.

  Lemma r_path_trans i : 1 <= i -> i + 1 < n -> In (pa (i + 1)) (path_transitions (pa i)).
  Proof.
    intros Hi Hi'. pose proof (den_path i ltac:(lia)) as D. destruct D as [D _].
    apply den_assert in D. unfold next_path, next_matches in D. rewrite ev_path in D.
    - apply fb_true in D. destruct (pa i), (pa (i + 1)); cbn in D |- *; tauto || discriminate.
    - lia.
    - destruct (pa i); cbn; nodup.
  Qed.
  Lemma r_seg_trans i : 1 <= i -> i + 1 < n -> exists l, seg_transitions (pt i) (sg i) = Some l /\ In (sg (i + 1)) l.
  Proof.
    intros Hi Hi'. pose proof (den_proof i ltac:(lia)) as D. destruct D as [D _].
    apply den_for_each in D. rewrite Forall_forall in D. specialize (D (sg i) (seg_in _)).
    assert (E : eval e i (cur_seg [sg i]) = f1).
    { unfold cur_seg, current_matches. rewrite ev_seg by (try nodup; lia). rewrite Z.add_0_r. cbn.
      rewrite seg_eqb_refl. reflexivity. }
    specialize (D E). destruct (seg_transitions (pt i) (sg i)) as [l|] eqn:T.
    - exists l. split; [reflexivity|]. apply den_assert in D. unfold next_seg, next_matches in D. rewrite ev_seg in D.
      + apply fb_true in D. apply existsb_exists in D. destruct D as (x & A & B).
        replace (sg (i + 1)) with x; [exact A|]. destruct x, (sg (i + 1)); cbn in B; congruence.
      + lia.
      + destruct (pt i), (sg i); cbn in T; try discriminate T; injection T as <-; nodup.
    - unfold assert_unreachable in D. apply den_assert in D. exfalso. apply f1_neq_f0. symmetry. exact D.
  Qed.
  (* the same on the last enabled row, whose successor is not constrained *)
  Lemma r_seg_reach i : 1 <= i < n -> seg_transitions (pt i) (sg i) <> None.
  Proof.
    intros Hi N. pose proof (den_proof i ltac:(lia)) as D. destruct D as [D _].
    apply den_for_each in D. rewrite Forall_forall in D. specialize (D (sg i) (seg_in _)).
    assert (E : eval e i (cur_seg [sg i]) = f1).
    { unfold cur_seg, current_matches. rewrite ev_seg by (try nodup; lia). rewrite Z.add_0_r. cbn.
      rewrite seg_eqb_refl. reflexivity. }
    specialize (D E). rewrite N in D.
    unfold assert_unreachable in D. apply den_assert in D. apply f1_neq_f0. symmetry. exact D.
  Qed.

  Definition oldP i d := PH (lc (adv MU_direction i) (adv MU_sibling i) (adv MU_old_hash i))
    (rc (adv MU_direction i) (adv MU_sibling i) (adv MU_old_hash i)) d (adv MU_old_hash (i - 1)).
  Definition newP i d := PH (lc (adv MU_direction i) (adv MU_sibling i) (adv MU_new_hash i))
    (rc (adv MU_direction i) (adv MU_sibling i) (adv MU_new_hash i)) d (adv MU_new_hash (i - 1)).

  Lemma ev_lr i (h : acol) : 1 <= i < n ->
    eval e i (cur MU_direction * cur MU_sibling + (qone - cur MU_direction) * cur h)%q
      = lc (adv MU_direction i) (adv MU_sibling i) (adv h i) /\
    eval e i (cur MU_direction * cur h + (qone - cur MU_direction) * cur MU_sibling)%q
      = rc (adv MU_direction i) (adv MU_sibling i) (adv h i).
  Proof.
    intros Hi. unfold lc, rc.
    rewrite <- !(ev_cur i) by exact Hi. split.
    - change (eval e i (cur MU_direction) * eval e i (cur MU_sibling) + eval e i (qone - cur MU_direction)%q * eval e i (cur h)
        = eval e i (cur MU_direction) * eval e i (cur MU_sibling) + (1 - eval e i (cur MU_direction)) * eval e i (cur h))%fr.
      rewrite eval_sub. reflexivity.
    - change (eval e i (cur MU_direction) * eval e i (cur h) + eval e i (qone - cur MU_direction)%q * eval e i (cur MU_sibling)
        = eval e i (cur MU_direction) * eval e i (cur h) + (1 - eval e i (cur MU_direction)) * eval e i (cur MU_sibling))%fr.
      rewrite eval_sub. reflexivity.
  Qed.
  Lemma den_oldP i d : 1 <= i < n ->
    poseidon_hit e (eval e i old_left) (eval e i old_right) (eval e i d) (eval e i (prev MU_old_hash)) -> oldP i (eval e i d).
  Proof.
    intros Hi D. unfold old_left, old_right in D.
    destruct (ev_lr i MU_old_hash Hi) as [A B]. rewrite A, B, ev_prev in D by exact Hi. exact D.
  Qed.
  Lemma den_newP i d : 1 <= i < n ->
    poseidon_hit e (eval e i new_left) (eval e i new_right) (eval e i d) (eval e i (prev MU_new_hash)) -> newP i (eval e i d).
  Proof.
    intros Hi D. unfold new_left, new_right in D.
    destruct (ev_lr i MU_new_hash Hi) as [A B]. rewrite A, B, ev_prev in D by exact Hi. exact D.
  Qed.

  (* the domain of a branch after the child on side d became a branch; identity for AccountFields *)
  Definition upgrade (right : bool) (d : HashDomain) : option HashDomain :=
    match d with
    | Branch0 => Some (if right then Branch1 else Branch2)
    | Branch1 | Branch2 => Some Branch3
    | AccountFields => Some AccountFields
    | _ => None
    end.
  Lemma fdom_inj a b : fdom a = fdom b -> a = b.
  Proof.
    intros E. unfold fdom in E. apply fz_inj in E; [|destruct a; apply small_lt_modulus; cbn; lia|destruct b; apply small_lt_modulus; cbn; lia].
    destruct a, b; cbn in E; congruence || lia.
  Qed.
  Lemma ev_new_domain i qd d d' right : 1 <= i < n -> (forall x, eval e i (qd x) = fdom x) ->
    adv MU_domain i = fdom d -> adv MU_direction i = fb right -> upgrade right d = Some d' ->
    eval e i (new_domain_query qd) = fdom d'.
  Proof.
    intros Hi Hq Hd Hr U. unfold new_domain_query.
    set (pts := [(fdom Branch0, _); _; _; _]).
    assert (N : NoDup (map fst pts)).
    { cbn. repeat constructor; cbn; intros X; repeat (destruct X as [X|X]; [apply fdom_inj in X; discriminate|]); contradiction. }
    assert (K : forall k x y, nth_error pts k = Some (x, y) -> adv MU_domain i = x ->
       eval e i (lagrange_polynomial (cur MU_domain) pts) = eval e i y).
    { intros k x y Hk Hx. apply (lagrange_interpolates e i _ pts k x y N Hk). rewrite ev_cur by exact Hi. exact Hx. }
    destruct d; cbn in U; try discriminate U; injection U as <-.
    - rewrite (K 0%nat _ _ eq_refl Hd). rewrite eval_bselect, ev_cur, Hr, !Hq by exact Hi. destruct right; cbn [fb]; ring.
    - rewrite (K 1%nat _ _ eq_refl Hd). apply Hq.
    - rewrite (K 2%nat _ _ eq_refl Hd). apply Hq.
    - rewrite (K 3%nat _ _ eq_refl Hd). apply Hq.
  Qed.

  Definition is_leaf0 (s : SegmentType) := match s with AccountLeaf0 | StorageLeaf0 => true | _ => false end.
  Definition common_facts i :=
    match pa (i + 1) with
    | Common | PathStart => oldP i (adv MU_domain i) /\ newP i (adv MU_domain i)
    | ExtensionNew =>
        (exists d, In d [Branch0; Branch1; Branch2; AccountFields] /\ adv MU_domain i = fdom d) /\
        oldP i (adv MU_domain i) /\
        if is_leaf0 (sg (i + 1)) then adv MU_old_hash i = f0 /\ newP i (adv MU_domain i)
        else newP i (adv (iv 2) i) /\
             forall d d' right, adv MU_domain i = fdom d -> adv MU_direction i = fb right ->
               upgrade right d = Some d' -> adv (iv 2) i = fdom d'
    | ExtensionOld =>
        (exists d, In d [Branch0; Branch1; Branch2; AccountFields] /\ adv MU_domain i = fdom d) /\
        newP i (adv MU_domain i) /\
        if is_leaf0 (sg (i + 1)) then adv MU_new_hash i = f0 /\ oldP i (adv MU_domain i)
        else oldP i (adv (iv 2) i) /\
             forall d d' right, adv MU_domain i = fdom d -> adv MU_direction i = fb right ->
               upgrade right d = Some d' -> adv (iv 2) i = fdom d'
    end.
  Lemma dom_not3 i : 1 <= i < n -> eval e i domain_not_branch3 = f0 ->
    exists d, In d [Branch0; Branch1; Branch2; AccountFields] /\ adv MU_domain i = fdom d.
  Proof.
    intros Hi D. unfold domain_not_branch3 in D.
    assert (G : forall d, eval e i (cur MU_domain - qdom d)%q = f0 -> adv MU_domain i = fdom d).
    { intros d E. rewrite eval_sub, ev_cur in E by exact Hi. apply (proj1 (fsub_eq0 _ _)) in E. exact E. }
    apply fmul_eq0 in D. destruct D as [D|D]; [apply fmul_eq0 in D; destruct D as [D|D]; [apply fmul_eq0 in D; destruct D as [D|D]|]|];
      apply G in D; eexists; (split; [|exact D]); cbn; tauto.
  Qed.
  Lemma r_common i : 1 <= i -> i + 1 < n -> pa i = Common -> common_facts i.
  Proof.
    intros Hi Hi' Hp. assert (Hin : 1 <= i < n) by lia.
    pose proof (den_path i Hin) as D. rewrite Hp in D. destruct D as (_ & D1 & D2 & D3).
    unfold common_facts.
    assert (E : forall vs, NoDup vs -> eval e i (next_path vs) = fb (existsb (path_eqb (pa (i + 1))) vs)).
    { intros vs Hv. apply ev_path; [lia|exact Hv]. }
    assert (ES : eval e i (next_seg [AccountLeaf0; StorageLeaf0]) = fb (is_leaf0 (sg (i + 1)))).
    { unfold next_seg, next_matches. rewrite ev_seg by (try nodup; lia). destruct (sg (i + 1)); reflexivity. }
    destruct (pa (i + 1)) eqn:P1.
    - destruct D1 as [A B]; [rewrite E by nodup; reflexivity|].
      apply den_oldP in A; [|exact Hin]. apply den_newP in B; [|exact Hin]. rewrite ev_cur in A by exact Hin. rewrite ev_cur in B by exact Hin. auto.
    - destruct D1 as [A B]; [rewrite E by nodup; reflexivity|].
      apply den_oldP in A; [|exact Hin]. apply den_newP in B; [|exact Hin]. rewrite ev_cur in A by exact Hin. rewrite ev_cur in B by exact Hin. auto.
    - destruct D3 as (A & B & C1 & C2); [rewrite E by nodup; reflexivity|].
      apply dom_not3 in A; [|exact Hin]. split; [exact A|].
      apply den_newP in B; [|exact Hin]. rewrite ev_cur in B by exact Hin. split; [exact B|].
      destruct (is_leaf0 (sg (i + 1))).
      + destruct C2 as [X Y]; [rewrite ES; reflexivity|]. cbn [den] in X. rewrite ev_cur in X by exact Hin.
        apply den_oldP in Y; [|exact Hin]. rewrite ev_cur in Y by exact Hin. auto.
      + destruct C1 as [X Y]; [rewrite eval_bnot, ES; cbn; ring|].
        apply (proj1 (den_assert_equal e i _ _ _)) in X. rewrite ev_cur in X by exact Hin.
        apply den_oldP in Y; [|exact Hin]. rewrite ev_cur in Y by exact Hin. split; [exact Y|].
        intros d d' right Hd Hr U. rewrite X. apply (ev_new_domain i _ d d' right Hin); try assumption.
        intros x. apply eval_q_of_fr.
    - destruct D2 as (A & B & C1 & C2); [rewrite E by nodup; reflexivity|].
      apply dom_not3 in A; [|exact Hin]. split; [exact A|].
      apply den_oldP in B; [|exact Hin]. rewrite ev_cur in B by exact Hin. split; [exact B|].
      destruct (is_leaf0 (sg (i + 1))).
      + destruct C2 as [X Y]; [rewrite ES; reflexivity|]. cbn [den] in X. rewrite ev_cur in X by exact Hin.
        apply den_newP in Y; [|exact Hin]. rewrite ev_cur in Y by exact Hin. auto.
      + destruct C1 as [X Y]; [rewrite eval_bnot, ES; cbn; ring|].
        apply (proj1 (den_assert_equal e i _ _ _)) in X. rewrite ev_cur in X by exact Hin.
        apply den_newP in Y; [|exact Hin]. rewrite ev_cur in Y by exact Hin. split; [exact Y|].
        intros d d' right Hd Hr U. rewrite X. apply (ev_new_domain i _ d d' right Hin); try assumption.
        intros x. reflexivity.
  Qed.

  (** ** non-existence and words *)
  Definition nonex (value hash : Fr) (key other : Fr) (data : Fr) : Prop :=
    value = f0 /\
    ((key = other /\ hash = f0) \/ (key <> other /\ hash <> f0 /\ PH other data (fdom DLeaf) hash)).
  Lemma r_nonex i value hash data : 1 <= i < n ->
    den e i (nonexistence_configure value MU_key MU_other_key (izg 2) hash (izg 3) data) ->
    nonex (adv value i) (adv hash i) (adv MU_key i) (adv MU_other_key i) (adv data i).
  Proof.
    intros Hi D. destruct D as (D1 & D2 & D3 & D4 & D5).
    cbn [den] in D1. rewrite ev_cur in D1 by exact Hi. split; [exact D1|].
    apply (proj1 (den_assert_equal e i _ _ _)) in D2, D3, D4.
    rewrite eval_sub in D2. rewrite !ev_cur in D2 by exact Hi. rewrite !ev_cur in D3 by exact Hi.
    change (eval e i (bnot (iz_current (izg 2)) + iz_current (izg 3))%q) with
      (eval e i (bnot (iz_current (izg 2))) + eval e i (iz_current (izg 3)))%fr in D4.
    rewrite eval_bnot in D4. rewrite !ev_iz in D4 by (exact Hi || lia).
    change (adv (iz_value (izg 2)) i) with (adv (MU_zero_value 2) i) in D2.
    change (adv (iz_value (izg 3)) i) with (adv (MU_zero_value 3) i) in D3.
    change (eval e i qone) with f1 in D4.
    cbn [den] in D5. rewrite eval_bnot, ev_iz in D5 by (exact Hi || lia).
    rewrite D2 in *. rewrite D3 in *. rewrite !ev_cur in D5 by exact Hi.
    destruct (feqb_spec (adv MU_key i - adv MU_other_key i)%fr f0) as [E|E]; cbn [fb] in *.
    - left. split; [apply fsub_eq0; exact E|].
      destruct (feqb_spec (adv hash i) f0) as [E'|E']; [exact E'|]. exfalso. cbn [fb] in D4.
      apply f1_neq_f0. rewrite D4. ring.
    - right. split; [intros E'; apply E; apply fsub_eq0; exact E'|]. split.
      + intros E'. rewrite E', feqb_refl in D4. cbn [fb] in D4. apply f1_neq_f0.
        transitivity ((1 - 0 + 1) - 1)%fr; [ring|]. rewrite <- D4. ring.
      + apply D5. ring.
  Qed.

  Definition word_facts i (word_hash high low rlc_word rlc_high rlc_low : acol) :=
    lookup_hit e i [cur high; qz 15; cur rlc_high] rlc_lookup /\
    lookup_hit e i [cur low; qz 15; cur rlc_low] rlc_lookup /\
    PH (adv high i) (adv low i) (fdom DPair) (adv word_hash i) /\
    adv rlc_word i = (adv rlc_high i * fpow (echal e) 16 + adv rlc_low i)%fr.
  Lemma r_word i wh h l rw rh rl : 1 <= i < n -> den e i (word_rlc_configure wh h l rw rh rl) -> word_facts i wh h l rw rh rl.
  Proof.
    intros Hi (D1 & D2 & D3 & D4 & D5 & D6). cbn [den] in D3. rewrite !ev_cur in D3 by exact Hi.
    apply (proj1 (den_assert_equal e i _ _ _)) in D6. rewrite ev_cur in D6 by exact Hi.
    refine (conj (D4 eq_refl) (conj (D5 eq_refl) (conj D3 _))). rewrite D6.
    change (eval e i (cur rh * qsquare (qsquare (qsquare (qsquare randomness))) + cur rl)%q)
      with (eval e i (cur rh) * eval e i (qsquare (qsquare (qsquare (qsquare randomness)))) + eval e i (cur rl))%fr.
    rewrite !ev_cur by exact Hi. f_equal. f_equal. unfold randomness, qsquare. cbn [eval fpow]. ring.
  Qed.

  (** ** extension rows *)
  Lemma r_ext_new i : 2 <= i -> i + 1 < n -> pa i = ExtensionNew ->
    In (pt i) [NonceChanged; BalanceChanged; StorageChanged] /\
    adv MU_old_value i = f0 /\ adv MU_old_hash i = adv MU_old_hash (i - 1) /\
    newP i (adv MU_domain i) /\
    (pa (i - 1) = ExtensionNew \/ is_trie_seg (sg i) = true \/ is_leaf0 (sg i) = true) /\
    (is_trie_seg (sg i) = true ->
      adv MU_sibling i = if is_trie_seg (sg (i + 1)) then f0 else adv MU_old_hash i) /\
    (is_leaf0 (sg i) = true ->
      nonex (adv MU_old_value i) (adv MU_old_hash i) (adv MU_key i) (adv MU_other_key i) (adv (iv 9) i)).
  Proof.
    intros Hi Hi' Hp. assert (Hin : 1 <= i < n) by lia.
    pose proof (den_path i Hin) as D. rewrite Hp in D. destruct D as (_ & D1 & D2 & D3 & D4 & D5 & D6 & D7).
    apply den_assert in D1. unfold current_matches in D1. rewrite ev_pt, Z.add_0_r in D1 by (try nodup; lia).
    apply fb_true in D1. split; [clear - D1; destruct (pt i); cbn in D1 |- *; tauto || discriminate|].
    cbn [den] in D2. rewrite ev_cur in D2 by exact Hin. split; [exact D2|].
    apply (proj1 (den_assert_equal e i _ _ _)) in D3. rewrite ev_cur, ev_prev in D3 by exact Hin. split; [exact D3|].
    apply den_newP in D4; [|exact Hin]. rewrite ev_cur in D4 by exact Hin. split; [exact D4|].
    apply den_assert in D5. unfold previous_matches, cur_seg, current_matches in D5.
    rewrite eval_bor, ev_path, ev_seg, Z.add_0_r in D5 by (try nodup; lia). rewrite fb_or in D5. apply fb_true in D5.
    replace (i + -1) with (i - 1) in D5 by lia.
    split; [clear - D5; destruct (pa (i - 1)), (sg i); cbn in D5 |- *; auto; discriminate|].
    split.
    - intros Ht. destruct D6 as [A B].
      { unfold cur_seg, current_matches. rewrite ev_seg, Z.add_0_r by (try nodup; lia). clear - Ht; destruct (sg i); cbn in Ht |- *; congruence || reflexivity. }
      assert (E : eval e i (next_seg [AccountTrie; StorageTrie]) = fb (is_trie_seg (sg (i + 1)))).
      { unfold next_seg, next_matches. rewrite ev_seg by (try nodup; lia). destruct (sg (i + 1)); reflexivity. }
      destruct (is_trie_seg (sg (i + 1))).
      + cbn [den] in A. rewrite !eval_bnot, E, ev_cur in A by exact Hin. apply A. cbn; ring.
      + apply (proj1 (den_assert_equal e i _ _ _)) in B; [|rewrite eval_bnot, E; cbn; ring]. rewrite !ev_cur in B by exact Hin. exact B.
    - intros Hl. apply r_nonex; [exact Hin|]. apply D7.
      unfold cur_seg, current_matches. rewrite ev_seg, Z.add_0_r by (try nodup; lia). clear - Hl; destruct (sg i); cbn in Hl |- *; congruence || reflexivity.
  Qed.
  Lemma r_ext_old i : 2 <= i -> i + 1 < n -> pa i = ExtensionOld ->
    pt i = StorageChanged /\ In (sg i) [StorageTrie; StorageLeaf0] /\
    adv MU_new_value i = f0 /\ adv MU_new_hash i = adv MU_new_hash (i - 1) /\
    oldP i (adv MU_domain i) /\
    (sg i = StorageTrie ->
      adv MU_sibling i = if seg_eqb (sg (i + 1)) StorageLeaf0 then adv MU_new_hash (i - 1) else f0) /\
    (sg i = StorageLeaf0 ->
      nonex (adv MU_new_value i) (adv MU_new_hash i) (adv MU_key i) (adv MU_other_key i) (adv (iv 9) i)).
  Proof.
    intros Hi Hi' Hp. assert (Hin : 1 <= i < n) by lia.
    pose proof (den_path i Hin) as D. rewrite Hp in D. destruct D as (_ & D1 & D2 & D3 & D4 & D5 & D6 & D7).
    apply den_assert in D1. unfold cur_seg, current_matches in D1. rewrite eval_band, ev_pt, ev_seg, Z.add_0_r in D1 by (try nodup; lia).
    rewrite fb_and in D1. apply fb_true in D1. apply andb_true_iff in D1. destruct D1 as [D1 D1'].
    split; [clear - D1; destruct (pt i); cbn in D1; congruence|]. split; [clear - D1'; destruct (sg i); cbn in D1' |- *; tauto || discriminate|].
    cbn [den] in D2. rewrite ev_cur in D2 by exact Hin. split; [exact D2|].
    apply (proj1 (den_assert_equal e i _ _ _)) in D3. rewrite ev_cur, ev_prev in D3 by exact Hin. split; [exact D3|].
    apply den_oldP in D4; [|exact Hin]. rewrite ev_cur in D4 by exact Hin. split; [exact D4|].
    split.
    - intros Ht. destruct D6 as [A B].
      { unfold cur_seg, current_matches. rewrite ev_seg, Z.add_0_r, Ht by (try nodup; lia). reflexivity. }
      assert (E : eval e i (next_seg [StorageLeaf0]) = fb (seg_eqb (sg (i + 1)) StorageLeaf0)).
      { unfold next_seg, next_matches. rewrite ev_seg by (try nodup; lia). destruct (sg (i + 1)); reflexivity. }
      destruct (seg_eqb (sg (i + 1)) StorageLeaf0).
      + apply (proj1 (den_assert_equal e i _ _ _)) in B; [|rewrite E; reflexivity]. rewrite ev_cur, ev_prev in B by exact Hin. exact B.
      + cbn [den] in A. rewrite !eval_bnot, E, ev_cur in A by exact Hin. apply A. cbn; ring.
    - intros Hl. apply r_nonex; [exact Hin|]. apply D7.
      unfold cur_seg, current_matches. rewrite ev_seg, Z.add_0_r, Hl by (try nodup; lia). reflexivity.
  Qed.

  (** ** proof-specific constraints *)
  Lemma den_by_segment i f : 1 <= i < n -> den e i (by_segment f) -> den e i (f (sg i)).
  Proof.
    intros Hi D. apply den_for_each in D. rewrite Forall_forall in D. specialize (D (sg i) (seg_in _)). apply D.
    unfold cur_seg, current_matches. rewrite ev_seg by (try nodup; lia). rewrite Z.add_0_r. cbn.
    rewrite seg_eqb_refl. reflexivity.
  Qed.
  Lemma den_is_path i p c : 1 <= i < n -> den e i (is_path p c) -> pa i = p -> den e i c.
  Proof.
    intros Hi D Hp. apply D. unfold cur_path, current_matches. rewrite ev_path by (try nodup; lia).
    rewrite Z.add_0_r, Hp. cbn. rewrite path_eqb_refl. reflexivity.
  Qed.
  Lemma den_dir1 i : 1 <= i < n -> den e i direction_is_1 -> adv MU_direction i = f1.
  Proof. intros Hi D. apply (proj1 (den_assert_equal e i _ _ _)) in D. rewrite ev_cur in D by exact Hi. exact D. Qed.
  Lemma den_dir0 i : 1 <= i < n -> den e i direction_is_0 -> adv MU_direction i = f0.
  Proof. intros Hi D. cbn [den direction_is_0] in D. rewrite ev_cur in D by exact Hi. exact D. Qed.
  Lemma r_empty_part i h : 1 <= i -> i + 1 < n -> den e i (empty_account_part h) -> sg (i + 1) = SegStart ->
    adv MU_old_hash i = adv MU_new_hash i /\ adv MU_old_value i = adv MU_new_value i /\
    nonex (adv MU_old_value i) (adv h i) (adv MU_key i) (adv MU_other_key i) (adv (iv 3) i).
  Proof.
    intros Hi Hi' D Hs. destruct D as (A & B & C).
    { unfold next_seg, next_matches. rewrite ev_seg by (try nodup; lia). rewrite Hs. reflexivity. }
    apply (proj1 (den_assert_equal e i _ _ _)) in A, B. rewrite !ev_cur in A by lia. rewrite !ev_cur in B by lia.
    apply r_nonex in C; [|lia]. auto.
  Qed.
End Rows.
