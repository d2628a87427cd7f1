(* Sufficient conditions for a row to satisfy the constraints of mpt_update_configure. *)
From Coq Require Import ZArith String List Bool Lia.
From Verif Require Import Pocklington Fr Query Builder BuilderProofs Gadgets MptUpdate Bytes GadgetProofs LagrangeProofs Fixed UpdateRows TrieSpec GadgetMain GadgetMain2.
Import ListNotations.
Open Scope Z_scope.

Lemma okc_cond e i q body b : eval e i q = fb b -> (b = true -> okc e i body) -> okc e i (Condition q body).
Proof. intros E K. cbn [okc]. destruct b; [right; split; [exact E|auto]|left; exact E]. Qed.
Lemma okpos_cond e i q body b : eval e i q = fb b -> (b = true -> okpos e i body) -> okpos e i (Condition q body).
Proof. intros E K. cbn [okpos]. destruct b; [right; split; [exact E|auto]|left; exact E]. Qed.
Lemma okpos_for_each {A} e i (xs : list A) f : okpos e i (for_each xs f) <-> Forall (fun x => okpos e i (f x)) xs.
Proof.
  induction xs as [|x xs IH]; cbn; split; intros H; try constructor; try tauto.
  - inversion H; subst. assumption.
  - inversion H; subst. tauto.
Qed.
Lemma accepts_okc e i nm left right : List.length left = List.length right -> accepts e right (map (eval e i) left) ->
  okc e i (AddLookup nm left right).
Proof.
  intros L (t & [Ht St] & E). cbn [okc]. split; [exact L|]. exists t. split; [exact Ht|]. split; [exact St|].
  unfold tuple_match. revert right L E. induction left as [|a l IH]; intros [|b r] L E; try discriminate L; constructor.
  - cbn [map] in E. congruence.
  - apply IH; [cbn in L; congruence|cbn [map] in E; congruence].
Qed.

Lemma nodup_index {A} (l : list A) k k' v : NoDup l -> nth_error l k = Some v -> nth_error l k' = Some v -> k = k'.
Proof.
  intros N E E'. rewrite NoDup_nth_error in N. apply N; [|congruence]. apply nth_error_Some. congruence.
Qed.
Lemma ptype_nodup : NoDup ptype_variants.
Proof. repeat constructor; cbn; intuition discriminate. Qed.

Section Complete.
  Variables (H : Fr -> Fr -> Fr -> Fr) (e : env) (n : Z).
  Hypothesis F : fixed_ok e n.
  Let N := eN e.
  Hypothesis HnN : n < N.
  Hypothesis OHs : forall j, 0 <= j < N -> oh_row oh_segment e j.
  Hypothesis OHp : forall j, 0 <= j < N -> oh_row oh_path e j.
  Hypothesis OHt : forall j, 0 <= j < N -> oh_row oh_proof e j.
  Hypothesis IZ : forall k j, (k < 4)%nat -> 0 <= j < N -> eadv e (MU_zero_inv k) j = finv (eadv e (MU_zero_value k) j).

  Notation sg := (sg e). Notation pa := (pa e). Notation pt := (pt e). Notation adv := (adv e).
  Notation PH := (PH e). Notation oldP := (oldP e). Notation newP := (newP e).

  Lemma cev_seg i r j vs : (i + r) mod N = j -> 0 < N -> NoDup vs -> eval e i (oh_matches oh_segment vs r) = fb (existsb (seg_eqb (sg j)) vs).
  Proof. intros E Hp Hn. subst j. unfold UpdateRows.sg. apply (eval_matches oh_segment seg_wf SegStart e i r); [reflexivity|apply OHs, Z.mod_pos_bound; exact Hp|exact Hn]. Qed.
  Lemma cev_path i r j vs : (i + r) mod N = j -> 0 < N -> NoDup vs -> eval e i (oh_matches oh_path vs r) = fb (existsb (path_eqb (pa j)) vs).
  Proof. intros E Hp Hn. subst j. unfold UpdateRows.pa. apply (eval_matches oh_path path_wf PathStart e i r); [reflexivity|apply OHp, Z.mod_pos_bound; exact Hp|exact Hn]. Qed.
  Lemma cev_pt i r j vs : (i + r) mod N = j -> 0 < N -> NoDup vs -> eval e i (oh_matches oh_proof vs r) = fb (existsb (ptype_eqb (pt j)) vs).
  Proof. intros E Hp Hn. subst j. unfold UpdateRows.pt. apply (eval_matches oh_proof ptype_wf NonceChanged e i r); [reflexivity|apply OHt, Z.mod_pos_bound; exact Hp|exact Hn]. Qed.

  Section Row.
    Variable i : Z.
    Hypothesis Hi0 : 1 <= i < n.
    Let Hi : 1 <= i /\ i + 1 < N. Proof. lia. Qed.
    Lemma m0 : (i + 0) mod N = i. Proof. rewrite Z.add_0_r. apply Z.mod_small. lia. Qed.
    Lemma m1 : (i + 1) mod N = i + 1. Proof. apply Z.mod_small. lia. Qed.
    Lemma mp : (i + -1) mod N = i - 1. Proof. apply Z.mod_small. lia. Qed.
    Lemma Np : 0 < N. Proof. lia. Qed.
    Lemma e_cseg vs : NoDup vs -> eval e i (cur_seg vs) = fb (existsb (seg_eqb (sg i)) vs).
    Proof. apply (cev_seg i 0 i vs m0 Np). Qed.
    Lemma e_nseg vs : NoDup vs -> eval e i (next_seg vs) = fb (existsb (seg_eqb (sg (i + 1))) vs).
    Proof. apply (cev_seg i 1 (i + 1) vs m1 Np). Qed.
    Lemma e_cpath vs : NoDup vs -> eval e i (cur_path vs) = fb (existsb (path_eqb (pa i)) vs).
    Proof. apply (cev_path i 0 i vs m0 Np). Qed.
    Lemma e_npath vs : NoDup vs -> eval e i (next_path vs) = fb (existsb (path_eqb (pa (i + 1))) vs).
    Proof. apply (cev_path i 1 (i + 1) vs m1 Np). Qed.
    Lemma e_ppath vs : NoDup vs -> eval e i (previous_matches oh_path vs) = fb (existsb (path_eqb (pa (i - 1))) vs).
    Proof. apply (cev_path i (-1) (i - 1) vs mp Np). Qed.
    Lemma e_cpt vs : NoDup vs -> eval e i (current_matches oh_proof vs) = fb (existsb (ptype_eqb (pt i)) vs).
    Proof. apply (cev_pt i 0 i vs m0 Np). Qed.
    Lemma e_cur c : eval e i (cur c) = adv c i. Proof. apply eval_cur. fold N. lia. Qed.
    Lemma e_prev c : eval e i (prev c) = adv c (i - 1). Proof. apply eval_prev. fold N. lia. Qed.
    Lemma e_iz k : (k < 4)%nat -> eval e i (iz_current (izg k)) = fb (feqb (adv (MU_zero_value k) i) f0).
    Proof.
      intros Hk. unfold iz_current. rewrite eval_sub. cbn [eval]. change (eval e i qone) with f1. rewrite !e_cur. cbn [izg iz_value iz_inv].
      unfold UpdateRows.adv. rewrite (IZ k i Hk) by lia. destruct (feqb (eadv e (MU_zero_value k) i) f0) eqn:Q.
      - apply feqb_eq in Q. rewrite Q. cbn [fb]. ring.
      - assert (X : eadv e (MU_zero_value k) i <> f0) by (intros X; rewrite X, feqb_refl in Q; discriminate).
        apply finv_l in X. cbn [fb]. transitivity (1 - finv (eadv e (MU_zero_value k) i) * eadv e (MU_zero_value k) i)%fr; [ring|]. rewrite X. ring.
    Qed.
    Lemma e_sel b : efix e SEL i = fb b -> eval e i (fcur SEL) = fb b.
    Proof. intros E. rewrite eval_fcur by (fold N; lia). exact E. Qed.

    Lemma ok_by_segment f : okc e i (f (sg i)) -> okc e i (for_each seg_variants (fun v => Condition (cur_seg [v]) (f v))).
    Proof.
      intros K. apply okc_for_each, Forall_forall. intros v _. apply (okc_cond _ _ _ _ (seg_eqb (sg i) v || false)).
      - apply e_cseg. repeat constructor. intros [].
      - intros Q. rewrite orb_false_r in Q. assert (sg i = v) as <- by (destruct (sg i), v; cbn in Q; congruence). exact K.
    Qed.
    Lemma ok_by_path f : okc e i (f (pa i)) -> okc e i (for_each path_variants (fun v => Condition (cur_path [v]) (f v))).
    Proof.
      intros K. apply okc_for_each, Forall_forall. intros v _. apply (okc_cond _ _ _ _ (path_eqb (pa i) v || false)).
      - apply e_cpath. repeat constructor. intros [].
      - intros Q. rewrite orb_false_r in Q. assert (pa i = v) as <- by (destruct (pa i), v; cbn in Q; congruence). exact K.
    Qed.
    Lemma ok_by_proof f : okc e i (f (pt i)) -> okc e i (for_each ptype_variants (fun t => Condition (current_matches oh_proof [t]) (f t))).
    Proof.
      intros K. apply okc_for_each, Forall_forall. intros v _. apply (okc_cond _ _ _ _ (ptype_eqb (pt i) v || false)).
      - apply e_cpt. repeat constructor. intros [].
      - intros Q. rewrite orb_false_r in Q. assert (pt i = v) as <- by (destruct (pt i), v; cbn in Q; congruence). exact K.
    Qed.
    Lemma ok_is_path p c : (pa i = p -> okc e i c) -> okc e i (is_path p c).
    Proof.
      intros K. unfold is_path. apply (okc_cond _ _ _ _ (path_eqb (pa i) p || false)).
      - apply e_cpath. repeat constructor. intros [].
      - intros Q. rewrite orb_false_r in Q. apply K. destruct (pa i), p; cbn in Q; congruence.
    Qed.

    (** ** the common part of a row *)
    Definition start_ok : Prop :=
      PH (adv (iv 0) i) (adv (iv 1) i * fz (2 ^ 96))%fr (fdom DPair) (adv MU_key i) /\
      accepts e bytes_lookup [adv (iv 0) i; fz 15] /\ accepts e bytes_lookup [adv (iv 1) i; fz 3] /\
      accepts e fr_rlc_lookup [adv MU_old_hash i; adv (sp 0) i] /\ accepts e fr_rlc_lookup [adv MU_new_hash i; adv (sp 1) i].
    Lemma ok_start : start_ok -> okc e i configure_start.
    Proof.
      intros (A & B & C & D & G). unfold configure_start. cbn [okc].
      split; [|split; [|split; [|split]]].
      - rewrite !e_cur. change (eval e i (cur (iv 1) * QConst (fz (2 ^ 96)))%q) with (eval e i (cur (iv 1)) * fz (2 ^ 96))%fr.
        rewrite e_cur. exact A.
      - apply (accepts_okc e i "" [cur (iv 0); qz 15] bytes_lookup eq_refl). cbn [map]. rewrite e_cur, eval_qz. exact B.
      - apply (accepts_okc e i "" [cur (iv 1); qz 3] bytes_lookup eq_refl). cbn [map]. rewrite e_cur, eval_qz. exact C.
      - apply (accepts_okc e i "" [cur MU_old_hash; cur (sp 0)] fr_rlc_lookup eq_refl). cbn [map]. rewrite !e_cur. exact D.
      - apply (accepts_okc e i "" [cur MU_new_hash; cur (sp 1)] fr_rlc_lookup eq_refl). cbn [map]. rewrite !e_cur. exact G.
    Qed.
    Definition nonstart_ok : Prop :=
      pt i = pt (i - 1) /\ adv MU_storage_key_rlc i = adv MU_storage_key_rlc (i - 1) /\
      adv MU_old_value i = adv MU_old_value (i - 1) /\ adv MU_new_value i = adv MU_new_value (i - 1).
    Definition key_ok : Prop := adv MU_key i = adv MU_key (i - 1) /\ adv MU_other_key i = adv MU_other_key (i - 1).
    Definition trie_ok : Prop :=
      accepts e key_bit_lookup [adv MU_key i; (adv MU_depth i - 1)%fr; adv MU_direction i] /\
      adv MU_depth i = (adv MU_depth (i - 1) + 1)%fr /\
      (pa i = Common -> accepts e key_bit_lookup [adv MU_other_key i; (adv MU_depth i - 1)%fr; adv MU_direction i]).
    Definition domain_ok : Prop := exists d, In d (seg_domains (sg i)) /\ adv MU_domain i = fdom d.
    Lemma ok_domain : domain_ok -> okc e i (configure_domain (sg i)).
    Proof.
      intros (d & Hd & E). unfold configure_domain. cbn [okc].
      assert (G : forall l q, (eval e i q = f0 \/ In d l) -> eval e i (fold_left (fun product d => (product * (cur MU_domain - qdom d))%q) l q) = f0).
      { induction l as [|x l IH]; intros q [Q|Q]; cbn [fold_left]; try exact Q; try contradiction Q; apply IH.
        - left. cbn [eval]. rewrite Q. ring.
        - destruct Q as [->|Q]; [left|right; exact Q]. change (eval e i (q * (cur MU_domain - qdom d))%q) with (eval e i q * eval e i (cur MU_domain - qdom d)%q)%fr.
          rewrite eval_sub, e_cur, E. unfold qdom. rewrite eval_qz. unfold fdom. ring. }
      apply G. right. exact Hd.
    Qed.
    Lemma row_okc : efix e SEL i = f1 ->
      (sg i = SegStart <-> pa i = PathStart) ->
      (sg i = SegStart -> start_ok) -> (sg i <> SegStart -> nonstart_ok) ->
      (sg i <> SegStart -> sg i <> AccountLeaf3 -> key_ok) ->
      (if is_trie_seg (sg i) then trie_ok else adv MU_depth i = f0) ->
      domain_ok -> okc e i (configure_path (pa i)) -> okc e i (configure_proof H (pt i)) ->
      okc e i (mpt_update_configure H).
    Proof.
      intros Sel Siff Hst Hns Hk Ht Hd Hp Hpr.
      assert (ND : NoDup [SegStart] /\ NoDup [PathStart] /\ NoDup [SegStart; AccountLeaf3] /\ NoDup [AccountTrie; StorageTrie] /\ NoDup [Common]).
      { repeat split; repeat constructor; cbn; intuition discriminate. }
      destruct ND as (N1 & N2 & N3 & N4 & N5).
      unfold mpt_update_configure.
      split; [apply (oh_row_okc oh_proof e i); [fold N; lia|apply OHt; lia]|].
      split. { apply okc_for_each, Forall_forall. intros k Hk'. apply iz_complete; [fold N; lia|]. cbn [izg iz_inv iz_value]. apply IZ; [cbn in Hk'; lia|lia]. }
      split; [apply (oh_row_okc oh_segment e i); [fold N; lia|apply OHs; lia]|].
      split; [apply (oh_row_okc oh_path e i); [fold N; lia|apply OHp; lia]|].
      split; [|split; [|split; [|split; [|split]]]].
      - split; [|split].
        + apply (proj2 (okc_assert_equal e i _ _ _)). rewrite (e_cseg _ N1), (e_cpath _ N2). f_equal.
          destruct (sg i), (pa i); cbn; try reflexivity; exfalso; destruct Siff as [A B]; try discriminate (A eq_refl); discriminate (B eq_refl).
        + apply (okc_cond _ _ _ _ (existsb (seg_eqb (sg i)) [SegStart] && true)).
          * rewrite eval_band, (e_cseg _ N1), (e_sel true) by exact Sel. destruct (existsb _ _); cbn; ring.
          * intros Q. apply ok_start, Hst. destruct (sg i); cbn in Q; congruence.
        + apply (okc_cond _ _ _ _ (negb (existsb (seg_eqb (sg i)) [SegStart]))).
          * rewrite eval_bnot, (e_cseg _ N1). destruct (existsb _ _); cbn; ring.
          * intros Q. destruct Hns as (A & B & C & D); [intros S; rewrite S in Q; discriminate Q|].
            split; [|split; [|split]]; apply (proj2 (okc_assert_equal e i _ _ _)); [|rewrite e_cur, e_prev; exact B|rewrite e_cur, e_prev; exact C|rewrite e_cur, e_prev; exact D].
            unfold oh_current, oh_previous.
            destruct (eval_oh_index oh_proof ptype_wf NonceChanged e i 0 i) as (k & K1 & K2); [exact m0|apply OHt; lia|].
            destruct (eval_oh_index oh_proof ptype_wf NonceChanged e i (-1) (i - 1)) as (k' & K1' & K2'); [exact mp|apply OHt; lia|].
            rewrite K2, K2'. fold (pt i) in K1. fold (pt (i - 1)) in K1'. rewrite A in K1.
            rewrite (nodup_index ptype_variants k k' _ ptype_nodup K1 K1'). reflexivity.
      - apply (okc_cond _ _ _ _ (negb (existsb (seg_eqb (sg i)) [SegStart; AccountLeaf3]))).
        + rewrite eval_bnot, (e_cseg _ N3). destruct (existsb _ _); cbn; ring.
        + intros Q. destruct Hk as (A & B); [intros S; rewrite S in Q; discriminate Q|intros S; rewrite S in Q; discriminate Q|].
          split; apply (proj2 (okc_assert_equal e i _ _ _)); rewrite e_cur, e_prev; assumption.
      - assert (Q : existsb (seg_eqb (sg i)) [AccountTrie; StorageTrie] = is_trie_seg (sg i)) by (destruct (sg i); reflexivity).
        split.
        + apply (okc_cond _ _ _ _ (is_trie_seg (sg i))); [rewrite (e_cseg _ N4), Q; reflexivity|].
          intros T. rewrite T in Ht. destruct Ht as (A & B & C).
          assert (Ed : eval e i (cur MU_depth - qone)%q = (adv MU_depth i - 1)%fr) by (rewrite eval_sub, e_cur; reflexivity).
          split; [|split].
          * apply accepts_okc; [reflexivity|]. cbn [map]. rewrite !e_cur, Ed. exact A.
          * apply (proj2 (okc_assert_equal e i _ _ _)). rewrite e_cur. change (eval e i (prev MU_depth + qone)%q) with (eval e i (prev MU_depth) + 1)%fr. rewrite e_prev. exact B.
          * apply (okc_cond _ _ _ _ (path_eqb (pa i) Common || false)); [apply (e_cpath _ N5)|].
            intros P. apply accepts_okc; [reflexivity|]. cbn [map]. rewrite !e_cur, Ed. apply C. destruct (pa i); cbn in P; congruence.
        + apply (okc_cond _ _ _ _ (negb (is_trie_seg (sg i)))); [rewrite eval_bnot, (e_cseg _ N4), Q; destruct (is_trie_seg _); cbn; ring|].
          intros T. destruct (is_trie_seg (sg i)); [discriminate T|]. cbn [okc]. rewrite e_cur. exact Ht.
      - apply (ok_by_path configure_path). exact Hp.
      - apply (ok_by_segment configure_domain), ok_domain. exact Hd.
      - apply (ok_by_proof (configure_proof H)). exact Hpr.
    Qed.

    (** ** path types *)
    Lemma e_old : eval e i old_left = lc (adv MU_direction i) (adv MU_sibling i) (adv MU_old_hash i) /\
      eval e i old_right = rc (adv MU_direction i) (adv MU_sibling i) (adv MU_old_hash i).
    Proof. apply (ev_lr e n F). exact Hi0. Qed.
    Lemma e_new : eval e i new_left = lc (adv MU_direction i) (adv MU_sibling i) (adv MU_new_hash i) /\
      eval e i new_right = rc (adv MU_direction i) (adv MU_sibling i) (adv MU_new_hash i).
    Proof. apply (ev_lr e n F). exact Hi0. Qed.
    Lemma ok_oldP nm q x : eval e i q = x -> oldP i x -> okc e i (PoseidonLookup nm old_left old_right q (prev MU_old_hash)).
    Proof. intros E P. cbn [okc]. rewrite (proj1 e_old), (proj2 e_old), E, e_prev. exact P. Qed.
    Lemma ok_newP nm q x : eval e i q = x -> newP i x -> okc e i (PoseidonLookup nm new_left new_right q (prev MU_new_hash)).
    Proof. intros E P. cbn [okc]. rewrite (proj1 e_new), (proj2 e_new), E, e_prev. exact P. Qed.
    Lemma ok_zero nm q : eval e i q = f0 -> okc e i (AssertZero nm q). Proof. auto. Qed.
    Lemma ok_zero_cur nm c : adv c i = f0 -> okc e i (AssertZero nm (cur c)). Proof. intros E. apply ok_zero. rewrite e_cur. exact E. Qed.
    Lemma ok_eq nm a b : eval e i a = eval e i b -> okc e i (assert_equal nm a b). Proof. apply okc_assert_equal. Qed.
    Lemma ok_assert nm b : eval e i b = f1 -> okc e i (assert_ nm b). Proof. apply okc_assert. Qed.

    Definition dom3_ok : Prop := exists d, In d [Branch0; Branch1; Branch2; AccountFields] /\ adv MU_domain i = fdom d.
    Lemma ok_dom3 : dom3_ok -> eval e i domain_not_branch3 = f0.
    Proof.
      intros (d & Hd & E). unfold domain_not_branch3.
      assert (G : forall x, eval e i (cur MU_domain - qdom x)%q = (fdom d - fdom x)%fr) by (intros x; rewrite eval_sub, e_cur, E; reflexivity).
      set (a := (cur MU_domain - qdom Branch0)%q) in *. set (b := (cur MU_domain - qdom Branch1)%q) in *.
      set (c := (cur MU_domain - qdom Branch2)%q) in *. set (f := (cur MU_domain - qdom AccountFields)%q) in *.
      change (eval e i a * eval e i b * eval e i c * eval e i f = 0)%fr.
      unfold a, b, c, f. rewrite !G. cbn [In] in Hd. repeat destruct Hd as [<-|Hd]; try contradiction; ring.
    Qed.
    Definition upgraded_ok : Prop := exists d d' right, adv MU_domain i = fdom d /\ adv MU_direction i = fb right /\
      upgrade right d = Some d' /\ adv (iv 2) i = fdom d'.
    Lemma upgraded_dom3 : upgraded_ok -> dom3_ok.
    Proof.
      intros (d & d' & r & A & B & C & D). exists d. split; [|exact A]. destruct d; cbn in C; try discriminate C; cbn; tauto.
    Qed.
    Definition common_ok : Prop :=
      match pa (i + 1) with
      | Common | PathStart => oldP i (adv MU_domain i) /\ newP i (adv MU_domain i)
      | ExtensionNew => oldP i (adv MU_domain i) /\
          if is_leaf0 (sg (i + 1)) then dom3_ok /\ adv MU_old_hash i = f0 /\ newP i (adv MU_domain i)
          else upgraded_ok /\ newP i (adv (iv 2) i)
      | ExtensionOld => newP i (adv MU_domain i) /\
          if is_leaf0 (sg (i + 1)) then dom3_ok /\ adv MU_new_hash i = f0 /\ oldP i (adv MU_domain i)
          else upgraded_ok /\ oldP i (adv (iv 2) i)
      end.
    Lemma e_leaf0 : eval e i (next_seg [AccountLeaf0; StorageLeaf0]) = fb (is_leaf0 (sg (i + 1))).
    Proof. rewrite e_nseg by (repeat constructor; cbn; intuition discriminate). destruct (sg (i + 1)); reflexivity. Qed.
    Lemma e_bnot q b : eval e i q = fb b -> eval e i (bnot q) = fb (negb b).
    Proof. intros E. rewrite eval_bnot, E. destruct b; cbn; ring. Qed.
    Lemma ok_common : common_ok -> okc e i configure_common_path.
    Proof.
      intros C. unfold common_ok in C.
      assert (ND : NoDup [Common; PathStart] /\ NoDup [ExtensionNew] /\ NoDup [ExtensionOld]) by (repeat split; repeat constructor; cbn; intuition discriminate).
      destruct ND as (N1 & N2 & N3).
      split; [|split]; (eapply okc_cond; [rewrite e_npath by assumption; reflexivity|]); intros Q; destruct (pa (i + 1)); cbn in Q; try discriminate Q.
      - destruct C as [C1 C2]. split; [eapply ok_oldP; [apply e_cur|exact C1]|eapply ok_newP; [apply e_cur|exact C2]].
      - destruct C as [C1 C2]. split; [eapply ok_oldP; [apply e_cur|exact C1]|eapply ok_newP; [apply e_cur|exact C2]].
      - destruct C as (C1 & C2). split; [|split; [eapply ok_oldP; [apply e_cur|exact C1]|]].
        + apply ok_zero, ok_dom3. destruct (is_leaf0 _); [apply C2|apply upgraded_dom3, C2].
        + split; (eapply okc_cond; [first [apply e_bnot, e_leaf0|apply e_leaf0]|]); intros T; destruct (is_leaf0 (sg (i + 1))); try discriminate T.
          * destruct C2 as [U P]. split; [|eapply ok_newP; [apply e_cur|exact P]]. apply ok_eq. rewrite e_cur.
            destruct U as (d & d' & r & A & B & C & D). rewrite D. symmetry.
            apply (ev_new_domain e n F i qdom d d' r Hi0); try assumption. intros x. apply eval_qz.
          * destruct C2 as (D & Z0 & P). split; [apply ok_zero_cur; exact Z0|eapply ok_newP; [apply e_cur|exact P]].
      - destruct C as (C1 & C2). split; [|split; [eapply ok_newP; [apply e_cur|exact C1]|]].
        + apply ok_zero, ok_dom3. destruct (is_leaf0 _); [apply C2|apply upgraded_dom3, C2].
        + split; (eapply okc_cond; [first [apply e_bnot, e_leaf0|apply e_leaf0]|]); intros T; destruct (is_leaf0 (sg (i + 1))); try discriminate T.
          * destruct C2 as [U P]. split; [|eapply ok_oldP; [apply e_cur|exact P]]. apply ok_eq. rewrite e_cur.
            destruct U as (d & d' & r & A & B & C & D). rewrite D. symmetry.
            apply (ev_new_domain e n F i (fun d => q_of_fr (fdom d)) d d' r Hi0); try assumption. intros x. apply eval_q_of_fr.
          * destruct C2 as (D & Z0 & P). split; [apply ok_zero_cur; exact Z0|eapply ok_oldP; [apply e_cur|exact P]].
    Qed.

    (* a non-existence proof, with the cells of the two zero tests *)
    Definition nonex_ok (value hash : Fr) (data : Fr) : Prop :=
      nonex e value hash (adv MU_key i) (adv MU_other_key i) data /\
      adv (MU_zero_value 2) i = (adv MU_key i - adv MU_other_key i)%fr /\ adv (MU_zero_value 3) i = hash.
    Lemma ok_nonex value hash data : nonex_ok (adv value i) (adv hash i) (adv data i) ->
      okc e i (nonexistence_configure value MU_key MU_other_key (izg 2) hash (izg 3) data).
    Proof.
      intros ((V & K) & Z2 & Z3). unfold nonexistence_configure. cbv zeta.
      split; [apply ok_zero_cur; exact V|]. split; [apply ok_eq; rewrite eval_sub, !e_cur; exact Z2|].
      split; [apply ok_eq; rewrite !e_cur; exact Z3|].
      pose proof (e_iz 2 ltac:(lia)) as I2. pose proof (e_iz 3 ltac:(lia)) as I3. rewrite Z2 in I2. rewrite Z3 in I3.
      set (q2 := iz_current (izg 2)) in *. set (q3 := iz_current (izg 3)) in *. split.
      - apply ok_eq. change (eval e i (bnot q2 + q3)%q) with (eval e i (bnot q2) + eval e i q3)%fr. rewrite eval_bnot, I2, I3.
        change (eval e i qone) with f1. destruct K as [(K & Hh)|(K & Hh & _)].
        + rewrite K, Hh. replace (adv MU_other_key i - adv MU_other_key i)%fr with f0 by ring. rewrite feqb_refl. cbn [fb]. ring.
        + destruct (feqb (adv MU_key i - adv MU_other_key i)%fr f0) eqn:Q; [apply feqb_eq in Q; apply (proj1 (fsub_eq0 _ _)) in Q; contradiction|].
          destruct (feqb (adv hash i) f0) eqn:Q3; [apply feqb_eq in Q3; contradiction|]. cbn [fb]. ring.
      - eapply okc_cond; [apply e_bnot, I2|]. intros T. destruct K as [(K & _)|(_ & _ & K)].
        + rewrite K in T. replace (adv MU_other_key i - adv MU_other_key i)%fr with f0 in T by ring. rewrite feqb_refl in T. discriminate T.
        + cbn [okc]. rewrite !e_cur. exact K.
    Qed.
    Definition ext_new_ok : Prop :=
      In (pt i) [NonceChanged; BalanceChanged; StorageChanged] /\ adv MU_old_value i = f0 /\
      adv MU_old_hash i = adv MU_old_hash (i - 1) /\ newP i (adv MU_domain i) /\
      (pa (i - 1) = ExtensionNew \/ is_trie_seg (sg i) = true \/ is_leaf0 (sg i) = true) /\
      (is_trie_seg (sg i) = true -> adv MU_sibling i = if is_trie_seg (sg (i + 1)) then f0 else adv MU_old_hash i) /\
      (is_leaf0 (sg i) = true -> nonex_ok (adv MU_old_value i) (adv MU_old_hash i) (adv (iv 9) i)).
    Lemma e_trie : eval e i (cur_seg [AccountTrie; StorageTrie]) = fb (is_trie_seg (sg i)).
    Proof. rewrite e_cseg by (repeat constructor; cbn; intuition discriminate). destruct (sg i); reflexivity. Qed.
    Lemma e_ntrie : eval e i (next_seg [AccountTrie; StorageTrie]) = fb (is_trie_seg (sg (i + 1))).
    Proof. rewrite e_nseg by (repeat constructor; cbn; intuition discriminate). destruct (sg (i + 1)); reflexivity. Qed.
    Lemma e_cleaf0 : eval e i (cur_seg [AccountLeaf0; StorageLeaf0]) = fb (is_leaf0 (sg i)).
    Proof. rewrite e_cseg by (repeat constructor; cbn; intuition discriminate). destruct (sg i); reflexivity. Qed.
    Lemma ok_ext_new : ext_new_ok -> okc e i configure_extension_new.
    Proof.
      intros (A & B & C & D & G & T & L). unfold configure_extension_new.
      split. { apply ok_assert. rewrite e_cpt by (repeat constructor; cbn; intuition discriminate). cbn in A. repeat destruct A as [<-|A]; try contradiction; reflexivity. }
      split; [apply ok_zero_cur; exact B|]. split; [apply ok_eq; rewrite e_cur, e_prev; exact C|].
      split; [eapply ok_newP; [apply e_cur|exact D]|]. split.
      { apply ok_assert. rewrite eval_bor, e_ppath, e_cseg by (repeat constructor; cbn; intuition discriminate).
        destruct G as [G|G]; [rewrite G; destruct (sg i); cbn; ring|].
        destruct (sg i); cbn in G |- *; try (destruct G; discriminate); destruct (pa (i - 1)); cbn; ring. }
      split.
      - eapply okc_cond; [apply e_trie|]. intros Q. specialize (T Q).
        split; (eapply okc_cond; [first [apply e_bnot, e_bnot, e_ntrie|apply e_bnot, e_ntrie]|]); intros Q'; destruct (is_trie_seg (sg (i + 1))); try discriminate Q'.
        + apply ok_zero_cur. exact T.
        + apply ok_eq. rewrite !e_cur. exact T.
      - eapply okc_cond; [apply e_cleaf0|]. intros Q. apply ok_nonex, L, Q.
    Qed.
    Definition ext_old_ok : Prop :=
      pt i = StorageChanged /\ (sg i = StorageTrie \/ sg i = StorageLeaf0) /\ adv MU_new_value i = f0 /\
      adv MU_new_hash i = adv MU_new_hash (i - 1) /\ oldP i (adv MU_domain i) /\
      (sg i = StorageTrie -> adv MU_sibling i = if seg_eqb (sg (i + 1)) StorageLeaf0 then adv MU_new_hash (i - 1) else f0) /\
      (sg i = StorageLeaf0 -> nonex_ok (adv MU_new_value i) (adv MU_new_hash i) (adv (iv 9) i)).
    Lemma ok_ext_old : ext_old_ok -> okc e i configure_extension_old.
    Proof.
      intros (A & S & B & C & D & T & L). unfold configure_extension_old.
      assert (ND : NoDup [StorageTrie; StorageLeaf0] /\ NoDup [StorageTrie] /\ NoDup [StorageLeaf0]) by (repeat split; repeat constructor; cbn; intuition discriminate).
      destruct ND as (N1 & N2 & N3).
      assert (S1 : eval e i (cur_seg [StorageTrie; StorageLeaf0]) = f1) by (rewrite e_cseg by exact N1; destruct S as [S|S]; rewrite S; reflexivity).
      split. { apply ok_assert. rewrite eval_band, S1, e_cpt by (repeat constructor; cbn; intuition discriminate). rewrite A. cbn. ring. }
      split; [apply ok_zero_cur; exact B|]. split; [apply ok_eq; rewrite e_cur, e_prev; exact C|].
      split; [eapply ok_oldP; [apply e_cur|exact D]|]. split.
      { apply ok_assert. rewrite eval_bor, S1. ring. }
      split.
      - eapply okc_cond; [rewrite e_cseg by exact N2; reflexivity|]. intros Q.
        assert (St : sg i = StorageTrie) by (destruct (sg i); cbn in Q; congruence). specialize (T St).
        assert (Q1 : eval e i (next_seg [StorageLeaf0]) = fb (seg_eqb (sg (i + 1)) StorageLeaf0)) by (rewrite e_nseg by exact N3; cbn; rewrite orb_false_r; reflexivity).
        split; (eapply okc_cond; [first [apply e_bnot, Q1|apply Q1]|]); intros Q'; destruct (seg_eqb (sg (i + 1)) StorageLeaf0); try discriminate Q'.
        + apply ok_zero_cur. exact T.
        + apply ok_eq. rewrite e_cur, e_prev. exact T.
      - eapply okc_cond; [rewrite e_cseg by exact N3; reflexivity|]. intros Q. apply ok_nonex, L. destruct (sg i); cbn in Q; congruence.
    Qed.
    Definition path_ok : Prop :=
      In (pa (i + 1)) (path_transitions (pa i)) /\
      match pa i with PathStart => True | Common => common_ok | ExtensionOld => ext_old_ok | ExtensionNew => ext_new_ok end.
    Lemma path_transitions_nodup p : NoDup (path_transitions p).
    Proof. destruct p; repeat constructor; cbn; intuition discriminate. Qed.
    Lemma ok_path : path_ok -> okc e i (configure_path (pa i)).
    Proof.
      intros (T & C). split.
      - apply ok_assert. rewrite e_npath by apply path_transitions_nodup.
        replace (existsb _ _) with true; [reflexivity|]. symmetry. apply existsb_exists. exists (pa (i + 1)). split; [exact T|destruct (pa (i + 1)); reflexivity].
      - destruct (pa i); [exact I|apply ok_common|apply ok_ext_old|apply ok_ext_new]; exact C.
    Qed.

    (** ** proof types *)
    Lemma ok_by_seg f : okc e i (f (sg i)) -> okc e i (by_segment f).
    Proof. apply ok_by_segment. Qed.
    Lemma seg_transitions_nodup p s l : seg_transitions p s = Some l -> NoDup l.
    Proof.
      intros E. assert (l = match seg_transitions p s with Some l => l | None => [] end) as -> by (rewrite E; reflexivity).
      clear E. destruct p, s; repeat constructor; cbn; intuition discriminate.
    Qed.
    Definition trans_ok : Prop := exists l, seg_transitions (pt i) (sg i) = Some l /\ In (sg (i + 1)) l.
    Lemma ok_trans : trans_ok -> okc e i (configure_segment_transitions (pt i)).
    Proof.
      intros (l & E & T). unfold configure_segment_transitions.
      apply (ok_by_segment (fun variant => match seg_transitions (pt i) variant with Some l => _ | None => _ end)). rewrite E.
      apply ok_assert. rewrite e_nseg by exact (seg_transitions_nodup _ _ _ E).
      replace (existsb _ _) with true; [reflexivity|]. symmetry. apply existsb_exists. exists (sg (i + 1)). split; [exact T|destruct (sg (i + 1)); reflexivity].
    Qed.
    Definition empty_ok (h : acol) : Prop := sg (i + 1) = SegStart ->
      adv MU_old_hash i = adv MU_new_hash i /\ adv MU_old_value i = adv MU_new_value i /\
      nonex_ok (adv MU_old_value i) (adv h i) (adv (iv 3) i).
    Lemma e_nstart : eval e i (next_seg [SegStart]) = fb (seg_eqb (sg (i + 1)) SegStart).
    Proof. rewrite e_nseg by (repeat constructor; intros []). cbn. rewrite orb_false_r. reflexivity. Qed.
    Lemma ok_empty h : empty_ok h -> okc e i (empty_account_part h).
    Proof.
      intros E. eapply okc_cond; [apply e_nstart|]. intros Q. destruct E as (A & B & C); [destruct (sg (i + 1)); cbn in Q; congruence|].
      split; [apply ok_eq; rewrite !e_cur; exact A|]. split; [apply ok_eq; rewrite !e_cur; exact B|]. apply ok_nonex. exact C.
    Qed.
    Lemma ok_dir1 : adv MU_direction i = f1 -> okc e i direction_is_1.
    Proof. intros E. apply ok_eq. rewrite e_cur. exact E. Qed.
    Lemma ok_dir0 : adv MU_direction i = f0 -> okc e i direction_is_0.
    Proof. apply ok_zero_cur. Qed.
    Definition word_ok_ (wh h l rw rh rl : acol) : Prop :=
      accepts e bytes_lookup [adv h i; fz 15] /\ accepts e bytes_lookup [adv l i; fz 15] /\
      PH (adv h i) (adv l i) (fdom DPair) (adv wh i) /\
      accepts e rlc_lookup [adv h i; fz 15; adv rh i] /\ accepts e rlc_lookup [adv l i; fz 15; adv rl i] /\
      adv rw i = (adv rh i * fpow (echal e) 16 + adv rl i)%fr.
    Lemma ok_word wh h l rw rh rl : word_ok_ wh h l rw rh rl -> okc e i (word_rlc_configure wh h l rw rh rl).
    Proof.
      intros (A & B & C & D & G & W). unfold word_rlc_configure.
      split; [apply accepts_okc; [reflexivity|]; cbn [map]; rewrite e_cur; exact A|].
      split; [apply accepts_okc; [reflexivity|]; cbn [map]; rewrite e_cur; exact B|].
      split; [cbn [okc]; rewrite !e_cur; exact C|].
      split; [apply accepts_okc; [reflexivity|]; cbn [map]; rewrite !e_cur; exact D|].
      split; [apply accepts_okc; [reflexivity|]; cbn [map]; rewrite !e_cur; exact G|].
      apply ok_eq. rewrite e_cur, W.
      change (eval e i (cur rh * qsquare (qsquare (qsquare (qsquare randomness))) + cur rl)%q)
        with (eval e i (cur rh) * eval e i (qsquare (qsquare (qsquare (qsquare randomness)))) + eval e i (cur rl))%fr.
      rewrite !e_cur. f_equal. f_equal. unfold randomness, qsquare. cbn [eval fpow]. ring.
    Qed.

    Definition nonce_ok : Prop :=
      pa i <> ExtensionOld /\
      match sg i with
      | SegStart | AccountTrie => empty_ok MU_old_hash
      | AccountLeaf0 => adv MU_direction i = f1
      | AccountLeaf1 => adv MU_direction i = f0 /\ (pa i = ExtensionNew -> adv MU_sibling i = f0)
      | AccountLeaf2 => adv MU_direction i = f0 /\
          (pa i = ExtensionNew -> adv MU_sibling i = ZERO_STORAGE_ROOT_KECCAK_CODEHASH_HASH H)
      | AccountLeaf3 => adv MU_direction i = f0 /\ accepts e bytes_lookup [adv MU_new_value i; fz 7] /\
          exists cs, adv MU_new_hash i = (adv MU_new_value i + cs * c64)%fr /\
          (pa i = Common -> accepts e bytes_lookup [adv MU_old_value i; fz 7] /\
             adv MU_old_hash i = (adv MU_old_value i + cs * c64)%fr /\ accepts e bytes_lookup [cs; fz 7]) /\
          (pa i = ExtensionNew -> adv MU_old_value i = f0 /\ cs = f0 /\ adv MU_sibling i = f0)
      | _ => True
      end.
    Lemma c64_nz : c64 <> f0.
    Proof. unfold c64. intros E. apply (f_equal val) in E. vm_compute in E. discriminate E. Qed.
    Lemma div_c64 a b cs : a = (b + cs * c64)%fr -> ((a - b) * finv c64 = cs)%fr.
    Proof. intros ->. pose proof (finv_l _ c64_nz) as X. transitivity (cs * (finv c64 * c64))%fr; [ring|]. rewrite X. ring. Qed.
    Lemma ok_nonce : nonce_ok -> okc e i (configure_nonce H).
    Proof.
      intros (A & B). split.
      { apply ok_assert. rewrite eval_bnot, e_cpath by (repeat constructor; intros []). destruct (pa i); cbn; try ring. congruence. }
      apply ok_by_seg. destruct (sg i); try exact I.
      - apply ok_empty, B.
      - apply ok_empty, B.
      - apply ok_dir1, B.
      - split; [apply ok_dir0, B|]. apply ok_is_path. intros P. apply ok_zero_cur. apply B, P.
      - split; [apply ok_dir0, B|]. apply ok_is_path. intros P. apply ok_eq. rewrite e_cur, eval_q_of_fr. apply B, P.
      - destruct B as (B1 & B2 & cs & B3 & B4 & B5). split; [apply ok_dir0, B1|].
        assert (En : eval e i ((cur MU_new_hash - cur MU_new_value) * QConst (finv c64))%q = cs).
        { change (eval e i (cur MU_new_hash - cur MU_new_value)%q * finv c64 = cs)%fr. rewrite eval_sub, !e_cur. apply div_c64, B3. }
        set (q := ((cur MU_new_hash - cur MU_new_value) * QConst (finv c64))%q) in *. cbv zeta.
        split; [apply accepts_okc; [reflexivity|]; cbn [map]; rewrite e_cur; exact B2|].
        split.
        + apply ok_is_path. intros P. destruct (B4 P) as (C1 & C2 & C3).
          assert (Eo : eval e i ((cur MU_old_hash - cur MU_old_value) * QConst (finv c64))%q = cs).
          { change (eval e i (cur MU_old_hash - cur MU_old_value)%q * finv c64 = cs)%fr. rewrite eval_sub, !e_cur. apply div_c64, C2. }
          set (q' := ((cur MU_old_hash - cur MU_old_value) * QConst (finv c64))%q) in *.
          split; [apply accepts_okc; [reflexivity|]; cbn [map]; rewrite e_cur; exact C1|].
          split; [apply ok_eq; congruence|]. apply accepts_okc; [reflexivity|]. cbn [map]. rewrite Eo. exact C3.
        + apply ok_is_path. intros P. destruct (B5 P) as (C1 & C2 & C3).
          split; [apply ok_zero_cur, C1|]. split; [apply ok_zero; rewrite En; exact C2|apply ok_zero_cur, C3].
    Qed.
    Definition code_size_ok : Prop :=
      match sg i with
      | SegStart | AccountTrie => empty_ok MU_old_hash
      | AccountLeaf0 => adv MU_direction i = f1
      | AccountLeaf1 | AccountLeaf2 => adv MU_direction i = f0
      | AccountLeaf3 => adv MU_direction i = f0 /\
          accepts e bytes_lookup [adv MU_old_value i; fz 7] /\ accepts e bytes_lookup [adv MU_new_value i; fz 7] /\
          exists nonce, adv MU_old_hash i = (nonce + adv MU_old_value i * c64)%fr /\
             adv MU_new_hash i = (nonce + adv MU_new_value i * c64)%fr /\ accepts e bytes_lookup [nonce; fz 7]
      | _ => True
      end.
    Lemma ok_code_size : code_size_ok -> okc e i configure_code_size.
    Proof.
      intros B. apply ok_by_seg. unfold code_size_ok in B. destruct (sg i); try exact I.
      - apply ok_empty, B.
      - apply ok_empty, B.
      - apply ok_dir1, B.
      - apply ok_dir0, B.
      - apply ok_dir0, B.
      - destruct B as (B1 & B2 & B3 & nn & B4 & B5 & B6). split; [apply ok_dir0, B1|]. cbv zeta.
        assert (X : forall h v, adv h i = (nn + adv v i * c64)%fr -> eval e i (cur h - cur v * QConst c64)%q = nn).
        { intros h v E. rewrite eval_sub. change (eval e i (cur h) - eval e i (cur v) * c64 = nn)%fr. rewrite !e_cur, E. ring. }
        pose proof (X _ _ B4) as X1. pose proof (X _ _ B5) as X2.
        set (q := (cur MU_old_hash - cur MU_old_value * QConst c64)%q) in *. set (q' := (cur MU_new_hash - cur MU_new_value * QConst c64)%q) in *.
        split; [apply accepts_okc; [reflexivity|]; cbn [map]; rewrite e_cur; exact B2|].
        split; [apply accepts_okc; [reflexivity|]; cbn [map]; rewrite e_cur; exact B3|].
        split; [apply ok_eq; congruence|]. apply accepts_okc; [reflexivity|]. cbn [map]. rewrite X1. exact B6.
    Qed.
    Definition balance_ok : Prop :=
      match sg i with
      | SegStart | AccountTrie => empty_ok MU_old_hash
      | AccountLeaf0 => adv MU_domain i = fdom DLeaf /\ adv MU_direction i = f1
      | AccountLeaf1 => adv MU_domain i = fdom AccountFields /\ adv MU_direction i = f0 /\ (pa i = ExtensionNew -> adv MU_sibling i = f0)
      | AccountLeaf2 => adv MU_direction i = f0 /\
          (pa i = ExtensionNew -> adv MU_sibling i = ZERO_STORAGE_ROOT_KECCAK_CODEHASH_HASH H)
      | AccountLeaf3 => adv MU_direction i = f1 /\
          (pa i = Common -> accepts e rlc_lookup [adv MU_old_hash i; fz 30; adv MU_old_value i]) /\
          accepts e rlc_lookup [adv MU_new_hash i; fz 30; adv MU_new_value i] /\
          (pa i = ExtensionNew -> adv MU_sibling i = f0)
      | _ => True
      end.
    Lemma ok_balance : balance_ok -> okc e i (configure_balance H).
    Proof.
      intros B. apply ok_by_seg. unfold balance_ok in B. destruct (sg i); try exact I.
      - apply ok_empty, B.
      - apply ok_empty, B.
      - split; [apply ok_eq; rewrite e_cur; apply B|apply ok_dir1, B].
      - split; [apply ok_eq; rewrite e_cur; apply B|]. split; [apply ok_dir0, B|]. apply ok_is_path. intros P. apply ok_zero_cur. apply B, P.
      - split; [apply ok_dir0, B|]. apply ok_is_path. intros P. apply ok_eq. rewrite e_cur, eval_q_of_fr. apply B, P.
      - destruct B as (B1 & B2 & B3 & B4). split; [apply ok_dir1, B1|]. split; [|split; [|split]].
        + apply ok_is_path. intros P. apply accepts_okc; [reflexivity|]. cbn [map]. rewrite !e_cur. apply B2, P.
        + apply accepts_okc; [reflexivity|]. cbn [map]. rewrite !e_cur. exact B3.
        + apply ok_is_path. intros P. apply ok_zero_cur, B4, P.
        + apply ok_is_path. intros P. apply ok_zero_cur, B4, P.
    Qed.
    Definition poseidon_ok : Prop :=
      match sg i with
      | AccountLeaf0 => adv MU_direction i = f1
      | AccountLeaf1 => adv MU_direction i = f1 /\ adv MU_old_value i = adv MU_old_hash i /\ adv MU_new_value i = adv MU_new_hash i
      | _ => True
      end.
    Lemma ok_poseidon : poseidon_ok -> okc e i configure_poseidon_code_hash.
    Proof.
      intros B. apply ok_by_seg. unfold poseidon_ok in B. destruct (sg i); try exact I.
      - apply ok_dir1, B.
      - split; [apply ok_dir1, B|]. split; apply ok_eq; rewrite !e_cur; apply B.
    Qed.
    Definition keccak_ok : Prop :=
      match sg i with
      | SegStart | AccountTrie => empty_ok MU_old_hash
      | AccountLeaf0 => adv MU_direction i = f1
      | AccountLeaf1 => adv MU_direction i = f0
      | AccountLeaf2 => adv MU_direction i = f1
      | AccountLeaf3 => adv MU_direction i = f1 /\
          word_ok_ MU_old_hash (iv 0) (iv 1) MU_old_value (sp 0) (sp 1) /\ word_ok_ MU_new_hash (iv 2) (iv 3) MU_new_value (sp 2) (sp 3)
      | _ => True
      end.
    Lemma ok_keccak : keccak_ok -> okc e i configure_keccak_code_hash.
    Proof.
      intros B. apply ok_by_seg. unfold keccak_ok in B. destruct (sg i); try exact I.
      - apply ok_empty, B.
      - apply ok_empty, B.
      - apply ok_dir1, B.
      - apply ok_dir0, B.
      - apply ok_dir1, B.
      - split; [apply ok_dir1, B|]. split; apply ok_word; apply B.
    Qed.
    Definition storage_ok : Prop :=
      match sg i with
      | AccountLeaf0 => adv MU_direction i = f1
      | AccountLeaf1 => adv MU_direction i = f0
      | AccountLeaf2 => adv MU_direction i = f1
      | AccountLeaf3 => adv MU_direction i = f0 /\ word_ok_ MU_key (iv 0) (iv 1) MU_storage_key_rlc (sp 0) (sp 1)
      | StorageLeaf0 => adv MU_direction i = f1 /\
          (pa i = Common -> word_ok_ MU_old_hash (iv 0) (iv 1) MU_old_value (sp 0) (sp 1) /\ word_ok_ MU_new_hash (iv 2) (iv 3) MU_new_value (sp 2) (sp 3)) /\
          adv (MU_zero_value 0) i = (adv MU_old_hash i - ZERO_PAIR_HASH H)%fr /\ adv MU_old_hash i <> ZERO_PAIR_HASH H /\
          adv (MU_zero_value 1) i = (adv MU_new_hash i - ZERO_PAIR_HASH H)%fr /\ adv MU_new_hash i <> ZERO_PAIR_HASH H
      | _ => True
      end.
    Lemma ok_storage : storage_ok -> okc e i (configure_storage H).
    Proof.
      intros B. apply ok_by_seg. unfold storage_ok in B. destruct (sg i); try exact I.
      - apply ok_dir1, B.
      - apply ok_dir0, B.
      - apply ok_dir1, B.
      - split; [apply ok_dir0, B|apply ok_word, B].
      - destruct B as (B1 & B2 & B3 & B4 & B5 & B6). split; [apply ok_dir1, B1|].
        split; [apply ok_is_path; intros P; split; apply ok_word; apply B2, P|].
        assert (Z : forall k h, (k < 4)%nat -> adv (MU_zero_value k) i = (adv h i - ZERO_PAIR_HASH H)%fr -> adv h i <> ZERO_PAIR_HASH H ->
          eval e i (bnot (iz_current (izg k))) = f1).
        { intros k h Hk E Ne. rewrite eval_bnot, e_iz by exact Hk. rewrite E. destruct (feqb (adv h i - ZERO_PAIR_HASH H)%fr f0) eqn:Q; [|cbn; ring].
          apply feqb_eq in Q. apply (proj1 (fsub_eq0 _ _)) in Q. contradiction. }
        split; [apply ok_eq; rewrite eval_sub, !e_cur, eval_q_of_fr; exact B3|].
        split; [apply ok_eq; rewrite eval_sub, !e_cur, eval_q_of_fr; exact B5|].
        split; apply ok_assert; [apply (Z 0%nat MU_old_hash)|apply (Z 1%nat MU_new_hash)]; try assumption; lia.
    Qed.
    Definition empty_storage_ok : Prop :=
      adv MU_old_value i = f0 /\ adv MU_new_value i = f0 /\ (pa i = PathStart \/ pa i = Common) /\ adv MU_old_hash i = adv MU_new_hash i /\
      (sg (i + 1) = SegStart -> nonex_ok (adv MU_old_value i) (adv MU_old_hash i) (adv (iv 3) i)) /\
      match sg i with
      | AccountLeaf0 => adv MU_direction i = f1
      | AccountLeaf1 => adv MU_direction i = f0
      | AccountLeaf2 => adv MU_direction i = f1
      | AccountLeaf3 => adv MU_direction i = f0 /\ word_ok_ MU_key (iv 0) (iv 1) MU_storage_key_rlc (sp 0) (sp 1)
      | _ => True
      end.
    Lemma ok_empty_storage : empty_storage_ok -> okc e i configure_empty_storage.
    Proof.
      intros (A1 & A2 & A3 & A4 & A5 & B). unfold configure_empty_storage.
      split; [apply ok_zero_cur, A1|]. split; [apply ok_zero_cur, A2|]. split.
      { apply ok_assert. rewrite e_cpath by (repeat constructor; cbn; intuition discriminate). destruct A3 as [P|P]; rewrite P; reflexivity. }
      split; [apply ok_eq; rewrite !e_cur; exact A4|]. split.
      { eapply okc_cond; [apply e_nstart|]. intros Q. apply ok_nonex, A5. destruct (sg (i + 1)); cbn in Q; congruence. }
      apply ok_by_seg. destruct (sg i); try exact I.
      - apply ok_dir1, B.
      - apply ok_dir0, B.
      - apply ok_dir1, B.
      - split; [apply ok_dir0, B|apply ok_word, B].
    Qed.
    Definition empty_account_ok : Prop :=
      adv MU_old_value i = f0 /\ adv MU_new_value i = f0 /\ adv MU_old_hash i = adv MU_new_hash i /\
      match sg i with SegStart | AccountTrie => empty_ok MU_new_hash | _ => True end.
    Lemma ok_empty_account : empty_account_ok -> okc e i configure_empty_account.
    Proof.
      intros (A1 & A2 & A3 & B). unfold configure_empty_account.
      split; [apply ok_zero_cur, A1|]. split; [apply ok_zero_cur, A2|]. split; [apply ok_eq; rewrite !e_cur; exact A3|].
      apply ok_by_seg. destruct (sg i); try exact I; apply ok_empty, B.
    Qed.
    Definition proof_ok : Prop := trans_ok /\
      match pt i with
      | NonceChanged => nonce_ok
      | BalanceChanged => balance_ok
      | CodeSizeExists => code_size_ok
      | PoseidonCodeHashExists => poseidon_ok
      | AccountDoesNotExist => empty_account_ok
      | CodeHashExists => keccak_ok
      | StorageChanged => storage_ok
      | StorageDoesNotExist => empty_storage_ok
      | AccountDestructed => False
      end.
    Lemma ok_proof : proof_ok -> okc e i (configure_proof H (pt i)).
    Proof.
      intros (T & C). split; [apply ok_trans, T|]. destruct (pt i);
      [apply ok_nonce|apply ok_balance|apply ok_keccak|apply ok_poseidon|apply ok_code_size|apply ok_empty_account|apply ok_storage|apply ok_empty_storage|contradiction]; exact C.
    Qed.

    (** ** all conditions of a row *)
    Record row_ok : Prop := {
      ro_start : sg i = SegStart <-> pa i = PathStart;
      ro_start_ok : sg i = SegStart -> start_ok;
      ro_nonstart : sg i <> SegStart -> nonstart_ok;
      ro_key : sg i <> SegStart -> sg i <> AccountLeaf3 -> key_ok;
      ro_trie : if is_trie_seg (sg i) then trie_ok else adv MU_depth i = f0;
      ro_domain : domain_ok;
      ro_path : path_ok;
      ro_proof : proof_ok }.
    Theorem row_ok_okc : row_ok -> okc e i (mpt_update_configure H).
    Proof.
      intros [A B C D G J K L]. apply row_okc; auto; [apply (sel_on e n F); exact Hi0|apply ok_path, K|apply ok_proof, L].
    Qed.
  End Row.
End Complete.
