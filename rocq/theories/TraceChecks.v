(* Proofs for C53: what Proof::from (types.rs:406-490) and StorageProof::from (types/storage.rs:275-315) reject. *)
From Coq Require Import ZArith List Bool Lia.
From Verif Require Import Pocklington Fr Query Builder BuilderProofs Gadgets MptUpdate Bytes GadgetProofs UpdateRows TrieSpec UpdateComplete Util UtilProofs Serde Trie Storage Types TypesProofs Lookups LookupMain
  TrieProofs HonestTrace HonestSpec RowView BlockView LeafOk HonestBlock HonestConvert ClaimSpec TraceSpec.
Import ListNotations.
Open Scope Z_scope.

Section Levels.
  Variable H : Fr -> Fr -> Fr -> Fr.
  Notation step := (HonestConvert.ht_step H).
  Lemma omap_from_len {X Y} (f : nat -> X -> option Y) : forall l i out, omap_from f i l = Some out -> length out = length l.
  Proof.
    induction l as [|x l IH]; intros i out E; cbn [omap_from] in E; [apply LookupMain.some_eq in E; subst out; reflexivity|].
    apply obind_some in E. destruct E as (y & _ & E). apply obind_some in E. destruct E as (ys & E1 & E). apply LookupMain.some_eq in E. subst out. cbn [length]. f_equal. exact (IH _ _ E1).
  Qed.
  Lemma level key l0 l1 olds news traces : get_internal_hash_traces key l0 l1 olds news = Some traces ->
    length (rev traces) = Nat.max (length olds) (length news) /\
    forall i, (i < Nat.max (length olds) (length news))%nat -> exists t, nth_error (rev traces) i = Some t /\
      internal_hash_trace key l0 l1 (length olds) (length news) i (nth_error olds i, nth_error news i) = Some t.
  Proof.
    intros E. unfold get_internal_hash_traces in E. apply obind_some in E. destruct E as (ts & E & E'). apply LookupMain.some_eq in E'. subst traces. rewrite rev_involutive.
    pose proof (omap_from_len _ _ _ _ E) as L. unfold zip_longest in L. rewrite map_length, seq_length in L. split; [exact L|].
    intros i Hi. assert (Z : nth_error (zip_longest olds news) i = Some (nth_error olds i, nth_error news i)).
    { unfold zip_longest. rewrite nth_error_map, (nth_error_nth' _ 0%nat) by (rewrite seq_length; lia). rewrite seq_nth by lia. reflexivity. }
    destruct ts as [|d ts']; [cbn in L; lia|].
    destruct (omap_from_nth _ _ _ _ E i _ d Z) as (y & F & N). exists y. split; [|exact F]. rewrite (nth_error_nth' _ d) by (rewrite L; lia). f_equal. exact N.
  Qed.
  Lemma check_inv ts : forall previous, check_hash_traces_from H previous ts = Some tt ->
    forall j t next, nth_error ts j = Some t -> nth_error ts (S j) = Some next ->
    step (match j with O => previous | S i => match nth_error ts i with Some b => ht_path_type b | None => None end end) t next = Some tt.
  Proof.
    induction ts as [|x ts IH]; intros previous E j t next Ht Hn; [destruct j; discriminate Ht|]. destruct ts as [|y ts]; [destruct j; [discriminate Hn|destruct j; discriminate Hn]|].
    cbn [check_hash_traces_from] in E. cbv zeta in E. apply obind_some in E. destruct E as (p & Ep & E). apply obind_some in E. destruct E as ([] & E1 & E2).
    destruct j as [|j].
    - cbn [nth_error] in Ht, Hn. apply LookupMain.some_eq in Ht, Hn. subst x y. unfold ht_step. rewrite Ep. cbn [obind]. exact E1.
    - cbn [nth_error] in Ht. specialize (IH _ E2 j t next Ht Hn). destruct j as [|j].
      + cbn [nth_error]. rewrite Ep. exact IH.
      + exact IH.
  Qed.
  Lemma levels_step traces : check_hash_traces_new H traces = Some tt ->
    forall i t next, nth_error (rev traces) (S i) = Some t -> nth_error (rev traces) i = Some next ->
    step (match nth_error (rev traces) (S (S i)) with Some b => ht_path_type b | None => None end) t next = Some tt.
  Proof.
    intros E i t next Ht Hn. assert (Li : (S i < length (rev traces))%nat) by (apply nth_error_Some; congruence). rewrite rev_length in Li.
    assert (R : forall k, (k < length traces)%nat -> nth_error (rev traces) k = nth_error traces (length traces - S k)).
    { intros k Hk. rewrite (nth_error_nth' (rev traces) t) by (rewrite rev_length; lia). rewrite rev_nth by lia. symmetry. apply nth_error_nth'. lia. }
    rewrite R in Ht, Hn by lia. replace (length traces - S i)%nat with (S (length traces - S (S i))) in Hn by lia.
    pose proof (check_inv traces None E _ t next Ht Hn) as X.
    destruct (Nat.eq_dec (S (S i)) (length traces)) as [D|D].
    - replace (length traces - S (S i))%nat with 0%nat in X by lia. replace (nth_error (rev traces) (S (S i))) with (@None HashTrace); [exact X|]. symmetry. apply nth_error_None. rewrite rev_length. lia.
    - rewrite R by lia. replace (length traces - S (S i))%nat with (S (length traces - S (S (S i)))) in X by lia. exact X.
  Qed.

  (* what one level holds *)
  Lemma level_both key l0 l1 a b i old new t : (0 < a)%nat -> (0 < b)%nat -> internal_hash_trace key l0 l1 a b i (Some old, Some new) = Some t ->
    n_sibling old = n_sibling new /\ ht_direction t = kbit key i /\ ht_path_type t = Some Common /\
    fr (n_value old) = Some (ht_open t) /\ fr (n_value new) = Some (ht_close t) /\ fr (n_sibling old) = Some (ht_sibling t) /\
    exists d d', own_domain old d /\ own_domain new d' /\
      (d = d' /\ ht_domain t = d \/
       a <> b /\ S i = Nat.min a b /\ ((i = a - 1)%nat /\ ht_domain t = d /\ check_domain_consistency d d' (kbit key i) = true \/
                                            (i <> a - 1)%nat /\ ht_domain t = d' /\ check_domain_consistency d' d (kbit key i) = true)).
  Proof.
    intros Pa Pb E. cbn [internal_hash_trace] in E. rewrite fr_bit_testbit in E. apply obind_some in E. destruct E as (u & E1 & E). apply LookupMain.oassert_some, bytes_eqb_eq in E1.
    apply obind_some in E. destruct E as (d & E2 & E). apply obind_some in E. destruct E as (d' & E3 & E). apply obind_some in E. destruct E as (dm & E4 & E).
    apply obind_some in E. destruct E as (o & E5 & E). apply obind_some in E. destruct E as (c & E6 & E). apply obind_some in E. destruct E as (s & E7 & E). apply LookupMain.some_eq in E. subst t.
    cbn [ht_direction ht_path_type ht_open ht_close ht_sibling ht_domain ht_padding_open ht_padding_close]. split; [exact E1|]. split; [reflexivity|]. split; [reflexivity|]. split; [exact E5|]. split; [exact E6|]. split; [exact E7|].
    exists d, d'. split; [exact E2|]. split; [exact E3|]. destruct (dom_eqb d d') eqn:Q; cbn [negb] in E4.
    - left. apply dom_eqb_eq in Q. split; [exact Q|]. congruence.
    - right. apply obind_some in E4. destruct E4 as (u1 & F1 & E4). apply obind_some in E4. destruct E4 as (u2 & F2 & E4). apply LookupMain.oassert_some in F1, F2. apply negb_true_iff, Nat.eqb_neq in F1. apply Nat.eqb_eq in F2.
      split; [exact F1|]. split; [lia|].
      destruct (i =? a - 1)%nat eqn:Q1; apply obind_some in E4; destruct E4 as (u3 & F3 & E4); apply LookupMain.oassert_some in F3; apply LookupMain.some_eq in E4.
      + left. apply Nat.eqb_eq in Q1. split; [exact Q1|]. split; [congruence|exact F3].
      + right. apply Nat.eqb_neq in Q1. split; [exact Q1|]. split; [congruence|exact F3].
  Qed.
  Lemma level_old key l0 l1 a b i old t : internal_hash_trace key l0 l1 a b i (Some old, None) = Some t ->
    ht_direction t = kbit key i /\ ht_path_type t = Some ExtensionOld /\ fr (n_value old) = Some (ht_open t) /\ fr (n_sibling old) = Some (ht_sibling t) /\ own_domain old (ht_domain t).
  Proof.
    intros E. cbn [internal_hash_trace] in E. rewrite fr_bit_testbit in E. apply obind_some in E. destruct E as (d & E1 & E). apply obind_some in E. destruct E as (o & E2 & E). apply obind_some in E. destruct E as (s & E3 & E).
    apply LookupMain.some_eq in E. subst t. repeat split; assumption.
  Qed.
  Lemma level_new key l0 l1 a b i new t : internal_hash_trace key l0 l1 a b i (None, Some new) = Some t ->
    ht_direction t = kbit key i /\ ht_path_type t = Some ExtensionNew /\ fr (n_value new) = Some (ht_close t) /\ fr (n_sibling new) = Some (ht_sibling t) /\ own_domain new (ht_domain t).
  Proof.
    intros E. cbn [internal_hash_trace] in E. rewrite fr_bit_testbit in E. apply obind_some in E. destruct E as (d & E1 & E). apply obind_some in E. destruct E as (o & E2 & E). apply obind_some in E. destruct E as (s & E3 & E).
    apply LookupMain.some_eq in E. subst t. repeat split; assumption.
  Qed.
  Lemma check_grown d d' right : check_domain_consistency d d' right = true -> grown right d d'.
  Proof. destruct d, d', right; cbn; congruence. Qed.
  Lemma step_hash (t : HashTrace) x d y : feqb (if ht_direction t then domain_hash H (ht_sibling t) x d else domain_hash H x (ht_sibling t) d) y = true ->
    y = if ht_direction t then H (ht_sibling t) x (fdom d) else H x (ht_sibling t) (fdom d).
  Proof. intros E. apply feqb_eq in E. unfold domain_hash in E. rewrite <- E. destruct (ht_direction t); reflexivity. Qed.
  Lemma nth_some {A} (l : list A) i : (i < length l)%nat -> exists x, nth_error l i = Some x.
  Proof. intros L. pose proof (proj2 (nth_error_Some l i) L). destruct (nth_error l i); [eauto|congruence]. Qed.
  Lemma nth_lt {A} (l : list A) i x : nth_error l i = Some x -> (i < length l)%nat.
  Proof. intros E. apply nth_error_Some. congruence. Qed.
  Lemma nth_none {A} (l : list A) i : (length l <= i)%nat -> nth_error l i = None.
  Proof. apply nth_error_None. Qed.

  Section Chain.
    Variables (key l0 l1 : Fr) (olds news : list SMTNode) (traces : list HashTrace).
    Hypothesis Ts : get_internal_hash_traces key l0 l1 olds news = Some traces.
    Hypothesis Ck : check_hash_traces_new H traces = Some tt.
    Notation no := (length olds). Notation nn := (length news).
    Lemma at_level i : (i < Nat.max no nn)%nat -> exists t, nth_error (rev traces) i = Some t /\ internal_hash_trace key l0 l1 no nn i (nth_error olds i, nth_error news i) = Some t.
    Proof. exact (proj2 (level _ _ _ _ _ _ Ts) i). Qed.
    (* the kind of row below level i *)
    Lemma below i : match nth_error (rev traces) i with Some b => ht_path_type b | None => None end =
      if (i <? Nat.max no nn)%nat then Some (if (i <? no)%nat then if (i <? nn)%nat then Common else ExtensionOld else ExtensionNew) else None.
    Proof.
      destruct (Nat.ltb_spec i (Nat.max no nn)) as [L|L].
      - destruct (at_level i L) as (t & E & F). rewrite E. destruct (Nat.ltb_spec i no) as [Lo|Lo].
        + destruct (nth_some olds i Lo) as (x & X). rewrite X in F. destruct (Nat.ltb_spec i nn) as [Ln|Ln].
          * destruct (nth_some news i Ln) as (y & Y). rewrite Y in F. apply level_both in F; [|lia|lia]. apply F.
          * rewrite (nth_none news i Ln) in F. apply level_old in F. apply F.
        + assert (Ln : (i < nn)%nat) by lia. destruct (nth_some news i Ln) as (y & Y). rewrite Y, (nth_none olds i Lo) in F. apply level_new in F. apply F.
      - rewrite nth_none; [reflexivity|]. rewrite (proj1 (level _ _ _ _ _ _ Ts)). exact L.
    Qed.
    Lemma removal_short : (nn < no)%nat -> (nn <= 1)%nat.
    Proof.
      intros L. destruct (Nat.leb_spec nn 1) as [X|X]; [exact X|exfalso].
      destruct (at_level (S (nn - 2)) ltac:(lia)) as (t & E & F). destruct (at_level (nn - 2) ltac:(lia)) as (t' & E' & F').
      pose proof (levels_step traces Ck _ _ _ E E') as S1. rewrite below in S1.
      rewrite (proj2 (Nat.ltb_lt (S (S (nn - 2))) (Nat.max no nn))) in S1 by lia. rewrite (proj2 (Nat.ltb_lt (S (S (nn - 2))) no)) in S1 by lia. rewrite (proj2 (Nat.ltb_ge (S (S (nn - 2))) nn)) in S1 by lia.
      destruct (nth_some olds (S (nn - 2)) ltac:(lia)) as (x & Hx). destruct (nth_some news (S (nn - 2)) ltac:(lia)) as (y & Hy). rewrite Hx, Hy in F.
      apply level_both in F; [|lia|lia]. destruct F as (_ & _ & Pt & _). unfold ht_step in S1. rewrite Pt in S1. discriminate S1.
    Qed.
    Theorem old_chained : chained H key olds.
    Proof.
      intros i n m Hn Hm. pose proof (nth_lt _ _ _ Hm) as Lm. destruct (at_level (S i) ltac:(lia)) as (t & E & F). destruct (at_level i ltac:(lia)) as (t' & E' & F').
      pose proof (levels_step traces Ck _ _ _ E E') as St. rewrite below in St. rewrite Hm in F. rewrite Hn in F'.
      assert (V : fr (n_value n) = Some (ht_open t')).
      { destruct (nth_error news i) eqn:W; [pose proof (nth_lt _ _ _ W); apply level_both in F'; [apply F'| |]|apply level_old in F'; apply F']; lia. }
      destruct (nth_error news (S i)) as [y|] eqn:Y.
      - pose proof (nth_lt _ _ _ Y) as Ly. apply level_both in F; [|lia|lia]. destruct F as (_ & Dr & Pt & Vo & _ & Sb & d & d' & Od & On & Ds).
        unfold ht_step in St. rewrite Pt in St. cbn [obind] in St. apply obind_some in St. destruct St as (ds & Cd & St). apply obind_some in St. destruct St as ([] & St & _). apply LookupMain.oassert_some in St. apply step_hash in St.
        exists d, (ht_open t'). split; [exact Od|]. split; [|exact V]. exists (ht_open t), (ht_sibling t). split; [exact Vo|]. split; [exact Sb|]. rewrite <- Dr, St.
        assert (Q : fst ds = d); [|rewrite Q; reflexivity].
        destruct (Nat.ltb_spec nn no) as [R|R]; [pose proof (removal_short R); lia|].
        assert (Dt : ht_domain t = d). { destruct Ds as [[_ X]|(Ne & Mn & [(Xi & X & _)|(Xi & _)])]; [exact X|exact X|lia]. }
        rewrite Dt in Cd. destruct (Nat.ltb_spec (S (S i)) (Nat.max no nn)); [|cbn [check_domains] in Cd; apply LookupMain.some_eq in Cd; subst ds; reflexivity].
        destruct (Nat.ltb_spec (S (S i)) no).
        + replace (S (S i) <? nn)%nat with true in Cd by (symmetry; apply Nat.ltb_lt; lia). cbn [check_domains] in Cd. apply LookupMain.some_eq in Cd. subst ds. reflexivity.
        + cbn [check_domains] in Cd. destruct d; try discriminate Cd; apply LookupMain.some_eq in Cd; subst ds; reflexivity.
      - apply level_old in F. destruct F as (Dr & Pt & Vo & Sb & Od). unfold ht_step in St. rewrite Pt in St. cbn [obind] in St. apply obind_some in St. destruct St as ([] & _ & St). apply LookupMain.oassert_some in St. apply step_hash in St.
        exists (ht_domain t), (ht_open t'). split; [exact Od|]. split; [|exact V]. exists (ht_open t), (ht_sibling t). split; [exact Vo|]. split; [exact Sb|]. rewrite <- Dr. exact St.
    Qed.
    Theorem new_chained : chained_new H key olds news.
    Proof.
      intros i n m Hn Hm. pose proof (nth_lt _ _ _ Hm) as Lm. destruct (at_level (S i) ltac:(lia)) as (t & E & F). destruct (at_level i ltac:(lia)) as (t' & E' & F').
      pose proof (levels_step traces Ck _ _ _ E E') as St. rewrite below in St. rewrite Hm in F. rewrite Hn in F'.
      assert (V : fr (n_value n) = Some (ht_close t')).
      { destruct (nth_error olds i) eqn:W; [pose proof (nth_lt _ _ _ W); apply level_both in F'; [apply F'| |]|apply level_new in F'; apply F']; lia. }
      destruct (nth_error olds (S i)) as [y|] eqn:Y.
      - pose proof (nth_lt _ _ _ Y) as Ly. apply level_both in F; [|lia|lia]. destruct F as (Sib & Dr & Pt & _ & Vn & Sb & d & d' & Od & On & Ds).
        unfold ht_step in St. rewrite Pt in St. cbn [obind] in St. apply obind_some in St. destruct St as (ds & Cd & St). apply obind_some in St. destruct St as ([] & _ & St). apply LookupMain.oassert_some in St. apply step_hash in St.
        destruct (Nat.ltb_spec nn no) as [R|R]; [pose proof (removal_short R); lia|].
        exists d', (snd ds), (ht_close t'). split; [exact On|].
        assert (Hh : hashes_to H (kbit key (S i)) (snd ds) m (ht_close t')).
        { exists (ht_close t), (ht_sibling t). split; [exact Vn|]. split; [rewrite <- Sib; exact Sb|]. rewrite <- Dr. exact St. }
        assert (Lu : last_and_unchanged olds news (S i) -> S (S i) = no /\ (no < nn)%nat /\ d = d').
        { intros (P1 & P2 & x & x' & dd & X1 & X2 & X3 & X4). split; [exact P1|]. split; [exact P2|]. rewrite Y in X1. rewrite Hm in X2. apply LookupMain.some_eq in X1, X2. subst x x'. unfold own_domain in *. congruence. }
        assert (Lu' : S (S i) = no -> (no < nn)%nat -> d = d' -> last_and_unchanged olds news (S i)).
        { intros P1 P2 <-. split; [exact P1|]. split; [exact P2|]. exists y, m, d. auto. }
        rewrite Dr in Cd. destruct (Nat.ltb_spec (S (S i)) (Nat.max no nn)) as [L2|L2].
        + destruct (Nat.ltb_spec (S (S i)) no) as [L3|L3].
          * replace (S (S i) <? nn)%nat with true in Cd by (symmetry; apply Nat.ltb_lt; lia). cbn [check_domains] in Cd. apply LookupMain.some_eq in Cd. subst ds. cbn [fst snd] in *.
            split; [|split; [intros X; apply Lu in X; lia|split; [exact Hh|exact V]]]. intros _. destruct Ds as [[X1 X2]|(_ & Mn & _)]; [congruence|lia].
          * assert (Cg : grown (kbit key (S i)) (ht_domain t) (snd ds)).
            { cbn [check_domains] in Cd. destruct (ht_domain t); try discriminate Cd; apply LookupMain.some_eq in Cd; subst ds; reflexivity. }
            split; [|split; [|split; [exact Hh|exact V]]].
            { intros NL. destruct Ds as [[X1 X2]|(Ne & Mn & [(Xi & X & X3)|(Xi & _)])]; [exfalso; apply NL, Lu'; [lia|lia|exact X1]| |lia].
              apply check_grown in X3. rewrite X in Cg. destruct d; cbn [grown] in Cg, X3; congruence || contradiction. }
            { intros Y1. apply Lu in Y1. destruct Y1 as (_ & _ & <-). destruct Ds as [[_ X2]|(Ne & Mn & [(Xi & X & X3)|(Xi & _)])]; [rewrite <- X2; exact Cg|rewrite <- X; exact Cg|lia]. }
        + cbn [check_domains] in Cd. apply LookupMain.some_eq in Cd. subst ds. cbn [fst snd] in *.
          split; [|split; [intros X; apply Lu in X; lia|split; [exact Hh|exact V]]]. intros _. destruct Ds as [[X1 X2]|(Ne & Mn & _)]; [congruence|lia].
      - apply level_new in F. destruct F as (Dr & Pt & Vn & Sb & On). unfold ht_step in St. rewrite Pt in St. cbn [obind] in St. apply obind_some in St. destruct St as ([] & _ & St). apply LookupMain.oassert_some in St. apply step_hash in St.
        exists (ht_domain t), (ht_domain t), (ht_close t'). split; [exact On|]. split; [reflexivity|]. split.
        { intros (P1 & _). assert (no <= S i)%nat by (apply nth_error_None; exact Y). lia. }
        split; [|exact V]. exists (ht_close t), (ht_sibling t). split; [exact Vn|]. split; [exact Sb|]. rewrite <- Dr. exact St.
    Qed.
    Theorem branches_same : same_branches key olds news.
    Proof.
      intros i m m' Hm Hm'. pose proof (nth_lt _ _ _ Hm). pose proof (nth_lt _ _ _ Hm'). destruct (at_level i ltac:(lia)) as (t & E & F). rewrite Hm, Hm' in F. apply level_both in F; [|lia|lia].
      destruct F as (Sib & _ & _ & _ & _ & _ & d & d' & Od & On & Ds). split; [exact Sib|]. exists d, d'. split; [exact Od|]. split; [exact On|].
      destruct Ds as [[X1 X2]|(Ne & Mn & Ds)]; [left; exact X1|right]. split; [exact Ne|]. split; [exact Mn|].
      destruct Ds as [(Xi & _ & X3)|(Xi & _ & X3)]; apply check_grown in X3; split; intros L; try exact X3; lia.
    Qed.
  End Chain.
End Levels.

Section Accounts.
  Variable H : Fr -> Fr -> Fr -> Fr.
  Lemma storage_fields tr s : storage_proof_from H tr = Some s -> t_common_state_root tr = None ->
    exists kb pa pb eo en, t_state_key tr = Some kb /\ t_state_path tr = (Some pa, Some pb) /\ t_state_update tr = Some (Some eo, Some en) /\ sd_key eo = sd_key en.
  Proof.
    intros E TC. unfold storage_proof_from in E. rewrite TC in E. destruct (t_state_key tr) as [kb|]; [|discriminate E]. cbn [obind] in E. apply obind_some in E. destruct E as (key & _ & E).
    destruct (t_state_path tr) as [[pa|] [pb|]]; cbn [fst snd obind] in E; try discriminate E. apply obind_some in E. destruct E as (rows & _ & E).
    destruct (t_state_update tr) as [[[eo|] [en|]]|]; cbn [fst snd obind] in E; try discriminate E. apply obind_some in E. destruct E as (u & E & _). apply LookupMain.oassert_some, bytes_eqb_eq in E.
    exists kb, pa, pb, eo, en. auto.
  Qed.
  Lemma old_root_side tr s r : storage_proof_from H tr = Some s -> sp_old_root H s = Some r -> side_root tr (fst (t_state_path tr)) r.
  Proof.
    intros E R. unfold side_root. destruct (t_common_state_root tr) as [b|] eqn:TC.
    - unfold storage_proof_from in E. rewrite TC in E. apply obind_some in E. destruct E as (x & Ex & E). apply LookupMain.some_eq in E. subst s. cbn [sp_old_root] in R. congruence.
    - destruct (storage_fields _ _ E TC) as (kb & pa & pb & eo & en & K & P & U & _). destruct (storage_proof_inv _ _ _ _ _ _ _ _ E TC K P U) as (key & sk & rows & old & new & _ & _ & _ & _ & _ & _ & Q & _).
      exists pa. rewrite P. split; [reflexivity|congruence].
  Qed.
  Lemma new_root_side tr s r : storage_proof_from H tr = Some s -> sp_new_root H s = Some r -> side_root tr (snd (t_state_path tr)) r.
  Proof.
    intros E R. unfold side_root. destruct (t_common_state_root tr) as [b|] eqn:TC.
    - unfold storage_proof_from in E. rewrite TC in E. apply obind_some in E. destruct E as (x & Ex & E). apply LookupMain.some_eq in E. subst s. cbn [sp_new_root] in R. congruence.
    - destruct (storage_fields _ _ E TC) as (kb & pa & pb & eo & en & K & P & U & _). destruct (storage_proof_inv _ _ _ _ _ _ _ _ E TC K P U) as (key & sk & rows & old & new & _ & _ & _ & _ & _ & _ & _ & Q).
      exists pb. rewrite P. split; [reflexivity|congruence].
  Qed.
  Lemma data_traces address d root : 0 <= ad_nonce d -> 0 <= ad_balance d -> 0 <= ad_code_hash d < 2 ^ 256 -> 0 <= ad_poseidon_code_hash d -> 0 <= ad_code_size d ->
    at2 (account_hash_traces H address d root) 5 2 = H (account_key H address) (data_hash H d root) (fdom DLeaf).
  Proof.
    intros D1 D2 D3 D4 D5. rewrite traces_lv. unfold at2, lv_traces. cbn [nth]. unfold lv_top, lv_hash, lv_ns, lv_n, lv_s, lv_k, lv_of, data_hash, word_hash. cbn [lv_nc lv_bal lv_root lv_hi lv_lo lv_pch].
    rewrite !big_uint_to_fr_spec, hi_lo_spec by assumption. cbn [fst snd]. change c64 with (fz (2 ^ 64)). rewrite <- fz_mul, <- fz_add. reflexivity.
  Qed.
  Lemma leaf_hash_spec p h : leaf_hash H p = Some h -> leaf_hashes_to H (p_leaf p) h.
  Proof.
    unfold leaf_hash, leaf_hashes_to. destruct (p_leaf p) as [l|]; [|intros E; apply LookupMain.some_eq in E; auto]. intros E. apply obind_some in E. destruct E as (k & E1 & E). apply obind_some in E. destruct E as (v & E2 & E).
    apply LookupMain.some_eq in E. exists k, v. auto.
  Qed.
  Lemma code_hash_fits d root a : account_of (Some d) root = Some a -> 0 <= ad_code_hash d -> 0 <= ad_code_hash d < 2 ^ 256.
  Proof.
    intros E L. cbn [account_of] in E. apply obind_some in E. destruct E as (x & E & _). unfold eth_account_from in E. apply obind_some in E. destruct E as (k & E & _). rewrite u256_from_biguint_spec in E by exact L.
    destruct (Z.ltb_spec (ad_code_hash d) (2 ^ 256)); [lia|discriminate E].
  Qed.
  Theorem accounts_checked ty tr p : proof_from H ty tr = Some p -> address_ok (t_address tr) ->
    leaf_of_account H tr (fst (t_account_path tr)) (fst (t_account_update tr)) (fst (t_state_path tr)) /\
    leaf_of_account H tr (snd (t_account_path tr)) (snd (t_account_update tr)) (snd (t_state_path tr)).
  Proof.
    intros E A. destruct (proof_from_inv _ _ _ _ E) as (p0 & p1 & lh0 & lh1 & T). pose proof (ft_paths _ _ _ _ _ _ _ _ T) as P. rewrite P. cbn [fst snd].
    assert (Ad : c_address (pf_claim p) = t_address tr).
    { pose proof (ft_claim _ _ _ _ _ _ _ _ T) as C. unfold claim_from in C. ob C. ob C. ob C. ob C. apply LookupMain.some_eq in C. rewrite <- C. reflexivity. }
    split; intros d Hd D1 D2 D3 D4 D5.
    - pose proof (ft_old_traces _ _ _ _ _ _ _ _ T) as Tr. pose proof (ft_old_account _ _ _ _ _ _ _ _ T) as Ac. rewrite Hd in Tr, Ac. apply (fun e => code_hash_fits _ _ _ e D3) in Ac. cbn [traces_of] in Tr. apply obind_some in Tr. destruct Tr as (r & Er & Tr).
      apply LookupMain.some_eq in Tr. exists r. split; [exact (old_root_side _ _ _ (ft_storage _ _ _ _ _ _ _ _ T) Er)|]. apply leaf_hash_spec.
      rewrite (ft_lh0 _ _ _ _ _ _ _ _ T), <- (ft_old_leaf _ _ _ _ _ _ _ _ T), <- Tr, data_traces, Ad, account_key_spec by assumption. reflexivity.
    - pose proof (ft_new_traces _ _ _ _ _ _ _ _ T) as Tr. pose proof (ft_new_account _ _ _ _ _ _ _ _ T) as Ac. rewrite Hd in Tr, Ac. apply (fun e => code_hash_fits _ _ _ e D3) in Ac. cbn [traces_of] in Tr. apply obind_some in Tr. destruct Tr as (r & Er & Tr).
      apply LookupMain.some_eq in Tr. exists r. split; [exact (new_root_side _ _ _ (ft_storage _ _ _ _ _ _ _ _ T) Er)|]. apply leaf_hash_spec.
      rewrite (ft_lh1 _ _ _ _ _ _ _ _ T), <- (ft_new_leaf _ _ _ _ _ _ _ _ T), <- Tr, data_traces, Ad, account_key_spec by assumption. reflexivity.
  Qed.
  Theorem paths_checked ty tr p : proof_from H ty tr = Some p -> address_ok (t_address tr) ->
    let key := addr_key H (be_val (t_address tr)) in
    let olds := p_path (fst (t_account_path tr)) in let news := p_path (snd (t_account_path tr)) in
    fr (t_account_key tr) = Some key /\ chained H key olds /\ chained_new H key olds news /\ same_branches key olds news /\
    ((length news < length olds)%nat -> (length news <= 1)%nat).
  Proof.
    intros E A. destruct (proof_from_inv _ _ _ _ E) as (p0 & p1 & lh0 & lh1 & T). pose proof (ft_paths _ _ _ _ _ _ _ _ T) as P. rewrite P. cbn [fst snd]. cbv zeta.
    assert (Ad : c_address (pf_claim p) = t_address tr).
    { pose proof (ft_claim _ _ _ _ _ _ _ _ T) as C. unfold claim_from in C. ob C. ob C. ob C. ob C. apply LookupMain.some_eq in C. rewrite <- C. reflexivity. }
    pose proof (ft_key _ _ _ _ _ _ _ _ T) as K. pose proof (ft_traces _ _ _ _ _ _ _ _ T) as Tr. pose proof (ft_check _ _ _ _ _ _ _ _ T) as Ck. rewrite Ad, account_key_spec in K, Tr by exact A.
    split; [exact K|]. split; [exact (old_chained _ _ _ _ _ _ _ Tr Ck)|]. split; [exact (new_chained _ _ _ _ _ _ _ Tr Ck)|]. split; [exact (branches_same _ _ _ _ _ _ Tr)|]. exact (removal_short _ _ _ _ _ _ _ Tr Ck).
  Qed.
End Accounts.

Section Storage.
  Variable H : Fr -> Fr -> Fr -> Fr.
  Lemma next_grown d right d' : next_domain d right = Some d' -> grown right d d'.
  Proof. destruct d; cbn; intros E; try discriminate E; apply LookupMain.some_eq in E; congruence. Qed.
  Lemma grown_next d right d' : grown right d d' -> next_domain d right = Some d'.
  Proof. destruct d; cbn; intros E; try contradiction; subst; reflexivity. Qed.
  Lemma end_nil leaf h : path_end_hash H [] leaf = Some h -> leaf_hashes_to H leaf h.
  Proof.
    unfold path_end_hash, leaf_hashes_to. cbn [rev]. destruct leaf as [l|]; [|intros E; apply LookupMain.some_eq in E; auto]. unfold node_leaf_hash. intros E. apply obind_some in E. destruct E as (k & E1 & E).
    apply obind_some in E. destruct E as (v & E2 & E). apply LookupMain.some_eq in E. exists k, v. auto.
  Qed.
  Lemma leaf_entry key leaf entry l h : word (sd_key entry) -> word (sd_value entry) -> storage_leaf_new H key leaf entry = Some l -> sl_hash H l = Some h -> entry_hashes_to H leaf entry h.
  Proof.
    intros W1 W2 E S. unfold storage_leaf_new in E. destruct (u256_from_hex_spec _ (proj1 W1) (proj2 W1)) as [K R1]. destruct (u256_from_hex_spec _ (proj1 W2) (proj2 W2)) as [V R2]. rewrite K, V in E. cbn [obind] in E.
    unfold entry_hashes_to. destruct (Z.eqb_spec (be_val (sd_value entry)) 0) as [Z|Z].
    - split; [intros _|congruence]. destruct leaf as [n|].
      + apply obind_some in E. destruct E as (u & _ & E). apply obind_some in E. destruct E as (kk & E1 & E). apply obind_some in E. destruct E as (v & E2 & E). apply LookupMain.some_eq in E. subst l. cbn in S. apply LookupMain.some_eq in S. exists kk, v. auto.
      + apply LookupMain.some_eq in E. subst l. cbn in S. apply LookupMain.some_eq in S. cbn. congruence.
    - split; [congruence|intros _]. destruct leaf as [n|]; [|discriminate E]. split; [discriminate|]. apply LookupMain.some_eq in E. subst l. cbn [sl_hash sl_value_hash sl_key] in S. rewrite u256_hi_lo_spec in S by exact R2. cbn [obind] in S. apply LookupMain.some_eq in S. subst h.
      rewrite storage_key_hash_spec by exact R1. reflexivity.
  Qed.
  Lemma leaf_key key leaf entry l : word (sd_key entry) -> word (sd_value entry) -> storage_leaf_new H key leaf entry = Some l -> empty_slot_key H key leaf entry.
  Proof.
    intros W1 W2 E N Z. unfold storage_leaf_new in E. destruct (u256_from_hex_spec _ (proj1 W1) (proj2 W1)) as [K R1]. destruct (u256_from_hex_spec _ (proj1 W2) (proj2 W2)) as [V R2]. rewrite K, V, Z in E. cbn [obind Z.eqb] in E.
    destruct leaf as [n|]; [|congruence]. apply obind_some in E. destruct E as (u & E & _). apply LookupMain.oassert_some, feqb_eq in E. rewrite storage_key_hash_spec in E by exact R1. exact E.
  Qed.
  Lemma forall2_nth {A B} (R : A -> B -> Prop) l l' : Forall2 R l l' -> forall i y, nth_error l' i = Some y -> exists x, nth_error l i = Some x /\ R x y.
  Proof. induction 1 as [|a b l l' X F IH]; intros i y E; [destruct i; discriminate E|]. destruct i as [|i]; [exists a; cbn in E |- *; split; congruence|exact (IH i y E)]. Qed.

  Section Roots.
    Variables (key : Fr) (olds news : list SMTNode) (lo ln : option SMTNode) (rows : TrieRows).
    Hypothesis R : trie_rows_new H key olds news lo ln = Some rows.
    Notation no := (length olds). Notation nn := (length news).
    Lemma rows_levels : exists eo en ts, path_end_hash H olds lo = Some eo /\ path_end_hash H news ln = Some en /\ get_internal_hash_traces key eo en olds news = Some ts /\ Forall2 same_level (rev ts) rows.
    Proof.
      pose proof R as E. unfold trie_rows_new in E. apply obind_some in E. destruct E as (eo & Eo & E). apply obind_some in E. destruct E as (en & En & _).
      pose proof (traces_agree H key olds news lo ln eo en Eo En) as A. rewrite R in A. destruct (get_internal_hash_traces key eo en olds news) as [ts|] eqn:G; [|contradiction]. exists eo, en, ts. auto.
    Qed.
    Lemma rows_length : length rows = Nat.max no nn.
    Proof.
      destruct rows_levels as (eo & en & ts & _ & _ & T & F). rewrite <- (proj1 (level _ _ _ _ _ _ T)). clear - F. induction F; cbn [length]; congruence.
    Qed.
    Lemma path_at i row : nth_error rows i = Some row -> tr_path row = if (i <? no)%nat then if (i <? nn)%nat then Common else ExtensionOld else ExtensionNew.
    Proof.
      intros E. pose proof (nth_lt _ _ _ E) as L. rewrite rows_length in L. destruct rows_levels as (eo & en & ts & _ & _ & T & F). destruct (forall2_nth _ _ _ F i row E) as (t & Et & (_ & _ & _ & _ & _ & P)).
      pose proof (below key eo en olds news ts T i) as B. rewrite Et, (proj2 (Nat.ltb_lt _ _) L) in B. unfold ht_path_type in B. destruct (tr_path row); [contradiction|destruct P as [P1 P2]; rewrite P1, P2 in B; apply LookupMain.some_eq in B; exact B..].
    Qed.
    Lemma next_at row rest : rows = row :: rest -> (match rest with next :: _ => Some (tr_path next) | [] => None end) =
      if (1 <? Nat.max no nn)%nat then Some (if (1 <? no)%nat then if (1 <? nn)%nat then Common else ExtensionOld else ExtensionNew) else None.
    Proof.
      intros E. pose proof rows_length as L. rewrite E in L. cbn [length] in L. destruct rest as [|next rest].
      - cbn [length] in L. rewrite (proj2 (Nat.ltb_ge _ _)) by lia. reflexivity.
      - cbn [length] in L. rewrite (proj2 (Nat.ltb_lt 1 (Nat.max no nn))) by lia. f_equal. apply path_at. rewrite E. reflexivity.
    Qed.
    (* the hash of the top row on the old side ... *)
    Lemma old_top l h : trie_old_root H rows l = Some h ->
      match olds with
      | n :: _ => exists own d, own_domain n own /\ hashes_to H (kbit key 0) d n h /\
          (~ last_and_unchanged news olds 0 -> d = own) /\ (last_and_unchanged news olds 0 -> grown (kbit key 0) own d)
      | [] => match news with [] => l = Some h | _ => leaf_hashes_to H lo h end
      end.
    Proof.
      intros E. destruct rows_levels as (eo & en & ts & Eo & En & T & F). pose proof rows_length as L. pose proof path_at as PA. pose proof next_at as NX.
      destruct rows as [|row rest].
      { cbn [length] in L. destruct olds as [|o os]; [|cbn [length] in L; lia]. destruct news as [|w ws]; [|cbn [length] in L; lia]. exact E. }
      cbn [trie_old_root] in E. rewrite (NX row rest eq_refl) in E. specialize (PA 0%nat row eq_refl). destruct (forall2_nth _ _ _ F 0%nat row eq_refl) as (t & Et & Sl).
      destruct Sl as (L1 & L2 & L3 & L4 & L5 & _). destruct (proj2 (level _ _ _ _ _ _ T) 0%nat) as (t' & Et' & Lv); [rewrite <- L; cbn; lia|]. rewrite Et in Et'. apply LookupMain.some_eq in Et'. subst t'.
      unfold old_hash in E. apply obind_some in E. destruct E as (ds & Ed & E). apply LookupMain.some_eq in E.
      destruct olds as [|o os].
      - cbn [length Nat.ltb Nat.leb nth_error] in PA, Lv. rewrite PA in E. subst h. destruct news as [|w ws]; [cbn [length] in L; discriminate L|]. rewrite <- L3. cbn [nth_error] in Lv.
        apply end_nil. rewrite Eo. f_equal. cbn [internal_hash_trace] in Lv. ob Lv. ob Lv. ob Lv. apply LookupMain.some_eq in Lv. subst t. reflexivity.
      - replace (0 <? length (o :: os))%nat with true in PA by reflexivity. cbn [nth_error] in Lv. destruct news as [|w ws].
        + cbn [nth_error length] in *. change (0 <? 0)%nat with false in PA. cbv iota in PA. apply level_old in Lv. destruct Lv as (V1 & _ & V2 & V3 & V4). unfold hash_domains in Ed. rewrite PA in Ed, E. apply LookupMain.some_eq in Ed. subst ds.
          exists (ht_domain t), (tr_domain row). split; [exact V4|]. split; [|split; [intros _; congruence|intros (X & _); discriminate X]].
          exists (ht_open t), (ht_sibling t). split; [exact V2|]. split; [exact V3|]. subst h. rewrite <- L1, <- L3, <- L5, V1. cbn [fst]. destruct (kbit key 0); reflexivity.
        + replace (0 <? length (w :: ws))%nat with true in PA by reflexivity. cbv iota in PA. cbn [nth_error] in Lv. apply level_both in Lv; [|cbn; lia|cbn; lia]. destruct Lv as (Sib & V1 & _ & V2 & _ & V3 & d & d' & Od & On & Dm).
          unfold hash_domains in Ed. rewrite PA in Ed, E. exists d, (fst ds). split; [exact Od|]. split.
          { exists (ht_open t), (ht_sibling t). split; [exact V2|]. split; [exact V3|]. subst h. rewrite <- L1, <- L3, <- L5, V1. destruct (kbit key 0); reflexivity. }
          assert (Lu : last_and_unchanged (w :: ws) (o :: os) 0 -> length ws = 0%nat /\ (0 < length os)%nat /\ d = d').
          { intros (P1 & P2 & x & x' & dd & X1 & X2 & X3 & X4). cbn [length nth_error] in *. split; [lia|]. split; [lia|]. apply LookupMain.some_eq in X1, X2. subst x x'. unfold own_domain in *. congruence. }
          assert (Lu' : length ws = 0%nat -> (0 < length os)%nat -> d = d' -> last_and_unchanged (w :: ws) (o :: os) 0).
          { intros P1 P2 <-. split; [cbn; lia|]. split; [cbn; lia|]. exists w, o, d. auto. }
          cbn [length] in Ed, Dm. rewrite <- L2, <- L1, V1 in Ed.
          destruct (Nat.ltb_spec 1 (Nat.max (S (length os)) (S (length ws)))) as [M|M].
          * destruct (Nat.ltb_spec 1 (S (length os))) as [Mo|Mo].
            { destruct (Nat.ltb_spec 1 (S (length ws))) as [Mn|Mn].
              - apply LookupMain.some_eq in Ed. subst ds. cbn [fst]. split; [intros _|intros X; apply Lu in X; lia]. destruct Dm as [[_ X]|(_ & X & _)]; [exact X|lia].
              - cbn [get_domains] in Ed. apply obind_some in Ed. destruct Ed as (dd & Ed & E'). apply LookupMain.some_eq in E'. subst ds. cbn [fst]. apply next_grown in Ed. split.
                + intros NL. destruct Dm as [[X1 X2]|(_ & _ & [(X & _)|(_ & X2 & X3)])]; [exfalso; apply NL, Lu'; [lia|lia|exact X1]|lia|]. apply check_grown in X3. rewrite X2 in Ed. apply grown_next in Ed, X3. congruence.
                + intros X. apply Lu in X. destruct X as (_ & _ & <-). destruct Dm as [[_ X2]|(_ & _ & [(_ & X2 & _)|(_ & X2 & _)])]; rewrite X2 in Ed; exact Ed. }
            { cbn [get_domains] in Ed. apply obind_some in Ed. destruct Ed as (dd & Ed & E'). apply LookupMain.some_eq in E'. subst ds. cbn [fst]. split; [intros _|intros X; apply Lu in X; lia].
              destruct Dm as [[_ X]|(_ & _ & [(_ & X & _)|(X & _)])]; [exact X|exact X|lia]. }
          * apply LookupMain.some_eq in Ed. subst ds. cbn [fst]. split; [intros _|intros X; apply Lu in X; lia]. destruct Dm as [[_ X]|(X & _)]; [exact X|lia].
    Qed.
    (* ... and on the new side *)
    Lemma new_top l h : trie_new_root H rows l = Some h ->
      match news with
      | n :: _ => exists own d, own_domain n own /\ hashes_to H (kbit key 0) d n h /\
          (~ last_and_unchanged olds news 0 -> d = own) /\ (last_and_unchanged olds news 0 -> grown (kbit key 0) own d)
      | [] => match olds with [] => l = Some h | _ => leaf_hashes_to H ln h end
      end.
    Proof.
      intros E. destruct rows_levels as (eo & en & ts & Eo & En & T & F). pose proof rows_length as L. pose proof path_at as PA. pose proof next_at as NX.
      destruct rows as [|row rest].
      { cbn [length] in L. destruct olds as [|o os]; [|cbn [length] in L; lia]. destruct news as [|w ws]; [|cbn [length] in L; lia]. exact E. }
      cbn [trie_new_root] in E. rewrite (NX row rest eq_refl) in E. specialize (PA 0%nat row eq_refl). destruct (forall2_nth _ _ _ F 0%nat row eq_refl) as (t & Et & Sl).
      destruct Sl as (L1 & L2 & L3 & L4 & L5 & _). destruct (proj2 (level _ _ _ _ _ _ T) 0%nat) as (t' & Et' & Lv); [rewrite <- L; cbn; lia|]. rewrite Et in Et'. apply LookupMain.some_eq in Et'. subst t'.
      unfold new_hash in E. apply obind_some in E. destruct E as (ds & Ed & E). apply LookupMain.some_eq in E.
      destruct news as [|w ws].
      - destruct olds as [|o os]; [cbn [length] in L; discriminate L|]. cbn [nth_error] in Lv. replace (0 <? length (o :: os))%nat with true in PA by reflexivity. change (0 <? length (@nil SMTNode))%nat with false in PA. cbv iota in PA. rewrite PA in E. subst h. rewrite <- L4.
        apply end_nil. rewrite En. f_equal. cbn [internal_hash_trace] in Lv. ob Lv. ob Lv. ob Lv. apply LookupMain.some_eq in Lv. subst t. reflexivity.
      - cbn [nth_error] in Lv. destruct olds as [|o os].
        + cbn [nth_error length] in *. change (0 <? 0)%nat with false in PA. cbv iota in PA. apply level_new in Lv. destruct Lv as (V1 & _ & V2 & V3 & V4). unfold hash_domains in Ed. rewrite PA in Ed, E. apply LookupMain.some_eq in Ed. subst ds.
          exists (ht_domain t), (tr_domain row). split; [exact V4|]. split; [|split; [intros _; congruence|intros (X & _); discriminate X]].
          exists (ht_close t), (ht_sibling t). split; [exact V2|]. split; [exact V3|]. subst h. rewrite <- L1, <- L4, <- L5, V1. cbn [snd]. destruct (kbit key 0); reflexivity.
        + replace (0 <? length (o :: os))%nat with true in PA by reflexivity. replace (0 <? length (w :: ws))%nat with true in PA by reflexivity. cbv iota in PA. cbn [nth_error] in Lv. apply level_both in Lv; [|cbn; lia|cbn; lia]. destruct Lv as (Sib & V1 & _ & _ & V2 & V3 & d & d' & Od & On & Dm).
          unfold hash_domains in Ed. rewrite PA in Ed, E. exists d', (snd ds). split; [exact On|]. split.
          { exists (ht_close t), (ht_sibling t). split; [exact V2|]. split; [rewrite <- Sib; exact V3|]. subst h. rewrite <- L1, <- L4, <- L5, V1. destruct (kbit key 0); reflexivity. }
          assert (Lu : last_and_unchanged (o :: os) (w :: ws) 0 -> length os = 0%nat /\ (0 < length ws)%nat /\ d = d').
          { intros (P1 & P2 & x & x' & dd & X1 & X2 & X3 & X4). cbn [length nth_error] in *. split; [lia|]. split; [lia|]. apply LookupMain.some_eq in X1, X2. subst x x'. unfold own_domain in *. congruence. }
          assert (Lu' : length os = 0%nat -> (0 < length ws)%nat -> d = d' -> last_and_unchanged (o :: os) (w :: ws) 0).
          { intros P1 P2 <-. split; [cbn; lia|]. split; [cbn; lia|]. exists o, w, d. auto. }
          cbn [length] in Ed, Dm. rewrite <- L2, <- L1, V1 in Ed.
          destruct (Nat.ltb_spec 1 (Nat.max (S (length os)) (S (length ws)))) as [M|M].
          * destruct (Nat.ltb_spec 1 (S (length os))) as [Mo|Mo].
            { destruct (Nat.ltb_spec 1 (S (length ws))) as [Mn|Mn].
              - apply LookupMain.some_eq in Ed. subst ds. cbn [snd]. split; [intros _|intros X; apply Lu in X; lia]. destruct Dm as [[X1 X]|(_ & X & _)]; [congruence|lia].
              - cbn [get_domains] in Ed. apply obind_some in Ed. destruct Ed as (dd & Ed & E'). apply LookupMain.some_eq in E'. subst ds. cbn [snd]. split; [intros _|intros X; apply Lu in X; lia].
                destruct Dm as [[X1 X]|(_ & _ & [(X & _)|(_ & X & _)])]; [congruence|lia|exact X]. }
            { cbn [get_domains] in Ed. apply obind_some in Ed. destruct Ed as (dd & Ed & E'). apply LookupMain.some_eq in E'. subst ds. cbn [snd]. apply next_grown in Ed. split.
              - intros NL. destruct Dm as [[X1 X2]|(_ & _ & [(_ & X2 & X3)|(X & _)])]; [exfalso; apply NL, Lu'; [lia|lia|exact X1]| |lia]. apply check_grown in X3. rewrite X2 in Ed. apply grown_next in Ed, X3. congruence.
              - intros X. apply Lu in X. destruct X as (_ & _ & <-). destruct Dm as [[_ X2]|(_ & _ & [(_ & X2 & _)|(_ & X2 & _)])]; rewrite X2 in Ed; exact Ed. }
          * apply LookupMain.some_eq in Ed. subst ds. cbn [snd]. split; [intros _|intros X; apply Lu in X; lia]. destruct Dm as [[X1 X]|(X & _)]; [congruence|lia].
    Qed.
    Lemma rows_branches : same_branches key olds news.
    Proof. destruct rows_levels as (eo & en & ts & _ & _ & T & _). exact (branches_same _ _ _ _ _ _ T). Qed.
  End Roots.
  Definition entries_ok (tr : SMTTrace) : Prop := forall eo en, t_state_update tr = Some (Some eo, Some en) -> word (sd_key eo) /\ word (sd_value eo) /\ word (sd_key en) /\ word (sd_value en).
  Theorem storage_checked ty tr p : proof_from H ty tr = Some p -> t_common_state_root tr = None -> entries_ok tr ->
    exists key kb pa pb eo en, t_state_key tr = Some kb /\ fr kb = Some key /\ t_state_path tr = (Some pa, Some pb) /\ t_state_update tr = Some (Some eo, Some en) /\
      sd_key eo = sd_key en /\ same_branches key (p_path pa) (p_path pb) /\ storage_root_ok H key pa pb eo /\ storage_root_ok H key pb pa en /\
      empty_slot_key H key (p_leaf pa) eo /\ empty_slot_key H key (p_leaf pb) en.
  Proof.
    intros E TC W. destruct (proof_from_inv _ _ _ _ E) as (p0 & p1 & lh0 & lh1 & T). pose proof (ft_storage _ _ _ _ _ _ _ _ T) as S.
    destruct (storage_fields _ _ _ S TC) as (kb & pa & pb & eo & en & K & P & U & Q). destruct (W _ _ U) as (W1 & W2 & W3 & W4).
    destruct (storage_proof_inv _ _ _ _ _ _ _ _ S TC K P U) as (key & sk & rows & old & new & Fk & R & _ & Lo & Ln & Es & Ro & Rn).
    exists key, kb, pa, pb, eo, en. split; [exact K|]. split; [exact Fk|]. split; [exact P|]. split; [exact U|]. split; [exact Q|]. split; [exact (rows_branches _ _ _ _ _ _ R)|].
    rewrite Es in Ro, Rn. cbn [sp_old_root sp_new_root] in Ro, Rn.
    assert (Fo : exists h, fr (p_root pa) = Some h /\ fr (p_root pb) <> None).
    { unfold storage_proof_from in S. rewrite TC, K, P, U in S. cbn [obind fst snd] in S. rewrite Fk in S. cbn [obind] in S. rewrite R in S. cbn [obind] in S. ob S. ob S. ob S. ob S. ob S. apply obind_some in S. destruct S as (ro & S1 & S). ob S. ob S. apply obind_some in S. destruct S as (rn & S2 & S).
      exists ro. split; [exact S1|congruence]. }
    destruct Fo as (h & Fo & Fn). destruct (fr (p_root pb)) as [h'|] eqn:Fn'; [|congruence]. rewrite Fo in Ro.
    split; [|split; [|split; [exact (leaf_key _ _ _ _ W1 W2 Lo)|exact (leaf_key _ _ _ _ W3 W4 Ln)]]].
    - exists h. split; [exact Fo|]. pose proof (old_top _ _ _ _ _ _ R _ _ Ro) as X. destruct (p_path pa) as [|n rest]; [|exact X]. destruct (p_path pb); [exact (leaf_entry _ _ _ _ _ W1 W2 Lo X)|exact X].
    - exists h'. split; [exact Fn'|]. pose proof (new_top _ _ _ _ _ _ R _ _ Rn) as X. destruct (p_path pb) as [|n rest]; [|exact X]. destruct (p_path pa); [exact (leaf_entry _ _ _ _ _ W3 W4 Ln X)|exact X].
  Qed.
End Storage.

(** * What is not checked *)
Section Unchecked.
  Variable H : Fr -> Fr -> Fr -> Fr.
  Lemma kind_with_roots ty tr r0 r1 : claim_kind_from ty (with_roots tr r0 r1) = claim_kind_from ty tr.
  Proof. reflexivity. Qed.
  Theorem roots_unchecked ty tr p r0 r1 x0 x1 : proof_from H ty tr = Some p -> fr r0 = Some x0 -> fr r1 = Some x1 ->
    exists p', proof_from H ty (with_roots tr r0 r1) = Some p' /\ c_old_root (pf_claim p') = x0 /\ c_new_root (pf_claim p') = x1 /\ pf_account_trie_rows p' = pf_account_trie_rows p.
  Proof.
    intros E E0 E1. unfold proof_from in *.
    apply obind_some in E; destruct E as (claim & C & E).
    assert (C' : claim_from ty (with_roots tr r0 r1) = Some (mkClaim x0 x1 (c_address claim) (c_kind claim))).
    { unfold claim_from in *. rewrite kind_with_roots. unfold with_roots. cbn [t_account_path t_address fst snd p_root]. rewrite E0, E1. cbn [obind]. ob C. ob C. apply obind_some in C. destruct C as (k & Ek & C). apply obind_some in C. destruct C as (u & Eu & C).
      rewrite Ek. cbn [obind]. rewrite Eu. cbn [obind]. apply LookupMain.some_eq in C. subst claim. reflexivity. }
    rewrite C'. clear C C'. cbn [obind].
    apply obind_some in E; destruct E as (storage & E2 & E). replace (storage_proof_from H (with_roots tr r0 r1)) with (storage_proof_from H tr) by reflexivity. rewrite E2. cbn [obind].
    unfold with_roots. cbn [t_account_key t_account_path t_account_update c_address]. destruct (t_account_path tr) as [p0 p1]. cbn [fst snd p_path p_leaf].
    unfold get_leaf, leaf_hash, path_from in *. cbn [p_leaf]. cbv zeta in E |- *.
    apply obind_some in E; destruct E as (tkey & E3 & E). rewrite E3. cbn [obind].
    apply obind_some in E; destruct E as (u & E4 & E). rewrite E4. cbn [obind].
    apply obind_some in E; destruct E as (rows & E5 & E). rewrite E5. cbn [obind].
    do 6 (let e := fresh "X" in let a := fresh "a" in apply obind_some in E; destruct E as (a & e & E); rewrite e; cbn [obind]).
    destruct (t_account_update tr) as [oa na].
    do 8 (let e := fresh "X" in let a := fresh "a" in apply obind_some in E; destruct E as (a & e & E); rewrite e; cbn [obind]).
    apply LookupMain.some_eq in E. subst p. eexists. split; [reflexivity|]. cbn [pf_claim pf_account_trie_rows c_old_root c_new_root]. auto.
  Qed.
  Lemma entry_leaf key leaf e l v : word (sd_key e) -> word v -> be_val v <> 0 -> leaf <> None -> storage_leaf_new H key leaf e = Some l ->
    storage_leaf_new H key leaf (mkStateData (sd_key e) v) = Some (SEntry (be_val (sd_key e)) (be_val v)).
  Proof.
    intros W V N Lf E. unfold storage_leaf_new. cbn [sd_value sd_key]. destruct (u256_from_hex_spec _ (proj1 W) (proj2 W)) as [K _]. destruct (u256_from_hex_spec _ (proj1 V) (proj2 V)) as [Q _]. rewrite K, Q. cbn [obind].
    rewrite (proj2 (Z.eqb_neq _ _) N). destruct leaf; [reflexivity|congruence].
  Qed.
  Theorem values_unchecked tr p pa pb eo en v0 v1 : proof_from H StorageChanged tr = Some p -> t_common_state_root tr = None ->
    t_state_path tr = (Some pa, Some pb) -> p_path pa <> [] \/ p_path pb <> [] -> p_leaf pa <> None -> p_leaf pb <> None ->
    t_state_update tr = Some (Some eo, Some en) -> word (sd_key eo) -> word v0 -> word v1 -> be_val v0 <> 0 -> be_val v1 <> 0 ->
    exists p', proof_from H StorageChanged (with_values tr v0 v1) = Some p' /\ c_kind (pf_claim p') = KStorage (be_val (sd_key eo)) (Some (be_val v0)) (Some (be_val v1)) /\
      c_old_root (pf_claim p') = c_old_root (pf_claim p) /\ c_new_root (pf_claim p') = c_new_root (pf_claim p).
  Proof.
    intros E TC TP Ne Lf0 Lf1 TU W V0 V1 N0 N1. unfold proof_from in *.
    apply obind_some in E; destruct E as (claim & C & E). apply obind_some in E; destruct E as (storage & Es & E).
    destruct (storage_fields _ _ _ Es TC) as (kb & pa' & pb' & eo' & en' & K & P & U & Q). rewrite TU in U. assert (eo' = eo /\ en' = en) as [-> ->] by (split; congruence). clear U P pa' pb'.
    destruct (storage_proof_inv _ _ _ _ _ _ _ _ Es TC K TP TU) as (key & sk & rows & old & new & Fk & R & Sk & Lo & Ln & Ee & Ro & Rn).
    destruct (u256_from_hex_spec _ (proj1 W) (proj2 W)) as [HK _]. destruct (u256_from_hex_spec _ (proj1 V0) (proj2 V0)) as [HV0 _]. destruct (u256_from_hex_spec _ (proj1 V1) (proj2 V1)) as [HV1 _].
    assert (C' : claim_from StorageChanged (with_values tr v0 v1) = Some (mkClaim (c_old_root claim) (c_new_root claim) (c_address claim) (KStorage (be_val (sd_key eo)) (Some (be_val v0)) (Some (be_val v1))))).
    { unfold claim_from, claim_kind_from in *. unfold with_values. cbn [t_account_path t_address t_state_update t_account_update]. rewrite TU in C |- *. cbn [option_map fst snd]. ob C. ob C. rewrite E0, E1. cbn [obind]. apply obind_some in C. destruct C as (k & Ek & C). ob C. apply LookupMain.some_eq in C. subst claim. cbn [c_old_root c_new_root c_address].
      destruct (t_account_update tr) as [ao an]. apply obind_some in Ek. destruct Ek as (u & Eu & Ek). rewrite Eu. cbn [obind sd_key sd_value]. rewrite HV0, HV1. cbn [obind]. rewrite Q in *. rewrite bytes_eqb_refl, HK. cbn [oassert obind].
      rewrite (proj2 (Z.eqb_neq _ _) N0). cbn [andb]. unfold nonzero. rewrite (proj2 (Z.eqb_neq _ _) N0), (proj2 (Z.eqb_neq _ _) N1). reflexivity. }
    rewrite C'. cbn [obind c_address]. clear C'.
    assert (Q' : sd_key en = sd_key eo) by congruence.
    assert (Nr : rows <> []). { intros X. pose proof (rows_length H _ _ _ _ _ _ R) as L. rewrite X in L. cbn [length] in L. destruct Ne as [Y|Y]; apply Y; apply length_zero_iff_nil; lia. }
    assert (Es' : storage_proof_from H (with_values tr v0 v1) = Some (SUpdate sk key rows (SEntry (be_val (sd_key eo)) (be_val v0)) (SEntry (be_val (sd_key eo)) (be_val v1)))).
    { unfold storage_proof_from. unfold with_values. cbn [t_common_state_root t_state_key t_state_path t_state_update]. rewrite TC, K, TP, TU. cbn [obind option_map fst snd]. rewrite Fk. cbn [obind]. rewrite R. cbn [obind sd_key]. rewrite Q', bytes_eqb_refl. cbn [oassert obind]. rewrite Sk. cbn [obind].
      rewrite (entry_leaf _ _ _ _ _ W V0 N0 Lf0 Lo). cbn [obind]. rewrite <- Q' in W |- *. rewrite (entry_leaf _ _ _ _ _ W V1 N1 Lf1 Ln). cbn [obind].
      rewrite Ee in Ro, Rn. cbn [sp_old_root sp_new_root] in *. destruct rows as [|row rest]; [congruence|]. cbn [trie_old_root trie_new_root] in *. rewrite Ro, Rn.
      unfold storage_proof_from in Es. rewrite TC, K, TP, TU in Es. cbn [obind fst snd] in Es. rewrite Fk in Es. cbn [obind] in Es. rewrite R in Es. cbn [obind] in Es. ob Es. ob Es. ob Es. ob Es. ob Es. apply obind_some in Es. destruct Es as (ro & S1 & Es). ob Es. ob Es. apply obind_some in Es. destruct Es as (rn & S2 & Es).
      rewrite S1, S2. cbn [obind]. rewrite !feqb_refl. reflexivity. }
    rewrite Es'. cbn [obind]. clear Es'.
    assert (So : sp_old_root H storage = sp_old_root H (SUpdate sk key rows (SEntry (be_val (sd_key eo)) (be_val v0)) (SEntry (be_val (sd_key eo)) (be_val v1)))) by (rewrite Ee; cbn [sp_old_root]; destruct rows; [congruence|reflexivity]).
    assert (Sn : sp_new_root H storage = sp_new_root H (SUpdate sk key rows (SEntry (be_val (sd_key eo)) (be_val v0)) (SEntry (be_val (sd_key eo)) (be_val v1)))) by (rewrite Ee; cbn [sp_new_root]; destruct rows; [congruence|reflexivity]).
    rewrite <- So, <- Sn. unfold with_values. cbn [t_account_key t_account_path t_account_update c_address]. clear So Sn. cbv zeta in E |- *.
    apply obind_some in E; destruct E as (tkey & E3 & E). rewrite E3. cbn [obind].
    apply obind_some in E; destruct E as (u & E4 & E). rewrite E4. cbn [obind].
    destruct (t_account_path tr) as [p0 p1]. apply obind_some in E; destruct E as (rows' & E5 & E). rewrite E5. cbn [obind].
    do 6 (let e := fresh "X" in let a := fresh "a" in apply obind_some in E; destruct E as (a & e & E); rewrite e; cbn [obind]).
    destruct (t_account_update tr) as [oa na].
    do 8 (let e := fresh "X" in let a := fresh "a" in apply obind_some in E; destruct E as (a & e & E); rewrite e; cbn [obind]).
    apply LookupMain.some_eq in E. subst p. eexists. split; [reflexivity|]. cbn [pf_claim c_kind c_old_root c_new_root]. auto.
  Qed.
End Unchecked.
Definition one_node (v : Z) : list SMTNode := [mkNode (fr_to_bytes (fz v)) (fr_to_bytes (fz 8)) 6].
Definition loose_trace : SMTTrace :=
  let p := mkPath (fr_to_bytes (fz 5)) None (one_node 7) in
  mkTrace (be_bytes 20 77) (fr_to_bytes ex_key) (p, p) (None, None) (None, None) (Some (fr_to_bytes f0)) None None.
(* the node above the end of the path does not record the hash of what ends it *)
Theorem end_unchecked : exists ty tr p n v h, proof_from toy ty tr = Some p /\ p_path (fst (t_account_path tr)) = [n] /\ fr (n_value n) = Some v /\
  leaf_hashes_to toy (p_leaf (fst (t_account_path tr))) h /\ v <> h.
Proof.
  exists AccountDoesNotExist, loose_trace. assert (X : checkb (p <- proof_from toy AccountDoesNotExist loose_trace; Some true) = true) by (vm_compute; reflexivity).
  destruct (proof_from toy AccountDoesNotExist loose_trace) as [p|]; [|discriminate X]. exists p, (mkNode (fr_to_bytes (fz 7)) (fr_to_bytes (fz 8)) 6), (fz 7), f0. split; [reflexivity|]. split; [reflexivity|].
  split; [apply fr_from_to|]. split; [reflexivity|]. intros E. apply (f_equal val) in E. vm_compute in E. discriminate E.
Qed.
Definition loose_storage : SMTTrace :=
  let p := mkPath (fr_to_bytes (fz 5)) None [] in
  let nodes := [mkNode (fr_to_bytes (fz 7)) (fr_to_bytes (fz 8)) 9; mkNode (fr_to_bytes (fz 1)) (fr_to_bytes (fz 2)) 6] in
  let s := mkPath (fr_to_bytes (toy (fz 7) (fz 8) (fdom Branch3))) None nodes in
  let z := mkStateData (be_bytes 32 3) (be_bytes 32 0) in
  mkTrace (be_bytes 20 77) (fr_to_bytes ex_key) (p, p) (None, None) (Some s, Some s) None (Some (fr_to_bytes (fz 4))) (Some (Some z, Some z)).
(* a storage path whose nodes below the top are arbitrary, and whose key is not that of the slot *)
Theorem interior_unchecked : exists ty tr p pa key kb eo, proof_from toy ty tr = Some p /\ t_common_state_root tr = None /\ fst (t_state_path tr) = Some pa /\
  t_state_key tr = Some kb /\ fr kb = Some key /\ ~ chained toy key (p_path pa) /\
  t_state_update tr = Some (Some eo, Some eo) /\ key <> slot_key toy (be_val (sd_key eo)).
Proof.
  exists StorageDoesNotExist, loose_storage. assert (X : checkb (p <- proof_from toy StorageDoesNotExist loose_storage; Some true) = true) by (vm_compute; reflexivity).
  destruct (proof_from toy StorageDoesNotExist loose_storage) as [p|]; [|discriminate X]. eexists p, _, (fz 4), _, _. split; [reflexivity|]. split; [reflexivity|]. split; [reflexivity|]. split; [reflexivity|]. split; [apply fr_from_to|].
  split; [|split; [reflexivity|intros E; apply (f_equal val) in E; vm_compute in E; discriminate E]].
  cbn [p_path]. intros Ch. destruct (Ch 0%nat _ _ eq_refl eq_refl) as (d & h & D & (v & s & Ev & Es & Eh) & Vh). unfold own_domain in D. cbn in D. apply LookupMain.some_eq in D. subst d.
  unfold fr in *. cbn [n_value n_sibling] in *. rewrite fr_from_to in Ev, Es, Vh. apply LookupMain.some_eq in Ev, Es, Vh. subst v s h. apply (f_equal val) in Vh. vm_compute in Vh. discriminate Vh.
Qed.

(** * Cases *)
Definition grow_state (x : tree account) : tree account := Node (Leaf (fz 4) ex_account) (Node (Node x (Leaf (fz 5) ex_account)) Empty).
Definition grow_trace := account_trace_of toy (grow_state (Leaf (fz 9) ex_account)) (grow_state (Node (Leaf ex_key (mkAccount 1 0 0 0 f0 Empty)) (Leaf (fz 9) ex_account))) 77.
Theorem insertion_converted : exists p, proof_from toy NonceChanged grow_trace = Some p /\ address_ok (t_address grow_trace) /\
  length (p_path (fst (t_account_path grow_trace))) = 3%nat /\ length (p_path (snd (t_account_path grow_trace))) = 4%nat /\ snd (t_account_update grow_trace) <> None.
Proof.
  assert (X : checkb (p <- proof_from toy NonceChanged grow_trace; Some ((length (p_path (fst (t_account_path grow_trace))) =? 3)%nat && (length (p_path (snd (t_account_path grow_trace))) =? 4)%nat
    && negb (is_none (snd (t_account_update grow_trace))))) = true) by (vm_compute; reflexivity).
  destruct (proof_from toy NonceChanged grow_trace) as [p|]; [|discriminate X]. cbn [obind checkb] in X. apply andb_prop in X. destruct X as [X X3]. apply andb_prop in X. destruct X as [X1 X2]. apply Nat.eqb_eq in X1, X2.
  exists p. split; [reflexivity|]. split; [split; [reflexivity|apply be_bytes_ok]|]. split; [exact X1|]. split; [exact X2|]. destruct (snd (t_account_update grow_trace)); [discriminate|discriminate X3].
Qed.
Lemma storage_entries H t t' a slot : entries_ok (storage_trace_of H t t' a slot) /\ exists eo en, t_state_update (storage_trace_of H t t' a slot) = Some (Some eo, Some en) /\ word (sd_key eo).
Proof.
  assert (G : forall x, word (be_bytes 32 x)) by (intros x; split; [apply be_bytes_length|apply be_bytes_ok]). split.
  - intros eo en E. unfold storage_trace_of in E. cbv zeta in E. cbn [t_state_update] in E. injection E as <- <-. cbn [sd_key sd_value]. repeat split; apply G.
  - unfold storage_trace_of. cbv zeta. cbn [t_state_update]. eexists _, _. split; [reflexivity|]. apply G.
Qed.
Theorem storage_case : exists p pa pb eo en, proof_from toy StorageChanged ex_storage_trace = Some p /\ t_common_state_root ex_storage_trace = None /\ entries_ok ex_storage_trace /\
  t_state_path ex_storage_trace = (Some pa, Some pb) /\ p_path pa <> [] /\ p_leaf pa <> None /\ p_leaf pb <> None /\ t_state_update ex_storage_trace = Some (Some eo, Some en) /\ word (sd_key eo) /\
  length (p_path (fst (t_account_path ex_storage_trace))) = 2%nat.
Proof.
  assert (X : checkb (p <- proof_from toy StorageChanged ex_storage_trace; pa <- fst (t_state_path ex_storage_trace); pb <- snd (t_state_path ex_storage_trace); 
    Some (negb (length (p_path pa) =? 0)%nat && negb (is_none (p_leaf pa)) && negb (is_none (p_leaf pb)) && (length (p_path (fst (t_account_path ex_storage_trace))) =? 2)%nat)) = true) by (vm_compute; reflexivity).
  destruct (proof_from toy StorageChanged ex_storage_trace) as [p|]; [|discriminate X]. cbn [obind checkb] in X.
  remember (t_state_path ex_storage_trace) as sp eqn:Sp. destruct sp as [[pa|] [pb|]]; try discriminate X. cbn [fst snd obind] in X. apply andb_prop in X. destruct X as [X X4]. apply andb_prop in X. destruct X as [X X3]. apply andb_prop in X. destruct X as [X1 X2]. apply Nat.eqb_eq in X4.
  destruct (storage_entries toy (ex_state ex_account) (ex_state (set_storage (Node (Leaf (slot_key toy 9) 12) (Leaf (fz 1) 11)) ex_account)) 77 9) as (En & eo & en & Eu & We).
  exists p, pa, pb, eo, en. split; [reflexivity|]. split; [reflexivity|]. split; [exact En|].
  split; [reflexivity|]. split; [intros Q; rewrite Q in X1; discriminate X1|]. split; [intros Q; rewrite Q in X2; discriminate X2|]. split; [intros Q; rewrite Q in X3; discriminate X3|]. split; [exact Eu|]. split; [exact We|exact X4].
Qed.
Lemma removal_panics H ty tr : address_ok (t_address tr) -> (2 <= length (p_path (snd (t_account_path tr))) < length (p_path (fst (t_account_path tr))))%nat -> proof_from H ty tr = None.
Proof.
  intros A L. destruct (proof_from H ty tr) as [p|] eqn:E; [|reflexivity]. exfalso. destruct (paths_checked _ _ _ _ E A) as (_ & _ & _ & _ & X). cbv zeta in X. lia.
Qed.
