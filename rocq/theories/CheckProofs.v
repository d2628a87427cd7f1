(* Proofs for C60: what Proof::check accepts. *)
From Coq Require Import ZArith List Bool Lia.
From Verif Require Import Pocklington Fr Query Builder BuilderProofs Gadgets MptUpdate Bytes GadgetProofs UpdateRows TrieSpec UpdateComplete Util UtilProofs Serde Trie Storage Types TypesProofs Lookups LookupMain
  TrieProofs HonestTrace HonestSpec RowView BlockView LeafOk HonestBlock HonestConvert ClaimSpec TraceSpec TraceChecks CheckSpec ProofCheck.
Import ListNotations.
Open Scope Z_scope.

Section Checked.
  Variable H : Fr -> Fr -> Fr -> Fr.
  Lemma climb_up g key nodes : forall i root leaf,
    match nodes with [] => root = leaf | top :: _ => exists own d, own_domain top own /\ type_at (g i) (kbit key i) own d /\ hashes_to H (kbit key i) d top root end ->
    (forall j n m, nth_error nodes j = Some n -> nth_error nodes (S j) = Some m ->
      exists own d h, own_domain m own /\ type_at (g (i + S j)%nat) (kbit key (i + S j)) own d /\ hashes_to H (kbit key (i + S j)) d m h /\ fr (n_value n) = Some h) ->
    (forall n, nth_error nodes (pred (length nodes)) = Some n -> fr (n_value n) = Some leaf) -> climbs H g key i nodes leaf root.
  Proof.
    induction nodes as [|nd nodes IH]; intros i root leaf Top Ch La; [subst root; constructor|]. destruct Top as (own & d & Ow & Ne & Hs).
    destruct nodes as [|m nodes].
    - eapply climbs_step; [exact Ow|exact Ne|apply La; reflexivity|constructor|exact Hs].
    - destruct (Ch 0%nat nd m eq_refl eq_refl) as (own' & d' & h & Ow' & Ne' & Hs' & Vh). rewrite Nat.add_1_r in Ne', Hs'.
      eapply climbs_step; [exact Ow|exact Ne|exact Vh| |exact Hs]. apply IH; [exists own', d'; auto| |].
      + intros j n2 m2 E1 E2. destruct (Ch (S j) n2 m2 E1 E2) as (o2 & d2 & h2 & Q). replace (i + S (S j))%nat with (S i + S j)%nat in Q by lia. eauto.
      + intros n2 E. apply La. exact E.
  Qed.
  Lemma climbs_bits g key key' nodes : forall i x root, (forall j, (j < length nodes)%nat -> kbit key (i + j) = kbit key' (i + j)) -> climbs H g key i nodes x root -> climbs H g key' i nodes x root.
  Proof.
    induction nodes as [|nd nodes IH]; intros i x root B C; inversion C; subst; [constructor|]. assert (B0 := B 0%nat ltac:(cbn [length]; lia)). rewrite Nat.add_0_r in B0.
    eapply climbs_step; [eassumption|rewrite <- B0; eassumption|eassumption| |rewrite <- B0; eassumption]. apply IH; [|assumption]. intros j Hj. specialize (B (S j) ltac:(cbn [length]; lia)). replace (S i + j)%nat with (i + S j)%nat by lia. exact B.
  Qed.

  (** * The account paths *)
  Record passed (p : Proof) : Prop := {
    pa_storage : storage_check H (pf_storage p) = Some tt;
    pa_top : exists t rest, rev (pf_address_hash_traces p) = t :: rest /\
      c_old_root (pf_claim p) = (if ht_direction t then H (ht_sibling t) (ht_open t) (fdom (ht_domain t)) else H (ht_open t) (ht_sibling t) (fdom (ht_domain t))) /\
      c_new_root (pf_claim p) = (if ht_direction t then H (ht_sibling t) (ht_close t) (fdom (ht_domain t)) else H (ht_close t) (ht_sibling t) (fdom (ht_domain t)));
    pa_end : exists t rest, pf_address_hash_traces p = t :: rest /\ ht_open t = at2 (pf_old_account_hash_traces p) 5 2 /\ ht_close t = at2 (pf_new_account_hash_traces p) 5 2 }.
  Lemma check_passed p : proof_check H p = Some tt -> passed p.
  Proof.
    intros E. unfold proof_check in E. apply obind_some in E. destruct E as ([] & E1 & E). apply obind_some in E. destruct E as ([] & _ & E). apply obind_some in E. destruct E as ([] & _ & E). apply obind_some in E. destruct E as ([] & E2 & E).
    constructor; [exact E1| |].
    - unfold trace_roots_ok in E2. destruct (rev (pf_address_hash_traces p)) as [|t rest]; [discriminate E2|]. cbv zeta in E2. apply obind_some in E2. destruct E2 as ([] & F1 & F2). apply LookupMain.oassert_some in F1, F2.
      exists t, rest. split; [reflexivity|]. split; apply step_hash; assumption.
    - destruct (pf_address_hash_traces p) as [|t rest]; [discriminate E|]. apply obind_some in E. destruct E as ([] & F1 & E). apply obind_some in E. destruct E as ([] & F2 & _). apply LookupMain.oassert_some, feqb_eq in F1, F2.
      exists t, rest. auto.
  Qed.
  Lemma rev_last {A} (l : list A) x rest : l = x :: rest -> nth_error (rev l) (pred (length (rev l))) = Some x.
  Proof. intros ->. cbn [rev]. rewrite app_length. cbn [length]. rewrite nth_error_app2 by lia. replace (pred _ - length (rev rest))%nat with 0%nat by lia. reflexivity. Qed.

  Section Account.
    Variables (ty : MPTProofType) (tr : SMTTrace) (p : Proof).
    Hypothesis PF : proof_from H ty tr = Some p.
    Hypothesis Ck : proof_check H p = Some tt.
    Hypothesis OA : address_ok (t_address tr).
    Notation key := (addr_key H (be_val (t_address tr))).
    Notation p0 := (fst (t_account_path tr)). Notation p1 := (snd (t_account_path tr)).
    Notation olds := (p_path p0). Notation news := (p_path p1).
    Notation no := (length olds). Notation nn := (length news).
    Lemma account_facts : exists lh0 lh1 t0 te,
      leaf_hashes_to H (p_leaf p0) lh0 /\ leaf_hashes_to H (p_leaf p1) lh1 /\
      (0 < Nat.max no nn)%nat /\ internal_hash_trace key lh0 lh1 no nn 0 (nth_error olds 0, nth_error news 0) = Some t0 /\
      internal_hash_trace key lh0 lh1 no nn (pred (Nat.max no nn)) (nth_error olds (pred (Nat.max no nn)), nth_error news (pred (Nat.max no nn))) = Some te /\
      fr (p_root p0) = Some (if ht_direction t0 then H (ht_sibling t0) (ht_open t0) (fdom (ht_domain t0)) else H (ht_open t0) (ht_sibling t0) (fdom (ht_domain t0))) /\
      fr (p_root p1) = Some (if ht_direction t0 then H (ht_sibling t0) (ht_close t0) (fdom (ht_domain t0)) else H (ht_close t0) (ht_sibling t0) (fdom (ht_domain t0))) /\
      ht_open te = lh0 /\ ht_close te = lh1.
    Proof.
      destruct (proof_from_inv _ _ _ _ PF) as (q0 & q1 & lh0 & lh1 & F). destruct F as [F1 F2 F3 F4 F5 F6 F7 F8 F9 F10 F11 F12 F13 F14 F15 F16 F17 F18 F19]. rewrite F3. cbn [fst snd].
      destruct (HonestPath.claim_from_inv _ _ _ F1) as (ro & rn & kd & Q1 & Q2 & _ & _ & Q). rewrite F3 in Q1, Q2. cbn [fst snd] in Q1, Q2.
      assert (C1 : c_address (pf_claim p) = t_address tr) by (rewrite Q; reflexivity). assert (C2 : c_old_root (pf_claim p) = ro) by (rewrite Q; reflexivity). assert (C3 : c_new_root (pf_claim p) = rn) by (rewrite Q; reflexivity).
      rewrite C1, account_key_spec in F10 by exact OA. destruct (level _ _ _ _ _ _ F10) as [Le Lv].
      destruct (check_passed p Ck) as [_ (t0 & r0 & T0 & Ro & Rn) (te & re & Te & Eo & En)].
      assert (Pos : (0 < Nat.max (length (p_path q0)) (length (p_path q1)))%nat) by (rewrite <- Le, T0; cbn [length]; lia).
      exists lh0, lh1, t0, te. split; [apply leaf_hash_spec, F8|]. split; [apply leaf_hash_spec, F9|]. split; [exact Pos|].
      split. { destruct (Lv 0%nat Pos) as (t & E & X). rewrite T0 in E. cbn in E. apply LookupMain.some_eq in E. subst t. exact X. }
      split. { destruct (Lv (pred (Nat.max (length (p_path q0)) (length (p_path q1)))) ltac:(lia)) as (t & E & X). rewrite <- Le in E at 1. rewrite (rev_last _ _ _ Te) in E. apply LookupMain.some_eq in E. subst t. exact X. }
      rewrite Q1, Q2, <- C2, <- C3, Ro, Rn. split; [reflexivity|]. split; [reflexivity|]. split; congruence.
    Qed.
    Theorem accounts_opened : no = nn -> opened H (fun _ => False) key p0 /\ opened H (fun _ => False) key p1.
    Proof.
      intros L. destruct account_facts as (lh0 & lh1 & t0 & te & L0 & L1 & Pos & T0 & Te & Ro & Rn & Eo & En). destruct (paths_checked H ty tr p PF OA) as (_ & C0 & C1 & SB & _). cbv zeta in C0, C1, SB.
      destruct (nth_some olds 0 ltac:(lia)) as (x0 & X0). destruct (nth_some news 0 ltac:(lia)) as (y0 & Y0). rewrite X0, Y0 in T0. apply level_both in T0; [|lia|lia].
      destruct (nth_some olds (pred (Nat.max no nn)) ltac:(lia)) as (xe & Xe). destruct (nth_some news (pred (Nat.max no nn)) ltac:(lia)) as (ye & Ye). rewrite Xe, Ye in Te. apply level_both in Te; [|lia|lia].
      destruct T0 as (Sb & Dr & _ & Vo & Vc & Vs & d & d' & Od & On & Ds). destruct Te as (_ & _ & _ & Wo & Wc & _).
      destruct Ds as [[Dd Dt]|(Ne & _)]; [subst d'|lia]. replace (pred (Nat.max no nn)) with (pred no) in Xe by lia. replace (pred (Nat.max no nn)) with (pred nn) in Ye by lia.
      split.
      - exists lh0, (if ht_direction t0 then H (ht_sibling t0) (ht_open t0) (fdom (ht_domain t0)) else H (ht_open t0) (ht_sibling t0) (fdom (ht_domain t0))). split; [exact L0|]. split; [exact Ro|]. apply climb_up.
        + destruct olds as [|x l]; [discriminate X0|]. cbn in X0. apply LookupMain.some_eq in X0. subst x. exists d, d. split; [exact Od|]. split; [left; reflexivity|]. exists (ht_open t0), (ht_sibling t0). rewrite Dt, Dr. auto.
        + intros j n m E1 E2. destruct (C0 j n m E1 E2) as (d1 & h & A1 & A2 & A3). exists d1, d1, h. split; [exact A1|]. split; [left; reflexivity|]. auto.
        + intros n E. rewrite Xe in E. apply LookupMain.some_eq in E. subst n. rewrite Wo. congruence.
      - exists lh1, (if ht_direction t0 then H (ht_sibling t0) (ht_close t0) (fdom (ht_domain t0)) else H (ht_close t0) (ht_sibling t0) (fdom (ht_domain t0))). split; [exact L1|]. split; [exact Rn|]. apply climb_up.
        + destruct news as [|x l]; [discriminate Y0|]. cbn in Y0. apply LookupMain.some_eq in Y0. subst x. exists d, d. split; [exact On|]. split; [left; reflexivity|]. exists (ht_close t0), (ht_sibling t0). rewrite Dt, Dr, <- Sb. auto.
        + intros j n m E1 E2. destruct (C1 j n m E1 E2) as (own & d1 & h & A1 & A2 & A3 & A4 & A5). exists own, d1, h. split; [exact A1|]. split; [|split; [exact A4|exact A5]]. left. apply A2. intros (_ & Q & _). lia.
        + intros n E. rewrite Ye in E. apply LookupMain.some_eq in E. subst n. rewrite Wc. congruence.
    Qed.
    Theorem created_opened : (no < nn)%nat -> opened H (fork p0 p1) key p1.
    Proof.
      intros L. destruct account_facts as (lh0 & lh1 & t0 & te & L0 & L1 & Pos & T0 & Te & Ro & Rn & Eo & En). destruct (paths_checked H ty tr p PF OA) as (_ & C0 & C1 & SB & _). cbv zeta in C0, C1, SB.
      destruct (nth_some news 0 ltac:(lia)) as (y0 & Y0). destruct (nth_some news (pred (Nat.max no nn)) ltac:(lia)) as (ye & Ye).
      assert (Ne : nth_error olds (pred (Nat.max no nn)) = None) by (apply nth_none; lia). rewrite Ne, Ye in Te. apply level_new in Te. destruct Te as (_ & _ & Wc & _). replace (pred (Nat.max no nn)) with (pred nn) in Ye by lia.
      exists lh1, (if ht_direction t0 then H (ht_sibling t0) (ht_close t0) (fdom (ht_domain t0)) else H (ht_close t0) (ht_sibling t0) (fdom (ht_domain t0))). split; [exact L1|]. split; [exact Rn|]. apply climb_up.
      - rewrite Y0 in T0. assert (X : exists own, own_domain y0 own /\ type_at (fork p0 p1 0) (kbit key 0) own (ht_domain t0) /\ ht_direction t0 = kbit key 0 /\ fr (n_value y0) = Some (ht_close t0) /\ fr (n_sibling y0) = Some (ht_sibling t0)).
        { destruct (nth_error olds 0) as [x0|] eqn:X0.
          - pose proof (nth_lt _ _ _ X0). apply level_both in T0; [|lia|lia]. destruct T0 as (Sb & Dr & _ & Vo & Vc & Vs & d & d' & Od & On & Ds). exists d'. split; [exact On|]. split; [|rewrite <- Sb; auto].
            destruct Ds as [[Dd Dt]|(_ & Mn & [(_ & Dt & G)|(Q & _)])]; [left; congruence| |lia]. right. split; [split; [lia|cbn in Mn; lia]|]. right. rewrite Dt. apply check_grown, G.
          - apply level_new in T0. destruct T0 as (Dr & _ & Vc & Vs & Od). exists (ht_domain t0). split; [exact Od|]. split; [left; reflexivity|]. auto. }
        destruct X as (own & A1 & A2 & A3 & A4 & A5). destruct news as [|y l]; [discriminate Y0|]. cbn in Y0. apply LookupMain.some_eq in Y0. subst y. exists own, (ht_domain t0). split; [exact A1|]. split; [exact A2|].
        exists (ht_close t0), (ht_sibling t0). rewrite A3. auto.
      - intros j n m E1 E2. destruct (C1 j n m E1 E2) as (own & d1 & h & A1 & A2 & A3 & A4 & A5). exists own, d1, h. split; [exact A1|]. split; [|split; [exact A4|exact A5]].
        assert (Dec : last_and_unchanged olds news (0 + S j) \/ ~ last_and_unchanged olds news (0 + S j)).
        { clear - C1 E1 E2 A1 SB. destruct (nth_error olds (S j)) as [x|] eqn:X.
          - destruct (SB (S j) x m X E2) as (_ & d & d' & Od & On & _). destruct (Nat.eq_dec (S (S j)) no) as [Q1|Q1]; [|right; intros (W & _); cbn in W; lia]. destruct (Nat.ltb_spec no nn) as [Q2|Q2]; [|right; intros (_ & W & _); lia].
            destruct (dom_eqb d d') eqn:Q3.
            + apply dom_eqb_eq in Q3. subst d'. left. split; [exact Q1|]. split; [exact Q2|]. exists x, m, d. auto.
            + right. intros (_ & _ & a & b & c & Z1 & Z2 & Z3 & Z4). cbn [Nat.add] in Z1, Z2. rewrite X in Z1. rewrite E2 in Z2. apply LookupMain.some_eq in Z1, Z2. subst a b. unfold own_domain in *. assert (d = d') by congruence. subst. rewrite dom_eqb_refl in Q3. discriminate Q3.
          - right. intros (_ & _ & a & b & c & Z1 & _). cbn [Nat.add] in Z1. congruence. }
        destruct Dec as [Lu|Lu]; [right; split; [destruct Lu as (X1 & X2 & _); split; [lia|cbn in X1 |- *; lia]|left; apply A3, Lu]|left; apply A2, Lu].
      - intros n E. rewrite Ye in E. apply LookupMain.some_eq in E. subst n. rewrite Wc. congruence.
    Qed.
    (* the old path of an insertion hashes up to the old root from what its last node records *)
    Theorem created_old : (0 < no < nn)%nat -> exists x root, fr (p_root p0) = Some root /\ climbs H (fun _ => False) key 0 olds x root.
    Proof.
      intros L. destruct account_facts as (lh0 & lh1 & t0 & te & L0 & L1 & Pos & T0 & Te & Ro & Rn & Eo & En). destruct (paths_checked H ty tr p PF OA) as (_ & C0 & _). cbv zeta in C0.
      destruct (nth_some olds 0 ltac:(lia)) as (x0 & X0). destruct (nth_some news 0 ltac:(lia)) as (y0 & Y0). rewrite X0, Y0 in T0. apply level_both in T0; [|lia|lia].
      destruct T0 as (Sb & Dr & _ & Vo & Vc & Vs & d & d' & Od & On & Ds). destruct (nth_some olds (pred no) ltac:(lia)) as (xe & Xe).
      assert (Le : exists x, fr (n_value xe) = Some x).
      { destruct (Nat.eq_dec (pred no) 0) as [Z|Z]; [exists (ht_open t0); rewrite Z in Xe; congruence|].
        destruct (nth_some olds (pred (pred no)) ltac:(lia)) as (xf & Xf). replace (pred no) with (S (pred (pred no))) in Xe by lia. destruct (C0 _ _ _ Xf Xe) as (d1 & h & _ & (v & s & V & _) & _). exists v. exact V. }
      destruct Le as (x & Ex). exists x, (if ht_direction t0 then H (ht_sibling t0) (ht_open t0) (fdom (ht_domain t0)) else H (ht_open t0) (ht_sibling t0) (fdom (ht_domain t0))). split; [exact Ro|]. apply climb_up.
      - destruct olds as [|y l]; [discriminate X0|]. cbn in X0. apply LookupMain.some_eq in X0. subst y. exists d, (ht_domain t0). split; [exact Od|].
        split; [|exists (ht_open t0), (ht_sibling t0); rewrite Dr; auto]. left. destruct Ds as [[Dd Dt]|(_ & Mn & [(_ & Dt & G)|(Q & _)])]; [congruence|congruence|lia].
      - intros j n m E1 E2. destruct (C0 j n m E1 E2) as (d1 & h & A1 & A2 & A3). exists d1, d1, h. split; [exact A1|]. split; [left; reflexivity|]. auto.
      - intros n E. rewrite Xe in E. apply LookupMain.some_eq in E. subst n. exact Ex.
    Qed.
  End Account.
End Checked.

(** * The storage paths *)
Section Slots.
  Variable H : Fr -> Fr -> Fr -> Fr.
  Definition over (right : bool) (x s : Fr) (d : HashDomain) : Fr := if right then H s x (fdom d) else H x s (fdom d).
  Lemma order_hash right s x d y : (let (l, r) := order right s x in feqb (domain_hash H l r d) y) = true -> y = over right x s d.
  Proof. unfold order, domain_hash, over. destruct right; intros E; apply feqb_eq in E; auto. Qed.
  (* row j is the last common one before an extension *)
  Definition turns (rows : TrieRows) (j : nat) (row : TrieRow) : Prop := tr_path row = Common /\ exists nx, nth_error rows (S j) = Some nx /\ (tr_path nx = ExtensionOld \/ tr_path nx = ExtensionNew).
  Lemma check_at rows : forall ro rn, trie_check_from H ro rn rows = Some true -> forall j row, nth_error rows j = Some row ->
    exists dk dl, (dk = tr_domain row \/ turns rows j row /\ grown (tr_direction row) (tr_domain row) dk) /\ (dl = tr_domain row \/ turns rows j row /\ grown (tr_direction row) (tr_domain row) dl) /\
      (tr_path row <> ExtensionNew -> Chain.above_old ro rows j = over (tr_direction row) (tr_old row) (tr_sibling row) dk) /\
      (tr_path row <> ExtensionOld -> Chain.above_new rn rows j = over (tr_direction row) (tr_new row) (tr_sibling row) dl).
  Proof.
    induction rows as [|x rows IH]; intros ro rn E j row Hj; [destruct j; discriminate Hj|]. cbn [trie_check_from] in E.
    pose proof (order_hash (tr_direction x) (tr_sibling x) (tr_old x)) as Oo. pose proof (order_hash (tr_direction x) (tr_sibling x) (tr_new x)) as On.
    destruct (order (tr_direction x) (tr_sibling x) (tr_old x)) as [ol or]. destruct (order (tr_direction x) (tr_sibling x) (tr_new x)) as [nl nr].
    apply obind_some in E. destruct E as (ok & Ek & E). apply obind_some in E. destruct E as (rr & Er & E). apply LookupMain.some_eq in E. apply andb_prop in E. destruct E as [-> ->].
    destruct j as [|j].
    - cbn in Hj. apply LookupMain.some_eq in Hj. subst row. cbn [Chain.above_old Chain.above_new]. destruct (tr_path x) eqn:P; [discriminate Ek| | |].
      + apply obind_some in Ek. destruct Ek as ([dk dl] & Ed & Ek). cbn [fst snd] in Ek. apply LookupMain.some_eq in Ek. apply andb_prop in Ek. destruct Ek as [K1 K2]. exists dk, dl.
        assert (X : (dk = tr_domain x \/ turns (x :: rows) 0 x /\ grown (tr_direction x) (tr_domain x) dk) /\ (dl = tr_domain x \/ turns (x :: rows) 0 x /\ grown (tr_direction x) (tr_domain x) dl)).
        { destruct rows as [|nx rest]; [apply LookupMain.some_eq in Ed; split; left; congruence|]. unfold get_domains in Ed. assert (Tn : tr_path nx = ExtensionOld \/ tr_path nx = ExtensionNew -> turns (x :: nx :: rest) 0 x) by (intros Q; split; [exact P|exists nx; split; [reflexivity|exact Q]]). destruct (tr_path nx); [discriminate Ed|apply LookupMain.some_eq in Ed; split; left; congruence| |];
            apply obind_some in Ed; destruct Ed as (g & Eg & Ed); apply LookupMain.some_eq in Ed; apply next_grown in Eg; injection Ed as <- <-; specialize (Tn ltac:(auto)); auto. }
        destruct X as [X1 X2]. split; [exact X1|]. split; [exact X2|]. split; intros _; auto.
      + exists (tr_domain x), (tr_domain x). apply LookupMain.some_eq in Ek. apply andb_prop in Ek. destruct Ek as [_ K]. split; [auto|]. split; [auto|]. split; [intros _; auto|congruence].
      + exists (tr_domain x), (tr_domain x). apply LookupMain.some_eq in Ek. apply andb_prop in Ek. destruct Ek as [_ K]. split; [auto|]. split; [auto|]. split; [congruence|intros _; auto].
    - cbn [nth_error] in Hj. destruct (IH _ _ Er j row Hj) as (dk & dl & A1 & A2 & A3 & A4). exists dk, dl. split; [exact A1|]. split; [exact A2|].
      replace (Chain.above_old ro (x :: rows) (S j)) with (Chain.above_old (tr_old x) rows j) by (destruct j; reflexivity).
      replace (Chain.above_new rn (x :: rows) (S j)) with (Chain.above_new (tr_new x) rows j) by (destruct j; reflexivity). auto.
  Qed.
  Lemma dirs_at ko kn rows : forall i, directions_ok ko kn i rows = Some tt -> forall j row, nth_error rows j = Some row ->
    (tr_path row <> ExtensionNew -> tr_direction row = kbit ko (i + j)) /\ (tr_path row <> ExtensionOld -> tr_direction row = kbit kn (i + j)).
  Proof.
    induction rows as [|x rows IH]; intros i E j row Hj; [destruct j; discriminate Hj|]. cbn [directions_ok] in E. apply obind_some in E. destruct E as ([] & E1 & E2). destruct j as [|j].
    - cbn in Hj. apply LookupMain.some_eq in Hj. subst x. rewrite Nat.add_0_r. unfold row_direction_ok in E1. rewrite !fr_bit_testbit in E1. destruct (tr_path row); [discriminate E1| | |].
      + apply obind_some in E1. destruct E1 as ([] & F1 & F2). apply LookupMain.oassert_some, eqb_prop in F1, F2. auto.
      + apply LookupMain.oassert_some, eqb_prop in E1. split; [auto|congruence].
      + apply LookupMain.oassert_some, eqb_prop in E1. split; [congruence|auto].
    - replace (i + S j)%nat with (S i + j)%nat by lia. exact (IH _ E2 j row Hj).
  Qed.
  Lemma grown_fun right d a b : grown right d a -> grown right d b -> a = b.
  Proof. destruct d; cbn; congruence || contradiction. Qed.
  Lemma first_old rows l ro : trie_old_root H rows l = Some ro -> (rows = [] /\ l = Some ro) \/ exists r0, nth_error rows 0 = Some r0 /\ (tr_path r0 = ExtensionNew -> ro = tr_old r0).
  Proof. destruct rows as [|r0 rs]; cbn [trie_old_root]; intros E; [left; auto|right]. exists r0. split; [reflexivity|]. intros P. unfold old_hash in E. rewrite P in E. apply obind_some in E. destruct E as (ds & _ & E). apply LookupMain.some_eq in E. auto. Qed.
  Lemma first_new rows l ro : trie_new_root H rows l = Some ro -> (rows = [] /\ l = Some ro) \/ exists r0, nth_error rows 0 = Some r0 /\ (tr_path r0 = ExtensionOld -> ro = tr_new r0).
  Proof. destruct rows as [|r0 rs]; cbn [trie_new_root]; intros E; [left; auto|right]. exists r0. split; [reflexivity|]. intros P. unfold new_hash in E. rewrite P in E. apply obind_some in E. destruct E as (ds & _ & E). apply LookupMain.some_eq in E. auto. Qed.

  Section Rows.
    Variables (key : Fr) (olds news : list SMTNode) (lo ln : option SMTNode) (rows : TrieRows) (ro rn ho hn : Fr).
    Hypothesis R : trie_rows_new H key olds news lo ln = Some rows.
    Hypothesis Ck : trie_check H rows ro rn = Some true.
    Hypothesis Last : forall row, nth_error rows (pred (length rows)) = Some row -> tr_old row = ho /\ tr_new row = hn.
    Hypothesis Ro : trie_old_root H rows (Some ho) = Some ro.
    Hypothesis Rn : trie_new_root H rows (Some hn) = Some rn.
    Notation no := (length olds). Notation nn := (length news).
    Definition turn (j : nat) : Prop := no <> nn /\ S j = Nat.min no nn.
    Lemma turns_at j row : nth_error rows j = Some row -> turns rows j row -> turn j.
    Proof.
      intros E (P & nx & E2 & Pn). rewrite (path_at _ _ _ _ _ _ _ R j row E) in P. rewrite (path_at _ _ _ _ _ _ _ R (S j) nx E2) in Pn. pose proof (nth_lt _ _ _ E2) as L. rewrite (rows_length _ _ _ _ _ _ _ R) in L. unfold turn.
      destruct (Nat.ltb_spec j no), (Nat.ltb_spec j nn), (Nat.ltb_spec (S j) no), (Nat.ltb_spec (S j) nn); destruct Pn as [Pn|Pn]; try discriminate P; try discriminate Pn; lia.
    Qed.
    (* the row of a level against the nodes of that level *)
    Lemma row_old j nd : nth_error olds j = Some nd -> exists row own dk, nth_error rows j = Some row /\ own_domain nd own /\ type_at (turn j) (kbit key j) own dk /\
      fr (n_value nd) = Some (tr_old row) /\ hashes_to H (kbit key j) dk nd (Chain.above_old ro rows j) /\ tr_path row <> ExtensionNew.
    Proof.
      intros E. pose proof (nth_lt _ _ _ E) as L. destruct (rows_levels _ _ _ _ _ _ _ R) as (eo & en & ts & _ & _ & T & F). pose proof (rows_length _ _ _ _ _ _ _ R) as RL.
      destruct (nth_some rows j ltac:(lia)) as (row & Er). destruct (forall2_nth _ _ _ F j row Er) as (t & Et & (S1 & S2 & S3 & S4 & S5 & S6)).
      destruct (proj2 (level _ _ _ _ _ _ T) j ltac:(lia)) as (t' & Et' & I). rewrite Et in Et'. apply LookupMain.some_eq in Et'. subst t'.
      assert (Pt : tr_path row <> ExtensionNew). { rewrite (path_at _ _ _ _ _ _ _ R j row Er), (proj2 (Nat.ltb_lt j no)) by lia. destruct (j <? nn)%nat; discriminate. }
      destruct (check_at rows _ _ Ck j row Er) as (dk & _ & Dk & _ & Ho & _). specialize (Ho Pt). assert (Dk' : dk = tr_domain row \/ turn j /\ grown (tr_direction row) (tr_domain row) dk) by (destruct Dk as [Q|[Q1 Q2]]; [left; exact Q|right; split; [exact (turns_at j row Er Q1)|exact Q2]]). clear Dk. rename Dk' into Dk. exists row. rewrite E in I.
      destruct (nth_error news j) as [y|] eqn:Y.
      - pose proof (nth_lt _ _ _ Y). apply level_both in I; [|lia|lia]. destruct I as (_ & Dr & _ & Vo & _ & Vs & d & d' & Od & On & Ds). exists d, dk. split; [exact Er|]. split; [exact Od|]. rewrite S1 in Dr. rewrite S2 in Ds. rewrite S3 in Vo. rewrite S5 in Vs. rewrite Dr in Dk, Ho.
        split; [|split; [exact Vo|split; [exists (tr_old row), (tr_sibling row); split; [exact Vo|]; split; [exact Vs|exact Ho]|exact Pt]]].
        destruct Ds as [[Dd Dt]|(Z1 & Z2 & [(_ & Dt & G)|(_ & Dt & G)])]; rewrite Dt in Dk.
        + destruct Dk as [->|[Tj G]]; [left; reflexivity|right; auto].
        + destruct Dk as [->|[Tj G']]; [left; reflexivity|right; auto].
        + apply check_grown in G. destruct Dk as [->|[Tj G']]; [right; split; [split; [exact Z1|lia]|right; exact G]|left; exact (grown_fun _ _ _ _ G' G)].
      - apply level_old in I. destruct I as (Dr & _ & Vo & Vs & Od). exists (ht_domain t), dk. split; [exact Er|]. split; [exact Od|]. rewrite S1 in Dr. rewrite S3 in Vo. rewrite S5 in Vs. rewrite Dr in Dk, Ho. rewrite S2.
        split; [destruct Dk as [->|[Tj G]]; [left; reflexivity|right; auto]|]. split; [exact Vo|]. split; [exists (tr_old row), (tr_sibling row); split; [exact Vo|]; split; [exact Vs|exact Ho]|exact Pt].
    Qed.
    Lemma row_new j nd : nth_error news j = Some nd -> exists row own dk, nth_error rows j = Some row /\ own_domain nd own /\ type_at (turn j) (kbit key j) own dk /\
      fr (n_value nd) = Some (tr_new row) /\ hashes_to H (kbit key j) dk nd (Chain.above_new rn rows j) /\ tr_path row <> ExtensionOld.
    Proof.
      intros E. pose proof (nth_lt _ _ _ E) as L. destruct (rows_levels _ _ _ _ _ _ _ R) as (eo & en & ts & _ & _ & T & F). pose proof (rows_length _ _ _ _ _ _ _ R) as RL.
      destruct (nth_some rows j ltac:(lia)) as (row & Er). destruct (forall2_nth _ _ _ F j row Er) as (t & Et & (S1 & S2 & S3 & S4 & S5 & S6)).
      destruct (proj2 (level _ _ _ _ _ _ T) j ltac:(lia)) as (t' & Et' & I). rewrite Et in Et'. apply LookupMain.some_eq in Et'. subst t'.
      assert (Pt : tr_path row <> ExtensionOld). { rewrite (path_at _ _ _ _ _ _ _ R j row Er), (proj2 (Nat.ltb_lt j nn)) by lia. destruct (j <? no)%nat; discriminate. }
      destruct (check_at rows _ _ Ck j row Er) as (_ & dk & _ & Dk & _ & Ho). specialize (Ho Pt). assert (Dk' : dk = tr_domain row \/ turn j /\ grown (tr_direction row) (tr_domain row) dk) by (destruct Dk as [Q|[Q1 Q2]]; [left; exact Q|right; split; [exact (turns_at j row Er Q1)|exact Q2]]). clear Dk. rename Dk' into Dk. exists row. rewrite E in I.
      destruct (nth_error olds j) as [y|] eqn:Y.
      - pose proof (nth_lt _ _ _ Y). apply level_both in I; [|lia|lia]. destruct I as (Sb & Dr & _ & _ & Vo & Vs & d & d' & Od & On & Ds). exists d', dk. split; [exact Er|]. split; [exact On|]. rewrite S1 in Dr. rewrite S2 in Ds. rewrite S4 in Vo. rewrite S5, Sb in Vs. rewrite Dr in Dk, Ho.
        split; [|split; [exact Vo|split; [exists (tr_new row), (tr_sibling row); split; [exact Vo|]; split; [exact Vs|exact Ho]|exact Pt]]].
        destruct Ds as [[Dd Dt]|(Z1 & Z2 & [(_ & Dt & G)|(_ & Dt & G)])]; rewrite Dt in Dk.
        + subst d'. destruct Dk as [->|[Tj G]]; [left; reflexivity|right; auto].
        + apply check_grown in G. destruct Dk as [->|[Tj G']]; [right; split; [split; [exact Z1|lia]|right; exact G]|left; exact (grown_fun _ _ _ _ G' G)].
        + destruct Dk as [->|[Tj G']]; [left; reflexivity|right; auto].
      - apply level_new in I. destruct I as (Dr & _ & Vo & Vs & Od). exists (ht_domain t), dk. split; [exact Er|]. split; [exact Od|]. rewrite S1 in Dr. rewrite S4 in Vo. rewrite S5 in Vs. rewrite Dr in Dk, Ho. rewrite S2.
        split; [destruct Dk as [->|[Tj G]]; [left; reflexivity|right; auto]|]. split; [exact Vo|]. split; [exists (tr_new row), (tr_sibling row); split; [exact Vo|]; split; [exact Vs|exact Ho]|exact Pt].
    Qed.
    (* the padding rows repeat the end of the shorter path *)
    Lemma pad_old row : nth_error rows (pred (length rows)) = Some row -> (no < nn)%nat -> path_end_hash H olds lo = Some (tr_old row).
    Proof.
      intros Er L. pose proof (rows_length _ _ _ _ _ _ _ R) as RL. destruct (rows_levels _ _ _ _ _ _ _ R) as (eo & en & ts & E1 & _ & T & F). destruct (forall2_nth _ _ _ F _ row Er) as (t & Et & (_ & _ & S3 & _)).
      destruct (proj2 (level _ _ _ _ _ _ T) (pred (length rows)) ltac:(lia)) as (t' & Et' & I). rewrite Et in Et'. apply LookupMain.some_eq in Et'. subst t'.
      rewrite (nth_none olds) in I by lia. destruct (nth_some news (pred (length rows)) ltac:(lia)) as (y & Y). rewrite Y in I. cbn [internal_hash_trace] in I. do 3 (apply obind_some in I; destruct I as (? & _ & I)). apply LookupMain.some_eq in I. subst t. cbn [ht_open] in S3. congruence.
    Qed.
    Lemma pad_new row : nth_error rows (pred (length rows)) = Some row -> (nn < no)%nat -> path_end_hash H news ln = Some (tr_new row).
    Proof.
      intros Er L. pose proof (rows_length _ _ _ _ _ _ _ R) as RL. destruct (rows_levels _ _ _ _ _ _ _ R) as (eo & en & ts & _ & E1 & T & F). destruct (forall2_nth _ _ _ F _ row Er) as (t & Et & (_ & _ & _ & S3 & _)).
      destruct (proj2 (level _ _ _ _ _ _ T) (pred (length rows)) ltac:(lia)) as (t' & Et' & I). rewrite Et in Et'. apply LookupMain.some_eq in Et'. subst t'.
      rewrite (nth_none news) in I by lia. destruct (nth_some olds (pred (length rows)) ltac:(lia)) as (y & Y). rewrite Y in I. cbn [internal_hash_trace] in I. do 3 (apply obind_some in I; destruct I as (? & _ & I)). apply LookupMain.some_eq in I. subst t. cbn [ht_close] in S3. congruence.
    Qed.
    Lemma end_of nodes leaf x n : path_end_hash H nodes leaf = Some x -> nth_error nodes (pred (length nodes)) = Some n -> fr (n_value n) = Some x.
    Proof.
      intros E Hn. unfold path_end_hash in E. destruct (rev nodes) as [|m rest] eqn:Rv.
      - apply (f_equal (@rev _)) in Rv. rewrite rev_involutive in Rv. subst nodes. discriminate Hn.
      - apply (f_equal (@rev _)) in Rv. rewrite rev_involutive in Rv. cbn [rev] in Rv. subst nodes. rewrite app_length in Hn. cbn [length] in Hn. rewrite nth_error_app2 in Hn by lia. replace (pred _ - length (rev rest))%nat with 0%nat in Hn by lia. cbn in Hn. apply LookupMain.some_eq in Hn. subst m. exact E.
    Qed.
    Lemma old_empty : olds = [] -> ro = ho.
    Proof.
      intros O. pose proof (rows_length _ _ _ _ _ _ _ R) as RL. destruct (first_old rows (Some ho) ro Ro) as [[Z Q]|(r0 & Z & Q)]; [congruence|]. pose proof (nth_lt _ _ _ Z) as L.
      assert (No : no = 0%nat) by (rewrite O; reflexivity). specialize (Q ltac:(rewrite (path_at _ _ _ _ _ _ _ R 0%nat r0 Z), No; reflexivity)).
      destruct (nth_some rows (pred (length rows)) ltac:(lia)) as (re & Ee). destruct (Last re Ee) as [L1 _]. pose proof (pad_old re Ee ltac:(lia)) as X.
      destruct (rows_levels _ _ _ _ _ _ _ R) as (eo & en & ts & E1 & _ & T & F). destruct (forall2_nth _ _ _ F 0%nat r0 Z) as (t & Et & (_ & _ & S3 & _)). destruct (proj2 (level _ _ _ _ _ _ T) 0%nat ltac:(lia)) as (t' & Et' & I). rewrite Et in Et'. apply LookupMain.some_eq in Et'. subst t'.
      rewrite (nth_none olds) in I by lia. destruct (nth_some news 0%nat ltac:(lia)) as (y & Y). rewrite Y in I. cbn [internal_hash_trace] in I. do 3 (apply obind_some in I; destruct I as (? & _ & I)). apply LookupMain.some_eq in I. subst t. cbn [ht_open] in S3. congruence.
    Qed.
    Lemma new_empty : news = [] -> rn = hn.
    Proof.
      intros O. pose proof (rows_length _ _ _ _ _ _ _ R) as RL. destruct (first_new rows (Some hn) rn Rn) as [[Z Q]|(r0 & Z & Q)]; [congruence|]. pose proof (nth_lt _ _ _ Z) as L.
      assert (No : nn = 0%nat) by (rewrite O; reflexivity). specialize (Q ltac:(rewrite (path_at _ _ _ _ _ _ _ R 0%nat r0 Z), No, (proj2 (Nat.ltb_lt 0 no)) by lia; reflexivity)).
      destruct (nth_some rows (pred (length rows)) ltac:(lia)) as (re & Ee). destruct (Last re Ee) as [_ L1]. pose proof (pad_new re Ee ltac:(lia)) as X.
      destruct (rows_levels _ _ _ _ _ _ _ R) as (eo & en & ts & _ & E1 & T & F). destruct (forall2_nth _ _ _ F 0%nat r0 Z) as (t & Et & (_ & _ & _ & S3 & _)). destruct (proj2 (level _ _ _ _ _ _ T) 0%nat ltac:(lia)) as (t' & Et' & I). rewrite Et in Et'. apply LookupMain.some_eq in Et'. subst t'.
      rewrite (nth_none news) in I by lia. destruct (nth_some olds 0%nat ltac:(lia)) as (y & Y). rewrite Y in I. cbn [internal_hash_trace] in I. do 3 (apply obind_some in I; destruct I as (? & _ & I)). apply LookupMain.some_eq in I. subst t. cbn [ht_close] in S3. congruence.
    Qed.
    Theorem old_climbs : climbs H turn key 0 olds ho ro.
    Proof.
      pose proof (rows_length _ _ _ _ _ _ _ R) as RL. apply climb_up.
      - pose proof old_empty as Em. pose proof (row_old 0%nat) as Rw. clear - Em Rw. destruct olds as [|top rest]; [apply Em; reflexivity|].
        destruct (Rw top eq_refl) as (row & own & dk & _ & A2 & A3 & _ & A5 & _). cbn [Chain.above_old] in A5. eauto.
      - intros j n m E1 E2. destruct (row_old j n E1) as (r1 & _ & _ & B1 & _ & _ & B4 & _). destruct (row_old (S j) m E2) as (r2 & own & dk & _ & C2 & C3 & _ & C5 & _). cbn [Nat.add]. exists own, dk, (tr_old r1). split; [exact C2|]. split; [exact C3|]. split; [|exact B4].
        cbn [Chain.above_old] in C5. rewrite B1 in C5. exact C5.
      - intros n En. pose proof (nth_lt _ _ _ En) as L. destruct (nth_some rows (pred (length rows)) ltac:(lia)) as (re & Ee). destruct (Last re Ee) as [L1 _]. rewrite <- L1.
        destruct (Nat.ltb_spec no nn) as [Q|Q]; [exact (end_of _ _ _ _ (pad_old re Ee Q) En)|]. destruct (row_old _ n En) as (r1 & _ & _ & B1 & _ & _ & B4 & _). replace (pred (length rows)) with (pred no) in Ee by lia. congruence.
    Qed.
    Theorem new_climbs : climbs H turn key 0 news hn rn.
    Proof.
      pose proof (rows_length _ _ _ _ _ _ _ R) as RL. apply climb_up.
      - pose proof new_empty as Em. pose proof (row_new 0%nat) as Rw. clear - Em Rw. destruct news as [|top rest]; [apply Em; reflexivity|].
        destruct (Rw top eq_refl) as (row & own & dk & _ & A2 & A3 & _ & A5 & _). cbn [Chain.above_new] in A5. eauto.
      - intros j n m E1 E2. destruct (row_new j n E1) as (r1 & _ & _ & B1 & _ & _ & B4 & _). destruct (row_new (S j) m E2) as (r2 & own & dk & _ & C2 & C3 & _ & C5 & _). cbn [Nat.add]. exists own, dk, (tr_new r1). split; [exact C2|]. split; [exact C3|]. split; [|exact B4].
        cbn [Chain.above_new] in C5. rewrite B1 in C5. exact C5.
      - intros n En. pose proof (nth_lt _ _ _ En) as L. destruct (nth_some rows (pred (length rows)) ltac:(lia)) as (re & Ee). destruct (Last re Ee) as [_ L1]. rewrite <- L1.
        destruct (Nat.ltb_spec nn no) as [Q|Q]; [exact (end_of _ _ _ _ (pad_new re Ee Q) En)|]. destruct (row_new _ n En) as (r1 & _ & _ & B1 & _ & _ & B4 & _). replace (pred (length rows)) with (pred nn) in Ee by lia. congruence.
    Qed.
    Lemma row_bits j row : nth_error rows j = Some row -> tr_direction row = kbit key j.
    Proof.
      intros Er. pose proof (nth_lt _ _ _ Er) as L. pose proof (rows_length _ _ _ _ _ _ _ R) as RL. destruct (rows_levels _ _ _ _ _ _ _ R) as (eo & en & ts & _ & _ & T & F). destruct (forall2_nth _ _ _ F _ row Er) as (t & Et & (S1 & _)).
      destruct (proj2 (level _ _ _ _ _ _ T) j ltac:(lia)) as (t' & Et' & I). rewrite Et in Et'. apply LookupMain.some_eq in Et'. subst t'. rewrite <- S1.
      destruct (nth_error olds j) eqn:X, (nth_error news j) eqn:Y; [apply level_both in I; [apply I| |]; [pose proof (nth_lt _ _ _ X); lia|pose proof (nth_lt _ _ _ Y); lia]|apply level_old in I; apply I|apply level_new in I; apply I|discriminate I].
    Qed.
  End Rows.

  Theorem slots_opened ty tr p : proof_from H ty tr = Some p -> proof_check H p = Some tt -> t_common_state_root tr = None -> entries_ok tr ->
    exists key kb pa pb eo en, t_state_key tr = Some kb /\ fr kb = Some key /\ t_state_path tr = (Some pa, Some pb) /\ t_state_update tr = Some (Some eo, Some en) /\
      slot_opened H (fork pa pb) key pa eo /\ slot_opened H (fork pa pb) key pb en.
  Proof.
    intros E Ckp TC W. destruct (proof_from_inv _ _ _ _ E) as (p0 & p1 & lh0 & lh1 & T). pose proof (ft_storage _ _ _ _ _ _ _ _ T) as S.
    destruct (storage_fields _ _ _ S TC) as (kb & pa & pb & eo & en & K & P & U & Q). destruct (W _ _ U) as (W1 & W2 & W3 & W4).
    destruct (storage_proof_inv _ _ _ _ _ _ _ _ S TC K P U) as (key & sk & rows & old & new & Fk & R & _ & Lo & Ln & Es & Ro & Rn).
    exists key, kb, pa, pb, eo, en. split; [exact K|]. split; [exact Fk|]. split; [exact P|]. split; [exact U|].
    pose proof (pa_storage _ _ (check_passed H p Ckp)) as SC. rewrite Es in SC, Ro, Rn. cbn [storage_check] in SC. apply obind_some in SC. destruct SC as (ro & Ro' & SC). apply obind_some in SC. destruct SC as (rn & Rn' & SC).
    apply obind_some in SC. destruct SC as (ok & Ct & SC). apply obind_some in SC. destruct SC as ([] & Ok & SC). apply LookupMain.oassert_some in Ok. subst ok. apply obind_some in SC. destruct SC as ([] & Di & SC).
    cbn [sp_old_root sp_new_root] in Ro, Rn, Ro', Rn'. rewrite Ro' in Ro. rewrite Rn' in Rn.
    assert (X : exists ho hn, sl_hash H old = Some ho /\ sl_hash H new = Some hn /\ forall row, nth_error rows (pred (length rows)) = Some row -> tr_old row = ho /\ tr_new row = hn).
    { destruct (rev rows) as [|re rest] eqn:Rv.
      - apply (f_equal (@rev _)) in Rv. rewrite rev_involutive in Rv. subst rows. cbn [trie_old_root trie_new_root] in Ro', Rn'. exists ro, rn. split; [exact Ro'|]. split; [exact Rn'|]. intros row X. discriminate X.
      - apply obind_some in SC. destruct SC as (ho & Eo & SC). apply obind_some in SC. destruct SC as ([] & A1 & SC). apply obind_some in SC. destruct SC as (hn & En & A2). apply LookupMain.oassert_some, feqb_eq in A1, A2.
        exists ho, hn. split; [exact Eo|]. split; [exact En|]. intros row Er. apply (f_equal (@rev _)) in Rv. rewrite rev_involutive in Rv. cbn [rev] in Rv. subst rows. rewrite app_length in Er. cbn [length] in Er. rewrite nth_error_app2 in Er by lia.
        replace (pred _ - length (rev rest))%nat with 0%nat in Er by lia. cbn in Er. apply LookupMain.some_eq in Er. subst row. auto. }
    destruct X as (ho & hn & Ho & Hn & La). rewrite Ho in Ro'. rewrite Hn in Rn'.
    assert (Kk : forall leaf entry l, word (sd_key entry) -> word (sd_value entry) -> storage_leaf_new H key leaf entry = Some l -> leaf <> None -> key = slot_key H (be_val (sd_key entry)) \/ sl_key H l = slot_key H (be_val (sd_key entry))).
    { intros leaf entry l V1 V2 EL NN. destruct (Z.eq_dec (be_val (sd_value entry)) 0) as [Z|Z]; [left; exact (leaf_key H _ _ _ _ V1 V2 EL NN Z)|right]. unfold storage_leaf_new in EL. destruct (u256_from_hex_spec _ (proj1 V1) (proj2 V1)) as [K1 R1]. destruct (u256_from_hex_spec _ (proj1 V2) (proj2 V2)) as [K2 R2].
      rewrite K1, K2 in EL. cbn [obind] in EL. rewrite (proj2 (Z.eqb_neq _ _) Z) in EL. destruct leaf; [|discriminate EL]. apply LookupMain.some_eq in EL. subst l. cbn [sl_key]. apply storage_key_hash_spec. exact R1. }
    pose proof (old_climbs _ _ _ _ _ _ _ _ _ _ R Ct La Ro') as Co. pose proof (new_climbs _ _ _ _ _ _ _ _ _ _ R Ct La Rn') as Cn. pose proof (rows_length _ _ _ _ _ _ _ R) as RL.
    split.
    - exists ho, ro. split; [exact (leaf_entry H _ _ _ _ _ W1 W2 Lo Ho)|]. split; [congruence|]. split; [exact Co|]. intros NN. destruct (Kk _ _ _ W1 W2 Lo NN) as [Z|Z]; rewrite <- Z; [exact Co|]. revert Co. apply climbs_bits. intros j Hj. cbn [Nat.add].
      destruct (nth_some rows j ltac:(lia)) as (row & Er). rewrite <- (row_bits _ _ _ _ _ _ R j row Er). apply (dirs_at _ _ _ _ Di j row Er). rewrite (path_at _ _ _ _ _ _ _ R j row Er), (proj2 (Nat.ltb_lt _ _) Hj). destruct (j <? length (p_path pb))%nat; discriminate.
    - exists hn, rn. split; [exact (leaf_entry H _ _ _ _ _ W3 W4 Ln Hn)|]. split; [congruence|]. split; [exact Cn|]. intros NN. destruct (Kk _ _ _ W3 W4 Ln NN) as [Z|Z]; rewrite <- Z; [exact Cn|]. revert Cn. apply climbs_bits. intros j Hj. cbn [Nat.add].
      destruct (nth_some rows j ltac:(lia)) as (row & Er). rewrite <- (row_bits _ _ _ _ _ _ R j row Er). apply (dirs_at _ _ _ _ Di j row Er). rewrite (path_at _ _ _ _ _ _ _ R j row Er), (proj2 (Nat.ltb_lt _ _) Hj). destruct (j <? length (p_path pa))%nat; discriminate.
  Qed.
End Slots.
