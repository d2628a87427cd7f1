(* Honest traces are converted: Proof::from succeeds on them. *)
From Coq Require Import ZArith List Bool Lia.
From Verif Require Import Pocklington Fr Query Builder BuilderProofs Gadgets MptUpdate Bytes GadgetProofs UpdateRows TrieSpec UpdateComplete Util UtilProofs Serde Trie Storage Types TypesProofs Lookups LookupMain
  Assign AssignProofs UpdateAssign MptAssign GadgetMain GadgetMain2 TrieProofs HonestTrace HonestSpec RowView BlockView BlocksOk RowsOk RowCells BlockRows Chain UpperOk LeafOk StorageOk TreeChain HonestPath TablesOk HonestInputs HonestBlock.
Import ListNotations.
Open Scope Z_scope.

Section Check.
  Variable H : Fr -> Fr -> Fr -> Fr.
  Definition ht_step (previous : option PathType) (t next : HashTrace) : option unit :=
    p <- ht_path_type t;
    let h x d := if ht_direction t then domain_hash H (ht_sibling t) x d else domain_hash H x (ht_sibling t) d in
    match p with
    | PathStart => None
    | Common =>
        ds <- check_domains previous (ht_direction t) (ht_domain t);
        _ <- oassert (feqb (h (ht_open t) (fst ds)) (ht_open next));
        oassert (feqb (h (ht_close t) (snd ds)) (ht_close next))
    | ExtensionOld =>
        _ <- oassert (no_other previous ExtensionOld);
        oassert (feqb (h (ht_open t) (ht_domain t)) (ht_open next))
    | ExtensionNew =>
        _ <- oassert (no_other previous ExtensionNew);
        oassert (feqb (h (ht_close t) (ht_domain t)) (ht_close next))
    end.
  Lemma check_steps ts : forall previous,
    (forall t next, nth_error ts 0 = Some t -> nth_error ts 1 = Some next -> ht_step previous t next = Some tt) ->
    (forall i below t next, nth_error ts i = Some below -> nth_error ts (S i) = Some t -> nth_error ts (S (S i)) = Some next -> exists q, ht_path_type below = Some q /\ ht_step (Some q) t next = Some tt) ->
    check_hash_traces_from H previous ts = Some tt.
  Proof.
    induction ts as [|t ts IH]; intros previous A B; [reflexivity|]. destruct ts as [|next ts]; [reflexivity|].
    specialize (A t next eq_refl eq_refl). cbn [check_hash_traces_from]. unfold ht_step in A. apply obind_some in A. destruct A as (p & E & A). rewrite E. cbn [obind].
    cbv zeta in A. destruct p; try discriminate A; cbv zeta; rewrite A; cbn [obind].
    all: apply IH; [|intros i; exact (B (S i))]; intros t' next' X Y; destruct (B 0%nat t t' next' eq_refl X Y) as (q & Q1 & Q2); rewrite E in Q1; apply some_eq in Q1; subst q; exact Q2.
  Qed.
  (* the rows of a chain that has no deletion *)
  Lemma chain_checked o n rows fo fn ts : chain H o n rows fo fn -> (forall row, In row rows -> tr_path row <> ExtensionOld) -> Forall2 same_level (rev ts) rows -> check_hash_traces_new H ts = Some tt.
  Proof.
    intros C NO F. pose proof (forall2_length _ _ _ F) as L. rewrite rev_length in L.
    assert (At : forall i t, nth_error ts i = Some t -> exists row, nth_error rows (length rows - S i) = Some row /\ same_level t row).
    { intros i t Hi. pose proof (nth_error_Some ts i) as NS. assert (i < length ts)%nat by (apply NS; congruence). clear NS.
      assert (Hr : nth_error (rev ts) (length rows - S i) = Some t).
      { rewrite (nth_error_nth' (rev ts) t) by (rewrite rev_length; lia). rewrite rev_nth by lia. rewrite L. replace (_ - _)%nat with i by lia. f_equal. symmetry in L. apply nth_error_nth. exact Hi. }
      clear - F Hr. revert Hr. generalize (length rows - S i)%nat. induction F as [|a b l l' R F IH]; intros j Hj; [destruct j; discriminate Hj|]. destruct j as [|j]; [exists b; cbn in *; split; congruence|exact (IH j Hj)]. }
    assert (Pt : forall t row, same_level t row -> In row rows -> ht_path_type t = Some (tr_path row)).
    { intros t row (_ & _ & _ & _ & _ & Q) _. unfold ht_path_type. destruct (tr_path row); [contradiction| | |]; destruct Q as [-> ->]; reflexivity. }
    assert (Step : forall i t next, nth_error ts i = Some t -> nth_error ts (S i) = Some next -> ht_step (match i with O => None | S j => match nth_error ts j with Some b => ht_path_type b | None => None end end) t next = Some tt).
    { intros i t next Ht Hn. destruct (At i t Ht) as (row & Hr & Lv). destruct (At (S i) next Hn) as (row' & Hr' & Lv').
      pose proof (nth_error_Some ts (S i)) as NS. assert (S i < length ts)%nat by (apply NS; congruence). clear NS.
      destruct (chain_nth H rows o n fo fn _ row C Hr) as (rest & Ch & Hd & Re).
      assert (Ao : above_old o rows (length rows - S i) = tr_old row').
      { replace (length rows - S i)%nat with (S (length rows - S (S i))) by lia. cbn [above_old]. rewrite Hr'. reflexivity. }
      assert (An : above_new n rows (length rows - S i) = tr_new row').
      { replace (length rows - S i)%nat with (S (length rows - S (S i))) by lia. cbn [above_new]. rewrite Hr'. reflexivity. }
      rewrite Ao, An in Ch.
      assert (Pv : match i with O => None | S j => match nth_error ts j with Some b => ht_path_type b | None => None end end = option_map tr_path (hd_error rest)).
      { destruct i as [|j].
        - replace rest with (@nil TrieRow); [reflexivity|]. symmetry. apply Re. lia.
        - pose proof (nth_error_Some ts j) as NS. destruct (nth_error ts j) as [b|] eqn:Eb; [|exfalso; apply NS; [lia|reflexivity]].
          destruct (At j b Eb) as (rb & Hb & Lb). rewrite (Pt b rb Lb) by (eapply nth_error_In; exact Hb). rewrite Hd. replace (S (length rows - S (S j))) with (length rows - S j)%nat by lia. rewrite Hb. reflexivity. }
      rewrite Pv. clear Pv. assert (Ir : In row rows) by (eapply nth_error_In; exact Hr).
      unfold ht_step. rewrite (Pt t row Lv Ir). cbn [obind]. destruct Ch as (_ & (od & nd & Ed & Q) & Ch).
      destruct Lv as (V1 & V2 & V3 & V4 & V5 & _). destruct Lv' as (_ & _ & V3' & V4' & _ & _).
      assert (Up : forall x d, (if ht_direction t then domain_hash H (ht_sibling t) x d else domain_hash H x (ht_sibling t) d) = up H row x d).
      { intros x d. rewrite V1, V5. unfold up, children, domain_hash. destruct (tr_direction row); reflexivity. }
      assert (NOr := NO row Ir). destruct (tr_path row) eqn:Er; [contradiction|..].
      - unfold hash_domains in Ed. rewrite Er in Ed.
        assert (Dm : check_domains (option_map tr_path (hd_error rest)) (ht_direction t) (ht_domain t) = Some (od, nd)).
        { rewrite V1, V2. assert (hd_error rest = nth_error rows (S (length rows - S i))) by exact Hd. destruct (hd_error rest) as [nx|] eqn:En; cbn [option_map] in *; [|exact Ed].
          assert (Nx : tr_path nx <> ExtensionOld) by (apply NO; eapply nth_error_In; symmetry; exact H1). destruct (tr_path nx) eqn:Enx; cbn [check_domains]; try exact Ed; [congruence|].
          destruct (tr_domain row); cbn in Ed |- *; try discriminate Ed; exact Ed. }
        rewrite Dm. cbn [obind fst snd]. rewrite !Up, V3, V4, V3', V4'. destruct Q as [-> ->]. rewrite !feqb_refl. reflexivity.
      - congruence.
      - destruct Q as (Q1 & Q2 & Q3 & Q4). assert (No : no_other (option_map tr_path (hd_error rest)) ExtensionNew = true).
        { destruct rest as [|nx rest]; [reflexivity|]. cbn [hd_error option_map no_other]. replace (tr_path nx) with ExtensionNew; [reflexivity|]. symmetry. exact (all_in _ _ nx Q3 (or_introl eq_refl)). }
        rewrite No. cbn [obind oassert]. rewrite Up, V4, V4', V2, Q2. unfold hash_domains in Ed. rewrite Er in Ed. apply some_eq in Ed. assert (nd = tr_domain row) as -> by congruence. rewrite feqb_refl. reflexivity. }
    apply check_steps.
    - intros t next Ht Hn. exact (Step 0%nat t next Ht Hn).
    - intros i b t next Hb Ht Hn. pose proof (Step (S i) t next Ht Hn) as St. cbv beta iota in St. rewrite Hb in St. destruct (At i b Hb) as (rb & Rb & Lb). assert (Q := Pt b rb Lb (nth_error_In _ _ Rb)). rewrite Q in St. exists (tr_path rb). auto.
  Qed.
End Check.

Lemma bytes_eqb_refl l : bytes_eqb l l = true.
Proof. induction l as [|x l IH]; [reflexivity|]. cbn [bytes_eqb]. rewrite Z.eqb_refl. exact IH. Qed.
Lemma claim_from_some ty tr o n kd : fr (p_root (fst (t_account_path tr))) = Some o -> fr (p_root (snd (t_account_path tr))) = Some n -> claim_kind_from ty tr = Some kd -> proof_type_of kd = ty ->
  claim_from ty tr = Some (mkClaim o n (t_address tr) kd).
Proof. intros E1 E2 E3 E4. unfold claim_from. rewrite E1, E2, E3. cbn [obind]. rewrite E4. replace (ptype_eqb ty ty) with true by (destruct ty; reflexivity). reflexivity. Qed.

Section Account.
  Context {H : Fr -> Fr -> Fr -> Fr} {address : Z} {t t' : tree account} {ov nv : option account}.
  Notation k := (addr_key H address).
  Notation hv := (account_hash H).
  Hypothesis Ad : 0 <= address < 2 ^ 160.
  Hypothesis W : written k ov nv t t'.
  Hypothesis Kept : ov <> None -> nv <> None.
  Hypothesis Oko : forall a, ov = Some a -> account_ok a.
  Hypothesis Okn : forall a, nv = Some a -> account_ok a.
  Lemma get_leaf_some (x : tree account) : exists l, get_leaf (trace_path H hv x k) = Some l /\ match tree_end x 0 k with Leaf k' v => l = Some (mkLeafNode k' (hv v)) | _ => l = None end.
  Proof.
    unfold get_leaf. cbn [trace_path p_leaf]. unfold tree_leaf. destruct (tree_end x 0 k); [eauto| |eauto]. cbn [n_sibling n_value]. rewrite !fr_of_bytes. cbn [obind]. eauto.
  Qed.
  Lemma leaf_hash_some (x : tree account) : leaf_hash H (trace_path H hv x k) = Some (thash H hv (tree_end x 0 k)).
  Proof.
    unfold leaf_hash. cbn [trace_path p_leaf]. unfold tree_leaf. pose proof (tree_end_not_node x 0 k). destruct (tree_end x 0 k); [reflexivity| |discriminate]. cbn [n_sibling n_value]. rewrite !fr_of_bytes. reflexivity.
  Qed.
  Lemma path_from_some (x : tree account) ad : exists q, path_from H ad (trace_path H hv x k) = Some q.
  Proof.
    unfold path_from. cbn [trace_path p_leaf]. unfold tree_leaf. destruct (tree_end x 0 k); [eauto| |eauto]. cbn [n_sibling n_value]. rewrite !fr_of_bytes. cbn [obind]. eauto.
  Qed.
  Lemma account_of_some a root : account_ok a -> exists ea, account_of (Some (data_of a)) (Some root) = Some ea.
  Proof.
    intros (A1 & A2 & A3 & A4 & _). cbn [account_of]. unfold eth_account_from, data_of. cbn [ad_code_hash]. rewrite u256_from_biguint_spec by (unfold word_ok in A4; lia). rewrite (proj2 (Z.ltb_lt _ _)) by apply A4. cbn [obind]. eauto.
  Qed.
  Lemma traces_hash a ad root : account_ok a -> account_key H ad = k -> root = storage_root H (storage a) -> at2 (account_hash_traces H ad (data_of a) root) 5 2 = thash H hv (Leaf k a).
  Proof.
    intros OK K ->. rewrite traces_lv. unfold at2, lv_traces. cbn [nth]. rewrite K. unfold lv_top. fold (lv_acc H a). unfold lv_hash, lv_ns, lv_n, lv_s, lv_k. rewrite (lv_acc_eq H a OK). reflexivity.
  Qed.
  Lemma side_traces (x : tree account) v l ad root : end_with k v (tree_end x 0 k) -> (forall a, v = Some a -> account_ok a) -> (forall a, v = Some a -> root = Some (storage_root H (storage a))) -> account_key H ad = k ->
    get_leaf (trace_path H hv x k) = Some l -> exists ts ea, traces_of H ad (option_map data_of v) root l = Some ts /\ at2 ts 5 2 = thash H hv (tree_end x 0 k) /\ account_of (option_map data_of v) root = Some ea.
  Proof.
    intros E OK R K G. destruct v as [a|]; cbn [option_map traces_of].
    - specialize (OK a eq_refl). rewrite (R a eq_refl). cbn [obind]. destruct (account_of_some a (storage_root H (storage a)) OK) as (ea & Ea). eexists _, ea. split; [reflexivity|]. split; [|exact Ea].
      cbn [end_with] in E. rewrite E. apply traces_hash; auto.
    - eexists _, None. split; [reflexivity|]. split; [|reflexivity]. destruct (get_leaf_some x) as (l' & G' & S). rewrite G in G'. apply some_eq in G'. subst l'.
      destruct E as [E|(k' & v' & E & _)]; rewrite E in S |- *; rewrite S; reflexivity.
  Qed.
  Theorem convert ty tr c s : claim_from ty tr = Some c -> storage_proof_from H tr = Some s -> c_address c = be_bytes 20 address ->
    t_account_key tr = fr_to_bytes k -> t_account_path tr = (trace_path H hv t k, trace_path H hv t' k) -> t_account_update tr = (option_map data_of ov, option_map data_of nv) ->
    (forall a, ov = Some a -> sp_old_root H s = Some (storage_root H (storage a))) -> (forall a, nv = Some a -> sp_new_root H s = Some (storage_root H (storage a))) ->
    exists p, proof_from H ty tr = Some p.
  Proof.
    intros C S A TKey TK TU Ro Rn. unfold proof_from. rewrite C, S. cbn [obind]. rewrite TKey, fr_of_bytes. cbn [obind]. destruct (ok_address Ad) as [OA OV].
    assert (K : account_key H (c_address c) = k) by (rewrite A, account_key_spec by exact OA; rewrite OV; reflexivity). rewrite K, feqb_refl. cbn [obind oassert]. rewrite TK.
    destruct (along_ends k ov nv 0 t t' (written_along k ov nv t t' W)) as (E1 & E2 & _).
    destruct (tree_rows H hv k t t' (along_off_path k ov nv 0 t t' (written_along k ov nv t t' W))) as (rows & Er & _). cbn [trace_path p_path p_leaf]. rewrite Er. cbn [obind].
    pose proof (written_good H hv k ov nv t t' rows W Er) as G.
    destruct (get_leaf_some t) as (l0 & G0 & S0). destruct (get_leaf_some t') as (l1 & G1 & S1). rewrite G0, G1. cbn [obind].
    pose proof (leaf_hash_some t) as L0. pose proof (leaf_hash_some t') as L1. rewrite L0, L1. cbn [obind].
    pose proof (traces_agree H k _ _ _ _ _ _ (tree_path_end H hv t k) (tree_path_end H hv t' k)) as Ag. rewrite Er in Ag.
    destruct (get_internal_hash_traces _ _ _ _ _) as [ts|] eqn:Et; [|contradiction]. cbn [obind].
    rewrite (chain_checked H _ _ rows _ _ ts (gd_chain _ _ _ _ _ _ _ _ _ G)); [cbn [obind]| |exact Ag].
    2:{ intros row Hr. destruct (gd_paths _ _ _ _ _ _ _ _ _ G row Hr) as [->| ->]; [discriminate|]. destruct ov as [a|], nv as [a'|]; try discriminate. exfalso. apply Kept; [discriminate|reflexivity]. }
    rewrite TU.
    destruct (side_traces t ov l0 (c_address c) (sp_old_root H s) E1 Oko Ro K G0) as (ts0 & ea0 & T0 & H0 & A0).
    destruct (side_traces t' nv l1 (c_address c) (sp_new_root H s) E2 Okn Rn K G1) as (ts1 & ea1 & T1 & H1 & A1).
    rewrite T0, T1. cbn [obind]. rewrite H0, H1, !feqb_refl. cbn [obind oassert].
    destruct (path_from_some t (c_address c)) as (q0 & P0). destruct (path_from_some t' (c_address c)) as (q1 & P1). rewrite P0, P1. cbn [obind]. rewrite A0, A1. cbn [obind]. eauto.
  Qed.
End Account.

(* the storage proof of a slot *)
Section Slot.
  Context {H : Fr -> Fr -> Fr -> Fr} {slot : Z} {sov snv : option Z} {s s' : tree Z}.
  Notation sk := (slot_key H slot).
  Hypothesis Sl : 0 <= slot < 2 ^ 256.
  Hypothesis WS : written sk sov snv s s'.
  Hypothesis Zo : sov <> Some 0.
  Hypothesis Zn : snv <> Some 0.
  Hypothesis Ao : tree_all word_ok s.
  Hypothesis An : tree_all word_ok s'.
  Lemma slot_hash : storage_key_hash H slot = sk.
  Proof. apply storage_key_hash_spec. exact Sl. Qed.
  Lemma leaf_new x v : v <> Some 0 -> tree_all word_ok x -> end_with sk v (tree_end x 0 sk) ->
    exists l, storage_leaf_new H sk (p_leaf (trace_path H (word_hash H) x sk)) (mkStateData (be_bytes 32 slot) (be_bytes 32 (oz v))) = Some l /\ sl_hash H l = Some (thash H (word_hash H) (tree_end x 0 sk)).
  Proof.
    intros Nz A E. pose proof (word_of x v A E) as Rv. unfold storage_leaf_new. cbn [sd_value sd_key]. rewrite (hex_word _ Rv). cbn [obind trace_path p_leaf]. unfold tree_leaf.
    destruct v as [w|]; cbn [end_with oz] in *.
    - rewrite E. rewrite (proj2 (Z.eqb_neq w 0)) by congruence. rewrite (hex_word _ Sl). cbn [obind]. eexists. split; [reflexivity|]. unfold sl_hash, sl_value_hash, sl_key. rewrite slot_hash, u256_hi_lo_spec by exact Rv. cbn [obind thash].
      reflexivity.
    - destruct E as [E|(k' & w & E & Ne)]; rewrite E; change (0 =? 0) with true; cbv iota.
      + eexists. split; reflexivity.
      + rewrite (hex_word _ Sl). cbn [obind]. rewrite slot_hash, feqb_refl. cbn [obind oassert n_sibling n_value]. rewrite !fr_of_bytes. cbn [obind]. eexists. split; reflexivity.
  Qed.
  Lemma storage_converted tr : t_common_state_root tr = None -> t_state_key tr = Some (fr_to_bytes sk) -> t_state_path tr = (Some (trace_path H (word_hash H) s sk), Some (trace_path H (word_hash H) s' sk)) ->
    t_state_update tr = Some (Some (mkStateData (be_bytes 32 slot) (be_bytes 32 (oz sov))), Some (mkStateData (be_bytes 32 slot) (be_bytes 32 (oz snv)))) ->
    exists x, storage_proof_from H tr = Some x /\ sp_old_root H x = Some (storage_root H s) /\ sp_new_root H x = Some (storage_root H s').
  Proof.
    intros TC TSK TSP TSU. destruct (along_ends sk sov snv 0 s s' (written_along sk sov snv s s' WS)) as (E1 & E2 & _).
    destruct (tree_rows H (word_hash H) sk s s' (along_off_path sk sov snv 0 s s' (written_along sk sov snv s s' WS))) as (rows & Er & R0 & R1 & _).
    destruct (leaf_new s sov Zo Ao E1) as (l0 & L0 & H0). destruct (leaf_new s' snv Zn An E2) as (l1 & L1 & H1).
    exists (SUpdate slot sk rows l0 l1). unfold storage_proof_from. rewrite TC, TSK, TSP, TSU. cbn [obind fst snd]. rewrite fr_of_bytes. cbn [obind].
    cbn [trace_path p_path p_leaf] in L0, L1 |- *. rewrite Er. cbn [obind sd_key]. rewrite bytes_eqb_refl. cbn [obind oassert]. rewrite (hex_word _ Sl). cbn [obind]. rewrite L0, L1. cbn [obind].
    cbn [sp_old_root sp_new_root]. rewrite H0, H1, R0, R1. cbn [obind]. rewrite !root_of. cbn [obind]. unfold storage_root. rewrite !feqb_refl. cbn [obind oassert]. auto.
  Qed.
  Lemma slot_claimed ty tr : t_state_update tr = Some (Some (mkStateData (be_bytes 32 slot) (be_bytes 32 (oz sov))), Some (mkStateData (be_bytes 32 slot) (be_bytes 32 (oz snv)))) ->
    (exists d, t_account_update tr = (d, d)) -> claim_kind_from ty tr = Some (match sov, snv with None, None => KIsEmpty (Some slot) | _, _ => KStorage slot sov snv end).
  Proof.
    intros TSU (d & TU). destruct (along_ends sk sov snv 0 s s' (written_along sk sov snv s s' WS)) as (E1 & E2 & _). pose proof (word_of s sov Ao E1) as Ro. pose proof (word_of s' snv An E2) as Rn.
    unfold claim_kind_from. rewrite TSU, TU. replace (odata_eqb d d) with true. 2:{ destruct d as [d|]; [|reflexivity]. cbn [odata_eqb]. unfold data_eqb. rewrite !Z.eqb_refl. reflexivity. }
    cbn [orb obind oassert sd_value sd_key]. rewrite (hex_word _ Ro), (hex_word _ Rn), (hex_word _ Sl), bytes_eqb_refl. cbn [obind oassert]. rewrite !nonzero_oz by assumption.
    destruct sov as [w|], snv as [w'|]; cbn [oz]; try reflexivity.
    - rewrite (proj2 (Z.eqb_neq w 0)) by congruence. reflexivity.
    - rewrite (proj2 (Z.eqb_neq w 0)) by congruence. reflexivity.
    - rewrite (proj2 (Z.eqb_neq w' 0)) by congruence. rewrite andb_false_r. reflexivity.
  Qed.
End Slot.

Lemma biguint_word w : word_ok w -> u256_from_biguint w = Some w.
Proof. intros A. unfold word_ok in A. rewrite u256_from_biguint_spec by lia. rewrite (proj2 (Z.ltb_lt _ _)) by apply A. reflexivity. Qed.
Lemma biguint_balance w : 0 <= w < modulus -> u256_from_biguint w = Some w.
Proof. intros A. apply biguint_word. assert (modulus < 2 ^ 256) by reflexivity. unfold word_ok. lia. Qed.
Theorem honest_converted H address t t' ty tr : honest H address t t' ty tr -> 0 <= address < 2 ^ 160 -> tree_all account_ok t -> tree_all account_ok t' -> exists p, proof_from H ty tr = Some p.
Proof.
  intros HO Ad A A'.
  assert (Get : forall (x : tree account) a, tree_all account_ok x -> get x 0 (addr_key H address) = Some a -> account_ok a).
  { intros x a Ax G. rewrite get_end in G. destruct (tree_end x 0 (addr_key H address)) as [|k' v|] eqn:E; try discriminate G. destruct (feqb _ k') eqn:F; [|discriminate G]. apply some_eq in G. subst v. exact (end_all account_ok x _ k' a 0 Ax E). }
  assert (Acc : forall ov nv, written (addr_key H address) ov nv t t' -> (ov <> None -> nv <> None) -> (forall a a', ov = Some a -> nv = Some a' -> storage a' = storage a) -> forall kd, claim_kind_from ty (account_trace_of H t t' address) = Some kd -> proof_type_of kd = ty ->
    exists p, proof_from H ty (account_trace_of H t t' address) = Some p).
  { intros ov nv W Ke Es kd Kd Kt. destruct (written_get _ _ _ t t' W) as [G G'].
    eapply (convert Ad W Ke); [intros a O; apply (Get t); [exact A|congruence]|intros a N; apply (Get t'); [exact A'|congruence]|eapply claim_from_some; [apply root_of|apply root_of|exact Kd|exact Kt]| | | | | | |].
    - unfold storage_proof_from, account_trace_of. cbn [t_common_state_root]. rewrite fr_of_bytes. cbn [obind]. reflexivity.
    - reflexivity.
    - reflexivity.
    - reflexivity.
    - unfold account_trace_of. cbn [t_account_update]. rewrite G, G'. reflexivity.
    - intros a O. cbn [sp_old_root]. rewrite G, O. reflexivity.
    - intros a N. cbn [sp_new_root]. rewrite G, G'. destruct ov as [a0|]; [cbn [storage_of]; rewrite (Es a0 a eq_refl N); reflexivity|rewrite N; reflexivity]. }
  assert (Up : forall ov nv, written (addr_key H address) ov nv t t' -> t_account_update (account_trace_of H t t' address) = (option_map data_of ov, option_map data_of nv) /\ (forall a, ov = Some a -> account_ok a) /\ forall a, nv = Some a -> account_ok a).
  { intros ov nv W. destruct (written_get _ _ _ t t' W) as [G G']. split; [unfold account_trace_of; cbn [t_account_update]; rewrite G, G'; reflexivity|]. split; intros a E; [apply (Get t)|apply (Get t')]; congruence. }
  destruct HO as [a x W|a x W|a x W|a x W|a x W|x Nx W|x Nx W|ty Ty W|a slot ov nv s' Sl Some1 Zo Zn WS W|a slot Sl G Gs Eq|slot Sl W].
  1-5: destruct (Up _ _ W) as (TU & O1 & O2); specialize (O1 a eq_refl); specialize (O2 _ eq_refl); destruct O1 as (R1 & R2 & R3 & R4 & _); destruct O2 as (R1' & R2' & R3' & R4' & _);
    eapply (Acc _ _ W); [discriminate|intros ? ? E1 E2; apply some_eq in E1, E2; subst; reflexivity| |];
    [unfold claim_kind_from; rewrite TU; cbn [option_map t_state_update account_trace_of data_of ad_nonce ad_balance ad_code_hash ad_poseidon_code_hash ad_code_size set_nonce set_balance set_keccak set_poseidon set_code_size nonce balance keccak_code_hash poseidon_code_hash code_size];
     rewrite !Z.eqb_refl; cbn [obind oassert]|].
  - reflexivity.
  - reflexivity.
  - cbn [set_balance balance] in R3'. rewrite !biguint_balance by assumption. reflexivity.
  - reflexivity.
  - reflexivity.
  - reflexivity.
  - cbn [set_keccak keccak_code_hash] in R4'. rewrite !biguint_word by assumption. reflexivity.
  - reflexivity.
  - reflexivity.
  - reflexivity.
  - destruct (Up _ _ W) as (TU & O1 & O2). eapply (Acc _ _ W); [congruence|discriminate| |].
    + unfold claim_kind_from. rewrite TU. cbn [option_map t_state_update account_trace_of data_of ad_nonce nonce]. rewrite (proj2 (Z.eqb_neq x 0) Nx). reflexivity.
    + reflexivity.
  - destruct (Up _ _ W) as (TU & O1 & O2). specialize (O2 _ eq_refl). destruct O2 as (R1 & R2 & R3 & _). cbn [balance] in R3. eapply (Acc _ _ W); [congruence|discriminate| |].
    + unfold claim_kind_from. rewrite TU. cbn [option_map t_state_update account_trace_of data_of ad_nonce nonce ad_balance balance]. rewrite (proj2 (Z.eqb_neq x 0) Nx). rewrite biguint_balance by exact R3. reflexivity.
    + reflexivity.
  - destruct (Up _ _ W) as (TU & O1 & O2). destruct Ty as [<-|[<-|[<-|[<-|[<-|[]]]]]].
    all: eapply (Acc _ _ W); [congruence|discriminate|unfold claim_kind_from; rewrite TU; reflexivity|reflexivity].
  - destruct (written_get _ _ _ t t' W) as [G G']. destruct (written_get _ _ _ _ _ WS) as [V V'].
    assert (Oa : account_ok a) by (apply (Get t); assumption). assert (Oa' : account_ok (set_storage s' a)) by (apply (Get t'); assumption). pose proof (proj2 (proj2 (proj2 (proj2 Oa)))) as As. pose proof (proj2 (proj2 (proj2 (proj2 Oa')))) as As'. cbn [storage set_storage] in As'.
    set (tr := storage_trace_of H t t' address slot).
    assert (TSU : t_state_update tr = Some (Some (mkStateData (be_bytes 32 slot) (be_bytes 32 (oz ov))), Some (mkStateData (be_bytes 32 slot) (be_bytes 32 (oz nv))))).
    { unfold tr, storage_trace_of. cbn [t_state_update]. rewrite G, G'. cbn [storage_of storage set_storage]. unfold slot_value_of. rewrite V, V'. reflexivity. }
    assert (TU : t_account_update tr = (Some (data_of a), Some (data_of a))).
    { unfold tr, storage_trace_of. cbn [t_account_update]. rewrite G, G'. reflexivity. }
    destruct (storage_converted Sl WS Zo Zn As As' tr eq_refl eq_refl) as (sp & Sp & R0 & R1); [unfold tr, storage_trace_of; cbn [t_state_path]; rewrite G, G'; reflexivity|exact TSU|].
    pose proof (slot_claimed Sl WS Zo Zn As As' StorageChanged tr TSU (ex_intro _ _ TU)) as Kd.
    eapply (convert Ad W); [discriminate|intros b E; apply some_eq in E; subst b; exact Oa|intros b E; apply some_eq in E; subst b; exact Oa'|eapply claim_from_some; [apply root_of|apply root_of|exact Kd|]|exact Sp|reflexivity|reflexivity|reflexivity|exact TU| |].
    + destruct ov, nv; try reflexivity. exfalso. destruct Some1; congruence.
    + intros b E. apply some_eq in E. subst b. exact R0.
    + intros b E. apply some_eq in E. subst b. exact R1.
  - assert (W : written (addr_key H address) (Some a) (Some a) t t') by (split; [exact G|rewrite Eq; symmetry; apply modify_same; exact G]). destruct (written_get _ _ _ t t' W) as [_ G'].
    assert (WS : written (slot_key H slot) None None (storage a) (storage a)) by (split; [exact Gs|reflexivity]).
    assert (Oa : account_ok a) by (apply (Get t); assumption). pose proof (proj2 (proj2 (proj2 (proj2 Oa)))) as As.
    set (tr := storage_trace_of H t t' address slot).
    assert (TSU : t_state_update tr = Some (Some (mkStateData (be_bytes 32 slot) (be_bytes 32 (oz None))), Some (mkStateData (be_bytes 32 slot) (be_bytes 32 (oz None))))).
    { unfold tr, storage_trace_of. cbn [t_state_update]. rewrite G, G'. cbn [storage_of]. unfold slot_value_of. rewrite Gs. reflexivity. }
    assert (TU : t_account_update tr = (Some (data_of a), Some (data_of a))).
    { unfold tr, storage_trace_of. cbn [t_account_update]. rewrite G, G'. reflexivity. }
    destruct (storage_converted Sl WS ltac:(discriminate) ltac:(discriminate) As As tr eq_refl eq_refl) as (sp & Sp & R0 & R1); [unfold tr, storage_trace_of; cbn [t_state_path]; rewrite G, G'; reflexivity|exact TSU|].
    pose proof (slot_claimed Sl WS ltac:(discriminate) ltac:(discriminate) As As StorageDoesNotExist tr TSU (ex_intro _ _ TU)) as Kd.
    eapply (convert Ad W); [discriminate|intros b E; apply some_eq in E; subst b; exact Oa|intros b E; apply some_eq in E; subst b; exact Oa|eapply claim_from_some; [apply root_of|apply root_of|exact Kd|reflexivity]|exact Sp|reflexivity|reflexivity|reflexivity|exact TU| |].
    + intros b E. apply some_eq in E. subst b. exact R0.
    + intros b E. apply some_eq in E. subst b. exact R1.
  - destruct (written_get _ _ _ t t' W) as [G G'].
    assert (WS : written (slot_key H slot) None None (@Empty Z) Empty) by (split; reflexivity).
    set (tr := storage_trace_of H t t' address slot).
    assert (TSU : t_state_update tr = Some (Some (mkStateData (be_bytes 32 slot) (be_bytes 32 (oz None))), Some (mkStateData (be_bytes 32 slot) (be_bytes 32 (oz None))))).
    { unfold tr, storage_trace_of. cbn [t_state_update]. rewrite G, G'. reflexivity. }
    assert (TU : t_account_update tr = (None, None)).
    { unfold tr, storage_trace_of. cbn [t_account_update]. rewrite G, G'. reflexivity. }
    destruct (storage_converted Sl WS ltac:(discriminate) ltac:(discriminate) Logic.I Logic.I tr eq_refl eq_refl) as (sp & Sp & R0 & R1); [unfold tr, storage_trace_of; cbn [t_state_path]; rewrite G, G'; reflexivity|exact TSU|].
    pose proof (slot_claimed Sl WS ltac:(discriminate) ltac:(discriminate) Logic.I Logic.I StorageDoesNotExist tr TSU (ex_intro _ _ TU)) as Kd.
    eapply (convert Ad W); [congruence|discriminate|discriminate|eapply claim_from_some; [apply root_of|apply root_of|exact Kd|reflexivity]|exact Sp|reflexivity|reflexivity|reflexivity|exact TU|discriminate|discriminate].
Qed.
