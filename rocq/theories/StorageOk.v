(* The rows of an update of a storage slot, from the account leaf on, are accepted. *)
From Coq Require Import ZArith List Bool Lia.
From Verif Require Import Pocklington Fr Query Builder BuilderProofs Gadgets MptUpdate Bytes GadgetProofs UpdateRows TrieSpec UpdateComplete Util UtilProofs Serde Trie Storage Types Lookups LookupMain
  Assign AssignProofs UpdateAssign MptAssign GadgetMain GadgetMain2 TrieProofs RowView BlockView BlocksOk RowsOk RowCells BlockRows Chain UpperOk LeafOk.
Import ListNotations.
Open Scope Z_scope.

(* the place where the slot would be is empty, or taken by another leaf *)
Definition vacant (H : Fr -> Fr -> Fr -> Fr) (e : env) (key : Fr) (l : StorageLeaf) (hash : Fr) : Prop :=
  (l = SEmpty key /\ hash = f0) \/ (exists k v, l = SLeaf k v /\ k <> key /\ hash = H k v (fdom DLeaf) /\ hash <> f0 /\ hit e k v DLeaf hash).
Definition present (H : Fr -> Fr -> Fr -> Fr) (e : env) (r : Fr) (key : Fr) (l : StorageLeaf) (kk w : Z) (hash : Fr) : Prop :=
  l = SEntry kk w /\ exists hi lo vh, word_here e r w vh hi lo /\ vh = H hi lo (fdom DPair) /\ vh <> ZERO_PAIR_HASH H /\ hit e key vh DLeaf hash.
Inductive slot_change (H : Fr -> Fr -> Fr -> Fr) (e : env) (r key : Fr) (kk : Z) (old new : StorageLeaf) (fo fn : Fr) : ClaimKind -> SegmentType -> PathType -> Prop :=
| sc_over wo wn : present H e r key old kk wo fo -> present H e r key new kk wn fn -> slot_change H e r key kk old new fo fn (KStorage kk (Some wo) (Some wn)) StorageLeaf0 Common
| sc_insert wn : vacant H e key old fo -> fo <> ZERO_PAIR_HASH H -> present H e r key new kk wn fn -> slot_change H e r key kk old new fo fn (KStorage kk None (Some wn)) StorageLeaf0 ExtensionNew
| sc_delete wo : present H e r key old kk wo fo -> vacant H e key new fn -> fn <> ZERO_PAIR_HASH H -> slot_change H e r key kk old new fo fn (KStorage kk (Some wo) None) StorageLeaf0 ExtensionOld
| sc_absent : vacant H e key old fo -> new = old -> fn = fo -> slot_change H e r key kk old new fo fn (KIsEmpty (Some kk)) SegStart PathStart.

Section Slot.
  Context {H : Fr -> Fr -> Fr -> Fr} {e : env} {p : Proof} {r : Fr} {o : Z} {w : list write} {other data : Fr} {final : PathType}.
  Hypothesis B : block_at H p r o w other data final.
  Hypothesis HR : holds_rows e w o (o + Z.of_nat (proof_n_rows p)).
  Hypothesis L : even_proof p.
  Hypothesis NA : no_account p = false.
  Notation T := (proof_type_of (c_kind (pf_claim p))).
  Notation rows := (pf_account_trie_rows p).
  Notation fo := (fst (final_hashes H p)).
  Notation fn := (snd (final_hashes H p)).
  Notation ol := (o + 1 + Z.of_nat (length rows)).
  Notation K := (akey H p).
  Context {sk : Z} {key : Fr} {srows : TrieRows} {old new : StorageLeaf} {kk : Z} {so sn : Fr} {s' : SegmentType} {q' : PathType}.
  Hypothesis St : pf_storage p = SUpdate sk key srows old new.
  Hypothesis SC : slot_change H e r key kk old new so sn (c_kind (pf_claim p)) s' q'.
  Hypothesis Kk : key = storage_key_hash H kk.
  Lemma kind_storage : (exists a b, c_kind (pf_claim p) = KStorage kk a b) \/ c_kind (pf_claim p) = KIsEmpty (Some kk).
  Proof. inversion SC; eauto. Qed.
  Lemma kind_type : (T = StorageChanged /\ s' = StorageLeaf0) \/ (T = StorageDoesNotExist /\ s' = SegStart).
  Proof. inversion SC; auto. Qed.
  Lemma start_path : s' = SegStart -> q' = PathStart.
  Proof. intros E. clear - SC E. destruct SC; try discriminate E; reflexivity. Qed.
  Lemma ext_kind : q' = ExtensionNew \/ q' = ExtensionOld -> T = StorageChanged.
  Proof. intros E. clear - SC E. destruct SC; try reflexivity; destruct E as [E|E]; discriminate E. Qed.
  Lemma other_of : vacant H e key old so \/ vacant H e key new sn \/ @so_ H key old new = key.
  Proof. inversion SC as [? ? (-> & _) (-> & _)| | |]; auto. right. right. unfold so_. cbn [sl_key]. destruct (feqb _ _); auto. Qed.
  Context {vo vn : leafv}.
  Hypothesis Ro : chain H (lv_root vo) (lv_root vn) srows so sn.
  Hypothesis Rh : rows_hit H e srows.
  Hypothesis Lk : forall row, nth_error srows (pred (length srows)) = Some row -> link_end row q'.
  Hypothesis Pq : forall row, In row srows -> tr_path row = Common \/ tr_path row = q'.
  Hypothesis Bits : forall j row, nth_error srows j = Some row -> accepts e key_bit_lookup [key; fz (Z.of_nat j); fb (tr_direction row)] /\
    (tr_path row = Common -> accepts e key_bit_lookup [@so_ H key old new; fz (Z.of_nat j); fb (tr_direction row)]).
  Hypothesis Wk : word_here e r kk key (w1 (Some (halves kk r))) (w2 (Some (halves kk r))).
  Hypothesis To : pf_old_account_hash_traces p = lv_traces H K vo.
  Hypothesis Tn : pf_new_account_hash_traces p = lv_traces H K vn.
  Hypothesis Ac : pf_old_account p <> None.
  Hypothesis Ho : lv_hit H e K vo.
  Hypothesis Hn : lv_hit H e K vn.
  Hypothesis LP : leaf_path_type final fo fn = Some Common.
  Hypothesis Fo : fo = lv_top H K vo.
  Hypothesis Fn : fn = lv_top H K vn.
  Hypothesis Cn : lv_n H vo = lv_n H vn.
  Hypothesis Ck : lv_k H vo = lv_k H vn.
  Hypothesis Cp : lv_pch vo = lv_pch vn.
  (* nothing changes in a proof of absence *)
  Hypothesis Same : T = StorageDoesNotExist -> lv_root vo = lv_root vn /\ forall row, In row srows -> tr_path row = Common /\ tr_old row = tr_new row.
  Notation q3 := (match srows with row :: _ => tr_path row | [] => q' end).
  Notation s3 := (match srows with _ :: _ => StorageTrie | [] => s' end).
  Notation LF := (@leaf_f p r).
  Notation ok_ := (@so_ H key old new).
  Notation t3 := (match srows with [] => last_tail H key ok_ old new | _ => T0 end).
  Notation L3 := (@leaf3s_f p r Common (lv_k H vo) (lv_root vo) (lv_root vn) false key ok_ kk t3).
  Notation SF := (@strie_f H p r key srows old new).
  Lemma ov_zero : In q' [ExtensionNew; PathStart] -> @ov_ p r = f0.
  Proof. unfold ov_, old_value_assignment. inversion SC as [? ? ? ? E1 E2 E3|? ? ? ? E1 E2 E3|? ? ? ? E1 E2 E3|? ? ? E1 E2 E3]; intros X; cbn in X; try (exfalso; intuition discriminate); [apply rlc_zero_word|reflexivity]. Qed.
  Lemma nv_zero : In q' [ExtensionOld; PathStart] -> @nv_ p r = f0.
  Proof. unfold nv_, new_value_assignment. inversion SC as [? ? ? ? E1 E2 E3|? ? ? ? E1 E2 E3|? ? ? ? E1 E2 E3|? ? ? E1 E2 E3]; intros X; cbn in X; try (exfalso; intuition discriminate); [apply rlc_zero_word|reflexivity]. Qed.
  (* a proof of absence ends in row f *)
  Lemma absence_end f : s' = SegStart -> f_key f = key -> f_other f = ok_ -> f_old f = so -> f_z2 f = tz2 (last_tail H key ok_ old new) -> f_z3 f = tz3 (last_tail H key ok_ old new) -> f_i3 f = ti3 (last_tail H key ok_ old new) ->
    absent_at e f f0 (f_old f) (f_i3 f).
  Proof.
    intros S A1 A2 A3 A4 A5 A6. assert (X : vacant H e key old so /\ new = old) by (inversion SC; subst; try discriminate; auto). destruct X as [X ->].
    unfold absent_at, absent. rewrite A1, A2, A3, A4, A5, A6. split; [reflexivity|]. unfold so_ in *. destruct X as [[-> ->]|(k & v & -> & Nk & E & Nz & Hh)].
    - cbn [sl_key last_tail tz2 tz3 ti3]. replace (if feqb key key then key else key) with key by (destruct (feqb key key); reflexivity). auto.
    - cbn [sl_key last_tail tz2 tz3 ti3 sl_hash sl_value_hash obind or_else]. replace (if feqb key k then k else k) with k by (destruct (feqb key k); reflexivity). unfold domain_hash. rewrite <- E. auto 10.
  Qed.
  Definition above_s (j : nat) : rowf := match j with O => L3 | S k => match nth_error srows k with Some row => SF k row | None => L3 end end.
  Definition lower_reads : Prop :=
    (forall k seg sib ho hn d, nth_error (izip5 SEGMENT_TYPES [K; lv_pch vo; lv_n H vo; lv_k H vo] [lv_hash H vo; lv_ns H vo; lv_s H vo; lv_root vo] [lv_hash H vn; lv_ns H vn; lv_s H vn; lv_root vn] [true; false; true; false]) k = Some (seg, sib, ho, hn, d) ->
          let f := match k with
                   | O => LF Common seg sib ho hn d DLeaf K other (K - other)%fr ho data None None
                   | 3%nat => leaf3s_f (p := p) (r := r) Common sib ho hn d key ok_ kk t3
                   | _ => LF Common seg sib ho hn d AccountFields K other f0 f0 f0 None None
                   end in
          (exists m, view e (ol + Z.of_nat k) m) /\ reads e (ol + Z.of_nat k) f) /\
    (forall j row, nth_error srows j = Some row -> (exists m, view e (ol + 4 + Z.of_nat j) m) /\ reads e (ol + 4 + Z.of_nat j) (SF j row)) /\
    (s' = StorageLeaf0 -> storage_leaf_path old new = Some q' /\ exists oh nh, storage_leaf_hashes H q' old new = Some (oh, nh) /\
      (exists m, view e (ol + 4 + Z.of_nat (length srows)) m) /\ reads e (ol + 4 + Z.of_nat (length srows)) (@sleaf_f H p r key old new q' oh nh)).
  Lemma get_reads : lower_reads.
  Proof.
    destruct (storage_leaf_reads B HR L NA St kind_storage) as (q & siblings & A1 & A2 & A3 & A4 & A5). rewrite LP in A1. apply some_eq in A1. subst q.
    assert (A2' : siblings = [K; lv_pch vo; lv_n H vo; lv_k H vo]).
    { unfold account_leaf_siblings in A2. rewrite To, Tn in A2. destruct kind_storage as [(a & b & E)|E]; rewrite E in A2; ob A2; ob A2; ob A2; apply some_eq in A2; symmetry; exact A2. }
    assert (O1 : or_else (old_account_leaf_hashes p) (repeat fo 4) = [lv_hash H vo; lv_ns H vo; lv_s H vo; lv_root vo]).
    { unfold old_account_leaf_hashes. rewrite To. destruct (pf_old_account p) as [a0|] eqn:EA; [|contradiction]. destruct kind_storage as [(a & b & E)|E]; rewrite E; reflexivity. }
    assert (N1 : or_else (new_account_leaf_hashes p) (repeat fn 4) = [lv_hash H vn; lv_ns H vn; lv_s H vn; lv_root vn]).
    { unfold new_account_leaf_hashes. rewrite Tn. destruct kind_storage as [(a & b & E)|E]; rewrite E; reflexivity. }
    rewrite O1, N1, A2' in A3. split; [exact A3|]. split; [exact A4|]. intros S.
    assert (Pa : storage_leaf_path old new = Some q').
    { inversion SC as [? ? (-> & _) (-> & _)|? V ? (-> & _)|? (-> & _) V ?|]; try reflexivity; try congruence.
      - destruct V as [[-> _]|(? & ? & -> & _)]; reflexivity.
      - destruct V as [[-> _]|(? & ? & -> & _)]; reflexivity. }
    split; [exact Pa|]. destruct kind_storage as [(a & b & E)|E]; [exact (A5 _ _ _ _ E Pa)|]. destruct kind_type as [[X _]|[_ X]]; [rewrite E in X; discriminate X|congruence].
  Qed.
  Hypothesis ES : starts e (o + Z.of_nat (proof_n_rows p)).
  Lemma rows_count : o + Z.of_nat (proof_n_rows p) = ol + 4 + Z.of_nat (length srows) + (if seg_eqb s' StorageLeaf0 then 1 else 0).
  Proof.
    assert (D : leaf_directions T = Some [true; false; true; false]) by (destruct kind_type as [[-> _]|[-> _]]; reflexivity).
    pose proof (nn_rows p _ NA D) as NR. unfold even_proof in L. rewrite <- L in NR. rewrite St in NR. cbn [sp_n_rows length] in NR.
    assert (M : Nat.max (sl_n_rows old) (sl_n_rows new) = if seg_eqb s' StorageLeaf0 then 1%nat else 0%nat).
    { inversion SC as [? ? (-> & _) (-> & _)|? V ? (-> & _)|? (-> & _) V ?|V ->]; try reflexivity; destruct V as [[-> _]|(? & ? & -> & _)]; reflexivity. }
    rewrite M in NR. destruct (seg_eqb s' StorageLeaf0); lia.
  Qed.
  Lemma last_types : sg e (ol + 4 + Z.of_nat (length srows)) = s' /\ pa e (ol + 4 + Z.of_nat (length srows)) = q'.
  Proof.
    pose proof rows_count as RC. destruct kind_type as [[_ S]|[_ S]].
    - destruct get_reads as (_ & _ & R). destruct (R S) as (_ & oh & nh & _ & _ & R2). rewrite (rd_sg _ _ _ R2), (rd_pa _ _ _ R2). rewrite S. split; reflexivity.
    - destruct ES as [E1 E2]. rewrite S in RC. cbn [seg_eqb] in RC. rewrite RC, Z.add_0_r in E1, E2. rewrite S. split; [exact E1|]. rewrite (start_path S). exact E2.
  Qed.
  Lemma snext_types j : (j <= length srows)%nat -> sg e (ol + 4 + Z.of_nat j) = match nth_error srows j with Some _ => StorageTrie | None => s' end /\
    pa e (ol + 4 + Z.of_nat j) = match nth_error srows j with Some row => tr_path row | None => q' end.
  Proof.
    intros Hj. destruct (nth_error srows j) as [row|] eqn:E.
    - destruct get_reads as (_ & R & _). destruct (R j row E) as [_ R2]. rewrite (rd_sg _ _ _ R2), (rd_pa _ _ _ R2). split; reflexivity.
    - apply nth_error_None in E. assert (j = length srows) as -> by lia. apply last_types.
  Qed.
  Lemma above_s_reads j : (j <= length srows)%nat -> reads e (ol + 4 + Z.of_nat j - 1) (above_s j) /\ f_old (above_s j) = above_old (lv_root vo) srows j /\ f_new (above_s j) = above_new (lv_root vn) srows j /\
    f_depth (above_s j) = fz (Z.of_nat j) /\ f_pt (above_s j) = T /\ f_skr (above_s j) = skr_ (p := p) (r := r) /\ f_ov (above_s j) = @ov_ p r /\ f_nv (above_s j) = @nv_ p r /\ f_key (above_s j) = key /\ f_other (above_s j) = ok_.
  Proof.
    intros Hj. destruct get_reads as (R0 & R1 & _). destruct j as [|k]; cbn [above_s above_old above_new].
    - destruct (R0 3%nat _ _ _ _ _ eq_refl) as [_ R]. replace (ol + 4 + Z.of_nat 0 - 1) with (ol + Z.of_nat 3) by lia. split; [exact R|]. repeat split.
    - destruct (nth_error srows k) as [row|] eqn:E.
      + destruct (R1 k row E) as [_ R]. replace (ol + 4 + Z.of_nat (S k) - 1) with (ol + 4 + Z.of_nat k) by lia. split; [exact R|]. split; [reflexivity|]. split; [reflexivity|]. split; [|repeat split].
        replace (Z.of_nat (S k)) with (Z.of_nat k + 1) by lia. reflexivity.
      + apply nth_error_None in E. lia.
  Qed.
  Lemma trans_s sg0 l0 more : (sg0 = StorageTrie /\ l0 = more \/ sg0 = AccountLeaf3) -> exists l, seg_transitions T sg0 = Some l /\ In (if more : bool then StorageTrie else s') l.
  Proof.
    intros X. assert (sg0 = StorageTrie \/ sg0 = AccountLeaf3) as Y by tauto. clear X. destruct kind_type as [[-> ->]|[-> ->]], Y as [-> | ->]; eexists; (split; [reflexivity|]); destruct more; cbn; tauto.
  Qed.
  Lemma strie_ok_ j row : nth_error srows j = Some row -> (exists m, view e (ol + 4 + Z.of_nat j) m) /\ row_ok H e (ol + 4 + Z.of_nat j).
  Proof.
    intros Hj. assert (Hl : (j < length srows)%nat) by (apply nth_error_Some; congruence).
    destruct get_reads as (_ & RR & _). destruct (RR j row Hj) as [V R]. split; [exact V|].
    destruct (above_s_reads j ltac:(lia)) as (R' & O' & N' & D' & P' & K' & OV' & NV' & KE' & OT').
    destruct (snext_types (S j) ltac:(lia)) as [S1 Q1]. replace (ol + 4 + Z.of_nat (S j)) with (ol + 4 + Z.of_nat j + 1) in S1, Q1 by lia.
    assert (In1 : In row srows) by (eapply nth_error_In, Hj).
    destruct (chain_nth _ _ _ _ _ _ _ _ Ro Hj) as (rest & C2 & _). cbn [chain] in C2. destruct C2 as (Br & (od & nd & _ & Cs) & _).
    assert (NS : tr_path row <> PathStart) by (intros X; rewrite X in Cs; exact Cs). clear Cs.
    assert (PS : path_step e (above_s j) (SF j row) (match nth_error srows (S j) with Some _ => StorageTrie | None => s' end) (match nth_error srows (S j) with Some row => tr_path row | None => q' end)
      /\ In (match nth_error srows (S j) with Some row => tr_path row | None => q' end) (path_transitions (f_pa (SF j row)))).
    { apply (chain_step H e srows _ _ so sn j row _ _ StorageTrie _ _ Ro Rh Hj).
      - reflexivity.
      - reflexivity.
      - repeat split.
      - exact O'.
      - exact N'.
      - destruct (nth_error srows (S j)) as [nx|] eqn:E2; [auto|]. apply nth_error_None in E2.
        assert (LE : link_end row q') by (apply Lk; replace (pred (length srows)) with j by lia; exact Hj).
        destruct kind_type as [[_ S]|[_ S]].
        + rewrite S. auto.
        + rewrite S. split; [reflexivity|]. split; [exact LE|]. rewrite (start_path S). split; intros X; discriminate X.
      - intros X. destruct (Pq row In1) as [Y|Y]; [congruence|]. assert (Q : q' = ExtensionNew) by congruence. change (f_pt (SF j row)) with T. change (f_ov (SF j row)) with (@ov_ p r). split; [|apply ov_zero; rewrite Q; cbn; auto].
        rewrite ext_kind by auto. cbn; auto.
      - intros X. destruct (Pq row In1) as [Y|Y]; [congruence|]. assert (Q : q' = ExtensionOld) by congruence. change (f_pt (SF j row)) with T. change (f_nv (SF j row)) with (@nv_ p r). split; [|split; [apply nv_zero; rewrite Q; cbn; auto|reflexivity]].
        rewrite ext_kind by auto. cbn; auto. }
    destruct PS as [PS PT].
    eapply (trie_row H e (ol + 4 + Z.of_nat j) (above_s j) (SF j row) _ _ R' R S1 Q1 j (tr_direction row) (tr_domain row)); try reflexivity.
    - exact NS.
    - unfold same_claim. rewrite P', K', OV', NV'. repeat split.
    - unfold same_key. rewrite KE', OT'. repeat split.
    - exact D'.
    - apply (Bits j row Hj).
    - apply (Bits j row Hj).
    - apply branch_in, Br.
    - exact PS.
    - exact PT.
    - unfold trans. destruct (trans_s StorageTrie (match nth_error srows (S j) with Some _ => true | None => false end) (match nth_error srows (S j) with Some _ => true | None => false end) (or_introl (conj eq_refl eq_refl))) as (l & L1 & L2). exists l. split; [exact L1|]. destruct (nth_error srows (S j)); exact L2.
    - change (f_pt (SF j row)) with T. destruct kind_type as [[TT Sg0]|[TT Sg0]]; rewrite TT; cbn [above]; [exact Logic.I|].
      destruct (Same TT) as [_ Sm]. destruct (Sm row In1) as [Sm1 Sm2]. assert (Q := start_path Sg0).
      assert (OZ := ov_zero ltac:(rewrite Q; cbn; auto)). assert (NZ := nv_zero ltac:(rewrite Q; cbn; auto)).
      change (f_ov (SF j row)) with (@ov_ p r). change (f_nv (SF j row)) with (@nv_ p r). split; [exact OZ|]. split; [exact NZ|]. split; [right; exact Sm1|]. split; [exact Sm2|].
      intros X. split; [exact Sm2|]. change (f_ov (SF j row)) with (@ov_ p r). change (f_nv (SF j row)) with (@nv_ p r). rewrite OZ, NZ. split; [reflexivity|].
      destruct (nth_error srows (S j)) as [nx|] eqn:E2; [discriminate X|]. apply nth_error_None in E2. assert (SL : (S j =? length srows)%nat = true) by (apply Nat.eqb_eq; lia).
      assert (O2 : f_old (SF j row) = so) by (destruct (chain_last _ _ _ _ _ _ Ro) as [C1 _]; rewrite <- C1; replace (length srows) with (S j) by lia; cbn [above_old]; rewrite Hj; reflexivity).
      apply absence_end; try assumption; try reflexivity; unfold strie_f; cbn [f_z2 f_z3 f_i3]; rewrite SL; reflexivity.
  Qed.
  (** * The account rows *)
  Hypothesis Em : srows = [] -> (q' = ExtensionNew -> so = f0) /\ (q' = ExtensionOld -> sn = f0).
  Variable f' : rowf.
  Hypothesis P1 : f_pt f' = T.
  Hypothesis P2 : f_skr f' = skr_ (p := p) (r := r).
  Hypothesis P3 : f_ov f' = @ov_ p r.
  Hypothesis P4 : f_nv f' = @nv_ p r.
  Hypothesis P5 : f_key f' = K.
  Hypothesis P6 : f_other f' = other.
  Hypothesis P7 : f_old f' = fo.
  Hypothesis P8 : f_new f' = fn.
  Hypothesis P9 : reads e (ol - 1) f'.
  Notation LF0 := (LF Common AccountLeaf0 K (lv_hash H vo) (lv_hash H vn) true DLeaf K other (K - other)%fr (lv_hash H vo) data None None).
  Notation LF1 := (LF Common AccountLeaf1 (lv_pch vo) (lv_ns H vo) (lv_ns H vn) false AccountFields K other f0 f0 f0 None None).
  Notation LF2 := (LF Common AccountLeaf2 (lv_n H vo) (lv_s H vo) (lv_s H vn) true AccountFields K other f0 f0 f0 None None).
  Lemma step3 : path_step e LF2 L3 s3 q3 /\ In q3 (path_transitions Common).
  Proof.
    split; [|destruct q3; cbn; tauto].
    assert (N0 : nodeh e false (f_sib L3) (f_old L3) AccountFields (f_old LF2)) by exact (lh_s _ _ _ _ Ho).
    assert (N1 : nodeh e false (f_sib L3) (f_new L3) AccountFields (f_new LF2)).
    { change (hit e (lv_root vn) (lv_k H vo) AccountFields (lv_s H vn)). rewrite Ck. exact (lh_s _ _ _ _ Hn). }
    destruct srows as [|row l] eqn:E.
    - destruct (Em eq_refl) as [E1 E2]. destruct Ro as [R1 R2]. destruct q' eqn:Q.
      + apply (ps_common _ _ _ _ _ false AccountFields); auto.
      + apply (ps_common _ _ _ _ _ false AccountFields); auto.
      + apply (ps_old_empty _ _ _ _ _ false AccountFields); auto; [inversion SC; reflexivity|cbn; tauto|]. change (lv_root vn = f0). rewrite R2. auto.
      + apply (ps_new_empty _ _ _ _ _ false AccountFields); auto; [inversion SC; reflexivity|cbn; tauto|]. change (lv_root vo = f0). rewrite R1. auto.
    - cbn [chain] in Ro. destruct Ro as (_ & (od & nd & _ & Cs) & _). destruct (tr_path row) eqn:Q; [contradiction|..].
      + apply (ps_common _ _ _ _ _ false AccountFields); auto.
      + apply (ps_old_ext _ _ _ _ _ false AccountFields AccountFields); auto.
      + apply (ps_new_ext _ _ _ _ _ false AccountFields AccountFields); auto.
  Qed.
  Lemma same_values : T = StorageDoesNotExist -> lv_root vo = lv_root vn /\ lv_s H vo = lv_s H vn /\ lv_ns H vo = lv_ns H vn /\ lv_hash H vo = lv_hash H vn.
  Proof.
    intros TT. destruct (Same TT) as [E1 _]. split; [exact E1|]. assert (E2 : lv_s H vo = lv_s H vn) by (unfold lv_s; rewrite E1, Ck; reflexivity). split; [exact E2|].
    assert (E3 : lv_ns H vo = lv_ns H vn) by (unfold lv_ns; rewrite E2, Cn; reflexivity). split; [exact E3|]. unfold lv_hash. rewrite E3, Cp. reflexivity.
  Qed.
  Lemma key_word : word_at e key (f_i0 L3) (f_i1 L3) (f_skr L3) (f_s0 L3) (f_s1 L3).
  Proof.
    destruct Wk as (rh & rl & E & W). change (f_skr L3) with (rlc (u256_to_big_endian (claim_storage_key (pf_claim p))) r).
    assert (claim_storage_key (pf_claim p) = kk) as -> by (unfold claim_storage_key; destruct kind_storage as [(a & b & ->)| ->]; reflexivity).
    unfold leaf3s_f. cbn [f_i0 f_i1 f_s0 f_s1]. rewrite E in W |- *. exact W.
  Qed.
  Lemma account_leafs : leafs H e ol f' [LF0; LF1; LF2; L3] s3 q3.
  Proof.
    destruct get_reads as (R & _ & _). pose proof (R 0%nat _ _ _ _ _ eq_refl) as R0. pose proof (R 1%nat _ _ _ _ _ eq_refl) as R1. pose proof (R 2%nat _ _ _ _ _ eq_refl) as R2. pose proof (R 3%nat _ _ _ _ _ eq_refl) as R3. clear R. cbv zeta in R0, R1, R2, R3.
    change (Z.of_nat 0) with 0 in R0; rewrite Z.add_0_r in R0; change (Z.of_nat 1) with 1 in R1; change (Z.of_nat 2) with 2 in R2; change (Z.of_nat 3) with 3 in R3.
    replace (ol + 2) with (ol + 1 + 1) in * by lia; replace (ol + 3) with (ol + 1 + 1 + 1) in * by lia.
    assert (N0 : nodeh e true K (lv_hash H vo) DLeaf (f_old f')) by (rewrite P7, Fo; exact (lh_top _ _ _ _ Ho)).
    assert (N1 : nodeh e true K (lv_hash H vn) DLeaf (f_new f')) by (rewrite P8, Fn; exact (lh_top _ _ _ _ Hn)).
    assert (Zr : T = StorageDoesNotExist -> @ov_ p r = f0 /\ @nv_ p r = f0).
    { intros TT. assert (Q : q' = PathStart) by (apply start_path; destruct kind_type as [[X _]|[_ X]]; congruence). split; [apply ov_zero|apply nv_zero]; rewrite Q; cbn; auto. }
    assert (Tr : forall f seg s, f_pt f = T -> f_sg f = seg -> In s (match seg with AccountLeaf0 => [AccountLeaf1] | AccountLeaf1 => [AccountLeaf2] | AccountLeaf2 => [AccountLeaf3] | _ => [] end) -> trans f s).
    { intros f seg s X Y Z. unfold trans. rewrite X, Y. destruct kind_type as [[-> _]|[-> _]]; destruct seg; try contradiction; eexists; (split; [reflexivity|exact Z]). }
    eapply leafs_cons; [exact R0| |reflexivity|reflexivity| | | |eapply leafs_cons; [exact R1| |reflexivity|reflexivity| | | |eapply leafs_cons; [exact R2| |reflexivity|reflexivity| | | |eapply leafs_cons; [exact R3| |reflexivity|reflexivity| | | |exact Logic.I]]]].
    - apply like0; try assumption; try discriminate; try reflexivity. cbn; tauto.
    - apply (step_common _ _ _ _ true DLeaf); try reflexivity; auto.
    - apply (Tr _ AccountLeaf0); try reflexivity. left; reflexivity.
    - change (f_pt LF0) with T. destruct kind_type as [[TT Sg0]|[TT Sg0]]; rewrite TT; cbn [inside]; [reflexivity|]. destruct (Zr TT) as [Z1 Z2]. destruct (same_values TT) as (V1 & V2 & V3 & V4).
      split; [exact Z1|]. split; [exact Z2|]. split; [reflexivity|]. split; [exact V4|]. split; [intros X; discriminate X|reflexivity].
    - apply like1; try discriminate; try reflexivity. cbn; tauto.
    - apply (step_common _ _ _ _ false AccountFields); try reflexivity; auto; [exact (lh_hash _ _ _ _ Ho)|]. change (hit e (lv_ns H vn) (lv_pch vo) AccountFields (lv_hash H vn)). rewrite Cp. exact (lh_hash _ _ _ _ Hn).
    - apply (Tr _ AccountLeaf1); try reflexivity. left; reflexivity.
    - change (f_pt LF1) with T. destruct kind_type as [[TT Sg0]|[TT Sg0]]; rewrite TT; cbn [inside]; [reflexivity|]. destruct (Zr TT) as [Z1 Z2]. destruct (same_values TT) as (V1 & V2 & V3 & V4).
      split; [exact Z1|]. split; [exact Z2|]. split; [reflexivity|]. split; [exact V3|]. split; [intros X; discriminate X|reflexivity].
    - apply like1; try discriminate; try reflexivity. cbn; tauto.
    - apply (step_common _ _ _ _ true AccountFields); try reflexivity; auto; [exact (lh_ns _ _ _ _ Ho)|]. change (hit e (lv_n H vo) (lv_s H vn) AccountFields (lv_ns H vn)). rewrite Cn. exact (lh_ns _ _ _ _ Hn).
    - apply (Tr _ AccountLeaf2); try reflexivity. left; reflexivity.
    - change (f_pt LF2) with T. destruct kind_type as [[TT Sg0]|[TT Sg0]]; rewrite TT; cbn [inside]; [reflexivity|]. destruct (Zr TT) as [Z1 Z2]. destruct (same_values TT) as (V1 & V2 & V3 & V4).
      split; [exact Z1|]. split; [exact Z2|]. split; [reflexivity|]. split; [exact V2|]. split; [intros X; discriminate X|reflexivity].
    - unfold leaf_like. split; [reflexivity|]. split; [discriminate|]. split; [discriminate|]. split; [repeat split|]. split; [intros X; exfalso; apply X; reflexivity|]. split; [reflexivity|]. exists AccountFields. split; [reflexivity|cbn; tauto].
    - exact step3.
    - destruct (trans_s AccountLeaf3 true (match srows with [] => false | _ => true end) (or_intror eq_refl)) as (l & L1 & L2). exists l. split; [exact L1|]. destruct srows; exact L2.
    - change (f_pt L3) with T. destruct kind_type as [[TT Sg0]|[TT Sg0]]; rewrite TT; cbn [inside].
      + split; [reflexivity|exact key_word].
      + destruct (Zr TT) as [Z1 Z2]. destruct (same_values TT) as (V1 & V2 & V3 & V4). split; [exact Z1|]. split; [exact Z2|]. split; [reflexivity|]. split; [exact V1|]. split; [|split; [reflexivity|exact key_word]].
        intros X. change (f_ov L3) with (@ov_ p r). rewrite Z1. pose proof absence_end as AE. clear - X AE Ro Sg0. destruct srows as [|x l]; [|discriminate X]. destruct Ro as [Ro1 _]. apply AE; try assumption; reflexivity.
  Qed.
  Lemma present_value l wd h : present H e r key l kk wd h -> exists vh, sl_value_hash H l = Some vh /\ vh <> ZERO_PAIR_HASH H /\ hit e key vh DLeaf h /\ sl_key H l = key /\
    word_at e vh (w1 (leaf_word l r)) (w2 (leaf_word l r)) (rlc (u256_to_big_endian wd) r) (w3 (leaf_word l r)) (w4 (leaf_word l r)).
  Proof.
    intros (-> & hi & lo & vh & (rh & rl & E & W) & Ev & Nz & Hh). exists vh. cbn [leaf_word]. rewrite E. cbn [w1 w2 w3 w4]. split.
    - cbn [sl_value_hash]. unfold halves in E. destruct (u256_hi_lo wd) as [a b]. assert (E1 := f_equal (fun x => fst (fst (fst x))) E). assert (E2 := f_equal (fun x => snd (fst (fst x))) E). cbn [fst snd] in E1, E2. rewrite E1, E2, Ev. reflexivity.
    - split; [exact Nz|]. split; [exact Hh|]. split; [symmetry; exact Kk|exact W].
  Qed.
  (* a vacant place: the cells of the leaf row that show it *)
  Lemma vacant_cells own l h : vacant H e key l h -> sl_key H own = key -> sl_hash H l = Some h /\ absent e key (sl_key H l) h (match snd (nonex_l H key own l h) with Some x => x | None => f0 end) /\
    fst (fst (nonex_l H key own l h)) = (key - sl_key H l)%fr /\ snd (fst (nonex_l H key own l h)) = h.
  Proof.
    intros [[-> ->]|(k & v & -> & Nk & E & Nz & Hh)] Ow.
    - cbn [sl_hash sl_key]. split; [reflexivity|]. unfold nonex_l. cbn [sl_key]. rewrite feqb_refl. cbn [negb fst snd]. rewrite Ow, feqb_refl. cbn [negb]. split; [left; auto|auto].
    - cbn [sl_hash sl_key sl_value_hash obind]. split; [unfold domain_hash; rewrite E; reflexivity|]. unfold nonex_l. cbn [sl_key sl_value_hash].
      assert (F : feqb key k = false) by (apply feqb_neq; congruence). rewrite F. cbn [negb]. rewrite F. cbn [negb fst snd]. split; [right; auto|auto].
  Qed.
  Lemma sleaf_ok_ : s' = StorageLeaf0 -> (exists m, view e (ol + 4 + Z.of_nat (length srows)) m) /\ row_ok H e (ol + 4 + Z.of_nat (length srows)).
  Proof.
    intros S0. destruct get_reads as (_ & _ & RR). destruct (RR S0) as (Pa & oh & nh & Hs & V & R). clear RR. split; [exact V|].
    destruct (above_s_reads (length srows) ltac:(lia)) as (R' & O' & N' & _ & P' & K' & OV' & NV' & KE' & OT').
    destruct (chain_last _ _ _ _ _ _ Ro) as [C1 C2]. rewrite C1 in O'. rewrite C2 in N'.
    pose proof rows_count as RC. rewrite S0 in RC. cbn [seg_eqb] in RC. destruct ES as [E1 E2]. rewrite RC in E1, E2.
    assert (TT : T = StorageChanged) by (destruct kind_type as [[X _]|[_ X]]; [exact X|congruence]).
    assert (Ov : @ov_ p r = old_value_assignment (pf_claim p) r) by reflexivity. assert (Nv : @nv_ p r = new_value_assignment (pf_claim p) r) by reflexivity. unfold old_value_assignment in Ov. unfold new_value_assignment in Nv.
    pose proof ov_zero as OZ. pose proof nv_zero as NZ.
    set (F := @sleaf_f H p r key old new q' oh nh) in *.
    assert (Conv : same_claim (above_s (length srows)) F /\ same_key (above_s (length srows)) F).
    { unfold same_claim, same_key. rewrite P', K', OV', NV', KE', OT'. repeat split. } destruct Conv as [CC CK].
    assert (TR : trans F SegStart) by (unfold trans; change (f_pt F) with T; rewrite TT; eexists; split; [reflexivity|left; reflexivity]).
    assert (PT : f_pt F = StorageChanged) by exact TT.
    assert (Fin : path_step e (above_s (length srows)) F SegStart PathStart /\ inside H e F SegStart (f_pt F) /\ q' <> PathStart).
    { change (f_pt F) with T. rewrite TT. cbn [inside]. change (f_sg F) with StorageLeaf0. cbv iota.
      destruct SC as [wo wn Po Pn|wn Vo Zo Pn|wo Po Vn Zn|Vo Nw Ne].
      - destruct (present_value _ _ _ Po) as (vo' & A1 & A2 & A3 & A4 & A5). destruct (present_value _ _ _ Pn) as (vn' & B1 & B2 & B3 & B4 & B5).
        cbn [storage_leaf_hashes] in Hs. rewrite A1, B1 in Hs. cbn [obind] in Hs. apply some_eq in Hs. assert (oh = vo') by congruence. assert (nh = vn') by congruence. subst oh nh.
        split; [|split; [|discriminate]].
        + apply (ps_common _ _ _ _ _ true DLeaf); auto.
          * rewrite O'. change (hit e (sl_key H old) vo' DLeaf so). rewrite A4. exact A3.
          * rewrite N'. change (hit e (sl_key H old) vn' DLeaf sn). rewrite A4. exact B3.
        + split; [reflexivity|]. split.
          * intros _. change (f_ov F) with (@ov_ p r). change (f_nv F) with (@nv_ p r). rewrite Ov, Nv. split; [exact A5|exact B5].
          * split; [reflexivity|]. split; [exact A2|]. split; [reflexivity|exact B2].
      - destruct (present_value _ _ _ Pn) as (vn' & B1 & B2 & B3 & B4 & B5). destruct (vacant_cells new _ _ Vo B4) as (A1 & A2 & A3 & A4).
        cbn [storage_leaf_hashes] in Hs. rewrite A1, B1 in Hs. cbn [obind] in Hs. apply some_eq in Hs. assert (oh = so) by congruence. assert (nh = vn') by congruence. subst oh nh.
        assert (OK : ok_ = sl_key H old).
        { unfold so_. destruct (feqb key (sl_key H old)) eqn:Fk; [|reflexivity]. apply feqb_eq in Fk. rewrite B4. exact Fk. }
        split; [|split; [|discriminate]].
        + apply (ps_ext_new _ _ _ _ _ true DLeaf); auto.
          * rewrite PT. cbn; auto.
          * apply OZ. cbn; auto.
          * rewrite N'. change (hit e (sl_key H new) vn' DLeaf sn). rewrite B4. exact B3.
          * discriminate.
          * intros _. split; [apply OZ; cbn; auto|]. change (f_key F) with key. change (f_other F) with ok_. rewrite OK. change (f_old F) with so.
            change (f_i9 F) with (l9 (Some (nonex_l H key new old so))). change (f_z2 F) with (lz2 (Some (nonex_l H key new old so))). change (f_z3 F) with (lz3 (Some (nonex_l H key new old so))).
            destruct (nonex_l H key new old so) as [[x y] z]. cbn [fst snd l9 lz2 lz3] in *. split; [destruct z; exact A2|]. auto.
        + split; [reflexivity|]. split; [intros X; discriminate X|]. split; [reflexivity|]. split; [exact Zo|]. split; [reflexivity|exact B2].
      - destruct (present_value _ _ _ Po) as (vo' & B1 & B2 & B3 & B4 & B5). destruct (vacant_cells old _ _ Vn B4) as (A1 & A2 & A3 & A4).
        cbn [storage_leaf_hashes] in Hs. rewrite A1, B1 in Hs. cbn [obind] in Hs. apply some_eq in Hs. assert (nh = sn) by congruence. assert (oh = vo') by congruence. subst oh nh.
        assert (OK : ok_ = sl_key H new) by (unfold so_; rewrite B4, feqb_refl; reflexivity).
        split; [|split; [|discriminate]].
        + apply (ps_ext_old _ _ _ _ _ true DLeaf); auto.
          * apply NZ. cbn; auto.
          * rewrite O'. change (hit e (sl_key H old) vo' DLeaf so). rewrite B4. exact B3.
          * discriminate.
          * intros _. split; [apply NZ; cbn; auto|]. change (f_key F) with key. change (f_other F) with ok_. rewrite OK. change (f_new F) with sn.
            change (f_i9 F) with (l9 (Some (nonex_l H key old new sn))). change (f_z2 F) with (lz2 (Some (nonex_l H key old new sn))). change (f_z3 F) with (lz3 (Some (nonex_l H key old new sn))).
            destruct (nonex_l H key old new sn) as [[x y] z]. cbn [fst snd l9 lz2 lz3] in *. split; [destruct z; exact A2|]. auto.
        + split; [reflexivity|]. split; [intros X; discriminate X|]. split; [reflexivity|]. split; [exact B2|]. split; [reflexivity|exact Zn].
      - discriminate S0. }
    destruct Fin as (PS & INS & NP).
    eapply (leaf_row H e _ (above_s (length srows)) F SegStart PathStart R' R E1 E2); try assumption; try reflexivity; try discriminate.
    - intros _. exact CK.
    - exists DLeaf. split; [reflexivity|cbn; tauto].
    - change (f_pa F) with q'. destruct q'; cbn; tauto.
  Qed.
  Theorem slot_ok : rows_ok H e ol (o + Z.of_nat (proof_n_rows p)) /\ sg e ol = AccountLeaf0 /\ pa e ol = Common.
  Proof.
    split; [|destruct get_reads as (R & _ & _); destruct (R 0%nat _ _ _ _ _ eq_refl) as [_ R0]; cbv zeta in R0; change (Z.of_nat 0) with 0 in R0; rewrite Z.add_0_r in R0; rewrite (rd_sg _ _ _ R0), (rd_pa _ _ _ R0); split; reflexivity].
    pose proof rows_count as RC. intros i Hi.
    destruct (Z_lt_dec i (ol + 4)) as [L1|L1].
    - destruct (snext_types 0 ltac:(lia)) as [S1 Q1]. change (Z.of_nat 0) with 0 in *. rewrite Z.add_0_r in *.
      pose proof (leafs_ok H e [LF0; LF1; LF2; L3] ol f' s3 q3 P9) as X. change (Z.of_nat (length [LF0; LF1; LF2; L3])) with 4 in X. apply X; [| |exact account_leafs|lia].
      + rewrite S1. clear. destruct srows; reflexivity.
      + rewrite Q1. clear. destruct srows; reflexivity.
    - destruct (Z_lt_dec i (ol + 4 + Z.of_nat (length srows))) as [L2|L2].
      + set (j := Z.to_nat (i - ol - 4)). assert (Hj : (j < length srows)%nat) by lia. destruct (nth_error srows j) as [row|] eqn:E; [|apply nth_error_None in E; lia].
        replace i with (ol + 4 + Z.of_nat j) by lia. apply (strie_ok_ j row E).
      + destruct kind_type as [[_ S0]|[_ S0]]; rewrite S0 in RC; cbn [seg_eqb] in RC; [|lia]. replace i with (ol + 4 + Z.of_nat (length srows)) by lia. apply sleaf_ok_, S0.
  Qed.
End Slot.
