(* The account leaf rows of an update are accepted. *)
From Coq Require Import ZArith List Bool Lia.
From Verif Require Import Pocklington Fr Query Builder BuilderProofs Gadgets MptUpdate Bytes GadgetProofs UpdateRows TrieSpec UpdateComplete Util UtilProofs Serde Trie Storage Types Lookups LookupMain
  Assign AssignProofs UpdateAssign MptAssign GadgetMain GadgetMain2 TrieProofs RowView BlockView BlocksOk RowsOk RowCells BlockRows Chain UpperOk.
Import ListNotations.
Open Scope Z_scope.

(** * A run of leaf rows *)
Definition leaf_like (f' f : rowf) : Prop :=
  is_trie_seg (f_sg f) = false /\ f_sg f <> SegStart /\ f_pa f <> PathStart /\ same_claim f' f /\ (f_sg f <> AccountLeaf3 -> same_key f' f) /\ f_depth f = f0 /\
  (exists d, f_dom f = fdom d /\ In d (seg_domains (f_sg f))).
Fixpoint leafs (H : Fr -> Fr -> Fr -> Fr) (e : env) (i : Z) (f' : rowf) (l : list rowf) (s' : SegmentType) (q' : PathType) : Prop :=
  match l with
  | [] => True
  | f :: rest =>
      let s := match rest with [] => s' | x :: _ => f_sg x end in let q := match rest with [] => q' | x :: _ => f_pa x end in
      ((exists m, view e i m) /\ reads e i f) /\ leaf_like f' f /\ path_step e f' f s q /\ In q (path_transitions (f_pa f)) /\ trans f s /\ inside H e f s (f_pt f) /\
      leafs H e (i + 1) f rest s' q'
  end.
Lemma leafs_cons H e i f' f rest s' q' s q : ((exists m, view e i m) /\ reads e i f) -> leaf_like f' f -> s = (match rest with [] => s' | x :: _ => f_sg x end) -> q = (match rest with [] => q' | x :: _ => f_pa x end) ->
  path_step e f' f s q /\ In q (path_transitions (f_pa f)) -> trans f s -> inside H e f s (f_pt f) -> leafs H e (i + 1) f rest s' q' -> leafs H e i f' (f :: rest) s' q'.
Proof. intros A1 A2 -> -> [A3 A4] A5 A6 A7. cbn [leafs]. cbv zeta. auto 10. Qed.
Lemma leafs_ok H e l : forall i f' s' q', reads e (i - 1) f' -> sg e (i + Z.of_nat (length l)) = s' -> pa e (i + Z.of_nat (length l)) = q' -> leafs H e i f' l s' q' -> rows_ok H e i (i + Z.of_nat (length l)).
Proof.
  induction l as [|f l IH]; intros i f' s' q' R' Es Eq L j Hj; [cbn [length] in Hj; lia|]. cbn [leafs] in L. cbv zeta in L. destruct L as ((V & R) & (A1 & A2 & A3 & A4 & A5 & A6 & A7) & P & PT & T & I & L).
  replace (i + Z.of_nat (length (f :: l))) with (i + 1 + Z.of_nat (length l)) in * by (cbn [length]; lia).
  destruct (Z.eq_dec j i) as [->|Nj].
  - split; [exact V|]. eapply (leaf_row H e i f' f _ _ R' R); try eassumption.
    + destruct l as [|x l]; [cbn [length] in Es; rewrite Z.add_0_r in Es; exact Es|]. cbn [leafs] in L. cbv zeta in L. destruct L as ((_ & R2) & _). exact (rd_sg _ _ _ R2).
    + destruct l as [|x l]; [cbn [length] in Eq; rewrite Z.add_0_r in Eq; exact Eq|]. cbn [leafs] in L. cbv zeta in L. destruct L as ((_ & R2) & _). exact (rd_pa _ _ _ R2).
  - apply (IH (i + 1) f s' q'); try assumption; [replace (i + 1 - 1) with i by lia; exact R|lia].
Qed.

(** * The contents of an account leaf *)
Record leafv := LeafV { lv_nc : Fr; lv_bal : Fr; lv_root : Fr; lv_hi : Fr; lv_lo : Fr; lv_pch : Fr }.
Section Values.
  Variable H : Fr -> Fr -> Fr -> Fr.
  Definition lv_k (v : leafv) : Fr := H (lv_hi v) (lv_lo v) (fdom DPair).
  Definition lv_s (v : leafv) : Fr := H (lv_root v) (lv_k v) (fdom AccountFields).
  Definition lv_n (v : leafv) : Fr := H (lv_nc v) (lv_bal v) (fdom AccountFields).
  Definition lv_ns (v : leafv) : Fr := H (lv_n v) (lv_s v) (fdom AccountFields).
  Definition lv_hash (v : leafv) : Fr := H (lv_ns v) (lv_pch v) (fdom AccountFields).
  Definition lv_top (key : Fr) (v : leafv) : Fr := H key (lv_hash v) (fdom DLeaf).
  Definition lv_traces (key : Fr) (v : leafv) : AccountTraces :=
    [[lv_hi v; lv_lo v; lv_k v]; [lv_root v; lv_k v; lv_s v]; [lv_nc v; lv_bal v; lv_n v]; [lv_n v; lv_s v; lv_ns v]; [lv_ns v; lv_pch v; lv_hash v]; [key; lv_hash v; lv_top key v]].
  Record lv_hit (e : env) (key : Fr) (v : leafv) : Prop := {
    lh_k : hit e (lv_hi v) (lv_lo v) DPair (lv_k v); lh_s : hit e (lv_root v) (lv_k v) AccountFields (lv_s v); lh_n : hit e (lv_nc v) (lv_bal v) AccountFields (lv_n v);
    lh_ns : hit e (lv_n v) (lv_s v) AccountFields (lv_ns v); lh_hash : hit e (lv_ns v) (lv_pch v) AccountFields (lv_hash v); lh_top : hit e key (lv_hash v) DLeaf (lv_top key v) }.
  Definition lv_of (d : AccountData) (root : Fr) : leafv :=
    LeafV (fz (ad_nonce d) + fz (ad_code_size d) * c64)%fr (big_uint_to_fr (ad_balance d)) root (fst (hi_lo (ad_code_hash d))) (snd (hi_lo (ad_code_hash d))) (big_uint_to_fr (ad_poseidon_code_hash d)).
  Lemma traces_lv address d root : account_hash_traces H address d root = lv_traces (account_key H address) (lv_of d root).
  Proof. unfold account_hash_traces, lv_traces, lv_k, lv_s, lv_n, lv_ns, lv_hash, lv_top, lv_hash, lv_ns, lv_n, lv_s, lv_k, lv_of. destruct (hi_lo (ad_code_hash d)) as [a b]. reflexivity. Qed.
End Values.

(* what changes between the two leaves, per kind of claim, and the lookups this needs *)
Definition word_here (e : env) (r : Fr) (w : Z) (hash hi lo : Fr) : Prop :=
  exists rh rl, halves w r = (hi, lo, rh, rl) /\ word_at e hash hi lo (rlc (u256_to_big_endian w) r) rh rl.
Definition changed (H : Fr -> Fr -> Fr -> Fr) (e : env) (r : Fr) (k : ClaimKind) (vo vn : leafv) : Prop :=
  match k with
  | KNonce (Some a) (Some b) => lv_bal vo = lv_bal vn /\ lv_s H vo = lv_s H vn /\ lv_pch vo = lv_pch vn /\
      exists cs, lv_nc vo = (fz a + cs * c64)%fr /\ lv_nc vn = (fz b + cs * c64)%fr /\ accepts e bytes_lookup [fz a; fz 7] /\ accepts e bytes_lookup [fz b; fz 7] /\ accepts e bytes_lookup [cs; fz 7]
  | KCodeSize (Some a) (Some b) => lv_bal vo = lv_bal vn /\ lv_s H vo = lv_s H vn /\ lv_pch vo = lv_pch vn /\
      exists n, lv_nc vo = (n + fz a * c64)%fr /\ lv_nc vn = (n + fz b * c64)%fr /\ accepts e bytes_lookup [fz a; fz 7] /\ accepts e bytes_lookup [fz b; fz 7] /\ accepts e bytes_lookup [n; fz 7]
  | KBalance (Some a) (Some b) => lv_nc vo = lv_nc vn /\ lv_s H vo = lv_s H vn /\ lv_pch vo = lv_pch vn /\
      accepts e rlc_lookup [lv_bal vo; fz 30; rlc (u256_to_big_endian a) r] /\ accepts e rlc_lookup [lv_bal vn; fz 30; rlc (u256_to_big_endian b) r]
  | KPoseidonCodeHash (Some a) (Some b) => lv_ns H vo = lv_ns H vn /\ a = lv_pch vo /\ b = lv_pch vn
  | KCodeHash (Some a) (Some b) => lv_n H vo = lv_n H vn /\ lv_root vo = lv_root vn /\ lv_pch vo = lv_pch vn /\
      word_here e r a (lv_k H vo) (lv_hi vo) (lv_lo vo) /\ word_here e r b (lv_k H vn) (lv_hi vn) (lv_lo vn)
  | _ => False
  end.

Lemma rlc_zero_word r : rlc (u256_to_big_endian 0) r = f0.
Proof.
  unfold u256_to_big_endian, u256_to_be, rlc. assert (G : forall k acc, acc = f0 -> fold_left (fun a b => (r * a + fz b)%fr) (be_bytes k 0) acc = f0).
  { induction k as [|k IH]; intros acc Ea; [exact Ea|]. cbn [be_bytes]. rewrite fold_left_app. change (0 / 256) with 0. rewrite IH by exact Ea. cbn [fold_left]. change (fz (0 mod 256)) with f0. ring. }
  apply G. reflexivity.
Qed.
Section Leaf.
  Context {H : Fr -> Fr -> Fr -> Fr} {e : env} {p : Proof} {r : Fr} {o : Z} {w : list write} {other data : Fr} {final : PathType}.
  Hypothesis B : block_at H p r o w other data final.
  Hypothesis HR : holds_rows e w o (o + Z.of_nat (proof_n_rows p)).
  Hypothesis L : even_proof p.
  Hypothesis NA : no_account p = false.
  Hypothesis Ch : echal e = r.
  Notation T := (proof_type_of (c_kind (pf_claim p))).
  Notation rows := (pf_account_trie_rows p).
  Notation fo := (fst (final_hashes H p)).
  Notation fn := (snd (final_hashes H p)).
  Notation ol := (o + 1 + Z.of_nat (length rows)).
  (* the row above the leaf *)
  Variable f' : rowf.
  Hypothesis P1 : f_pt f' = T.
  Hypothesis P2 : f_skr f' = skr_ (p := p) (r := r).
  Hypothesis P3 : f_ov f' = @ov_ p r.
  Hypothesis P4 : f_nv f' = @nv_ p r.
  Hypothesis P5 : f_key f' = akey H p.
  Hypothesis P6 : f_other f' = other.
  Hypothesis P7 : f_old f' = fo.
  Hypothesis P8 : f_new f' = fn.
  Notation LF := (@leaf_f p r).
  Lemma like0 q seg sib ho hn d dm z2 z3 i9 x y : seg <> AccountLeaf3 -> seg <> SegStart -> is_trie_seg seg = false -> q <> PathStart -> In dm (seg_domains seg) ->
    leaf_like f' (LF q seg sib ho hn d dm (akey H p) other z2 z3 i9 x y).
  Proof.
    intros. unfold leaf_like, same_claim, same_key. cbn [leaf_f f_sg f_pa f_pt f_skr f_ov f_nv f_key f_other f_depth f_dom]. rewrite P1, P2, P3, P4, P5, P6.
    do 3 (split; [auto|]). split; [repeat split|]. split; [intros; repeat split|]. split; [reflexivity|]. exists dm. auto.
  Qed.
  Lemma like1 q q' seg seg' sib ho hn d dm z2 z3 i9 x y sib' ho' hn' d' dm' z2' z3' i9' x' y' : seg <> SegStart -> is_trie_seg seg = false -> q <> PathStart -> In dm (seg_domains seg) ->
    leaf_like (LF q' seg' sib' ho' hn' d' dm' (akey H p) other z2' z3' i9' x' y') (LF q seg sib ho hn d dm (akey H p) other z2 z3 i9 x y).
  Proof.
    intros. unfold leaf_like, same_claim, same_key. cbn [leaf_f f_sg f_pa f_pt f_skr f_ov f_nv f_key f_other f_depth f_dom].
    do 3 (split; [auto|]). split; [repeat split|]. split; [intros; repeat split|]. split; [reflexivity|]. exists dm. auto.
  Qed.
  Lemma step_common f1 f s q b d : f_pa f = Common -> q = Common \/ q = PathStart -> f_dir f = fb b -> f_dom f = fdom d ->
    nodeh e b (f_sib f) (f_old f) d (f_old f1) -> nodeh e b (f_sib f) (f_new f) d (f_new f1) -> path_step e f1 f s q /\ In q (path_transitions (f_pa f)).
  Proof. intros A1 A2 A3 A4 A5 A6. split; [eapply ps_common; eassumption|]. rewrite A1. destruct A2 as [-> | ->]; cbn; tauto. Qed.
  Context {vo vn : leafv} {x : Fr}.
  Notation K := (akey H p).
  Lemma common_leafs : pf_storage p = SRoot x -> pf_old_account_hash_traces p = lv_traces H K vo -> pf_new_account_hash_traces p = lv_traces H K vn ->
    lv_hit H e K vo -> lv_hit H e K vn -> leaf_path_type final fo fn = Some Common -> fo = lv_top H K vo -> fn = lv_top H K vn ->
    changed H e r (c_kind (pf_claim p)) vo vn ->
    exists l, leafs H e ol f' l SegStart PathStart /\ ol + Z.of_nat (length l) = o + Z.of_nat (proof_n_rows p) /\ match l with f :: _ => f_sg f = AccountLeaf0 /\ f_pa f = Common | [] => False end.
  Proof.
    intros St To Tn Ho Hn LP Fo Fn Cg.
    assert (Kd : match c_kind (pf_claim p) with KStorage _ _ _ | KIsEmpty _ => False | _ => True end) by (destruct (c_kind (pf_claim p)) as [? ?|? ?|? ?|? ?|? ?|? ? ?|?]; cbn in Cg; auto).
    destruct (root_leaf_reads B HR L NA x St Kd) as (q & dirs & siblings & A1 & A2 & A3 & A4). rewrite LP in A1. apply some_eq in A1. subst q.
    pose proof (nn_rows p dirs NA A2) as NR. unfold even_proof in L. rewrite <- L in NR. rewrite St in NR. cbn [sp_n_rows] in NR.
    assert (Z0 : ol + Z.of_nat (length dirs) = o + Z.of_nat (proof_n_rows p)) by lia. rewrite <- Z0. clear Z0 NR.
    unfold old_account_leaf_hashes, new_account_leaf_hashes, account_leaf_siblings, choose_traces in *. unfold code_words in A4. rewrite To, Tn in *.
    assert (O3 : @ov_ p r = old_value_assignment (pf_claim p) r) by reflexivity. assert (N3 : @nv_ p r = new_value_assignment (pf_claim p) r) by reflexivity. unfold old_value_assignment in O3. unfold new_value_assignment in N3.
    assert (PT : forall q seg sib ho hn d dm key ok z2 z3 i9 a b, f_pt (LF q seg sib ho hn d dm key ok z2 z3 i9 a b) = T) by reflexivity.
    pose proof like0 as Lk0.
    destruct (c_kind (pf_claim p)) as [[a|] [b|]|[a|] [b|]|[a|] [b|]|[a|] [b|]|[a|] [b|]|? ? ?|?] eqn:CK; try contradiction; cbn [proof_type_of leaf_directions obind option_map or_else] in A2, A3, A4 |- *;
      apply some_eq in A2; apply some_eq in A3; subst dirs siblings; cbn [changed] in Cg; cbv zeta in A4;
      pose proof (A4 0%nat _ _ _ _ _ eq_refl) as R0; pose proof (A4 1%nat _ _ _ _ _ eq_refl) as R1;
      try (pose proof (A4 2%nat _ _ _ _ _ eq_refl) as R2; pose proof (A4 3%nat _ _ _ _ _ eq_refl) as R3); clear A4;
      cbn [lv_traces at2 nth] in R0, R1; try cbn [lv_traces at2 nth] in R2, R3.
    all: change (Z.of_nat 0) with 0 in R0; rewrite Z.add_0_r in R0; change (Z.of_nat 1) with 1 in R1; try (change (Z.of_nat 2) with 2 in R2; change (Z.of_nat 3) with 3 in R3).
    all: fold K in R0; try rewrite (Z.add_assoc ol) in R2.
    all: replace (ol + 2) with (ol + 1 + 1) in * by lia; replace (ol + 3) with (ol + 1 + 1 + 1) in * by lia.
    all: assert (N0 : nodeh e true K (lv_hash H vo) DLeaf (f_old f')) by (rewrite P7, Fo; exact (lh_top _ _ _ _ Ho));
      assert (N1 : nodeh e true K (lv_hash H vn) DLeaf (f_new f')) by (rewrite P8, Fn; exact (lh_top _ _ _ _ Hn)).
    all: assert (Tr : forall q seg sib ho hn d dm key ok z2 z3 i9 u v s, trans (LF q seg sib ho hn d dm key ok z2 z3 i9 u v) s = exists l, seg_transitions T seg = Some l /\ In s l) by (intros; reflexivity).
    all: rewrite CK in Tr; cbn [proof_type_of] in Tr, PT.
    Ltac like Lk0 := first [apply Lk0; [discriminate|discriminate|reflexivity|discriminate|cbn; tauto] | apply like1; [discriminate|reflexivity|discriminate|cbn; tauto]].
    Ltac trn Tr := rewrite Tr; eexists; split; [reflexivity|first [left; reflexivity|right; left; reflexivity|right; right; left; reflexivity]].
    Ltac stp b d := apply (step_common _ _ _ _ b d); [reflexivity|auto|reflexivity|reflexivity|..].
    Ltac four Lk0 R0 R1 R2 R3 Tr b1 b2 b3 := match type of R0 with _ /\ reads _ _ ?a => match type of R1 with _ /\ reads _ _ ?b => match type of R2 with _ /\ reads _ _ ?c => match type of R3 with _ /\ reads _ _ ?d => exists [a; b; c; d] end end end end; split;
      [eapply leafs_cons; [exact R0|like Lk0|reflexivity|reflexivity|stp true DLeaf|trn Tr|..|
       eapply leafs_cons; [exact R1|like Lk0|reflexivity|reflexivity|stp b1 AccountFields|trn Tr|..|
       eapply leafs_cons; [exact R2|like Lk0|reflexivity|reflexivity|stp b2 AccountFields|trn Tr|..|
       eapply leafs_cons; [exact R3|like Lk0|reflexivity|reflexivity|stp b3 AccountFields|trn Tr|..|exact Logic.I]]]]|split; [reflexivity|split; reflexivity]].
    Ltac hitp N0 N1 Ho Hn := first [exact N0|exact N1|exact (lh_hash _ _ _ _ Ho)|exact (lh_hash _ _ _ _ Hn)|exact (lh_ns _ _ _ _ Ho)|exact (lh_ns _ _ _ _ Hn)|exact (lh_n _ _ _ _ Ho)|exact (lh_n _ _ _ _ Hn)|exact (lh_s _ _ _ _ Ho)|exact (lh_s _ _ _ _ Hn)|exact (lh_k _ _ _ _ Ho)|exact (lh_k _ _ _ _ Hn)].
    Ltac ins PT := rewrite PT; unfold leaf_f; cbn [inside f_sg f_dir f_pa f_ov f_nv f_old f_new f_sib f_dom f_i0 f_i1 f_i2 f_i3 f_s0 f_s1 f_s2 f_s3 fb].
    - destruct Cg as (Cb & Cs & Cp & cs & C1 & C2 & C3 & C4 & C5). four Lk0 R0 R1 R2 R3 Tr false false false.
      all: try hitp N0 N1 Ho Hn; try (rewrite Cp; hitp N0 N1 Ho Hn); try (rewrite Cs; hitp N0 N1 Ho Hn); try (rewrite Cb; hitp N0 N1 Ho Hn).
      all: ins PT; try (split; [discriminate|]); try reflexivity; try (split; [reflexivity|intros X; discriminate X]).
      rewrite O3, N3. cbn [unwrap_or_default]. split; [reflexivity|]. split; [exact C4|]. exists cs. split; [exact C2|]. split; [auto|intros X; discriminate X].
    - destruct Cg as (Cb & Cs & Cp & C1 & C2). four Lk0 R0 R1 R2 R3 Tr false false true.
      all: try hitp N0 N1 Ho Hn; try (rewrite Cp; hitp N0 N1 Ho Hn); try (rewrite Cs; hitp N0 N1 Ho Hn); try (rewrite Cb; hitp N0 N1 Ho Hn).
      all: ins PT; try (split; [reflexivity|reflexivity]); try (split; [reflexivity|]); try (split; [reflexivity|]); try (intros X; discriminate X).
      rewrite O3, N3. cbn [unwrap_or_default]. split; [auto|]. split; [exact C2|intros X; discriminate X].
    - destruct Cg as (Cb & Cs & Cp & (rh & rl & E1 & W1) & (rh' & rl' & E2 & W2)). cbn [option_map fst snd] in R3. rewrite E1, E2 in R3. four Lk0 R0 R1 R2 R3 Tr false true true.
      all: try hitp N0 N1 Ho Hn; try (rewrite Cp; hitp N0 N1 Ho Hn); try (rewrite Cs; hitp N0 N1 Ho Hn); try (rewrite Cb; hitp N0 N1 Ho Hn).
      all: ins PT; try reflexivity. rewrite O3, N3. cbn [unwrap_or_default w1 w2 w3 w4]. auto.
    - destruct Cg as (Cb & Cs & Cp & n & C1 & C2 & C3 & C4 & C5). four Lk0 R0 R1 R2 R3 Tr false false false.
      all: try hitp N0 N1 Ho Hn; try (rewrite Cp; hitp N0 N1 Ho Hn); try (rewrite Cs; hitp N0 N1 Ho Hn); try (rewrite Cb; hitp N0 N1 Ho Hn).
      all: ins PT; try reflexivity.
      rewrite O3, N3. cbn [unwrap_or_default]. split; [reflexivity|]. split; [exact C3|]. split; [exact C4|]. exists n. auto.
    - destruct Cg as (Cn & Ca & Cb). match type of R0 with _ /\ reads _ _ ?a => match type of R1 with _ /\ reads _ _ ?b => exists [a; b] end end. split; [|split; [reflexivity|split; reflexivity]].
      eapply leafs_cons; [exact R0|like Lk0|reflexivity|reflexivity|stp true DLeaf|trn Tr|..|eapply leafs_cons; [exact R1|like Lk0|reflexivity|reflexivity|stp true AccountFields|trn Tr|..|exact Logic.I]].
      all: try hitp N0 N1 Ho Hn; try (rewrite Cn; hitp N0 N1 Ho Hn).
      all: ins PT; try reflexivity. rewrite O3, N3. cbn [fr_or_default]. auto.
  Qed.

  (** * The account is created *)
  Definition created (k : ClaimKind) (v : leafv) : Prop :=
    lv_s H v = ZERO_STORAGE_ROOT_KECCAK_CODEHASH_HASH H /\ lv_pch v = f0 /\
    match k with
    | KNonce None (Some b) => lv_bal v = f0 /\ lv_nc v = fz b /\ accepts e bytes_lookup [fz b; fz 7]
    | KBalance None (Some b) => lv_nc v = f0 /\ accepts e rlc_lookup [lv_bal v; fz 30; rlc (u256_to_big_endian b) r]
    | _ => False
    end.
  Lemma step_new f1 f s q b d : f_pa f = ExtensionNew -> q = ExtensionNew \/ q = PathStart -> In (f_pt f) [NonceChanged; BalanceChanged; StorageChanged] -> f_ov f = f0 ->
    f_dir f = fb b -> f_dom f = fdom d -> f_old f = f_old f1 -> nodeh e b (f_sib f) (f_new f) d (f_new f1) -> is_trie_seg (f_sg f) = false ->
    (f_pa f1 = ExtensionNew \/ is_leaf0 (f_sg f) = true) ->
    (is_leaf0 (f_sg f) = true -> absent_at e f (f_ov f) (f_old f) (f_i9 f)) -> path_step e f1 f s q /\ In q (path_transitions (f_pa f)).
  Proof.
    intros A1 A2 A3 A4 A5 A6 A7 A8 A9 A10 A11. split; [eapply ps_ext_new; try eassumption; [tauto|rewrite A9; discriminate]|]. rewrite A1. destruct A2 as [-> | ->]; cbn; tauto.
  Qed.
  Lemma created_leafs : pf_storage p = SRoot x -> pf_new_account_hash_traces p = lv_traces H K vn -> lv_hit H e K vn -> leaf_path_type final fo fn = Some ExtensionNew -> fn = lv_top H K vn ->
    absent e K other fo data -> created (c_kind (pf_claim p)) vn ->
    exists l, leafs H e ol f' l SegStart PathStart /\ ol + Z.of_nat (length l) = o + Z.of_nat (proof_n_rows p) /\ match l with f :: _ => f_sg f = AccountLeaf0 /\ f_pa f = ExtensionNew | [] => False end.
  Proof.
    intros St Tn Hn LP Fn Ab (Cs & Cp & Cg).
    assert (Kd : match c_kind (pf_claim p) with KStorage _ _ _ | KIsEmpty _ => False | _ => True end) by (destruct (c_kind (pf_claim p)) as [? ?|? ?|? ?|? ?|? ?|? ? ?|?]; cbn in Cg; auto).
    destruct (root_leaf_reads B HR L NA x St Kd) as (q & dirs & siblings & A1 & A2 & A3 & A4). rewrite LP in A1. apply some_eq in A1. subst q.
    pose proof (nn_rows p dirs NA A2) as NR. unfold even_proof in L. rewrite <- L in NR. rewrite St in NR. cbn [sp_n_rows] in NR.
    assert (Z0 : ol + Z.of_nat (length dirs) = o + Z.of_nat (proof_n_rows p)) by lia. rewrite <- Z0. clear Z0 NR.
    unfold old_account_leaf_hashes, new_account_leaf_hashes, account_leaf_siblings, choose_traces in *. unfold code_words in A4. rewrite Tn in *.
    assert (O3 : @ov_ p r = old_value_assignment (pf_claim p) r) by reflexivity. assert (N3 : @nv_ p r = new_value_assignment (pf_claim p) r) by reflexivity. unfold old_value_assignment in O3. unfold new_value_assignment in N3.
    assert (PT : forall q seg sib ho hn d dm key ok z2 z3 i9 a b, f_pt (LF q seg sib ho hn d dm key ok z2 z3 i9 a b) = T) by reflexivity.
    pose proof like0 as Lk0.
    destruct (c_kind (pf_claim p)) as [[a|] [b|]|[a|] [b|]|[a|] [b|]|[a|] [b|]|[a|] [b|]|? ? ?|?] eqn:CK; try contradiction; cbn [proof_type_of leaf_directions obind option_map or_else] in A2, A3, A4 |- *;
      apply some_eq in A2; apply some_eq in A3; subst dirs siblings; cbv zeta in A4;
      pose proof (A4 0%nat _ _ _ _ _ eq_refl) as R0; pose proof (A4 1%nat _ _ _ _ _ eq_refl) as R1;
      try (pose proof (A4 2%nat _ _ _ _ _ eq_refl) as R2; pose proof (A4 3%nat _ _ _ _ _ eq_refl) as R3); clear A4;
      cbn [lv_traces at2 nth] in R0, R1; try cbn [lv_traces at2 nth] in R2, R3.
    all: change (Z.of_nat 0) with 0 in R0; rewrite Z.add_0_r in R0; change (Z.of_nat 1) with 1 in R1; try (change (Z.of_nat 2) with 2 in R2; change (Z.of_nat 3) with 3 in R3).
    all: fold K in R0.
    all: replace (ol + 2) with (ol + 1 + 1) in * by lia; replace (ol + 3) with (ol + 1 + 1 + 1) in * by lia.
    all: assert (N1 : nodeh e true K (lv_hash H vn) DLeaf (f_new f')) by (rewrite P8, Fn; exact (lh_top _ _ _ _ Hn)).
    all: assert (Tr : forall q seg sib ho hn d dm key ok z2 z3 i9 u v s, trans (LF q seg sib ho hn d dm key ok z2 z3 i9 u v) s = exists l, seg_transitions T seg = Some l /\ In s l) by (intros; reflexivity).
    all: rewrite CK in Tr; cbn [proof_type_of] in Tr, PT.
    all: assert (OZ : @ov_ p r = f0) by (rewrite O3; cbn [unwrap_or_default]; first [reflexivity|apply rlc_zero_word]).
    Ltac stpn PT b d OZ P7 Ab := apply (step_new _ _ _ _ b d); [reflexivity|auto|rewrite PT; cbn; tauto|exact OZ|reflexivity|reflexivity|first [symmetry; exact P7|reflexivity]|..|reflexivity|first [left; reflexivity|right; reflexivity]|first [intros X; discriminate X|intros _; split; [exact OZ|split; [exact Ab|split; reflexivity]]]].
    Ltac fourn Lk0 R0 R1 R2 R3 Tr PT OZ P7 Ab b1 b2 b3 := match type of R0 with _ /\ reads _ _ ?a => match type of R1 with _ /\ reads _ _ ?b => match type of R2 with _ /\ reads _ _ ?c => match type of R3 with _ /\ reads _ _ ?d => exists [a; b; c; d] end end end end; split;
      [eapply leafs_cons; [exact R0|like Lk0|reflexivity|reflexivity|stpn PT true DLeaf OZ P7 Ab|trn Tr|..|
       eapply leafs_cons; [exact R1|like Lk0|reflexivity|reflexivity|stpn PT b1 AccountFields OZ P7 Ab|trn Tr|..|
       eapply leafs_cons; [exact R2|like Lk0|reflexivity|reflexivity|stpn PT b2 AccountFields OZ P7 Ab|trn Tr|..|
       eapply leafs_cons; [exact R3|like Lk0|reflexivity|reflexivity|stpn PT b3 AccountFields OZ P7 Ab|trn Tr|..|exact Logic.I]]]]|split; [reflexivity|split; reflexivity]].
    Ltac hitq N1 Hn := first [exact N1|exact (lh_hash _ _ _ _ Hn)|exact (lh_ns _ _ _ _ Hn)|exact (lh_n _ _ _ _ Hn)|exact (lh_s _ _ _ _ Hn)|exact (lh_k _ _ _ _ Hn)].
    - destruct Cg as (Cb & Cn & C4). fourn Lk0 R0 R1 R2 R3 Tr PT OZ P7 Ab false false false; try hitq N1 Hn.
      all: ins PT; try (split; [discriminate|]); try reflexivity; try (split; [reflexivity|intros _; assumption]).
      rewrite OZ, N3. cbn [unwrap_or_default]. split; [reflexivity|]. split; [exact C4|]. exists f0. split; [rewrite Cn; ring|]. split; [intros X; discriminate X|auto].
    - destruct Cg as (Cn & C4). fourn Lk0 R0 R1 R2 R3 Tr PT OZ P7 Ab false false true; try hitq N1 Hn.
      all: ins PT; try (split; [reflexivity|reflexivity]); try (split; [reflexivity|split; [reflexivity|intros _; assumption]]); try (split; [reflexivity|intros _; assumption]).
      rewrite N3. cbn [unwrap_or_default]. split; [reflexivity|]. split; [intros X; discriminate X|]. split; [exact C4|auto].
  Qed.
End Leaf.
