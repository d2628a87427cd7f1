(* The cells of one update row as plain values, and when such rows satisfy the constraints. *)
From Coq Require Import ZArith String List Bool Lia.
From Verif Require Import Pocklington Fr Query Builder BuilderProofs Gadgets MptUpdate Bytes GadgetProofs UpdateRows TrieSpec UpdateComplete Util Serde Trie Storage Types Lookups LookupMain
  Assign AssignProofs UpdateAssign MptAssign GadgetMain GadgetMain2 RowView BlockView.
Import ListNotations.
Open Scope Z_scope.

Record rowf := RowF {
  f_pt : MPTProofType; f_sg : SegmentType; f_pa : PathType; f_skr : Fr; f_ov : Fr; f_nv : Fr; f_key : Fr; f_other : Fr;
  f_dir : Fr; f_sib : Fr; f_old : Fr; f_new : Fr; f_dom : Fr; f_depth : Fr;
  f_i0 : Fr; f_i1 : Fr; f_i2 : Fr; f_i3 : Fr; f_i9 : Fr; f_s0 : Fr; f_s1 : Fr; f_s2 : Fr; f_s3 : Fr;
  f_z0 : Fr; f_z1 : Fr; f_z2 : Fr; f_z3 : Fr }.
Record reads (e : env) (i : Z) (f : rowf) : Prop := {
  rd_pt : pt e i = f_pt f; rd_sg : sg e i = f_sg f; rd_pa : pa e i = f_pa f;
  rd_skr : eadv e MU_storage_key_rlc i = f_skr f; rd_ov : eadv e MU_old_value i = f_ov f; rd_nv : eadv e MU_new_value i = f_nv f;
  rd_key : eadv e MU_key i = f_key f; rd_other : eadv e MU_other_key i = f_other f; rd_dir : eadv e MU_direction i = f_dir f;
  rd_sib : eadv e MU_sibling i = f_sib f; rd_old : eadv e MU_old_hash i = f_old f; rd_new : eadv e MU_new_hash i = f_new f;
  rd_dom : eadv e MU_domain i = f_dom f; rd_depth : eadv e MU_depth i = f_depth f;
  rd_i0 : eadv e (iv 0) i = f_i0 f; rd_i1 : eadv e (iv 1) i = f_i1 f; rd_i2 : eadv e (iv 2) i = f_i2 f; rd_i3 : eadv e (iv 3) i = f_i3 f; rd_i9 : eadv e (iv 9) i = f_i9 f;
  rd_s0 : eadv e (sp 0) i = f_s0 f; rd_s1 : eadv e (sp 1) i = f_s1 f; rd_s2 : eadv e (sp 2) i = f_s2 f; rd_s3 : eadv e (sp 3) i = f_s3 f;
  rd_z0 : eadv e (MU_zero_value 0) i = f_z0 f; rd_z1 : eadv e (MU_zero_value 1) i = f_z1 f; rd_z2 : eadv e (MU_zero_value 2) i = f_z2 f; rd_z3 : eadv e (MU_zero_value 3) i = f_z3 f }.
Definition rowf_of (p : MPTProofType) (s : SegmentType) (q : PathType) (r : row) : rowf :=
  RowF p s q (rval r MU_storage_key_rlc) (rval r MU_old_value) (rval r MU_new_value) (rval r MU_key) (rval r MU_other_key) (rval r MU_direction)
    (rval r MU_sibling) (rval r MU_old_hash) (rval r MU_new_hash) (rval r MU_domain) (rval r MU_depth)
    (rval r (iv 0)) (rval r (iv 1)) (rval r (iv 2)) (rval r (iv 3)) (rval r (iv 9)) (rval r (sp 0)) (rval r (sp 1)) (rval r (sp 2)) (rval r (sp 3))
    (rval r (MU_zero_value 0)) (rval r (MU_zero_value 1)) (rval r (MU_zero_value 2)) (rval r (MU_zero_value 3)).
Lemma reads_of e i p s q r : view e i (mrow_of p s q r) -> reads e i (rowf_of p s q r).
Proof. intros V. constructor; first [apply V | apply (vw_iv _ _ _ V) | apply (vw_sp _ _ _ V) | apply (vw_z _ _ _ V)]. Qed.

(** * Conditions on the values *)
Definition hit (e : env) (l r : Fr) (d : HashDomain) (h : Fr) : Prop := poseidon_hit e l r (fdom d) h.
(* the node with child x on the path (on the right if b) and other child s has hash h *)
Definition nodeh (e : env) (b : bool) (s x : Fr) (d : HashDomain) (h : Fr) : Prop := hit e (fst (children b s x)) (snd (children b s x)) d h.
Lemma lc_b b s x : lc (fb b) s x = fst (children b s x). Proof. unfold lc. destruct b; cbn; ring. Qed.
Lemma rc_b b s x : rc (fb b) s x = snd (children b s x). Proof. unfold rc. destruct b; cbn; ring. Qed.
Definition same_claim (f' f : rowf) : Prop := f_pt f = f_pt f' /\ f_skr f = f_skr f' /\ f_ov f = f_ov f' /\ f_nv f = f_nv f'.
Definition same_key (f' f : rowf) : Prop := f_key f = f_key f' /\ f_other f = f_other f'.
(* the key is not in the trie: its place is empty, or taken by another leaf *)
Definition absent (e : env) (key other hash data : Fr) : Prop := (key = other /\ hash = f0) \/ (key <> other /\ hash <> f0 /\ hit e other data DLeaf hash).
Definition absent_at (e : env) (f : rowf) (value hash data : Fr) : Prop :=
  value = f0 /\ absent e (f_key f) (f_other f) hash data /\ f_z2 f = (f_key f - f_other f)%fr /\ f_z3 f = hash.
(* the Merkle step at a row: s', q' are the types of the next row *)
Inductive path_step (e : env) (f' f : rowf) (s' : SegmentType) (q' : PathType) : Prop :=
| ps_start : f_pa f = PathStart -> path_step e f' f s' q'
| ps_common b d : f_pa f = Common -> q' = Common \/ q' = PathStart -> f_dir f = fb b -> f_dom f = fdom d ->
    nodeh e b (f_sib f) (f_old f) d (f_old f') -> nodeh e b (f_sib f) (f_new f) d (f_new f') -> path_step e f' f s' q'
| ps_new_empty b d : f_pa f = Common -> q' = ExtensionNew -> is_leaf0 s' = true -> f_dir f = fb b -> f_dom f = fdom d -> In d [Branch0; Branch1; Branch2; AccountFields] ->
    f_old f = f0 -> nodeh e b (f_sib f) (f_old f) d (f_old f') -> nodeh e b (f_sib f) (f_new f) d (f_new f') -> path_step e f' f s' q'
| ps_new_ext b d d' : f_pa f = Common -> q' = ExtensionNew -> is_leaf0 s' = false -> f_dir f = fb b -> f_dom f = fdom d -> upgrade b d = Some d' -> f_i2 f = fdom d' ->
    nodeh e b (f_sib f) (f_old f) d (f_old f') -> nodeh e b (f_sib f) (f_new f) d' (f_new f') -> path_step e f' f s' q'
| ps_old_empty b d : f_pa f = Common -> q' = ExtensionOld -> is_leaf0 s' = true -> f_dir f = fb b -> f_dom f = fdom d -> In d [Branch0; Branch1; Branch2; AccountFields] ->
    f_new f = f0 -> nodeh e b (f_sib f) (f_old f) d (f_old f') -> nodeh e b (f_sib f) (f_new f) d (f_new f') -> path_step e f' f s' q'
| ps_old_ext b d d' : f_pa f = Common -> q' = ExtensionOld -> is_leaf0 s' = false -> f_dir f = fb b -> f_dom f = fdom d -> upgrade b d = Some d' -> f_i2 f = fdom d' ->
    nodeh e b (f_sib f) (f_old f) d' (f_old f') -> nodeh e b (f_sib f) (f_new f) d (f_new f') -> path_step e f' f s' q'
| ps_ext_new b d : f_pa f = ExtensionNew -> q' = ExtensionNew \/ q' = PathStart -> In (f_pt f) [NonceChanged; BalanceChanged; StorageChanged] -> f_ov f = f0 ->
    f_dir f = fb b -> f_dom f = fdom d -> f_old f = f_old f' -> nodeh e b (f_sib f) (f_new f) d (f_new f') ->
    (f_pa f' = ExtensionNew \/ is_trie_seg (f_sg f) = true \/ is_leaf0 (f_sg f) = true) ->
    (is_trie_seg (f_sg f) = true -> f_sib f = if is_trie_seg s' then f0 else f_old f) ->
    (is_leaf0 (f_sg f) = true -> absent_at e f (f_ov f) (f_old f) (f_i9 f)) -> path_step e f' f s' q'
| ps_ext_old b d : f_pa f = ExtensionOld -> q' = ExtensionOld \/ q' = PathStart -> f_pt f = StorageChanged -> f_nv f = f0 -> (f_sg f = StorageTrie \/ f_sg f = StorageLeaf0) ->
    f_dir f = fb b -> f_dom f = fdom d -> f_new f = f_new f' -> nodeh e b (f_sib f) (f_old f) d (f_old f') ->
    (f_sg f = StorageTrie -> f_sib f = if seg_eqb s' StorageLeaf0 then f_new f' else f0) ->
    (f_sg f = StorageLeaf0 -> absent_at e f (f_nv f) (f_new f) (f_i9 f)) -> path_step e f' f s' q'.
(* an update that ends at this row, without an account *)
Definition empty_end (e : env) (f : rowf) (s' : SegmentType) : Prop :=
  s' = SegStart -> f_old f = f_new f /\ f_ov f = f_nv f /\ absent_at e f (f_ov f) (f_old f) (f_i3 f).

Section Row.
  Variables (H : Fr -> Fr -> Fr -> Fr) (e : env) (i : Z) (f' f : rowf) (s' : SegmentType) (q' : PathType).
  Hypothesis R' : reads e (i - 1) f'.
  Hypothesis R : reads e i f.
  Hypothesis Es : sg e (i + 1) = s'.
  Hypothesis Eq : pa e (i + 1) = q'.
  Ltac here := unfold UpdateRows.adv, UpdateRows.PH; rewrite ?(rd_sg _ _ _ R), ?(rd_pa _ _ _ R), ?(rd_pt _ _ _ R), ?(rd_skr _ _ _ R), ?(rd_ov _ _ _ R), ?(rd_nv _ _ _ R), ?(rd_key _ _ _ R), ?(rd_other _ _ _ R), ?(rd_dir _ _ _ R), ?(rd_sib _ _ _ R), ?(rd_old _ _ _ R), ?(rd_new _ _ _ R), ?(rd_dom _ _ _ R), ?(rd_depth _ _ _ R),
    ?(rd_i0 _ _ _ R), ?(rd_i1 _ _ _ R), ?(rd_i2 _ _ _ R), ?(rd_i3 _ _ _ R), ?(rd_i9 _ _ _ R), ?(rd_s0 _ _ _ R), ?(rd_s1 _ _ _ R), ?(rd_s2 _ _ _ R), ?(rd_s3 _ _ _ R), ?(rd_z0 _ _ _ R), ?(rd_z1 _ _ _ R), ?(rd_z2 _ _ _ R), ?(rd_z3 _ _ _ R).
  Ltac before := unfold UpdateRows.adv; rewrite ?(rd_sg _ _ _ R'), ?(rd_pa _ _ _ R'), ?(rd_pt _ _ _ R'), ?(rd_skr _ _ _ R'), ?(rd_ov _ _ _ R'), ?(rd_nv _ _ _ R'), ?(rd_key _ _ _ R'), ?(rd_other _ _ _ R'), ?(rd_old _ _ _ R'), ?(rd_new _ _ _ R'), ?(rd_depth _ _ _ R').
  Lemma nonstart_of : same_claim f' f -> nonstart_ok e i.
  Proof. intros (A & B & C & D). unfold nonstart_ok. here. before. auto. Qed.
  Lemma key_of : same_key f' f -> key_ok e i.
  Proof. intros (A & B). unfold key_ok. here. before. auto. Qed.
  Lemma domain_of d : f_dom f = fdom d -> In d (seg_domains (f_sg f)) -> domain_ok e i.
  Proof. intros A B. exists d. here. auto. Qed.
  Lemma nonex_of value hash data : absent_at e f value hash data -> nonex_ok e i value hash data.
  Proof. intros (A & B & C & D). unfold nonex_ok, nonex. here. unfold UpdateRows.PH. auto. Qed.
  Lemma old_of b d h : f_dir f = fb b -> f_old f' = h -> nodeh e b (f_sib f) (f_old f) d h -> oldP e i (fdom d).
  Proof. intros A B C. unfold oldP. here. before. rewrite A, B, lc_b, rc_b. exact C. Qed.
  Lemma new_of b d h : f_dir f = fb b -> f_new f' = h -> nodeh e b (f_sib f) (f_new f) d h -> newP e i (fdom d).
  Proof. intros A B C. unfold newP. here. before. rewrite A, B, lc_b, rc_b. exact C. Qed.
  Lemma path_of : path_step e f' f s' q' -> In q' (path_transitions (f_pa f)) -> path_ok e i.
  Proof.
    intros P T. unfold path_ok. rewrite Eq, (rd_pa _ _ _ R). split; [exact T|].
    destruct P as [P|b d P Q D M O N|b d P Q L D M I Z O N|b d d' P Q L D M U I2 O N|b d P Q L D M I Z O N|b d d' P Q L D M U I2 O N|b d P Q T1 V D M O N B Sb L|b d P Q T1 V Sg D M O N Sb L]; rewrite P.
    - exact Logic.I.
    - unfold common_ok. rewrite Eq. assert (X : oldP e i (fdom d) /\ newP e i (fdom d)) by (split; [exact (old_of b d _ D eq_refl O)|exact (new_of b d _ D eq_refl N)]).
      unfold UpdateRows.adv. rewrite (rd_dom _ _ _ R), M. destruct Q as [-> | ->]; exact X.
    - unfold common_ok. rewrite Eq, Es, Q, L. unfold dom3_ok, UpdateRows.adv. rewrite (rd_dom _ _ _ R), (rd_old _ _ _ R), M. split; [exact (old_of b d _ D eq_refl O)|]. split; [eauto|]. split; [exact Z|exact (new_of b d _ D eq_refl N)].
    - unfold common_ok. rewrite Eq, Es, Q, L. unfold upgraded_ok, UpdateRows.adv. rewrite (rd_dom _ _ _ R), (rd_i2 _ _ _ R), (rd_dir _ _ _ R), M, I2. split; [exact (old_of b d _ D eq_refl O)|]. split; [exists d, d', b; auto|exact (new_of b d' _ D eq_refl N)].
    - unfold common_ok. rewrite Eq, Es, Q, L. unfold dom3_ok, UpdateRows.adv. rewrite (rd_dom _ _ _ R), (rd_new _ _ _ R), M. split; [exact (new_of b d _ D eq_refl N)|]. split; [eauto|]. split; [exact Z|exact (old_of b d _ D eq_refl O)].
    - unfold common_ok. rewrite Eq, Es, Q, L. unfold upgraded_ok, UpdateRows.adv. rewrite (rd_dom _ _ _ R), (rd_i2 _ _ _ R), (rd_dir _ _ _ R), M, I2. split; [exact (new_of b d _ D eq_refl N)|]. split; [exists d, d', b; auto|exact (old_of b d' _ D eq_refl O)].
    - unfold ext_new_ok, UpdateRows.adv. rewrite (rd_pt _ _ _ R), (rd_ov _ _ _ R), (rd_old _ _ _ R), (rd_dom _ _ _ R), (rd_sg _ _ _ R), (rd_sib _ _ _ R), (rd_pa _ _ _ R'), (rd_old _ _ _ R'), (rd_i9 _ _ _ R), M, Es.
      split; [exact T1|]. split; [exact V|]. split; [exact O|]. split; [exact (new_of b d _ D eq_refl N)|]. split; [exact B|]. split; [exact Sb|]. intros X. apply nonex_of, L, X.
    - unfold ext_old_ok, UpdateRows.adv. rewrite (rd_pt _ _ _ R), (rd_nv _ _ _ R), (rd_new _ _ _ R), (rd_dom _ _ _ R), (rd_sg _ _ _ R), (rd_sib _ _ _ R), (rd_new _ _ _ R'), (rd_i9 _ _ _ R), M, Es.
      split; [exact T1|]. split; [exact Sg|]. split; [exact V|]. split; [exact O|]. split; [exact (old_of b d _ D eq_refl N)|]. split; [exact Sb|]. intros X. apply nonex_of, L, X.
  Qed.
  Lemma empty_of : empty_end e f s' -> empty_ok e i MU_old_hash.
  Proof.
    intros X S. rewrite Es in S. destruct (X S) as (A & B & C). here. split; [exact A|]. split; [exact B|]. apply nonex_of, C.
  Qed.
  Lemma empty_of' : empty_end e f s' -> empty_ok e i MU_new_hash.
  Proof.
    intros X S. rewrite Es in S. destruct (X S) as (A & B & C). here. split; [exact A|]. split; [exact B|]. rewrite <- A. apply nonex_of, C.
  Qed.
  (* a row that is not a start row *)
  Lemma plain_row : f_sg f <> SegStart -> f_pa f <> PathStart -> same_claim f' f -> (f_sg f <> AccountLeaf3 -> same_key f' f) ->
    (if is_trie_seg (f_sg f) then trie_ok e i else f_depth f = f0) -> (exists d, f_dom f = fdom d /\ In d (seg_domains (f_sg f))) ->
    path_step e f' f s' q' -> In q' (path_transitions (f_pa f)) -> proof_ok H e i -> row_ok H e i.
  Proof.
    intros N1 N2 C K T (d & D1 & D2) P PT PO. constructor.
    - rewrite (rd_sg _ _ _ R), (rd_pa _ _ _ R). tauto.
    - intros X. rewrite (rd_sg _ _ _ R) in X. contradiction.
    - intros _. apply nonstart_of, C.
    - intros _ X. apply key_of, K. rewrite <- (rd_sg _ _ _ R). exact X.
    - here. exact T.
    - apply (domain_of d D1 D2).
    - apply path_of; assumption.
    - exact PO.
  Qed.
  (* the proof part of start and trie rows *)
  Definition above (t : MPTProofType) : Prop :=
    match t with
    | NonceChanged => f_pa f <> ExtensionOld /\ (f_sg f <> StorageTrie -> empty_end e f s')
    | BalanceChanged | CodeHashExists | CodeSizeExists => f_sg f <> StorageTrie -> empty_end e f s'
    | PoseidonCodeHashExists | StorageChanged => True
    | AccountDoesNotExist => f_ov f = f0 /\ f_nv f = f0 /\ f_old f = f_new f /\ (f_sg f <> StorageTrie -> empty_end e f s')
    | StorageDoesNotExist => f_ov f = f0 /\ f_nv f = f0 /\ (f_pa f = PathStart \/ f_pa f = Common) /\ f_old f = f_new f /\ empty_end e f s'
    | AccountDestructed => False
    end.
  Definition trans : Prop := exists l, seg_transitions (f_pt f) (f_sg f) = Some l /\ In s' l.
  Lemma trans_of : trans -> trans_ok e i.
  Proof. intros (l & A & B). exists l. rewrite (rd_pt _ _ _ R), (rd_sg _ _ _ R), Es. auto. Qed.
  Lemma above_ok : trans -> f_sg f = SegStart \/ f_sg f = AccountTrie \/ f_sg f = StorageTrie -> above (f_pt f) -> proof_ok H e i.
  Proof.
    intros T S A. unfold proof_ok. split; [apply trans_of, T|]. rewrite (rd_pt _ _ _ R).
    assert (Em : forall X : f_sg f <> StorageTrie -> empty_end e f s', match f_sg f with SegStart | AccountTrie => empty_ok e i MU_old_hash | _ => True end).
    { intros X. destruct (f_sg f); try exact Logic.I; apply empty_of, X; discriminate. }
    destruct (f_pt f); cbn [above] in A.
    - unfold nonce_ok. here. destruct A as [A1 A2]. split; [exact A1|]. specialize (Em A2). destruct S as [S|[S|S]]; rewrite S in *; try exact Em; exact Logic.I.
    - unfold balance_ok. here. specialize (Em A). destruct S as [S|[S|S]]; rewrite S in *; try exact Em; exact Logic.I.
    - unfold keccak_ok. here. specialize (Em A). destruct S as [S|[S|S]]; rewrite S in *; try exact Em; exact Logic.I.
    - unfold poseidon_ok. here. destruct S as [S|[S|S]]; rewrite S; exact Logic.I.
    - unfold code_size_ok. here. specialize (Em A). destruct S as [S|[S|S]]; rewrite S in *; try exact Em; exact Logic.I.
    - unfold empty_account_ok. here. destruct A as (A1 & A2 & A3 & A4). split; [exact A1|]. split; [exact A2|]. split; [exact A3|].
      destruct S as [S|[S|S]]; rewrite S in *; try exact Logic.I; apply empty_of', A4; discriminate.
    - unfold storage_ok. here. destruct S as [S|[S|S]]; rewrite S; exact Logic.I.
    - unfold empty_storage_ok. here. destruct A as (A1 & A2 & A3 & A4 & A5). split; [exact A1|]. split; [exact A2|]. split; [exact A3|]. split; [exact A4|]. split.
      + rewrite Es. intros X. apply nonex_of. apply (A5 X).
      + destruct S as [S|[S|S]]; rewrite S; exact Logic.I.
    - contradiction.
  Qed.
  Lemma start_row : f_sg f = SegStart -> f_pa f = PathStart -> f_dom f = fdom DPair -> f_depth f = f0 ->
    hit e (f_i0 f) (f_i1 f * fz (2 ^ 96))%fr DPair (f_key f) -> accepts e bytes_lookup [f_i0 f; fz 15] -> accepts e bytes_lookup [f_i1 f; fz 3] ->
    accepts e fr_rlc_lookup [f_old f; f_s0 f] -> accepts e fr_rlc_lookup [f_new f; f_s1 f] -> trans -> above (f_pt f) -> row_ok H e i.
  Proof.
    intros S Pa D Dp Hk B1 B2 R1 R2 T A. constructor.
    - rewrite (rd_sg _ _ _ R), (rd_pa _ _ _ R). tauto.
    - intros _. unfold start_ok. here. auto.
    - rewrite (rd_sg _ _ _ R), S. congruence.
    - rewrite (rd_sg _ _ _ R), S. congruence.
    - here. rewrite S. exact Dp.
    - apply (domain_of DPair D). rewrite S. left. reflexivity.
    - apply path_of; [apply ps_start, Pa|]. rewrite Pa. destruct q'; cbn; tauto.
    - apply above_ok; [exact T|auto|exact A].
  Qed.
  Lemma trie_row k b d : is_trie_seg (f_sg f) = true -> f_pa f <> PathStart -> same_claim f' f -> same_key f' f ->
    f_dir f = fb b -> f_depth f = fz (Z.of_nat k + 1) -> f_depth f' = fz (Z.of_nat k) ->
    accepts e key_bit_lookup [f_key f; fz (Z.of_nat k); fb b] -> (f_pa f = Common -> accepts e key_bit_lookup [f_other f; fz (Z.of_nat k); fb b]) ->
    f_dom f = fdom d -> In d [Branch0; Branch1; Branch2; Branch3] -> path_step e f' f s' q' -> In q' (path_transitions (f_pa f)) -> trans -> above (f_pt f) -> row_ok H e i.
  Proof.
    intros S N C K Db D1 D2 B1 B2 Dm Di P PT T A. assert (S' : f_sg f = SegStart \/ f_sg f = AccountTrie \/ f_sg f = StorageTrie) by (destruct (f_sg f); try discriminate S; auto).
    apply plain_row; try assumption.
    - intros X. rewrite X in S. discriminate S.
    - intros _. exact K.
    - rewrite S. assert (X : (fz (Z.of_nat k + 1) - 1)%fr = fz (Z.of_nat k)) by (rewrite fz_add; change (fz 1) with f1; ring).
      unfold trie_ok. here. before. rewrite D1, D2, X, Db. split; [exact B1|]. split; [rewrite fz_add; change (fz 1) with f1; ring|exact B2].
    - exists d. split; [exact Dm|]. destruct (f_sg f); try discriminate S; exact Di.
    - apply above_ok; assumption.
  Qed.

  (** * Leaf rows *)
  (* a 256-bit word with hash wh, in halves h and l with encodings rh and rl; rw is the encoding of the word *)
  Definition word_at (wh h l rw rh rl : Fr) : Prop :=
    accepts e bytes_lookup [h; fz 15] /\ accepts e bytes_lookup [l; fz 15] /\ hit e h l DPair wh /\
    accepts e rlc_lookup [h; fz 15; rh] /\ accepts e rlc_lookup [l; fz 15; rl] /\ rw = (rh * fpow (echal e) 16 + rl)%fr.
  Definition inside (t : MPTProofType) : Prop :=
    match t with
    | NonceChanged => f_pa f <> ExtensionOld /\
        match f_sg f with
        | AccountLeaf0 => f_dir f = f1
        | AccountLeaf1 => f_dir f = f0 /\ (f_pa f = ExtensionNew -> f_sib f = f0)
        | AccountLeaf2 => f_dir f = f0 /\ (f_pa f = ExtensionNew -> f_sib f = ZERO_STORAGE_ROOT_KECCAK_CODEHASH_HASH H)
        | AccountLeaf3 => f_dir f = f0 /\ accepts e bytes_lookup [f_nv f; fz 7] /\
            exists cs, f_new f = (f_nv f + cs * c64)%fr /\
            (f_pa f = Common -> accepts e bytes_lookup [f_ov f; fz 7] /\ f_old f = (f_ov f + cs * c64)%fr /\ accepts e bytes_lookup [cs; fz 7]) /\
            (f_pa f = ExtensionNew -> f_ov f = f0 /\ cs = f0 /\ f_sib f = f0)
        | _ => False
        end
    | CodeSizeExists =>
        match f_sg f with
        | AccountLeaf0 => f_dir f = f1
        | AccountLeaf1 | AccountLeaf2 => f_dir f = f0
        | AccountLeaf3 => f_dir f = f0 /\ accepts e bytes_lookup [f_ov f; fz 7] /\ accepts e bytes_lookup [f_nv f; fz 7] /\
            exists nonce, f_old f = (nonce + f_ov f * c64)%fr /\ f_new f = (nonce + f_nv f * c64)%fr /\ accepts e bytes_lookup [nonce; fz 7]
        | _ => False
        end
    | BalanceChanged =>
        match f_sg f with
        | AccountLeaf0 => f_dom f = fdom DLeaf /\ f_dir f = f1
        | AccountLeaf1 => f_dom f = fdom AccountFields /\ f_dir f = f0 /\ (f_pa f = ExtensionNew -> f_sib f = f0)
        | AccountLeaf2 => f_dir f = f0 /\ (f_pa f = ExtensionNew -> f_sib f = ZERO_STORAGE_ROOT_KECCAK_CODEHASH_HASH H)
        | AccountLeaf3 => f_dir f = f1 /\ (f_pa f = Common -> accepts e rlc_lookup [f_old f; fz 30; f_ov f]) /\
            accepts e rlc_lookup [f_new f; fz 30; f_nv f] /\ (f_pa f = ExtensionNew -> f_sib f = f0)
        | _ => False
        end
    | PoseidonCodeHashExists =>
        match f_sg f with
        | AccountLeaf0 => f_dir f = f1
        | AccountLeaf1 => f_dir f = f1 /\ f_ov f = f_old f /\ f_nv f = f_new f
        | _ => False
        end
    | CodeHashExists =>
        match f_sg f with
        | AccountLeaf0 => f_dir f = f1
        | AccountLeaf1 => f_dir f = f0
        | AccountLeaf2 => f_dir f = f1
        | AccountLeaf3 => f_dir f = f1 /\ word_at (f_old f) (f_i0 f) (f_i1 f) (f_ov f) (f_s0 f) (f_s1 f) /\ word_at (f_new f) (f_i2 f) (f_i3 f) (f_nv f) (f_s2 f) (f_s3 f)
        | _ => False
        end
    | StorageChanged =>
        match f_sg f with
        | AccountLeaf0 => f_dir f = f1
        | AccountLeaf1 => f_dir f = f0
        | AccountLeaf2 => f_dir f = f1
        | AccountLeaf3 => f_dir f = f0 /\ word_at (f_key f) (f_i0 f) (f_i1 f) (f_skr f) (f_s0 f) (f_s1 f)
        | StorageLeaf0 => f_dir f = f1 /\
            (f_pa f = Common -> word_at (f_old f) (f_i0 f) (f_i1 f) (f_ov f) (f_s0 f) (f_s1 f) /\ word_at (f_new f) (f_i2 f) (f_i3 f) (f_nv f) (f_s2 f) (f_s3 f)) /\
            f_z0 f = (f_old f - ZERO_PAIR_HASH H)%fr /\ f_old f <> ZERO_PAIR_HASH H /\ f_z1 f = (f_new f - ZERO_PAIR_HASH H)%fr /\ f_new f <> ZERO_PAIR_HASH H
        | _ => False
        end
    | StorageDoesNotExist => f_ov f = f0 /\ f_nv f = f0 /\ f_pa f = Common /\ f_old f = f_new f /\
        (s' = SegStart -> absent_at e f (f_ov f) (f_old f) (f_i3 f)) /\
        match f_sg f with
        | AccountLeaf0 => f_dir f = f1
        | AccountLeaf1 => f_dir f = f0
        | AccountLeaf2 => f_dir f = f1
        | AccountLeaf3 => f_dir f = f0 /\ word_at (f_key f) (f_i0 f) (f_i1 f) (f_skr f) (f_s0 f) (f_s1 f)
        | _ => False
        end
    | AccountDoesNotExist | AccountDestructed => False
    end.
  Lemma inside_ok : trans -> inside (f_pt f) -> proof_ok H e i.
  Proof.
    intros T A. unfold proof_ok. split; [apply trans_of, T|]. rewrite (rd_pt _ _ _ R).
    destruct (f_pt f); cbn [inside] in A; try contradiction.
    - unfold nonce_ok. here. destruct A as [A1 A2]. split; [exact A1|]. destruct (f_sg f); try contradiction; exact A2.
    - unfold balance_ok. here. destruct (f_sg f); try contradiction; exact A.
    - unfold keccak_ok, word_ok_. here. destruct (f_sg f); try contradiction; exact A.
    - unfold poseidon_ok. here. destruct (f_sg f); try contradiction; exact A.
    - unfold code_size_ok. here. destruct (f_sg f); try contradiction; exact A.
    - unfold storage_ok, word_ok_. here. destruct (f_sg f); try contradiction; exact A.
    - unfold empty_storage_ok, word_ok_. here. destruct A as (A1 & A2 & A3 & A4 & A5 & A6). split; [exact A1|]. split; [exact A2|]. split; [auto|]. split; [exact A4|]. split.
      + rewrite Es. intros X. apply nonex_of, A5, X.
      + destruct (f_sg f); try contradiction; exact A6.
  Qed.
  Lemma leaf_row : is_trie_seg (f_sg f) = false -> f_sg f <> SegStart -> f_pa f <> PathStart -> same_claim f' f -> (f_sg f <> AccountLeaf3 -> same_key f' f) -> f_depth f = f0 ->
    (exists d, f_dom f = fdom d /\ In d (seg_domains (f_sg f))) -> path_step e f' f s' q' -> In q' (path_transitions (f_pa f)) -> trans -> inside (f_pt f) -> row_ok H e i.
  Proof.
    intros S N1 N2 C K D Dm P PT T A. apply plain_row; try assumption; [rewrite S; exact D|apply inside_ok; assumption].
  Qed.
End Row.
