(* The values in the rows of one update. *)
From Coq Require Import ZArith List Bool Lia.
From Verif Require Import Pocklington Fr Query Builder BuilderProofs Gadgets MptUpdate Bytes GadgetProofs UpdateRows Util Serde Trie Storage Types Lookups LookupMain
  Assign AssignProofs UpdateAssign MptAssign MptRows RowView BlockView BlocksOk RowsOk RowCells.
Import ListNotations.
Open Scope Z_scope.

(* the domain that iv 2 of a row holds *)
Definition ext2 (row : TrieRow) (next : option TrieRow) : option Fr :=
  match next with
  | Some nx => match tr_path nx, tr_path row with
               | PathStart, _ | Common, _ => None
               | _, Common => option_map fdom (next_domain (tr_domain row) (tr_direction row))
               | _, _ => None
               end
  | None => None
  end.
Lemma trie_cells_as j row next c : trie_row_cells j row next = Some c ->
  c = [(A MU_depth, fz (Z.of_nat j + 1))] ++ oh_assign oh_path (tr_path row) ++ (match ext2 row next with Some x => [(A (iv 2), x)] | None => [] end)
    ++ [(A MU_sibling, tr_sibling row); (A MU_old_hash, tr_old row); (A MU_new_hash, tr_new row); (A MU_direction, fb (tr_direction row)); (A MU_domain, fdom (tr_domain row))].
Proof.
  unfold trie_row_cells, ext2. intros E. ob E. apply some_eq in E. subst c. do 2 f_equal. f_equal.
  destruct next as [nx|]; [|apply some_eq in E0; subst a; reflexivity].
  destruct (tr_path nx), (tr_path row); try (apply some_eq in E0; subst a; reflexivity); ob E0; apply some_eq in E0; subst a; rewrite E; reflexivity.
Qed.
Definition halves (w : Z) (r : Fr) : Fr * Fr * Fr * Fr :=
  let (hi, lo) := u256_hi_lo w in (fr_from_u128 hi, fr_from_u128 lo, rlc (be_bytes 16 hi) r, rlc (be_bytes 16 lo) r).
Lemma word_as w h l rh rl r : word_rlc_assign w h l rh rl r = word_cells h l rh rl (Some (halves w r)).
Proof. unfold word_rlc_assign, halves. destruct (u256_hi_lo w). reflexivity. Qed.
Definition leaf_word (l : StorageLeaf) (r : Fr) : option (Fr * Fr * Fr * Fr) := match l with SEntry _ v => Some (halves v r) | _ => None end.
Lemma word_of_as l h lo rh rl r : word_of l h lo rh rl r = word_cells h lo rh rl (leaf_word l r).
Proof. destruct l; reflexivity. Qed.
Definition last_tail (H : Fr -> Fr -> Fr -> Fr) (key other : Fr) (old new : StorageLeaf) : tail :=
  match old, new with
  | SLeaf _ v, SLeaf _ _ => T2 (key - other)%fr (or_else (sl_hash H old) f0) v
  | SEmpty _, SEmpty _ => T1 (key - other)%fr
  | _, _ => T0
  end.
Lemma last_as H key other old new : last_cells H key other old new = tcells (last_tail H key other old new).
Proof. destruct old, new; reflexivity. Qed.

Definition nonex_l (H : Fr -> Fr -> Fr -> Fr) (key : Fr) (own oth : StorageLeaf) (hash : Fr) : Fr * Fr * option Fr :=
  let ok := if negb (feqb key (sl_key H oth)) then sl_key H oth else sl_key H own in
  ((key - ok)%fr, hash, if negb (feqb key ok) then sl_value_hash H oth else None).
Definition leaf_l (H : Fr -> Fr -> Fr -> Fr) (path : PathType) (key : Fr) (old new : StorageLeaf) (oh nh : Fr) : option (Fr * Fr * option Fr) :=
  match path with ExtensionOld => Some (nonex_l H key old new nh) | ExtensionNew => Some (nonex_l H key new old oh) | _ => None end.
Lemma leaf_l_as H path key old new oh nh last : storage_leaf_nonexistence H path key old new oh nh = Some last -> last = lcells (leaf_l H path key old new oh nh).
Proof.
  unfold storage_leaf_nonexistence, leaf_l, nonex_l. destruct path; intros E.
  - discriminate E.
  - apply some_eq in E. subst last. reflexivity.
  - ob E. apply some_eq in E. subst last. cbn [lcells]. do 2 f_equal. destruct (negb (feqb key _)); [ob E0; apply some_eq in E0; subst a; rewrite E; reflexivity|apply some_eq in E0; subst a; reflexivity].
  - ob E. apply some_eq in E. subst last. cbn [lcells]. do 2 f_equal. destruct (negb (feqb key _)); [ob E0; apply some_eq in E0; subst a; rewrite E; reflexivity|apply some_eq in E0; subst a; reflexivity].
Qed.

Section Block.
  Context {H : Fr -> Fr -> Fr -> Fr} {e : env} {p : Proof} {r : Fr} {o : Z} {w : list write} {other data : Fr} {final : PathType}.
  Hypothesis B : block_at H p r o w other data final.
  Hypothesis HR : holds_rows e w o (o + Z.of_nat (proof_n_rows p)).
  Hypothesis L : even_proof p.
  Notation T := (proof_type_of (c_kind (pf_claim p))).
  Definition skr_ : Fr := rlc (u256_to_big_endian (claim_storage_key (pf_claim p))) r.
  Definition ov_ : Fr := old_value_assignment (pf_claim p) r.
  Definition nv_ : Fr := new_value_assignment (pf_claim p) r.
  Notation rows := (pf_account_trie_rows p).
  Notation fo := (fst (final_hashes H p)).
  Notation fn := (snd (final_hashes H p)).
  Definition end_tail : tail := if no_account p then T2 (akey H p - other)%fr fo data else T0.
  Lemma end_tail_as : tail_cells H p other data fo = tcells end_tail.
  Proof. unfold tail_cells, end_tail. destruct (no_account p); reflexivity. Qed.
  Lemma row_reads i t s q R f : o <= i < o + Z.of_nat (proof_n_rows p) -> row_at w i = R -> reads_as t s q R f -> (exists m, view e i m) /\ reads e i f.
  Proof.
    intros Hi <- [V <-]. assert (X : view e i (mrow_of t s q (row_at w i))) by (apply row_view; [intros c Hc; apply HR; assumption|exact V]).
    split; [eauto|apply reads_of, X].
  Qed.
  Definition start_f : rowf :=
    let t := match rows with [] => end_tail | _ => T0 end in let c := pf_claim p in
    RowF T SegStart PathStart skr_ ov_ nv_ (akey H p) other f0 f0 (c_old_root c) (c_new_root c) (fdom DPair) f0
      (fr_from_u128 (address_high (c_address c))) (fz (address_low (c_address c))) f0 (ti3 t) f0 (rlc_fr (c_old_root c) r) (rlc_fr (c_new_root c) r) f0 f0 f0 f0 (tz2 t) (tz3 t).
  Lemma start_reads : (exists m, view e o m) /\ reads e o start_f.
  Proof.
    eapply row_reads; [pose proof (proof_rows_pos p); lia|apply (ba_start _ _ _ _ _ _ _ _ B)|].
    unfold start_f. destruct rows; [rewrite end_tail_as; apply start_as|]. exact (start_as T skr_ ov_ nv_ _ _ _ _ _ _ _ _ T0).
  Qed.
  Definition trie_f (j : nat) (row : TrieRow) : rowf :=
    let t := if (S j =? length rows)%nat then end_tail else T0 in
    RowF T AccountTrie (tr_path row) skr_ ov_ nv_ (akey H p) other (fb (tr_direction row)) (tr_sibling row) (tr_old row) (tr_new row) (fdom (tr_domain row)) (fz (Z.of_nat j + 1))
      f0 f0 (or_else (ext2 row (nth_error rows (S j))) f0) (ti3 t) f0 f0 f0 f0 f0 f0 f0 (tz2 t) (tz3 t).
  Lemma rows_fit : (1 + length rows <= proof_n_rows p)%nat.
  Proof. unfold even_proof in L. rewrite L. unfold proof_n_rows. destruct (_ && _); lia. Qed.
  Lemma trie_reads j row : nth_error rows j = Some row -> (exists m, view e (o + 1 + Z.of_nat j) m) /\ reads e (o + 1 + Z.of_nat j) (trie_f j row).
  Proof.
    intros Hj. destruct (ba_trie _ _ _ _ _ _ _ _ B j row Hj) as (c & C1 & C2). apply trie_cells_as in C1. subst c.
    assert (j < length rows)%nat by (apply nth_error_Some; congruence). pose proof rows_fit.
    eapply row_reads; [lia|exact C2|]. unfold trie_f.
    destruct (trie_as T skr_ ov_ nv_ AccountTrie (tr_path row) (fz (Z.of_nat j + 1)) (ext2 row (nth_error rows (S j))) (tr_sibling row) (tr_old row) (tr_new row) (fb (tr_direction row)) (fdom (tr_domain row))
      (akey H p) other (if (S j =? length rows)%nat then end_tail else T0) eq_refl) as [X _].
    destruct (S j =? length rows)%nat; [rewrite end_tail_as|]; exact X.
  Qed.

  (** * The account leaf *)
  Section Leaf.
    Hypothesis NA : no_account p = false.
    Notation ol := (o + 1 + Z.of_nat (length rows)).
    Definition leaf_f (q : PathType) (seg : SegmentType) (sib ho hn : Fr) (d : bool) (dm : HashDomain) (key ok z2 z3 i9 : Fr) (x y : option (Fr * Fr * Fr * Fr)) : rowf :=
      RowF T seg q skr_ ov_ nv_ key ok (fb d) sib ho hn (fdom dm) f0 (w1 x) (w2 x) (w1 y) (w2 y) i9 (w3 x) (w4 x) (w3 y) (w4 y) f0 f0 z2 z3.
    (* the last account row of a storage update; t: what is added if the storage part has no rows *)
    Definition leaf3s_f (q : PathType) (sib ho hn : Fr) (d : bool) (sk so : Fr) (k : Z) (t : tail) : rowf :=
      let x := Some (halves k r) in
      RowF T AccountLeaf3 q skr_ ov_ nv_ sk so (fb d) sib ho hn (fdom AccountFields) f0 (w1 x) (w2 x) (fdom AccountFields) (ti3 t) f0 (w3 x) (w4 x) f0 f0 f0 f0 (tz2 t) (tz3 t).
    Definition code_words : option (Fr * Fr * Fr * Fr) * option (Fr * Fr * Fr * Fr) :=
      match c_kind (pf_claim p) with KCodeHash a b => (option_map (fun v => halves v r) a, option_map (fun v => halves v r) b) | _ => (None, None) end.
    Lemma code_words_as : code_hash_cells (c_kind (pf_claim p)) r = word_cells (iv 0) (iv 1) (sp 0) (sp 1) (fst code_words) ++ word_cells (iv 2) (iv 3) (sp 2) (sp 3) (snd code_words).
    Proof. unfold code_words, code_hash_cells. destruct (c_kind (pf_claim p)) as [? ?|? ?|a b|? ?|? ?|? ? ?|?]; try reflexivity. destruct a, b; cbn [option_map fst snd]; rewrite ?word_as; reflexivity. Qed.
    Notation olds := (or_else (old_account_leaf_hashes p) (repeat fo 4)).
    Notation news := (or_else (new_account_leaf_hashes p) (repeat fn 4)).
    (* no storage part *)
    Lemma root_leaf_reads x : pf_storage p = SRoot x -> (match c_kind (pf_claim p) with KStorage _ _ _ | KIsEmpty _ => False | _ => True end) ->
      exists q dirs siblings, leaf_path_type final fo fn = Some q /\ leaf_directions T = Some dirs /\ account_leaf_siblings H p = Some siblings /\
      forall k seg sib ho hn d, nth_error (izip5 SEGMENT_TYPES siblings olds news dirs) k = Some (seg, sib, ho, hn, d) ->
        let f := match k with
                 | O => leaf_f q seg sib ho hn d DLeaf (akey H p) other (akey H p - other)%fr ho data None None
                 | 3%nat => leaf_f q seg sib ho hn d AccountFields (akey H p) other f0 f0 f0 (fst code_words) (snd code_words)
                 | _ => leaf_f q seg sib ho hn d AccountFields (akey H p) other f0 f0 f0 None None
                 end in
        (exists m, view e (ol + Z.of_nat k) m) /\ reads e (ol + Z.of_nat k) f.
    Proof.
      intros St Kd. destruct (ba_leaf _ _ _ _ _ _ _ _ B NA) as (q & dirs & siblings & st & A1 & A2 & A3 & A4 & _ & A5). cbv zeta in A5.
      exists q, dirs, siblings. split; [exact A1|]. split; [exact A2|]. split; [exact A3|]. intros k seg sib ho hn d Hk. cbv zeta.
      destruct (A5 k seg sib ho hn d Hk) as (c & C1 & C2).
      rewrite St in A4. cbn [assign_storage] in A4. apply some_eq in A4. subst st. cbn [row_at] in C2.
      assert (Kl : (k < length dirs)%nat).
      { assert (X : nth_error (izip5 SEGMENT_TYPES siblings olds news dirs) k <> None) by congruence. apply nth_error_Some in X. unfold izip5 in X. rewrite combine_length in X. lia. }
      pose proof (nn_rows p dirs NA A2) as NR. unfold even_proof in L. rewrite <- L in NR.
      assert (Sg : nth_error SEGMENT_TYPES k = Some seg).
      { clear - Hk. unfold izip5 in Hk. assert (G : forall {X Y} (a : list X) (b : list Y) k x y, nth_error (combine a b) k = Some (x, y) -> nth_error a k = Some x).
        { intros X Y a. induction a as [|a0 a IH]; intros [|b0 b] [|k0] x y E; try discriminate E; cbn in *; [congruence|eapply IH, E]. }
        eapply G, G, G, G, Hk. }
      assert (Ri : o <= ol + Z.of_nat k < o + Z.of_nat (proof_n_rows p)) by lia.
      unfold leaf_row_cells in C1. destruct k as [|[|[|[|k]]]]; cbn in Sg; try (destruct k; discriminate Sg); apply some_eq in Sg; subst seg; cbn [obind] in C1.
      - apply some_eq in C1. subst c. eapply row_reads; [exact Ri|exact C2|]. exact (leaf0_as T skr_ ov_ nv_ q sib ho hn (fb d) (akey H p) other data (akey H p - other)%fr).
      - apply some_eq in C1. subst c. eapply row_reads; [exact Ri|exact C2|]. exact (leaf12_as T skr_ ov_ nv_ AccountLeaf1 q sib ho hn (fb d) (akey H p) other (or_introl eq_refl)).
      - apply some_eq in C1. subst c. eapply row_reads; [exact Ri|exact C2|]. exact (leaf12_as T skr_ ov_ nv_ AccountLeaf2 q sib ho hn (fb d) (akey H p) other (or_intror eq_refl)).
      - assert (c = [(A MU_domain, fdom AccountFields)] ++ leaf_as_cells AccountLeaf3 q sib ho hn (fb d) (akey H p) other []).
        { destruct (c_kind (pf_claim p)) as [? ?|? ?|? ?|? ?|? ?|? ? ?|[?|]]; try contradiction; apply some_eq in C1; subst c; reflexivity. }
        subst c. eapply row_reads; [exact Ri|exact C2|]. cbn [Nat.eqb]. rewrite code_words_as. exact (leaf3_as T skr_ ov_ nv_ q sib ho hn (fb d) (akey H p) other (fst code_words) (snd code_words)).
    Qed.

    (** ** with a storage part *)
    Section Storage.
      Context {sk : Z} {key : Fr} {srows : TrieRows} {old new : StorageLeaf} {kk : Z}.
      Hypothesis St : pf_storage p = SUpdate sk key srows old new.
      Hypothesis Kd : (exists a b, c_kind (pf_claim p) = KStorage kk a b) \/ c_kind (pf_claim p) = KIsEmpty (Some kk).
      Definition so_ : Fr := if feqb key (sl_key H old) then sl_key H new else sl_key H old.
      Notation os := (ol + 4).
      Definition strie_f (j : nat) (row : TrieRow) : rowf :=
        let t := if (S j =? length srows)%nat then last_tail H key so_ old new else T0 in
        RowF T StorageTrie (tr_path row) skr_ ov_ nv_ key so_ (fb (tr_direction row)) (tr_sibling row) (tr_old row) (tr_new row) (fdom (tr_domain row)) (fz (Z.of_nat j + 1))
          f0 f0 (or_else (ext2 row (nth_error srows (S j))) f0) (ti3 t) f0 f0 f0 f0 f0 f0 f0 (tz2 t) (tz3 t).
      Definition sleaf_f (path : PathType) (oh nh : Fr) : rowf :=
        let x := leaf_word old r in let y := leaf_word new r in let l := leaf_l H path key old new oh nh in
        RowF T StorageLeaf0 path skr_ ov_ nv_ key so_ f1 (match path with ExtensionNew => sl_key H new | _ => sl_key H old end) oh nh (fdom DLeaf) f0
          (w1 x) (w2 x) (w1 y) (w2 y) (l9 l) (w3 x) (w4 x) (w3 y) (w4 y) (oh - ZERO_PAIR_HASH H)%fr (nh - ZERO_PAIR_HASH H)%fr (lz2 l) (lz3 l).
      Lemma dirs_storage : leaf_directions T = Some [true; false; true; false].
      Proof. destruct Kd as [(a & b & ->) | ->]; reflexivity. Qed.
      Lemma storage_leaf_reads : exists q siblings, leaf_path_type final fo fn = Some q /\ account_leaf_siblings H p = Some siblings /\
        (forall k seg sib ho hn d, nth_error (izip5 SEGMENT_TYPES siblings olds news [true; false; true; false]) k = Some (seg, sib, ho, hn, d) ->
          let f := match k with
                   | O => leaf_f q seg sib ho hn d DLeaf (akey H p) other (akey H p - other)%fr ho data None None
                   | 3%nat => leaf3s_f q sib ho hn d key so_ kk (match srows with [] => last_tail H key so_ old new | _ => T0 end)
                   | _ => leaf_f q seg sib ho hn d AccountFields (akey H p) other f0 f0 f0 None None
                   end in
          (exists m, view e (ol + Z.of_nat k) m) /\ reads e (ol + Z.of_nat k) f) /\
        (forall j row, nth_error srows j = Some row -> (exists m, view e (os + Z.of_nat j) m) /\ reads e (os + Z.of_nat j) (strie_f j row)) /\
        (forall path a b c, c_kind (pf_claim p) = KStorage a b c -> storage_leaf_path old new = Some path -> exists oh nh, storage_leaf_hashes H path old new = Some (oh, nh) /\
          (exists m, view e (os + Z.of_nat (length srows)) m) /\ reads e (os + Z.of_nat (length srows)) (sleaf_f path oh nh)).
      Proof.
        destruct (ba_leaf _ _ _ _ _ _ _ _ B NA) as (q & dirs & siblings & st & A1 & A2 & A3 & A4 & A6 & A5). cbv zeta in A5.
        rewrite dirs_storage in A2. apply some_eq in A2. subst dirs. cbn [length] in A4, A6. change (Z.of_nat 4) with 4 in A4, A6.
        pose proof (nn_rows p _ NA dirs_storage) as NR. unfold even_proof in L. rewrite <- L in NR. cbn [length] in NR. rewrite St in A4, NR. cbn [sp_n_rows] in NR.
        destruct (storage_view _ _ _ _ _ _ _ _ _ A4) as (so & So & V). cbn [sp_other_key] in So. apply some_eq in So. fold so_ in So. subst so.
        exists q, siblings. split; [exact A1|]. split; [exact A3|]. split; [|split].
        - intros k seg sib ho hn d Hk. cbv zeta. destruct (A5 k seg sib ho hn d Hk) as (c & C1 & C2).
          assert (Kl : (k < 4)%nat).
          { assert (X : nth_error (izip5 SEGMENT_TYPES siblings olds news [true; false; true; false]) k <> None) by congruence. apply nth_error_Some in X. unfold izip5 in X. rewrite combine_length in X. cbn [length] in X. lia. }
          assert (Sg : nth_error SEGMENT_TYPES k = Some seg).
          { clear - Hk. unfold izip5 in Hk. assert (G : forall {X Y} (a : list X) (b : list Y) k x y, nth_error (combine a b) k = Some (x, y) -> nth_error a k = Some x).
            { intros X Y a. induction a as [|a0 a IH]; intros [|b0 b] [|k0] x y E; try discriminate E; cbn in *; [congruence|eapply IH, E]. }
            eapply G, G, G, G, Hk. }
          assert (Ri : o <= ol + Z.of_nat k < o + Z.of_nat (proof_n_rows p)) by lia.
          unfold leaf_row_cells in C1. destruct k as [|[|[|[|k]]]]; cbn in Sg; try (destruct k; discriminate Sg); apply some_eq in Sg; subst seg; cbn [obind] in C1.
          + rewrite (sa_out _ _ _ _ _ _ _ _ _ V) in C2 by lia. apply some_eq in C1. subst c. eapply row_reads; [exact Ri|exact C2|]. exact (leaf0_as T skr_ ov_ nv_ q sib ho hn (fb d) (akey H p) other data (akey H p - other)%fr).
          + rewrite (sa_out _ _ _ _ _ _ _ _ _ V) in C2 by lia. apply some_eq in C1. subst c. eapply row_reads; [exact Ri|exact C2|]. exact (leaf12_as T skr_ ov_ nv_ AccountLeaf1 q sib ho hn (fb d) (akey H p) other (or_introl eq_refl)).
          + rewrite (sa_out _ _ _ _ _ _ _ _ _ V) in C2 by lia. apply some_eq in C1. subst c. eapply row_reads; [exact Ri|exact C2|]. exact (leaf12_as T skr_ ov_ nv_ AccountLeaf2 q sib ho hn (fb d) (akey H p) other (or_intror eq_refl)).
          + change (Z.of_nat 3) with 3 in C2. replace (ol + 3) with (os - 1) in C2 by lia. rewrite (sa_before _ _ _ _ _ _ _ _ _ V) in C2. replace (os - 1) with (ol + Z.of_nat 3) in C2 by lia.
            assert (Ec : c = [(A MU_domain, fdom AccountFields)] ++ leaf_as_cells AccountLeaf3 q sib ho hn (fb d) (akey H p) other
              ([(A MU_key, key)] ++ word_cells (iv 0) (iv 1) (sp 0) (sp 1) (Some (halves kk r)) ++ [(A MU_other_key, so_); (A (iv 2), fdom AccountFields)])).
            { rewrite St in C1. cbn [sp_key sp_other_key] in C1. fold so_ in C1. destruct Kd as [(a & b & K) | K]; rewrite K in C1; cbn [obind] in C1; rewrite word_as in C1; apply some_eq in C1; subst c; reflexivity. }
            assert (Cc : code_hash_cells (c_kind (pf_claim p)) r = []) by (destruct Kd as [(a & b & K) | K]; rewrite K; reflexivity).
            subst c. eapply row_reads; [exact Ri|exact C2|]. cbn [Nat.eqb]. rewrite Cc. unfold leaf3s_f.
            destruct srows; [rewrite last_as; exact (leaf3s_as T skr_ ov_ nv_ q sib ho hn (fb d) (akey H p) other key so_ (halves kk r) _)|exact (leaf3s_as T skr_ ov_ nv_ q sib ho hn (fb d) (akey H p) other key so_ (halves kk r) T0)].
        - intros j row Hj. assert (j < length srows)%nat by (apply nth_error_Some; congruence).
          destruct (sa_rows _ _ _ _ _ _ _ _ _ V j row Hj) as (c & C1 & C2). apply trie_cells_as in C1. subst c.
          eapply row_reads; [lia|rewrite A6 by (try reflexivity; lia); rewrite C2; reflexivity|]. unfold strie_f.
          destruct (trie_as T skr_ ov_ nv_ StorageTrie (tr_path row) (fz (Z.of_nat j + 1)) (ext2 row (nth_error srows (S j))) (tr_sibling row) (tr_old row) (tr_new row) (fb (tr_direction row)) (fdom (tr_domain row))
            key so_ (if (S j =? length srows)%nat then last_tail H key so_ old new else T0) eq_refl) as [_ X].
          destruct (S j =? length srows)%nat; [rewrite last_as|]; exact X.
        - intros path a b c K P. destruct (sa_leaf _ _ _ _ _ _ _ _ _ V path P) as (oh & nh & last & L1 & L2 & L3). exists oh, nh. split; [exact L1|].
          apply leaf_l_as in L2. subst last.
          assert (1 <= Nat.max (sl_n_rows old) (sl_n_rows new))%nat by (destruct old, new; cbn in P |- *; try discriminate P; lia).
          eapply row_reads; [lia|rewrite A6 by (try reflexivity; lia); rewrite L3; reflexivity|]. unfold sleaf_f, sleaf_cells. rewrite !word_of_as.
          pose proof (sleaf_as skr_ ov_ nv_ path (match path with ExtensionNew => sl_key H new | _ => sl_key H old end) oh nh (leaf_word old r) (leaf_word new r)
            (oh - ZERO_PAIR_HASH H)%fr (nh - ZERO_PAIR_HASH H)%fr (leaf_l H path key old new oh nh) key so_) as X.
          unfold claim_cells. fold skr_ ov_ nv_. rewrite K. exact X.
      Qed.
    End Storage.
  End Leaf.
End Block.
