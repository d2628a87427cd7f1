(* The account hash traces and the account trie rows; the claim of a trace. *)
From Coq Require Import ZArith List Bool Lia.
From Verif Require Import Pocklington Fr Query Builder Gadgets MptUpdate Bytes Util UtilProofs Serde Trie Storage Types TrieProofs.
Import ListNotations.
Open Scope Z_scope.

(** * C32 *)
(* a trace and a trie row describe the same level *)
Definition same_level (t : HashTrace) (r : TrieRow) : Prop :=
  ht_direction t = tr_direction r /\ ht_domain t = tr_domain r /\ ht_open t = tr_old r /\ ht_close t = tr_new r /\
  ht_sibling t = tr_sibling r /\
  match tr_path r with
  | PathStart => False
  | Common => ht_padding_open t = false /\ ht_padding_close t = false
  | ExtensionOld => ht_padding_open t = false /\ ht_padding_close t = true
  | ExtensionNew => ht_padding_open t = true /\ ht_padding_close t = false
  end.

Lemma map_seq_S {B} (f : nat -> B) i n : map f (seq (S i) n) = map (fun k => f (S k)) (seq i n).
Proof. rewrite <- seq_shift, map_map. reflexivity. Qed.
Lemma zip_cons {A} (a b : A) x y : zip_longest (a :: x) (b :: y) = (Some a, Some b) :: zip_longest x y.
Proof. unfold zip_longest. cbn [length Nat.max seq map nth_error]. f_equal. apply (map_seq_S (fun i => (nth_error (a :: x) i, nth_error (b :: y) i))). Qed.
Lemma zip_nil_r {A} (a : A) x : zip_longest (a :: x) [] = (Some a, None) :: zip_longest x [].
Proof.
  unfold zip_longest. rewrite !Nat.max_0_r. cbn [length seq map nth_error]. f_equal. rewrite map_seq_S. apply map_ext. intros k. destruct k; reflexivity.
Qed.
Lemma zip_nil_l {A} (b : A) y : zip_longest [] (b :: y) = (None, Some b) :: zip_longest [] y.
Proof.
  unfold zip_longest. rewrite !Nat.max_0_l. cbn [length seq map nth_error]. f_equal. rewrite map_seq_S. apply map_ext. intros k. destruct k; reflexivity.
Qed.

Definition agree (ts : option (list HashTrace)) (rows : option TrieRows) : Prop :=
  match ts, rows with
  | Some ts, Some rows => Forall2 same_level ts rows
  | None, None => True
  | _, _ => False
  end.
Definition agree1 (t : option HashTrace) (row : option TrieRow) : Prop :=
  match t, row with Some t, Some r => same_level t r | None, None => True | _, _ => False end.

Section Agree.
  Variable H : Fr -> Fr -> Fr -> Fr.
  Variables (key lo ln : Fr) (a b : nat).
  Notation it := (internal_hash_trace key lo ln a b).
  Lemma agree_cons t row ts rows : agree1 t row -> agree ts rows ->
    agree (y <- t; ys <- ts; Some (y :: ys)) (r <- row; rs <- rows; Some (r :: rs)).
  Proof.
    destruct t, row; cbn [agree1 obind]; try contradiction; [|intros; exact I].
    intros A. destruct ts, rows; cbn [agree obind]; try contradiction; intros; [constructor; assumption|exact I].
  Qed.
  Lemma agree_both i old new : agree1 (it i (Some old, Some new)) (both_row key i a b old new).
  Proof.
    unfold internal_hash_trace, both_row. cbv zeta.
    destruct (oassert (bytes_eqb (n_sibling old) (n_sibling new))); [|exact I].
    destruct (domain_of_u64 (n_type old)) as [d|]; [|exact I]. destruct (domain_of_u64 (n_type new)) as [d'|]; [|exact I].
    cbn [obind]. destruct (dom_eqb d d'); cbn [negb]; cbn [obind].
    - destruct (fr (n_value old)); [|exact I]. destruct (fr (n_value new)); [|exact I]. destruct (fr (n_sibling old)); [|exact I].
      cbn. repeat split.
    - destruct (oassert (negb (a =? b)%nat)); [|exact I]. cbn [obind]. destruct (oassert (i =? Nat.min a b - 1)%nat); [|exact I]. cbn [obind].
      destruct (i =? a - 1)%nat.
      + destruct (oassert (check_domain_consistency d d' (fr_bit key i))); [|exact I]. cbn [obind].
        destruct (fr (n_value old)); [|exact I]. destruct (fr (n_value new)); [|exact I]. destruct (fr (n_sibling old)); [|exact I]. cbn. repeat split.
      + destruct (oassert (check_domain_consistency d' d (fr_bit key i))); [|exact I]. cbn [obind].
        destruct (fr (n_value old)); [|exact I]. destruct (fr (n_value new)); [|exact I]. destruct (fr (n_sibling old)); [|exact I]. cbn. repeat split.
  Qed.
  Lemma agree_new news : forall i, agree (omap_from it i (zip_longest [] news)) (ext_new_rows key lo i news).
  Proof.
    induction news as [|nd news IH]; intros i; [cbn; constructor|]. rewrite zip_nil_l. cbn [omap_from ext_new_rows]. specialize (IH (S i)).
    unfold internal_hash_trace at 1.
    destruct (domain_of_u64 (n_type nd)); [|exact I]. destruct (fr (n_value nd)); [|exact I]. destruct (fr (n_sibling nd)); [|exact I]. cbn [obind].
    destruct (omap_from it (S i) _), (ext_new_rows key lo (S i) news); cbn [agree obind] in *; try contradiction; [|exact I].
    constructor; [|exact IH]. cbn. repeat split.
  Qed.
  Lemma agree_old olds : forall i, agree (omap_from it i (zip_longest olds [])) (trie_rows_from key lo ln i a b olds []).
  Proof.
    induction olds as [|nd olds IH]; intros i; [cbn; constructor|]. rewrite zip_nil_r. cbn [omap_from trie_rows_from]. specialize (IH (S i)).
    unfold internal_hash_trace at 1.
    destruct (domain_of_u64 (n_type nd)); [|exact I]. destruct (fr (n_value nd)); [|exact I]. destruct (fr (n_sibling nd)); [|exact I]. cbn [obind].
    destruct (omap_from it (S i) _), (trie_rows_from key lo ln (S i) a b olds []); cbn [agree obind] in *; try contradiction; [|exact I].
    constructor; [|exact IH]. cbn. repeat split.
  Qed.
  Lemma agree_from olds : forall i news, agree (omap_from it i (zip_longest olds news)) (trie_rows_from key lo ln i a b olds news).
  Proof.
    induction olds as [|old olds IH]; intros i news.
    - rewrite rows_from_nil. apply agree_new.
    - destruct news as [|new news]; [apply agree_old|]. rewrite zip_cons. cbn [omap_from trie_rows_from].
      apply agree_cons; [apply agree_both|apply IH].
  Qed.
End Agree.

Theorem traces_agree H key olds news old_leaf new_leaf lo ln :
  path_end_hash H olds old_leaf = Some lo -> path_end_hash H news new_leaf = Some ln ->
  match get_internal_hash_traces key lo ln olds news, trie_rows_new H key olds news old_leaf new_leaf with
  | Some traces, Some rows => Forall2 same_level (rev traces) rows
  | None, None => True
  | _, _ => False
  end.
Proof.
  intros Eo En. unfold get_internal_hash_traces, trie_rows_new. rewrite Eo, En. cbn [obind].
  pose proof (agree_from key lo ln (length olds) (length news) olds 0 news) as A. unfold agree in A.
  destruct (omap_from _ 0 _), (trie_rows_from _ _ _ _ _ _ _ _); cbn [obind]; try contradiction; auto. rewrite rev_involutive. exact A.
Qed.
(* the number of rows never differs, nor the verdict, whatever the leaf hashes *)
Definition shape (t : HashTrace) : bool * HashDomain * Fr * bool * bool := (ht_direction t, ht_domain t, ht_sibling t, ht_padding_open t, ht_padding_close t).
Lemma omap_shape key lo ln lo' ln' a b l : forall i,
  match omap_from (internal_hash_trace key lo ln a b) i l, omap_from (internal_hash_trace key lo' ln' a b) i l with
  | Some t, Some t' => map shape t = map shape t'
  | None, None => True
  | _, _ => False
  end.
Proof.
  induction l as [|e l IH]; intros i; [reflexivity|]. cbn [omap_from]. specialize (IH (S i)).
  assert (X : match internal_hash_trace key lo ln a b i e, internal_hash_trace key lo' ln' a b i e with
              | Some t, Some t' => shape t = shape t' | None, None => True | _, _ => False end).
  { destruct e as [[old|] [new|]]; cbn [internal_hash_trace]; try exact I.
    - destruct (obind _ _); [reflexivity|exact I].
    - destruct (domain_of_u64 _); [|exact I]. destruct (fr _); [|exact I]. destruct (fr _); [|exact I]. reflexivity.
    - destruct (domain_of_u64 _); [|exact I]. destruct (fr _); [|exact I]. destruct (fr _); [|exact I]. reflexivity. }
  destruct (internal_hash_trace key lo ln a b i e), (internal_hash_trace key lo' ln' a b i e); cbn [obind]; try contradiction; [|exact I].
  destruct (omap_from _ (S i) l), (omap_from _ (S i) l); cbn [obind]; try contradiction; [|exact I]. cbn [map]. rewrite X, IH. reflexivity.
Qed.
Definition row_shape (r : TrieRow) : bool * HashDomain * Fr * bool * bool :=
  (tr_direction r, tr_domain r, tr_sibling r, path_eqb (tr_path r) ExtensionNew, path_eqb (tr_path r) ExtensionOld).
Theorem traces_shape H key olds news old_leaf new_leaf lo ln lo' ln' :
  path_end_hash H olds old_leaf = Some lo' -> path_end_hash H news new_leaf = Some ln' ->
  match get_internal_hash_traces key lo ln olds news, trie_rows_new H key olds news old_leaf new_leaf with
  | Some traces, Some rows => map shape (rev traces) = map row_shape rows
  | None, None => True
  | _, _ => False
  end.
Proof.
  intros Eo En. pose proof (traces_agree H key olds news old_leaf new_leaf lo' ln' Eo En) as A.
  unfold get_internal_hash_traces in *.
  pose proof (omap_shape key lo ln lo' ln' (length olds) (length news) (zip_longest olds news) 0) as S.
  destruct (omap_from (internal_hash_trace key lo ln _ _) _ _), (omap_from (internal_hash_trace key lo' ln' _ _) _ _); cbn [obind] in *; try contradiction; [|exact A].
  destruct (trie_rows_new _ _ _ _ _ _); [|contradiction]. rewrite rev_involutive in *. rewrite S. clear S.
  induction A as [|t r ts rs X _ IH]; [reflexivity|]. cbn [map]. rewrite IH. f_equal.
  destruct X as (X1 & X2 & X3 & X4 & X5 & X6). unfold shape, row_shape. rewrite X1, X2, X5. destruct (tr_path r); try contradiction; destruct X6 as [-> ->]; reflexivity.
Qed.
(* without the hypothesis that the last node of a path carries its leaf's hash the two differ *)
Theorem leaf_hash_needed : exists H key olds news old_leaf new_leaf lo ln traces rows,
  end_hash H old_leaf = Some lo /\ end_hash H new_leaf = Some ln /\
  get_internal_hash_traces key lo ln olds news = Some traces /\ trie_rows_new H key olds news old_leaf new_leaf = Some rows /\
  exists t r, nth_error (rev traces) 1 = Some t /\ nth_error rows 1 = Some r /\ ht_open t <> tr_old r.
Proof.
  exists toy_sum, f0, [toy_node 7 1 6], [toy_node 0 1 8; toy_node 0 1 6], None, None.
  exists f0, f0. eexists. eexists. split; [reflexivity|]. split; [reflexivity|].
  split; [vm_compute; reflexivity|]. split; [vm_compute; reflexivity|]. eexists. eexists. split; [reflexivity|]. split; [reflexivity|].
  cbn. intros E. apply (f_equal val) in E. vm_compute in E. discriminate E.
Qed.
Lemma agree_case : exists H key olds news old_leaf new_leaf lo ln traces rows,
  path_end_hash H olds old_leaf = Some lo /\ path_end_hash H news new_leaf = Some ln /\
  get_internal_hash_traces key lo ln olds news = Some traces /\ trie_rows_new H key olds news old_leaf new_leaf = Some rows /\
  length rows = 3%nat /\ map tr_path rows = [Common; ExtensionNew; ExtensionNew].
Proof.
  exists toy_sum, f0, [toy_node 7 1 6], [toy_node 0 1 8; toy_node 0 1 8; toy_node 0 1 6], None, None.
  eexists. eexists. eexists. eexists. split; [vm_compute; reflexivity|]. split; [vm_compute; reflexivity|].
  split; [vm_compute; reflexivity|]. split; [vm_compute; reflexivity|]. split; reflexivity.
Qed.
