(* C33-C36: contents of the lists collected from the proofs. *)
From Coq Require Import ZArith List Bool Lia Sorted.
From Verif Require Import Pocklington Fr Query Builder Gadgets MptUpdate Bytes TrieSpec Util UtilProofs Serde Trie Storage Types TrieProofs TypesProofs Lookups LookupProofs HonestTrace.
Import ListNotations.
Open Scope Z_scope.

(** * Specification *)
(* strictly increasing in an order that distinguishes different elements; hence without duplicates *)
Definition strictly_sorted {X} (cmp : X -> X -> comparison) (l : list X) : Prop := StronglySorted (fun a b => cmp a b = Lt) l.
(* the hash of a trace is the hash of its inputs *)
Definition trace_ok (H : Fr -> Fr -> Fr -> Fr) (t : Trace) : Prop := let '((l, r), d, h) := t in h = H l r d.
(* the storage part was made for the hashed storage key (a 256-bit word) *)
Definition storage_key_ok (H : Fr -> Fr -> Fr -> Fr) (s : StorageProof) : Prop :=
  match s with SRoot _ => True | SUpdate storage_key key _ _ _ => 0 <= storage_key < 2 ^ 256 /\ key = slot_key H storage_key end.
(* the two children of the node that a row replaces, [x] on the path *)
Definition children (right : bool) (sibling x : Fr) : Fr * Fr := if right then (sibling, x) else (x, sibling).
(* row k of a trie segment and the path type of the row after it *)
Definition next_path (rows : TrieRows) (k : nat) : option PathType := option_map tr_path (nth_error rows (S k)).
(* the hashes that row k stands for are in the list: the old node (unless only the new path goes this deep) and the new node *)
Definition row_hashed (H : Fr -> Fr -> Fr -> Fr) (l : list Trace) (rows : TrieRows) (k : nat) (row : TrieRow) : Prop :=
  exists od nd, hash_domains row (next_path rows k) = Some (od, nd) /\
    (tr_path row <> ExtensionNew ->
       let c := children (tr_direction row) (tr_sibling row) (tr_old row) in In (c, fdom od, H (fst c) (snd c) (fdom od)) l) /\
    (tr_path row <> ExtensionOld ->
       let c := children (tr_direction row) (tr_sibling row) (tr_new row) in In (c, fdom nd, H (fst c) (snd c) (fdom nd)) l).
Definition rows_hashed H l rows : Prop := forall k row, nth_error rows k = Some row -> row_hashed H l rows k row.
Definition leaf_hashed H (l : list Trace) (x : StorageLeaf) : Prop :=
  match x with
  | SEmpty _ => True
  | SLeaf k v => In ((k, v), fdom DLeaf, H k v (fdom DLeaf)) l
  | SEntry k v => 0 <= k < 2 ^ 256 -> 0 <= v < 2 ^ 256 ->
      In ((fz (v / 2 ^ 128), fz (v mod 2 ^ 128)), fdom DPair, word_hash H v) l /\
      In ((slot_key H k, word_hash H v), fdom DLeaf, H (slot_key H k) (word_hash H v) (fdom DLeaf)) l
  end.
(* an account hash [l; r; h] whose domain is d and for which no other of the three domains gives the same hash *)
Definition only_domain (H : Fr -> Fr -> Fr -> Fr) (l r h : Fr) (d : HashDomain) : Prop :=
  H l r (fdom d) = h /\ forall d', In d' [AccountFields; DLeaf; DPair] -> H l r (fdom d') = h -> d' = d.

(** * Proofs *)
Lemma with_domain_ok H t : (let '(l, r, d, h) := t in h = H l r (fdom d)) -> trace_ok H (with_domain t).
Proof. destruct t as [[[l r] d] h]. intros ->. reflexivity. Qed.
Lemma trie_lookups_ok H rows : forall l, trie_poseidon_lookups H rows = Some l -> Forall (fun t => let '(l, r, d, h) := t in h = H l r (fdom d)) l.
Proof.
  induction rows as [|row rows IH]; intros l E; cbn [trie_poseidon_lookups] in E; [assert (l = []) as -> by congruence; constructor|].
  destruct (order (tr_direction row) (tr_sibling row) (tr_old row)) as [ol or]. destruct (order (tr_direction row) (tr_sibling row) (tr_new row)) as [nl nr].
  destruct (match tr_path row with PathStart => None | _ => _ end) as [here|] eqn:Q; [|discriminate E]. cbn [obind] in E.
  destruct (trie_poseidon_lookups H rows) as [there|]; [|discriminate E]. cbn [obind] in E. assert (l = here ++ there) as -> by congruence.
  apply Forall_app. split; [|apply IH; reflexivity].
  destruct (tr_path row).
  - discriminate Q.
  - destruct (match rows with [] => _ | _ => _ end) as [ds|]; [|discriminate Q]. cbn [obind] in Q.
    apply (f_equal (fun x => match x with Some y => y | None => [] end)) in Q. cbn in Q. subst here. repeat constructor.
  - apply (f_equal (fun x => match x with Some y => y | None => [] end)) in Q. cbn in Q. subst here. repeat constructor.
  - apply (f_equal (fun x => match x with Some y => y | None => [] end)) in Q. cbn in Q. subst here. repeat constructor.
Qed.
Lemma obind_some {A B} (x : option A) (f : A -> option B) y : (a <- x; f a) = Some y -> exists a, x = Some a /\ f a = Some y.
Proof. destruct x as [a|]; [|discriminate]. intros E. exists a. auto. Qed.
Ltac ob H := let a := fresh "a" in let E := fresh "E" in apply obind_some in H; destruct H as (a & E & H).
Lemma some_eq {A} (a b : A) : Some a = Some b -> a = b. Proof. congruence. Qed.
Lemma leaf_lookups_ok H x l : sl_poseidon_lookups H x = Some l -> Forall (fun t => let '(l, r, d, h) := t in h = H l r (fdom d)) l.
Proof.
  intros E. destruct x as [k|k v|k v]; cbn [sl_poseidon_lookups] in E.
  - apply some_eq in E. subst l. constructor.
  - ob E. apply some_eq in E. subst l. cbn [sl_hash sl_value_hash obind] in E0. apply some_eq in E0. subst a. repeat constructor.
  - ob E. ob E. apply some_eq in E. subst l. cbn [sl_hash] in E1. rewrite E0 in E1. cbn [obind] in E1. apply some_eq in E1. subst a0.
    constructor; [|repeat constructor]. cbn [sl_value_hash] in E0. unfold sl_value_high, sl_value_low. cbn [sl_value].
    destruct (u256_hi_lo v) as [hi lo]. apply some_eq in E0. subst a. reflexivity.
Qed.
Lemma storage_hash_ok H s l : storage_key_ok H s -> sp_poseidon_lookups H s = Some l -> Forall (fun t => let '(l, r, d, h) := t in h = H l r (fdom d)) l.
Proof.
  intros K E. destruct s as [r|sk key rows o n]; cbn [sp_poseidon_lookups] in E; [apply some_eq in E; subst l; constructor|].
  destruct (u256_hi_lo sk) as [hi lo] eqn:Q. ob E. ob E. ob E. apply some_eq in E. subst l. constructor.
  - destruct K as [K1 K2]. rewrite K2. rewrite u256_hi_lo_spec in Q by exact K1.
    assert (hi = sk / 2 ^ 128 /\ lo = sk mod 2 ^ 128) as [-> ->] by (split; congruence). reflexivity.
  - apply Forall_app. split; [exact (trie_lookups_ok H _ _ E0)|]. apply Forall_app. split; eapply leaf_lookups_ok; eassumption.
Qed.
Lemma account_trace_ok H t x : In x (account_trace H t) -> trace_ok H x.
Proof.
  unfold account_trace, domain_hash. intros Hx.
  repeat match type of Hx with context [feqb ?a ?b] => destruct (feqb a b) eqn:?Q end;
    cbn in Hx; try contradiction; destruct Hx as [<-|[]]; symmetry; apply feqb_eq; assumption.
Qed.
Theorem hash_traces_ok H proofs l : hash_traces H proofs = Some l -> Forall (fun p => storage_key_ok H (pf_storage p)) proofs -> Forall (trace_ok H) l.
Proof.
  intros E K. unfold hash_traces in E. ob E. apply some_eq in E. subst l. apply Forall_forall. intros x Hx.
  apply (proj1 (sort_dedup_in _ cmp_ok_trace _ _)) in Hx. destruct Hx as [<-|Hx]; [reflexivity|].
  apply (proj1 (oconcat_in _ _ _ _ E0)) in Hx. destruct Hx as (p & o & Hp & Eo & Hx). rewrite Forall_forall in K. specialize (K p Hp).
  unfold proof_hash_traces in Eo. ob Eo. ob Eo. apply some_eq in Eo. subst o.
  apply trie_lookups_ok in E. apply (storage_hash_ok H _ _ K) in E1. rewrite Forall_forall in E, E1.
  rewrite !in_app_iff in Hx. destruct Hx as [Hx|[Hx|[Hx|[Hx|[Hx|[Hx|Hx]]]]]].
  - apply in_map_iff in Hx. destruct Hx as (t & <- & Ht). apply with_domain_ok, E, Ht.
  - apply in_map_iff in Hx. destruct Hx as (t & <- & Ht). apply with_domain_ok, E1, Ht.
  - destruct Hx as [<-|[]]. reflexivity.
  - unfold leaf_trace in Hx. destruct (pth_leaf_data_hash (pf_old p)); [|contradiction]. destruct Hx as [<-|[]]. reflexivity.
  - unfold leaf_trace in Hx. destruct (pth_leaf_data_hash (pf_new p)); [|contradiction]. destruct Hx as [<-|[]]. reflexivity.
  - apply in_flat_map in Hx. destruct Hx as (t & _ & Ht). exact (account_trace_ok H t x Ht).
  - apply in_flat_map in Hx. destruct Hx as (t & _ & Ht). exact (account_trace_ok H t x Ht).
Qed.
Theorem hash_traces_sorted H proofs l : hash_traces H proofs = Some l -> strictly_sorted cmp_trace l /\ NoDup l.
Proof.
  intros E. unfold hash_traces in E. ob E. apply some_eq in E. subst l.
  split; [apply (sort_dedup_sorted _ cmp_ok_trace)|apply (sort_dedup_nodup _ cmp_ok_trace)].
Qed.
Lemma hash_traces_in H proofs l p o : hash_traces H proofs = Some l -> In p proofs -> proof_hash_traces H p = Some o -> incl o l.
Proof.
  intros E Hp Eo. unfold hash_traces in E. ob E. apply some_eq in E. subst l.
  destruct (oconcat_some _ _ _ p E0 Hp) as (o' & Eo' & I). rewrite Eo in Eo'. apply some_eq in Eo'. subst o'.
  intros x Hx. apply (proj2 (sort_dedup_in _ cmp_ok_trace _ _)). right. apply I, Hx.
Qed.
Lemma hash_traces_proof H proofs l p : hash_traces H proofs = Some l -> In p proofs -> exists o, proof_hash_traces H p = Some o /\ incl o l.
Proof.
  intros E Hp. assert (E' := E). unfold hash_traces in E. ob E.
  destruct (oconcat_some _ _ _ p E0 Hp) as (o' & Eo' & I). exists o'. split; [exact Eo'|]. exact (hash_traces_in H proofs l p o' E' Hp Eo').
Qed.
Theorem hash_traces_zero H proofs l : hash_traces H proofs = Some l -> In ((f0, f0), fdom DPair, H f0 f0 (fdom DPair)) l.
Proof.
  intros E. unfold hash_traces in E. ob E. apply some_eq in E. subst l. apply (proj2 (sort_dedup_in _ cmp_ok_trace _ _)). left. reflexivity.
Qed.
(* the lookups of trie rows *)
Lemma rows_hashed_incl H l l' rows : incl l l' -> rows_hashed H l rows -> rows_hashed H l' rows.
Proof. intros I R k row E. destruct (R k row E) as (od & nd & A & B & C). exists od, nd. split; [exact A|]. split; intros X; apply I; auto. Qed.
Lemma trie_lookups_cover H rows : forall l, trie_poseidon_lookups H rows = Some l -> rows_hashed H (map with_domain l) rows.
Proof.
  induction rows as [|row rows IH]; intros l E; cbn [trie_poseidon_lookups] in E; [intros [|k] r Er; discriminate Er|].
  destruct (order (tr_direction row) (tr_sibling row) (tr_old row)) as [ol or] eqn:Oo.
  destruct (order (tr_direction row) (tr_sibling row) (tr_new row)) as [nl nr] eqn:On.
  destruct (match tr_path row with PathStart => None | _ => _ end) as [here|] eqn:Q; [|discriminate E]. cbn [obind] in E.
  destruct (trie_poseidon_lookups H rows) as [there|] eqn:Q2; [|discriminate E]. cbn [obind] in E. apply some_eq in E. subst l.
  rewrite map_app. intros [|k] r Er; cbn [nth_error] in Er.
  2:{ specialize (IH there eq_refl k r Er). destruct IH as (od & nd & A1 & B & C). exists od, nd. split; [exact A1|].
      split; intros X; apply in_or_app; right; auto. }
  apply some_eq in Er. subst r. unfold order in Oo, On.
  assert (Co : children (tr_direction row) (tr_sibling row) (tr_old row) = (ol, or)) by exact Oo.
  assert (Cn : children (tr_direction row) (tr_sibling row) (tr_new row) = (nl, nr)) by exact On.
  unfold row_hashed. rewrite Co, Cn. unfold next_path. cbn [nth_error fst snd]. unfold hash_domains.
  destruct (tr_path row) eqn:P.
  - discriminate Q.
  - ob Q. apply some_eq in Q. subst here. exists (fst a), (snd a). split.
    + destruct a as [da db]. cbn [fst snd]. destruct rows as [|nx rest]; cbn [option_map]; [exact E|].
      destruct (tr_path nx); [discriminate E|exact E|exact E|exact E].
    + split; intros _; apply in_or_app; left; cbn; auto.
  - apply some_eq in Q. subst here. exists (tr_domain row), (tr_domain row). split; [reflexivity|]. split; [|congruence].
    intros _. apply in_or_app; left; cbn; auto.
  - apply some_eq in Q. subst here. exists (tr_domain row), (tr_domain row). split; [reflexivity|]. split; [congruence|].
    intros _. apply in_or_app; left; cbn; auto.
Qed.
Theorem account_rows_covered H proofs l p : hash_traces H proofs = Some l -> In p proofs -> rows_hashed H l (pf_account_trie_rows p).
Proof.
  intros E Hp. destruct (hash_traces_proof H proofs l p E Hp) as (o & Eo & I). unfold proof_hash_traces in Eo. ob Eo. ob Eo. apply some_eq in Eo.
  apply (rows_hashed_incl H (map with_domain a)); [|apply trie_lookups_cover, E0].
  intros x Hx. apply I. rewrite <- Eo. apply in_or_app. auto.
Qed.
Lemma leaf_lookups_cover H x l : sl_poseidon_lookups H x = Some l -> leaf_hashed H (map with_domain l) x.
Proof.
  intros E. destruct x as [k|k v|k v]; cbn [sl_poseidon_lookups] in E.
  - exact I.
  - ob E. apply some_eq in E. subst l. cbn [sl_hash sl_value_hash obind] in E0. apply some_eq in E0. subst a. left. reflexivity.
  - ob E. ob E. apply some_eq in E. subst l. cbn [sl_hash] in E1. rewrite E0 in E1. cbn [obind] in E1. apply some_eq in E1. subst a0.
    cbn [sl_value_hash] in E0. cbn [leaf_hashed]. cbn [map with_domain]. unfold sl_value_high, sl_value_low. cbn [sl_value sl_key].
    intros Rk Rv. rewrite u256_hi_lo_spec in E0 |- * by exact Rv. apply some_eq in E0. subst a. unfold storage_key_hash. rewrite split_word_spec by exact Rk.
    split; [left; reflexivity|right; left; reflexivity].
Qed.
Lemma leaf_hashed_incl H l l' x : incl l l' -> leaf_hashed H l x -> leaf_hashed H l' x.
Proof. intros I L. destruct x; cbn [leaf_hashed] in *; [exact Logic.I|apply I, L|]. intros Rk Rv. destruct (L Rk Rv). split; apply I; assumption. Qed.
Theorem storage_covered H proofs l p storage_key key rows old new : hash_traces H proofs = Some l -> In p proofs ->
  pf_storage p = SUpdate storage_key key rows old new ->
  (0 <= storage_key < 2 ^ 256 -> In ((fz (storage_key / 2 ^ 128), fz (storage_key mod 2 ^ 128)), fdom DPair, key) l) /\
  rows_hashed H l rows /\ leaf_hashed H l old /\ leaf_hashed H l new.
Proof.
  intros E Hp Es. destruct (hash_traces_proof H proofs l p E Hp) as (o & Eo & Inc). unfold proof_hash_traces in Eo. ob Eo. ob Eo. apply some_eq in Eo.
  rewrite Es in E1. cbn [sp_poseidon_lookups] in E1. destruct (u256_hi_lo storage_key) as [hi lo] eqn:Ek. ob E1. ob E1. ob E1. apply some_eq in E1.
  assert (J : incl (map with_domain a0) l).
  { intros x Hx. apply Inc. rewrite <- Eo. apply in_or_app. right. apply in_or_app. auto. }
  rewrite <- E1 in J. cbn [map] in J. rewrite !map_app in J. split.
  { intros Rk. rewrite u256_hi_lo_spec in Ek by exact Rk. assert (hi = storage_key / 2 ^ 128 /\ lo = storage_key mod 2 ^ 128) as [-> ->] by (split; congruence).
    apply J. left. reflexivity. }
  split; [|split].
  - apply (rows_hashed_incl H (map with_domain a1)); [|apply trie_lookups_cover, E2]. intros x Hx. apply J. right. apply in_or_app. auto.
  - apply (leaf_hashed_incl H (map with_domain a2)); [|apply leaf_lookups_cover, E3]. intros x Hx. apply J. right. apply in_or_app. right. apply in_or_app. auto.
  - apply (leaf_hashed_incl H (map with_domain a3)); [|apply leaf_lookups_cover, E4]. intros x Hx. apply J. right. apply in_or_app. right. apply in_or_app. auto.
Qed.
Theorem address_covered H proofs l p : hash_traces H proofs = Some l -> In p proofs ->
  In ((fz (address_high (c_address (pf_claim p))), fz (address_low (c_address (pf_claim p)) * 2 ^ 96)), fdom DPair, account_key H (c_address (pf_claim p))) l.
Proof.
  intros E Hp. destruct (hash_traces_proof H proofs l p E Hp) as (o & Eo & Inc). unfold proof_hash_traces in Eo. ob Eo. ob Eo. apply some_eq in Eo.
  apply Inc. rewrite <- Eo. apply in_or_app. right. apply in_or_app. right. apply in_or_app. left. left.
  unfold fr_from_u128. rewrite Z.shiftl_mul_pow2 by lia. reflexivity.
Qed.
Theorem leaf_covered H proofs l p q d : hash_traces H proofs = Some l -> In p proofs -> q = pf_old p \/ q = pf_new p ->
  pth_leaf_data_hash q = Some d -> In ((pth_key q, d), fdom DLeaf, H (pth_key q) d (fdom DLeaf)) l.
Proof.
  intros E Hp Hq Ed. destruct (hash_traces_proof H proofs l p E Hp) as (o & Eo & Inc). unfold proof_hash_traces in Eo. ob Eo. ob Eo. apply some_eq in Eo.
  apply Inc. rewrite <- Eo. rewrite !in_app_iff. do 3 right. unfold leaf_trace.
  destruct Hq as [<-|<-]; [left|right; left]; rewrite Ed; left; reflexivity.
Qed.
Theorem account_covered H proofs l p t l1 r1 h d : hash_traces H proofs = Some l -> In p proofs ->
  In t (pf_old_account_hash_traces p) \/ In t (pf_new_account_hash_traces p) -> t = [l1; r1; h] -> In d [AccountFields; DLeaf; DPair] ->
  only_domain H l1 r1 h d -> In ((l1, r1), fdom d, h) l.
Proof.
  intros E Hp Ht -> Hd [Eh Only]. destruct (hash_traces_proof H proofs l p E Hp) as (o & Eo & Inc). unfold proof_hash_traces in Eo. ob Eo. ob Eo. apply some_eq in Eo.
  apply Inc. rewrite <- Eo. rewrite !in_app_iff. do 5 right.
  assert (X : In (l1, r1, fdom d, h) (account_trace H [l1; r1; h])).
  { unfold account_trace. cbn [nth]. unfold domain_hash.
    destruct (feqb (H l1 r1 (fdom AccountFields)) h) eqn:Q1; [apply feqb_eq in Q1; rewrite <- (Only AccountFields ltac:(cbn; auto) Q1); left; reflexivity|].
    destruct (feqb (H l1 r1 (fdom DLeaf)) h) eqn:Q2; [apply feqb_eq in Q2; rewrite <- (Only DLeaf ltac:(cbn; auto) Q2); left; reflexivity|].
    destruct (feqb (H l1 r1 (fdom DPair)) h) eqn:Q3; [apply feqb_eq in Q3; rewrite <- (Only DPair ltac:(cbn; auto) Q3); left; reflexivity|].
    exfalso. cbn in Hd. destruct Hd as [<-|[<-|[<-|[]]]]; rewrite Eh, feqb_refl in *; discriminate. }
  destruct Ht as [Ht|Ht]; [left|right]; apply in_flat_map; exists [l1; r1; h]; auto.
Qed.

(** * C34 *)
(* row k of a trie segment looks up bit k of the key, and of the other key while the two paths run together *)
Definition row_bits (l : list (Fr * Z * bool)) (rows : TrieRows) (key other_key : Fr) : Prop :=
  forall k row, nth_error rows k = Some row ->
    In (key, Z.of_nat k, tr_direction row) l /\ (tr_path row = Common -> In (other_key, Z.of_nat k, tr_direction row) l).
(* one of the two paths goes deeper than the other only on the side where the account itself is *)
Definition extension_is_own (key : Fr) (p : Proof) : Prop :=
  (forall row, In row (pf_account_trie_rows p) -> tr_path row = ExtensionOld -> pth_key (pf_old p) = key) /\
  (forall row, In row (pf_account_trie_rows p) -> tr_path row = ExtensionNew -> pth_key (pf_new p) = key).

Lemma oconcat_from_nth {A B} (f : nat -> A -> option (list B)) : forall l i out k x, oconcat_from f i l = Some out -> nth_error l k = Some x ->
  exists o, f (i + k)%nat x = Some o /\ incl o out.
Proof.
  induction l as [|y l IH]; intros i out k x E Hx; [destruct k; discriminate Hx|]. cbn [oconcat_from] in E. ob E. ob E. apply some_eq in E. subst out.
  destruct k as [|k]; cbn [nth_error] in Hx.
  - apply some_eq in Hx. subst y. rewrite Nat.add_0_r. exists a. split; [exact E0|apply incl_appl, incl_refl].
  - destruct (IH (S i) a0 k x E1 Hx) as (o & A1 & A2). exists o. rewrite Nat.add_succ_r. split; [exact A1|apply incl_appr, A2].
Qed.
Lemma oconcat_from_in {A B} (f : nat -> A -> option (list B)) y : forall l i out, oconcat_from f i l = Some out -> In y out ->
  exists k x o, nth_error l k = Some x /\ f (i + k)%nat x = Some o /\ In y o.
Proof.
  induction l as [|x l IH]; intros i out E Hy; cbn [oconcat_from] in E; [apply some_eq in E; subst out; contradiction|].
  ob E. ob E. apply some_eq in E. subst out. apply in_app_iff in Hy. destruct Hy as [Hy|Hy].
  - exists O, x, a. rewrite Nat.add_0_r. auto.
  - destruct (IH (S i) a0 E1 Hy) as (k & x' & o & A1 & A2 & A3). exists (S k), x', o. rewrite Nat.add_succ_r. auto.
Qed.
Lemma key_bits_proof H proofs l p : key_bit_lookups H proofs = Some l -> In p proofs -> exists o, proof_key_bits H p = Some o /\ incl o l.
Proof.
  intros E Hp. unfold key_bit_lookups in E. ob E. apply some_eq in E. subst l. destruct (oconcat_some _ _ _ p E0 Hp) as (o & Eo & I).
  exists o. split; [exact Eo|]. intros x Hx. apply (proj2 (sort_dedup_in _ cmp_ok_lookup _ _)). right. right. apply I, Hx.
Qed.
Theorem key_bits_sorted H proofs l : key_bit_lookups H proofs = Some l ->
  strictly_sorted cmp_lookup l /\ NoDup l /\ hd_error l = Some (f0, 0, false).
Proof.
  intros E. unfold key_bit_lookups in E. ob E. apply some_eq in E. subst l.
  split; [apply (sort_dedup_sorted _ cmp_ok_lookup)|]. split; [apply (sort_dedup_nodup _ cmp_ok_lookup)|].
  apply (sort_dedup_hd _ cmp_ok_lookup); [left; reflexivity|].
  intros [[x i] b] Hx. cut (0 <= i).
  { intros Hi. unfold cmp_lookup, cmp_pair. cbn [fst snd]. unfold cmp_fr. pose proof (val_range x). change (val f0) with 0.
    destruct (Z.compare_spec 0 (val x)); [|discriminate|lia]. destruct (Z.compare_spec 0 i); [|discriminate|lia]. destruct b; discriminate. }
  destruct Hx as [Hx|[Hx|Hx]]; [injection Hx; lia|injection Hx; lia|].
  apply (proj1 (oconcat_in _ _ _ _ E0)) in Hx. destruct Hx as (p & o & Hp & Eo & Hx). unfold proof_key_bits in Eo. ob Eo. apply some_eq in Eo. subst o.
  apply in_app_iff in Hx. destruct Hx as [Hx|Hx].
  - destruct (oconcat_from_in _ _ _ _ _ E Hx) as (k & t & o & _ & Eo & Ho). unfold trace_key_bits in Eo.
    destruct (ht_padding_open t), (ht_padding_close t); try discriminate Eo; apply some_eq in Eo; subst o.
    + destruct Ho as [Ho|[]]. injection Ho. lia.
    + destruct Ho as [Ho|[]]. injection Ho. lia.
    + apply in_map_iff in Ho. destruct Ho as (y & Ho & _). injection Ho. lia.
  - unfold sp_key_bit_lookups in Hx. destruct (pf_storage p) as [|sk key rows o n]; [contradiction|]. revert Hx. unfold trie_key_bit_lookups. generalize O.
    induction rows as [|row rows IH]; intros j Hx; cbn [trie_key_bit_lookups_from] in Hx; [contradiction|]. apply in_app_iff in Hx. destruct Hx as [Hx|Hx]; [|exact (IH _ Hx)].
    destruct (tr_path row); cbn in Hx; [contradiction| | |]; repeat (destruct Hx as [Hx|Hx]; [injection Hx; lia|]); contradiction.
Qed.
Lemma trie_bits rows : forall i key other k row, nth_error rows k = Some row -> tr_path row <> PathStart ->
  In (key, Z.of_nat (i + k), tr_direction row) (trie_key_bit_lookups_from i rows key other) /\
  (tr_path row = Common -> In (other, Z.of_nat (i + k), tr_direction row) (trie_key_bit_lookups_from i rows key other)).
Proof.
  induction rows as [|r rows IH]; intros i key other k row Hk Hp; [destruct k; discriminate Hk|]. cbn [trie_key_bit_lookups_from].
  destruct k as [|k]; cbn [nth_error] in Hk.
  - apply some_eq in Hk. subst r. rewrite Nat.add_0_r. destruct (tr_path row); [congruence| | |]; (split; [apply in_or_app; left; cbn; auto|intros E; try discriminate E; apply in_or_app; left; cbn; auto]).
  - destruct (IH (S i) key other k row Hk Hp) as [A1 A2]. rewrite Nat.add_succ_r. split; [apply in_or_app; right; exact A1|].
    intros E. apply in_or_app. right. exact (A2 E).
Qed.
Theorem storage_bits_covered H proofs l p storage_key key rows old new other : key_bit_lookups H proofs = Some l -> In p proofs ->
  pf_storage p = SUpdate storage_key key rows old new -> sp_other_key H (pf_storage p) = Some other ->
  (forall row, In row rows -> tr_path row <> PathStart) -> row_bits l rows key other.
Proof.
  intros E Hp Es Eo Ns k row Hk. destruct (key_bits_proof H proofs l p E Hp) as (o & Ek & I). unfold proof_key_bits in Ek. ob Ek. apply some_eq in Ek.
  rewrite Es in Eo, Ek. cbn [sp_other_key] in Eo. apply some_eq in Eo. cbn [sp_key_bit_lookups] in Ek. rewrite Eo in Ek.
  destruct (trie_bits rows 0 key other k row Hk (Ns row (nth_error_In _ _ Hk))) as [A1 A2]. rewrite Nat.add_0_l in A1, A2.
  split; [|intros C; specialize (A2 C)]; apply I; rewrite <- Ek; apply in_or_app; right; assumption.
Qed.
(* the parts of a converted trace *)
Lemma oassert_some b a : oassert b = Some a -> b = true. Proof. unfold oassert. destruct b; [reflexivity|discriminate]. Qed.
Record from_trace (H : Fr -> Fr -> Fr -> Fr) (t : MPTProofType) (tr : SMTTrace) (p : Proof) (p0 p1 : SMTPath) (lh0 lh1 : Fr) : Prop := {
  ft_claim : claim_from t tr = Some (pf_claim p);
  ft_storage : storage_proof_from H tr = Some (pf_storage p);
  ft_paths : t_account_path tr = (p0, p1);
  ft_key : fr (t_account_key tr) = Some (account_key H (c_address (pf_claim p)));
  ft_rows : trie_rows_new H (account_key H (c_address (pf_claim p))) (p_path p0) (p_path p1) (p_leaf p0) (p_leaf p1) = Some (pf_account_trie_rows p);
  ft_leaf0 : get_leaf p0 = Some (fst (pf_leafs p));
  ft_leaf1 : get_leaf p1 = Some (snd (pf_leafs p));
  ft_lh0 : leaf_hash H p0 = Some lh0;
  ft_lh1 : leaf_hash H p1 = Some lh1;
  ft_traces : get_internal_hash_traces (account_key H (c_address (pf_claim p))) lh0 lh1 (p_path p0) (p_path p1) = Some (pf_address_hash_traces p);
  ft_check : check_hash_traces_new H (pf_address_hash_traces p) = Some tt;
  ft_old_traces : traces_of H (c_address (pf_claim p)) (fst (t_account_update tr)) (sp_old_root H (pf_storage p)) (fst (pf_leafs p)) = Some (pf_old_account_hash_traces p);
  ft_new_traces : traces_of H (c_address (pf_claim p)) (snd (t_account_update tr)) (sp_new_root H (pf_storage p)) (snd (pf_leafs p)) = Some (pf_new_account_hash_traces p);
  ft_old_leaf : at2 (pf_old_account_hash_traces p) 5 2 = lh0;
  ft_new_leaf : at2 (pf_new_account_hash_traces p) 5 2 = lh1;
  ft_old : path_from H (c_address (pf_claim p)) p0 = Some (pf_old p);
  ft_new : path_from H (c_address (pf_claim p)) p1 = Some (pf_new p);
  ft_old_account : account_of (fst (t_account_update tr)) (sp_old_root H (pf_storage p)) = Some (pf_old_account p);
  ft_new_account : account_of (snd (t_account_update tr)) (sp_new_root H (pf_storage p)) = Some (pf_new_account p) }.
Lemma proof_from_inv H t tr p : proof_from H t tr = Some p -> exists p0 p1 lh0 lh1, from_trace H t tr p p0 p1 lh0 lh1.
Proof.
  intros E. unfold proof_from in E.
  apply obind_some in E; destruct E as (claim & E1 & E). apply obind_some in E; destruct E as (storage & E2 & E).
  apply obind_some in E; destruct E as (tkey & E3 & E). apply obind_some in E; destruct E as (u & E4 & E). apply oassert_some, feqb_eq in E4. subst tkey.
  destruct (t_account_path tr) as [p0 p1] eqn:Ep. apply obind_some in E; destruct E as (rows & E5 & E).
  apply obind_some in E; destruct E as (l0 & E6 & E). apply obind_some in E; destruct E as (l1 & E7 & E).
  apply obind_some in E; destruct E as (lh0 & E8 & E). apply obind_some in E; destruct E as (lh1 & E9 & E).
  apply obind_some in E; destruct E as (traces & E10 & E). apply obind_some in E; destruct E as ([] & E11 & E).
  destruct (t_account_update tr) as [oa na] eqn:Eu.
  apply obind_some in E; destruct E as (ot & E12 & E). apply obind_some in E; destruct E as (nt & E13 & E).
  apply obind_some in E; destruct E as (u1 & E14 & E). apply oassert_some, feqb_eq in E14.
  apply obind_some in E; destruct E as (u2 & E15 & E). apply oassert_some, feqb_eq in E15.
  apply obind_some in E; destruct E as (old & E16 & E). apply obind_some in E; destruct E as (new & E17 & E).
  apply obind_some in E; destruct E as (oe & E18 & E). apply obind_some in E; destruct E as (ne & E19 & E).
  apply some_eq in E. subst p. exists p0, p1, lh0, lh1.
  constructor; cbn [pf_claim pf_address_hash_traces pf_leafs pf_old_account_hash_traces pf_new_account_hash_traces pf_storage pf_old pf_new pf_old_account pf_new_account pf_account_trie_rows fst snd]; try rewrite Eu; assumption.
Qed.
Lemma rows_not_start H key olds news ol nl rows : trie_rows_new H key olds news ol nl = Some rows -> forall row, In row rows -> tr_path row <> PathStart.
Proof.
  intros E row Hr P. assert (E' := E). unfold trie_rows_new in E'. ob E'. ob E'.
  pose proof (traces_agree H key olds news ol nl _ _ E0 E1) as A. rewrite E in A. destruct (get_internal_hash_traces key a a0 olds news) as [ts|]; [|exact A].
  clear - A Hr P. revert A. generalize (rev ts). intros l A. induction A as [|x y l l' S A IH]; [contradiction|]. destruct Hr as [->|Hr]; [|exact (IH Hr)].
  unfold same_level in S. rewrite P in S. tauto.
Qed.
Lemma storage_rows_not_start H tr sk key rows o n : storage_proof_from H tr = Some (SUpdate sk key rows o n) -> forall row, In row rows -> tr_path row <> PathStart.
Proof.
  intros E. unfold storage_proof_from in E. destruct (t_common_state_root tr); [ob E; discriminate E|].
  ob E. ob E. ob E. ob E. apply obind_some in E; destruct E as (rs & Er & E). do 7 ob E.
  do 6 ob E. apply some_eq in E. assert (rs = rows) by congruence. subst rs. exact (rows_not_start _ _ _ _ _ _ _ Er).
Qed.
Theorem account_bits_covered H proofs l p t tr other : key_bit_lookups H proofs = Some l -> In p proofs -> proof_from H t tr = Some p ->
  extension_is_own (account_key H (c_address (pf_claim p))) p -> other = pth_key (pf_old p) \/ other = pth_key (pf_new p) ->
  row_bits l (pf_account_trie_rows p) (account_key H (c_address (pf_claim p))) other.
Proof.
  intros E Hp F [X1 X2] Ho k row Hk. destruct (proof_from_inv _ _ _ _ F) as (p0 & p1 & lh0 & lh1 & T). set (key := account_key H (c_address (pf_claim p))) in *.
  destruct (key_bits_proof H proofs l p E Hp) as (o & Ek & I). unfold proof_key_bits in Ek. ob Ek. apply some_eq in Ek.
  assert (S : map shape (rev (pf_address_hash_traces p)) = map row_shape (pf_account_trie_rows p)).
  { pose proof (ft_rows _ _ _ _ _ _ _ _ T) as Er. assert (Er' := Er). unfold trie_rows_new in Er'. apply obind_some in Er'. destruct Er' as (xo & Eo & Er').
    apply obind_some in Er'. destruct Er' as (xn & En & _).
    pose proof (traces_shape H key (p_path p0) (p_path p1) (p_leaf p0) (p_leaf p1) lh0 lh1 _ _ Eo En) as S.
    pose proof (ft_traces _ _ _ _ _ _ _ _ T) as Et. fold key in Et, Er. rewrite Et, Er in S. exact S. }
  assert (Hs : nth_error (map row_shape (pf_account_trie_rows p)) k = Some (row_shape row)) by (rewrite nth_error_map, Hk; reflexivity).
  rewrite <- S, nth_error_map in Hs. destruct (nth_error (rev (pf_address_hash_traces p)) k) as [ht|] eqn:Ht; [|discriminate Hs].
  cbn [option_map] in Hs. apply some_eq in Hs. destruct (oconcat_from_nth _ _ _ _ _ _ E0 Ht) as (bits & Eb & J). rewrite Nat.add_0_l in Eb.
  assert (J' : incl bits l) by (intros x Hx; apply I; rewrite <- Ek; apply in_or_app; left; apply J, Hx).
  unfold shape, row_shape in Hs. assert (D : ht_direction ht = tr_direction row) by congruence.
  assert (PO : ht_padding_open ht = path_eqb (tr_path row) ExtensionNew) by congruence.
  assert (PC : ht_padding_close ht = path_eqb (tr_path row) ExtensionOld) by congruence.
  unfold trace_key_bits in Eb. rewrite PO, PC, D in Eb. clear Hs PO PC. fold key in Eb.
  assert (N := rows_not_start _ _ _ _ _ _ _ (ft_rows _ _ _ _ _ _ _ _ T) row (nth_error_In _ _ Hk)).
  specialize (X1 row (nth_error_In _ _ Hk)). specialize (X2 row (nth_error_In _ _ Hk)).
  destruct (tr_path row); [congruence| | |]; cbn [path_eqb] in Eb; apply some_eq in Eb.
  - split; [|intros _]; apply J'; rewrite <- Eb; apply in_map_iff; [exists key|exists other]; (split; [reflexivity|]).
    + destruct (existsb (feqb key) _) eqn:Q; [|apply in_or_app; right; left; reflexivity].
      apply existsb_exists in Q. destruct Q as (y & Hy & Q). apply feqb_eq in Q. rewrite Q. exact Hy.
    + assert (In other [pth_key (pf_old p); pth_key (pf_new p)]) by (destruct Ho as [-> | ->]; cbn; auto).
      destruct (existsb (feqb key) _); [assumption|apply in_or_app; left; assumption].
  - split; [|discriminate]. apply J'. rewrite <- Eb. left. rewrite (X1 eq_refl). reflexivity.
  - split; [|discriminate]. apply J'. rewrite <- Eb. left. rewrite (X2 eq_refl). reflexivity.
Qed.

(** * C35 *)
Lemma proof_keys_in H proofs p x : In p proofs -> In x (proof_keys H p) -> In x (mpt_update_keys H proofs).
Proof.
  intros Hp Hx. unfold mpt_update_keys. apply (proj2 (sort_dedup_in _ cmp_ok_fr _ _)). right. right. apply in_flat_map. exists p. auto.
Qed.
Lemma trie_bits_key rows x j b : forall i key other, In (x, j, b) (trie_key_bit_lookups_from i rows key other) -> x = key \/ x = other.
Proof.
  induction rows as [|r rows IH]; intros i key other Hx; cbn [trie_key_bit_lookups_from] in Hx; [contradiction|]. apply in_app_iff in Hx. destruct Hx as [Hx|Hx]; [|exact (IH _ _ _ Hx)].
  destruct (tr_path r); cbn in Hx; intuition congruence.
Qed.
Theorem keys_cover_bits H proofs l key i b : key_bit_lookups H proofs = Some l -> In (key, i, b) l -> In key (mpt_update_keys H proofs).
Proof.
  intros E Hx. unfold key_bit_lookups in E. ob E. apply some_eq in E. subst l. apply (proj1 (sort_dedup_in _ cmp_ok_lookup _ _)) in Hx.
  destruct Hx as [Hx|[Hx|Hx]].
  - assert (key = f0) as -> by congruence. apply (proj2 (sort_dedup_in _ cmp_ok_fr _ _)). left. reflexivity.
  - assert (key = f1) as -> by congruence. apply (proj2 (sort_dedup_in _ cmp_ok_fr _ _)). right. left. reflexivity.
  - apply (proj1 (oconcat_in _ _ _ _ E0)) in Hx. destruct Hx as (p & o & Hp & Eo & Hx). apply (proof_keys_in H proofs p key Hp). unfold proof_keys.
    unfold proof_key_bits in Eo. ob Eo. apply some_eq in Eo. subst o. apply in_app_iff in Hx. destruct Hx as [Hx|Hx].
    + destruct (oconcat_from_in _ _ _ _ _ E Hx) as (k & t & o & _ & Et & Ho). apply in_or_app. left. unfold trace_key_bits in Et.
      destruct (ht_padding_open t), (ht_padding_close t); try discriminate Et; apply some_eq in Et; subst o.
      * destruct Ho as [Ho|[]]. assert (key = pth_key (pf_new p)) by congruence. cbn. auto.
      * destruct Ho as [Ho|[]]. assert (key = pth_key (pf_old p)) by congruence. cbn. auto.
      * apply in_map_iff in Ho. destruct Ho as (y & Ho & Hy). assert (key = y) by congruence. subst y.
        destruct (existsb _ _); [|apply in_app_iff in Hy; destruct Hy as [Hy|Hy]]; cbn in Hy |- *; intuition.
    + apply in_or_app. right. apply in_or_app. left. unfold sp_key_bit_lookups in Hx. destruct (pf_storage p) as [|sk k rows so sn]; [contradiction|].
      apply trie_bits_key in Hx. cbn [sp_key_lookups]. destruct Hx as [-> | ->]; cbn; auto.
Qed.
Theorem keys_cover_roots H proofs p : In p proofs ->
  In (c_old_root (pf_claim p)) (mpt_update_keys H proofs) /\ In (c_new_root (pf_claim p)) (mpt_update_keys H proofs).
Proof.
  intros Hp. split; apply (proof_keys_in H proofs p _ Hp); unfold proof_keys; rewrite !in_app_iff; right; right; cbn; auto.
Qed.
Theorem keys_sorted H proofs : strictly_sorted cmp_fr (mpt_update_keys H proofs) /\ NoDup (mpt_update_keys H proofs) /\ In f0 (mpt_update_keys H proofs) /\ In f1 (mpt_update_keys H proofs).
Proof.
  split; [apply (sort_dedup_sorted _ cmp_ok_fr)|]. split; [apply (sort_dedup_nodup _ cmp_ok_fr)|].
  split; apply (proj2 (sort_dedup_in _ cmp_ok_fr _ _)); cbn; auto.
Qed.

(** * C36 *)
Lemma omap_from_in {A B} (f : nat -> A -> option B) x : forall l i out, omap_from f i l = Some out -> In x l -> exists j y, f j x = Some y /\ In y out.
Proof.
  induction l as [|z l IH]; intros i out E Hx; [contradiction|]. cbn [omap_from] in E. ob E. ob E. apply some_eq in E. subst out.
  destruct Hx as [->|Hx]; [exists i, a; cbn; auto|]. destruct (IH _ _ E1 Hx) as (j & y & A1 & A2). exists j, y. cbn. auto.
Qed.
Lemma reprs_in proofs r p : byte_representations proofs = Some r -> In p proofs -> exists o, proof_reprs p = Some o /\ incl (re_u32s o) (re_u32s r) /\ incl (re_u64s o) (re_u64s r) /\ incl (re_u128s o) (re_u128s r) /\ incl (re_frs o) (re_frs r).
Proof.
  intros E Hp. unfold byte_representations in E. ob E. apply some_eq in E. subst r. cbn [re_u32s re_u64s re_u128s re_frs].
  destruct (omap_from_in _ p _ _ _ E0 Hp) as (_ & o & Eo & Ho). exists o. split; [exact Eo|].
  split; [|split; [|split]]; intros x Hx.
  - apply (proj2 (sort_dedup_in _ cmp_ok_z _ _)), in_flat_map. eauto.
  - apply (proj2 (sort_dedup_in _ cmp_ok_z _ _)), in_flat_map. eauto.
  - apply (proj2 (sort_dedup_in _ cmp_ok_z _ _)). right. apply in_flat_map. eauto.
  - apply (proj2 (sort_dedup_in _ cmp_ok_fr _ _)), in_flat_map. eauto.
Qed.
Theorem reprs_sorted proofs r : byte_representations proofs = Some r ->
  strictly_sorted Z.compare (re_u32s r) /\ strictly_sorted Z.compare (re_u64s r) /\ strictly_sorted Z.compare (re_u128s r) /\ strictly_sorted cmp_fr (re_frs r) /\ In 0 (re_u128s r).
Proof.
  intros E. unfold byte_representations in E. ob E. apply some_eq in E. subst r. cbn [re_u32s re_u64s re_u128s re_frs].
  split; [apply (sort_dedup_sorted _ cmp_ok_z)|]. split; [apply (sort_dedup_sorted _ cmp_ok_z)|]. split; [apply (sort_dedup_sorted _ cmp_ok_z)|].
  split; [apply (sort_dedup_sorted _ cmp_ok_fr)|]. apply (proj2 (sort_dedup_in _ cmp_ok_z _ _)). left. reflexivity.
Qed.
(* the two 128-bit halves of a word are in the list *)
Definition halves_in (w : Z) (l : list Z) : Prop := In (w / 2 ^ 128) l /\ In (w mod 2 ^ 128) l.
(* the accounts of a proof *)
Definition account_of_proof (p : Proof) (a : EthAccount) : Prop := pf_old_account p = Some a \/ pf_new_account p = Some a.
(* everything the rows of p compare with a byte table *)
Definition bytes_covered (p : Proof) (r : Reprs) : Prop :=
  In (address_high (c_address (pf_claim p))) (re_u128s r) /\ In (address_low (c_address (pf_claim p))) (re_u32s r) /\ match proof_type_of (c_kind (pf_claim p)) with
  | NonceChanged | CodeSizeExists => forall a, account_of_proof p a -> In (ea_nonce a) (re_u64s r) /\ In (ea_code_size a) (re_u64s r)
  | BalanceChanged => forall a, account_of_proof p a -> In (ea_balance a) (re_frs r)
  | CodeHashExists => forall a, account_of_proof p a -> 0 <= ea_keccak_codehash a < 2 ^ 256 -> halves_in (ea_keccak_codehash a) (re_u128s r)
  | StorageChanged =>
      (0 <= claim_storage_key (pf_claim p) < 2 ^ 256 -> halves_in (claim_storage_key (pf_claim p)) (re_u128s r)) /\     exists sk key rows o n, pf_storage p = SUpdate sk key rows o n /\ forall x, x = o \/ x = n -> 0 <= sl_value x < 2 ^ 256 -> halves_in (sl_value x) (re_u128s r)
  | StorageDoesNotExist => 0 <= claim_storage_key (pf_claim p) < 2 ^ 256 -> halves_in (claim_storage_key (pf_claim p)) (re_u128s r)
  | _ => True
  end.
Lemma hi_lo_halves w l : 0 <= w < 2 ^ 256 -> incl (hi_lo_list w) l -> halves_in w l.
Proof. intros Hw I. unfold hi_lo_list in I. rewrite u256_hi_lo_spec in I by exact Hw. split; apply I; cbn [fst snd In]; auto. Qed.
Lemma both_account {A} (f : EthAccount -> list A) p a : account_of_proof p a -> incl (f a) (of_account f (pf_old_account p) ++ of_account f (pf_new_account p)).
Proof. intros [E|E]; rewrite E; cbn [of_account]; [apply incl_appl|apply incl_appr]; apply incl_refl. Qed.
Theorem reprs_cover proofs r p : byte_representations proofs = Some r -> In p proofs -> bytes_covered p r.
Proof.
  intros E Hp. destruct (reprs_in _ _ _ E Hp) as (o & Eo & I1 & I2 & I3 & I4). clear E. unfold proof_reprs in Eo. unfold bytes_covered.
  set (high := address_high _) in *. set (low := address_low _) in *.
  destruct (proof_type_of (c_kind (pf_claim p))).
  - apply some_eq in Eo. subst o. cbn [re_u32s re_u64s re_u128s re_frs] in *. split; [apply I3; cbn; auto|]. split; [apply I1; cbn; auto|].
    intros a Ha. pose proof (both_account (fun a => [ea_nonce a; ea_code_size a]) p a Ha) as B. split; apply I2, B; cbn; auto.
  - apply some_eq in Eo. subst o. cbn [re_u32s re_u64s re_u128s re_frs] in *. split; [apply I3; cbn; auto|]. split; [apply I1; cbn; auto|].
    intros a Ha. pose proof (both_account (fun a => [ea_balance a]) p a Ha) as B. apply I4, B. cbn. auto.
  - apply some_eq in Eo. subst o. cbn [re_u32s re_u64s re_u128s re_frs] in *. split; [apply I3; cbn; auto|]. split; [apply I1; cbn; auto|].
    intros a Ha Hr. pose proof (both_account (fun a => hi_lo_list (ea_keccak_codehash a)) p a Ha) as B. apply (hi_lo_halves _ _ Hr). intros x Hx. apply I3. apply in_or_app. right. apply B, Hx.
  - apply some_eq in Eo. subst o. cbn [re_u32s re_u64s re_u128s re_frs] in *. split; [apply I3; cbn; auto|]. split; [apply I1; cbn; auto|]. exact Logic.I.
  - apply some_eq in Eo. subst o. cbn [re_u32s re_u64s re_u128s re_frs] in *. split; [apply I3; cbn; auto|]. split; [apply I1; cbn; auto|].
    intros a Ha. pose proof (both_account (fun a => [ea_nonce a; ea_code_size a]) p a Ha) as B. split; apply I2, B; cbn; auto.
  - apply some_eq in Eo. subst o. cbn [re_u32s re_u64s re_u128s re_frs] in *. split; [apply I3; cbn; auto|]. split; [apply I1; cbn; auto|]. exact Logic.I.
  - destruct (pf_storage p) as [|sk key rows so sn]; [discriminate Eo|].
    apply some_eq in Eo. subst o. cbn [re_u32s re_u64s re_u128s re_frs] in *. split; [apply I3; cbn; auto|]. split; [apply I1; cbn; auto|].
    split.
    + intros Hr. apply (hi_lo_halves _ _ Hr). intros x Hx. apply I3. rewrite !in_app_iff. auto.
    + exists sk, key, rows, so, sn. split; [reflexivity|]. intros x Hx Hr. apply (hi_lo_halves _ _ Hr). intros y Hy. apply I3. rewrite !in_app_iff.
      destruct Hx as [-> | ->]; auto.
  - apply some_eq in Eo. subst o. cbn [re_u32s re_u64s re_u128s re_frs] in *. split; [apply I3; cbn; auto|]. split; [apply I1; cbn; auto|].
    intros Hr. apply (hi_lo_halves _ _ Hr). intros x Hx. apply I3. rewrite !in_app_iff. auto.
  - apply some_eq in Eo. subst o. cbn [re_u32s re_u64s re_u128s re_frs] in *. split; [apply I3; cbn; auto|]. split; [apply I1; cbn; auto|]. exact Logic.I.
Qed.

(** * Cases *)
Definition ex_bad_trace : SMTTrace :=
  let t := storage_trace_of toy (ex_state ex_account) (ex_state (set_storage (Node (Leaf (slot_key toy 9) 12) (Leaf (fz 1) 11)) ex_account)) 77 9 in
  mkTrace (t_address t) (t_account_key t) (t_account_path t) (t_account_update t) (t_state_path t) None (Some (fr_to_bytes (fz 6))) (t_state_update t).
(* a trace that is not the hash of its inputs *)
Definition trace_okb (H : Fr -> Fr -> Fr -> Fr) (t : Trace) : bool := let '((l, r), d, h) := t in feqb h (H l r d).
Definition checkb (o : option bool) : bool := match o with Some b => b | None => false end.
Theorem state_key_unchecked : exists tr p l, proof_from toy StorageChanged tr = Some p /\ hash_traces toy [p] = Some l /\ ~ Forall (trace_ok toy) l.
Proof.
  exists ex_bad_trace.
  assert (X : checkb (p <- proof_from toy StorageChanged ex_bad_trace; l <- hash_traces toy [p]; Some (negb (forallb (trace_okb toy) l))) = true) by (vm_compute; reflexivity).
  destruct (proof_from toy StorageChanged ex_bad_trace) as [p|]; [|discriminate X]. cbn [obind] in X. exists p.
  destruct (hash_traces toy [p]) as [l|]; [|discriminate X]. cbn [obind checkb] in X. exists l. split; [reflexivity|]. split; [reflexivity|].
  intros F. assert (Y : forallb (trace_okb toy) l = true) by (apply forallb_forall; intros [[[x1 x2] x3] x4] Hx; rewrite Forall_forall in F; apply feqb_eq; exact (F _ Hx)).
  rewrite Y in X. discriminate X.
Qed.
Definition ex_other_states : tree account * tree account :=
  let left := Node (Leaf (fz 4) ex_account) Empty in
  (Node left Empty, Node left (Node (Leaf (fz 1) ex_account) (Leaf (fz 3) ex_account))).
(* an account is inserted next to the path of an absent account *)
Definition bitb (x y : Fr * Z * bool) : bool := match cmp_lookup x y with Eq => true | _ => false end.
Definition row_bitsb (l : list (Fr * Z * bool)) (rows : TrieRows) (key : Fr) (k : nat) : bool :=
  match nth_error rows k with Some row => existsb (bitb (key, Z.of_nat k, tr_direction row)) l | None => true end.
Lemma row_bits_b l rows key other k : row_bits l rows key other -> row_bitsb l rows key k = true.
Proof.
  intros R. unfold row_bitsb. destruct (nth_error rows k) as [row|] eqn:E; [|reflexivity]. destruct (R k row E) as [X _].
  apply existsb_exists. eexists. split; [exact X|]. unfold bitb. rewrite (proj2 (cmp_eq _ cmp_ok_lookup _ _) eq_refl). reflexivity.
Qed.
Definition other_trace := account_trace_of toy (fst ex_other_states) (snd ex_other_states) 77.
Theorem other_extension : exists tr p l, proof_from toy AccountDoesNotExist tr = Some p /\ key_bit_lookups toy [p] = Some l /\
  ~ row_bits l (pf_account_trie_rows p) (account_key toy (c_address (pf_claim p))) (pth_key (pf_new p)).
Proof.
  exists other_trace.
  assert (X : checkb (p <- proof_from toy AccountDoesNotExist other_trace; l <- key_bit_lookups toy [p];
    Some (negb (row_bitsb l (pf_account_trie_rows p) (account_key toy (c_address (pf_claim p))) 1))) = true) by (vm_compute; reflexivity).
  destruct (proof_from toy AccountDoesNotExist other_trace) as [p|]; [|discriminate X]. cbn [obind] in X. exists p.
  destruct (key_bit_lookups toy [p]) as [l|]; [|discriminate X]. cbn [obind checkb] in X. exists l. split; [reflexivity|]. split; [reflexivity|].
  intros R. rewrite (row_bits_b _ _ _ _ 1 R) in X. discriminate X.
Qed.
(* converted traces of the two example updates *)
Definition ex_nonce_trace := account_trace_of toy (ex_state ex_account) (ex_state (set_nonce 8 ex_account)) 77.
Definition ex_storage_trace :=
  storage_trace_of toy (ex_state ex_account) (ex_state (set_storage (Node (Leaf (slot_key toy 9) 12) (Leaf (fz 1) 11)) ex_account)) 77 9.
(* the hypotheses of the theorems hold for the two proofs together *)
Definition storage_key_okb (H : Fr -> Fr -> Fr -> Fr) (s : StorageProof) : bool :=
  match s with SRoot _ => true | SUpdate sk key _ _ _ => (0 <=? sk) && (sk <? 2 ^ 256) && feqb key (slot_key H sk) end.
Definition ex_case : bool :=
  checkb (p <- proof_from toy NonceChanged ex_nonce_trace; q <- proof_from toy StorageChanged ex_storage_trace;
          l <- hash_traces toy [p; q]; b <- key_bit_lookups toy [p; q]; r <- byte_representations [p; q];
          Some (forallb (fun p => storage_key_okb toy (pf_storage p)) [p; q]
                && (10 <=? Z.of_nat (length l)) && (4 <=? Z.of_nat (length b)) && (4 <=? Z.of_nat (length (re_u128s r)))
                && (Z.of_nat (length (pf_account_trie_rows q)) =? 2)
                && forallb (fun row => path_eqb (tr_path row) Common) (pf_account_trie_rows p ++ pf_account_trie_rows q))).
Theorem lookups_case : exists p q l b r,
  proof_from toy NonceChanged ex_nonce_trace = Some p /\ proof_from toy StorageChanged ex_storage_trace = Some q /\
  hash_traces toy [p; q] = Some l /\ key_bit_lookups toy [p; q] = Some b /\ byte_representations [p; q] = Some r /\
  Forall (fun p => storage_key_ok toy (pf_storage p)) [p; q] /\
  Forall (fun p => extension_is_own (account_key toy (c_address (pf_claim p))) p) [p; q] /\
  length (pf_account_trie_rows q) = 2%nat /\ 10 <= Z.of_nat (length l) /\ 4 <= Z.of_nat (length b) /\ 4 <= Z.of_nat (length (re_u128s r)).
Proof.
  assert (X : ex_case = true) by (vm_compute; reflexivity). unfold ex_case in X.
  destruct (proof_from toy NonceChanged ex_nonce_trace) as [p|]; [|discriminate X]. cbn [obind] in X.
  destruct (proof_from toy StorageChanged ex_storage_trace) as [q|]; [|discriminate X]. cbn [obind] in X. exists p, q.
  destruct (hash_traces toy [p; q]) as [l|]; [|discriminate X]. cbn [obind] in X. exists l.
  destruct (key_bit_lookups toy [p; q]) as [b|]; [|discriminate X]. cbn [obind] in X. exists b.
  destruct (byte_representations [p; q]) as [r|]; [|discriminate X]. cbn [obind checkb] in X. exists r.
  do 5 (split; [reflexivity|]). apply andb_prop in X. destruct X as [X Xp]. apply andb_prop in X. destruct X as [X X5]. apply andb_prop in X. destruct X as [X X4].
  apply andb_prop in X. destruct X as [X X3]. apply andb_prop in X. destruct X as [X1 X2].
  split.
  { apply Forall_forall. intros x Hx. rewrite forallb_forall in X1. specialize (X1 x Hx). unfold storage_key_okb in X1. unfold storage_key_ok. destruct (pf_storage x) as [|sk key rows o n]; [exact I|].
    apply andb_prop in X1. destruct X1 as [X1 Xk]. apply andb_prop in X1. destruct X1 as [Xa Xb]. apply Z.leb_le in Xa. apply Z.ltb_lt in Xb. apply feqb_eq in Xk. auto. }
  split.
  { rewrite forallb_forall in Xp. assert (Y : forall x row, In x [p; q] -> In row (pf_account_trie_rows x) -> tr_path row = Common).
    { intros x row Hx Hr. specialize (Xp row). destruct (tr_path row); [|reflexivity| |]; exfalso; enough (false = true) by discriminate; apply Xp; apply in_or_app; destruct Hx as [->|[->|[]]]; auto. }
    apply Forall_forall. intros x Hx. split; intros row Hr P; rewrite (Y x row Hx Hr) in P; discriminate P. }
  apply Z.eqb_eq in X5. apply Z.leb_le in X2, X3, X4. split; [lia|auto].
Qed.
