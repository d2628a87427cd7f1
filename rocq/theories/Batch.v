(* Batches of proofs: what the order, the repetition and the splitting of the proofs given to one circuit change, and exactly
   when the assignment of a batch succeeds.  Lemmas for PropsBatch.v. *)
From Coq Require Import ZArith List Bool Lia Sorted Permutation.
From Verif Require Import Pocklington Fr Query Builder BuilderProofs Gadgets MptUpdate Bytes Fixed GadgetProofs Util UtilProofs Serde Trie Storage Types Lookups LookupProofs
  Assign AssignProofs AssignOk AssignRegion GadgetMain GadgetMain2 UpdateAssign MptAssign MptModes MptRows MptCases.
From Verif Require Import HonestTrace BatchSpec UpdateProps TableSpec HonestSpec HonestMain ClaimSpec LookupMain ClaimTable.
Import ListNotations.
Open Scope Z_scope.

(** * Sorted lists *)
Section Ext.
  Context {X : Type} (cmp : X -> X -> comparison) (C : cmp_ok cmp).
  Lemma sorted_ext a : StronglySorted (lt cmp) a -> forall b, StronglySorted (lt cmp) b -> (forall x, In x a <-> In x b) -> a = b.
  Proof.
    induction 1 as [|x a S IH F]; intros b Sb I.
    - destruct b as [|y b]; [reflexivity|]. destruct (proj2 (I y) (or_introl eq_refl)).
    - destruct Sb as [|y b Sb Fb]; [destruct (proj1 (I x) (or_introl eq_refl))|]. rewrite Forall_forall in F, Fb.
      assert (N : forall z, ~ lt cmp z z) by (apply lt_irrefl; exact C).
      assert (E : x = y).
      { destruct (proj1 (I x) (or_introl eq_refl)) as [<-|Hx]; [reflexivity|]. destruct (proj2 (I y) (or_introl eq_refl)) as [->|Hy]; [reflexivity|].
        exfalso. apply (N x). exact (cmp_trans cmp C x y x (F y Hy) (Fb x Hx)). }
      subst y. f_equal. apply IH; [exact Sb|]. intros z. split; intros Hz.
      + destruct (proj1 (I z) (or_intror Hz)) as [->|Q]; [destruct (N z (F z Hz))|exact Q].
      + destruct (proj2 (I z) (or_intror Hz)) as [->|Q]; [destruct (N z (Fb z Hz))|exact Q].
  Qed.
  Lemma sort_dedup_ext l m : (forall x, In x l <-> In x m) -> sort_dedup cmp l = sort_dedup cmp m.
  Proof.
    intros I. apply sorted_ext; [apply sort_dedup_sorted; exact C|apply sort_dedup_sorted; exact C|]. intros x.
    rewrite (sort_dedup_in cmp C x l), (sort_dedup_in cmp C x m). apply I.
  Qed.
  Lemma sort_dedup_incl l m : incl l m -> (length (sort_dedup cmp l) <= length (sort_dedup cmp m))%nat.
  Proof.
    intros I. apply NoDup_incl_length; [apply sort_dedup_nodup; exact C|]. intros x Hx. apply (proj2 (sort_dedup_in cmp C x m)), I, (proj1 (sort_dedup_in cmp C x l)), Hx.
  Qed.
  Lemma sort_dedup_union l a b : incl l (a ++ b) -> (length (sort_dedup cmp l) <= length (sort_dedup cmp a) + length (sort_dedup cmp b))%nat.
  Proof.
    intros I. rewrite <- app_length. apply NoDup_incl_length; [apply sort_dedup_nodup; exact C|]. intros x Hx.
    apply (proj1 (sort_dedup_in cmp C x l)), I in Hx. apply in_app_iff in Hx. apply in_app_iff.
    destruct Hx as [Hx|Hx]; [left|right]; apply (proj2 (sort_dedup_in cmp C x _)), Hx.
  Qed.
End Ext.

(** * Concatenations that may fail *)
Section Concat.
  Context {A B : Type} (f : A -> option (list B)).
  Lemma oconcat_none l : oconcat f l = None <-> exists x, In x l /\ f x = None.
  Proof.
    induction l as [|y l IH]; cbn [oconcat].
    - split; [discriminate|intros (x & [] & _)].
    - destruct (f y) as [a|] eqn:Q; cbn [obind].
      + destruct (oconcat f l) as [b|]; cbn [obind].
        * split; [discriminate|]. intros (x & [->|Hx] & E); [congruence|]. assert (X : Some b = None) by (apply IH; eauto). discriminate X.
        * split; [intros _|reflexivity]. destruct (proj1 IH eq_refl) as (x & Hx & E). exists x. split; [right; exact Hx|exact E].
      + split; [intros _; exists y; split; [left; reflexivity|exact Q]|reflexivity].
  Qed.
  Lemma oconcat_incl l m b : incl l m -> oconcat f m = Some b -> exists a, oconcat f l = Some a /\ incl a b.
  Proof.
    intros I E. destruct (oconcat f l) as [a|] eqn:Q.
    - exists a. split; [reflexivity|]. intros y Hy. apply (proj1 (oconcat_in _ _ _ _ Q)) in Hy. destruct Hy as (x & o & Hx & Eo & Hy).
      apply (proj2 (oconcat_in _ _ _ _ E)). exists x, o. auto.
    - apply (proj1 (oconcat_none l)) in Q. destruct Q as (x & Hx & N). assert (X : oconcat f m = None) by (apply (proj2 (oconcat_none m)); eauto). congruence.
  Qed.
  Lemma oconcat_app l m : oconcat f (l ++ m) = obind (oconcat f l) (fun a => obind (oconcat f m) (fun b => Some (a ++ b))).
  Proof.
    induction l as [|x l IH]; cbn [oconcat app obind]; [destruct (oconcat f m); reflexivity|]. destruct (f x) as [a|]; cbn [obind]; [|reflexivity].
    rewrite IH. destruct (oconcat f l) as [b|]; cbn [obind]; [|reflexivity]. destruct (oconcat f m) as [c|]; cbn [obind]; [|reflexivity]. rewrite app_assoc. reflexivity.
  Qed.
End Concat.
Lemma oconcat_same {X Y} (f : X -> option (list Y)) l m : same_members l m ->
  match oconcat f l, oconcat f m with Some a, Some b => same_members a b | None, None => True | _, _ => False end.
Proof.
  intros I. destruct (oconcat f l) as [a|] eqn:Q1, (oconcat f m) as [b|] eqn:Q2.
  - intros y. rewrite (oconcat_in _ _ _ _ Q1), (oconcat_in _ _ _ _ Q2). split; intros (x & o & Hx & R); exists x, o; (split; [apply I, Hx|exact R]).
  - destruct (oconcat_incl f m l a (fun x => proj2 (I x)) Q1) as (b & E & _). congruence.
  - destruct (oconcat_incl f l m b (fun x => proj1 (I x)) Q2) as (a & E & _). congruence.
  - exact Logic.I.
Qed.
(* the numbers of several sizes at once: omap_from with a function that ignores the index *)
Lemma omap_oconcat {X Y} (f : X -> option Y) l : forall i, omap_from (fun _ => f) i l = oconcat (fun x => option_map (fun y => [y]) (f x)) l.
Proof.
  induction l as [|x l IH]; intros i; cbn [omap_from oconcat]; [reflexivity|]. destruct (f x) as [y|]; cbn [option_map obind]; [|reflexivity].
  rewrite (IH (S i)). destruct (oconcat _ l); reflexivity.
Qed.

Section Batch.
  Variable H : Fr -> Fr -> Fr -> Fr.

  (** * Order and repetition do not change the tables *)
  Lemma hash_traces_same ps qs : same_members ps qs -> hash_traces H ps = hash_traces H qs.
  Proof.
    intros I. unfold hash_traces. pose proof (oconcat_same (proof_hash_traces H) ps qs I) as S. destruct (oconcat _ ps), (oconcat _ qs); try contradiction; [|reflexivity].
    cbn [obind]. f_equal. apply (sort_dedup_ext _ cmp_ok_trace). intros x. cbn [In]. rewrite (S x). reflexivity.
  Qed.
  Lemma key_bits_same ps qs : same_members ps qs -> key_bit_lookups H ps = key_bit_lookups H qs.
  Proof.
    intros I. unfold key_bit_lookups. pose proof (oconcat_same (proof_key_bits H) ps qs I) as S. destruct (oconcat _ ps), (oconcat _ qs); try contradiction; [|reflexivity].
    cbn [obind]. f_equal. apply (sort_dedup_ext _ cmp_ok_lookup). intros x. cbn [In]. rewrite (S x). reflexivity.
  Qed.
  Lemma keys_same ps qs : same_members ps qs -> mpt_update_keys H ps = mpt_update_keys H qs.
  Proof.
    intros I. unfold mpt_update_keys. apply (sort_dedup_ext _ cmp_ok_fr). intros x. cbn [In]. rewrite !in_flat_map.
    split; (intros [E|[E|(p & Hp & Hx)]]; [auto|auto|right; right; exists p; split; [apply I, Hp|exact Hx]]).
  Qed.
  Lemma reprs_same ps qs : same_members ps qs -> byte_representations ps = byte_representations qs.
  Proof.
    intros I. unfold byte_representations. rewrite !omap_oconcat. pose proof (oconcat_same (fun x => option_map (fun y => [y]) (proof_reprs x)) ps qs I) as S.
    destruct (oconcat _ ps) as [a|], (oconcat _ qs) as [b|]; try contradiction; [|reflexivity]. cbn [obind]. f_equal.
    assert (M : forall Y (g : Reprs -> list Y), same_members (flat_map g a) (flat_map g b)).
    { intros Y g x. rewrite !in_flat_map. split; intros (o & Ho & Hx); exists o; (split; [apply S, Ho|exact Hx]). }
    f_equal; first [apply (sort_dedup_ext _ cmp_ok_z)|apply (sort_dedup_ext _ cmp_ok_fr)]; intros x; cbn [In]; rewrite (M _ _ x); reflexivity.
  Qed.
  Lemma total_app ps qs : total_rows (ps ++ qs) = (total_rows ps + total_rows qs)%nat.
  Proof. induction ps as [|p ps IH]; [reflexivity|]. cbn [app total_rows fold_right] in *. unfold total_rows in *. cbn [app fold_right]. rewrite IH. lia. Qed.
  Lemma total_perm ps qs : Permutation ps qs -> total_rows ps = total_rows qs.
  Proof. induction 1; unfold total_rows in *; cbn [fold_right] in *; lia. Qed.
  Lemma perm_same {X} (ps qs : list X) : Permutation ps qs -> same_members ps qs.
  Proof. intros P x. split; apply Permutation_in; [exact P|apply Permutation_sym, P]. Qed.
  Lemma rows_required_perm ps qs : Permutation ps qs -> mpt_n_rows_required H ps = mpt_n_rows_required H qs.
  Proof.
    intros P. unfold mpt_n_rows_required. rewrite (reprs_same ps qs), (key_bits_same ps qs), (keys_same ps qs) by apply perm_same, P.
    unfold update_n_rows. rewrite (total_perm ps qs P). reflexivity.
  Qed.

  (** * Parts of batches *)
  (* what the helper tables of a batch hold for a part of it *)
  Lemma reprs_incl ps qs b : incl ps qs -> byte_representations qs = Some b -> exists a, byte_representations ps = Some a /\
    incl (re_u32s a) (re_u32s b) /\ incl (re_u64s a) (re_u64s b) /\ incl (re_u128s a) (re_u128s b) /\ incl (re_frs a) (re_frs b) /\
    byte_repr_n_rows (re_u32s a) (re_u64s a) (re_u128s a) (re_frs a) <= byte_repr_n_rows (re_u32s b) (re_u64s b) (re_u128s b) (re_frs b).
  Proof.
    intros I E. unfold byte_representations in *. rewrite !omap_oconcat in *. destruct (oconcat _ qs) as [bs|] eqn:Q; [|discriminate E]. cbn [obind] in E. apply LookupMain.some_eq in E. subst b.
    destruct (oconcat_incl _ ps qs bs I Q) as (zs & -> & J). cbn [obind]. eexists. split; [reflexivity|]. cbn [re_u32s re_u64s re_u128s re_frs].
    assert (M : forall Y (g : Reprs -> list Y), incl (flat_map g zs) (flat_map g bs)).
    { intros Y g x. rewrite !in_flat_map. intros (o & Ho & Hx); exists o; (split; [apply J, Ho|exact Hx]). }
    assert (M0 : incl (0 :: flat_map re_u128s zs) (0 :: flat_map re_u128s bs)) by (intros x [<-|Hx]; [left; reflexivity|right; apply M, Hx]).
    assert (G : forall Y (cmp : Y -> Y -> comparison), cmp_ok cmp -> forall l m, incl l m -> incl (sort_dedup cmp l) (sort_dedup cmp m)).
    { intros Y cmp C l m L x Hx. apply (proj2 (sort_dedup_in cmp C x m)), L, (proj1 (sort_dedup_in cmp C x l)), Hx. }
    pose proof (sort_dedup_incl _ cmp_ok_z _ _ (M _ re_u32s)). pose proof (sort_dedup_incl _ cmp_ok_z _ _ (M _ re_u64s)).
    pose proof (sort_dedup_incl _ cmp_ok_z _ _ M0). pose proof (sort_dedup_incl _ cmp_ok_fr _ _ (M _ re_frs)).
    split; [apply G, M; exact cmp_ok_z|]. split; [apply G, M; exact cmp_ok_z|]. split; [apply G, M0; exact cmp_ok_z|]. split; [apply G, M; exact cmp_ok_fr|].
    unfold byte_repr_n_rows. lia.
  Qed.
  Lemma key_bits_incl ps qs b : incl ps qs -> key_bit_lookups H qs = Some b -> exists a, key_bit_lookups H ps = Some a /\ incl a b /\ (length a <= length b)%nat.
  Proof.
    intros I E. unfold key_bit_lookups in *. destruct (oconcat _ qs) as [bs|] eqn:Q; [|discriminate E]. cbn [obind] in E. apply LookupMain.some_eq in E. subst b.
    destruct (oconcat_incl _ ps qs bs I Q) as (zs & -> & J). cbn [obind]. eexists. split; [reflexivity|].
    assert (M : incl ((f0, 0, false) :: (f1, 0, true) :: zs) ((f0, 0, false) :: (f1, 0, true) :: bs)).
    { intros x [<-|[<-|Hx]]; [left; reflexivity|right; left; reflexivity|right; right; apply J, Hx]. }
    split; [|apply (sort_dedup_incl _ cmp_ok_lookup), M]. intros x Hx. apply (proj2 (sort_dedup_in _ cmp_ok_lookup x _)), M, (proj1 (sort_dedup_in _ cmp_ok_lookup x _)), Hx.
  Qed.
  Lemma keys_incl ps qs : incl ps qs -> (length (mpt_update_keys H ps) <= length (mpt_update_keys H qs))%nat.
  Proof.
    intros I. apply (sort_dedup_incl _ cmp_ok_fr). intros x [<-|[<-|Hx]]; [left; reflexivity|right; left; reflexivity|right; right].
    apply in_flat_map in Hx. destruct Hx as (p & Hp & Hx). apply in_flat_map. exists p. split; [apply I, Hp|exact Hx].
  Qed.
  Lemma part_incl {X} (ps qs : list X) : part ps qs -> incl ps qs.
  Proof. intros (rest & P) x Hx. apply (Permutation_in x P), in_app_iff. left. exact Hx. Qed.
  Lemma part_total ps qs : part ps qs -> (total_rows ps <= total_rows qs)%nat.
  Proof. intros (rest & P). rewrite <- (total_perm _ _ P), total_app. lia. Qed.
  Lemma rows_required_part ps qs m : part ps qs -> mpt_n_rows_required H qs = Some m -> exists k, mpt_n_rows_required H ps = Some k /\ k <= m.
  Proof.
    intros P E. pose proof (part_total _ _ P) as T. apply part_incl in P. unfold mpt_n_rows_required in *. ob E. ob E. apply LookupMain.some_eq in E.
    destruct (reprs_incl ps qs a P E0) as (re & -> & _ & _ & _ & _ & L1). destruct (key_bits_incl ps qs a0 P E1) as (lk & -> & _ & L2). pose proof (keys_incl ps qs P) as L3.
    cbn [obind]. eexists. split; [reflexivity|]. subst m. cbn [fold_left]. unfold update_n_rows, canonical_n_rows, key_bit_n_rows. lia.
  Qed.
  Lemma reprs_app ps qs a b : byte_representations ps = Some a -> byte_representations qs = Some b -> exists c, byte_representations (ps ++ qs) = Some c /\
    byte_repr_n_rows (re_u32s c) (re_u64s c) (re_u128s c) (re_frs c) <= byte_repr_n_rows (re_u32s a) (re_u64s a) (re_u128s a) (re_frs a) + byte_repr_n_rows (re_u32s b) (re_u64s b) (re_u128s b) (re_frs b).
  Proof.
    intros Ea Eb. unfold byte_representations in *. rewrite !omap_oconcat in *. rewrite oconcat_app. destruct (oconcat _ ps) as [x|]; [|discriminate Ea]. destruct (oconcat _ qs) as [y|]; [|discriminate Eb].
    cbn [obind] in *. apply LookupMain.some_eq in Ea, Eb. subst a b. eexists. split; [reflexivity|]. cbn [re_u32s re_u64s re_u128s re_frs]. rewrite !flat_map_app.
    pose proof (sort_dedup_union _ cmp_ok_z _ (flat_map re_u32s x) (flat_map re_u32s y) (incl_refl _)).
    pose proof (sort_dedup_union _ cmp_ok_z _ (flat_map re_u64s x) (flat_map re_u64s y) (incl_refl _)).
    pose proof (sort_dedup_union _ cmp_ok_fr _ (flat_map re_frs x) (flat_map re_frs y) (incl_refl _)).
    assert (M0 : incl (0 :: flat_map re_u128s x ++ flat_map re_u128s y) ((0 :: flat_map re_u128s x) ++ 0 :: flat_map re_u128s y)).
    { intros z [<-|Hz]; [left; reflexivity|]. apply in_app_iff in Hz. apply in_app_iff. destruct Hz; [left; right; assumption|right; right; assumption]. }
    pose proof (sort_dedup_union _ cmp_ok_z _ _ _ M0). unfold byte_repr_n_rows. lia.
  Qed.
  Lemma key_bits_app ps qs a b : key_bit_lookups H ps = Some a -> key_bit_lookups H qs = Some b -> exists c, key_bit_lookups H (ps ++ qs) = Some c /\ (length c <= length a + length b)%nat.
  Proof.
    intros Ea Eb. unfold key_bit_lookups in *. rewrite oconcat_app. destruct (oconcat _ ps) as [x|]; [|discriminate Ea]. destruct (oconcat _ qs) as [y|]; [|discriminate Eb].
    cbn [obind] in *. apply LookupMain.some_eq in Ea, Eb. subst a b. eexists. split; [reflexivity|]. apply (sort_dedup_union _ cmp_ok_lookup).
    intros z [<-|[<-|Hz]]; [left; reflexivity|right; left; reflexivity|]. apply in_app_iff in Hz. apply in_app_iff. destruct Hz; [left; right; right; assumption|right; right; right; assumption].
  Qed.
  Lemma keys_app ps qs : (length (mpt_update_keys H (ps ++ qs)) <= length (mpt_update_keys H ps) + length (mpt_update_keys H qs))%nat.
  Proof.
    apply (sort_dedup_union _ cmp_ok_fr). intros z [<-|[<-|Hz]]; [left; reflexivity|right; left; reflexivity|]. rewrite flat_map_app in Hz.
    apply in_app_iff in Hz. apply in_app_iff. destruct Hz; [left; right; right; assumption|right; right; right; assumption].
  Qed.
  Lemma rows_required_union ps qs a b : mpt_n_rows_required H ps = Some a -> mpt_n_rows_required H qs = Some b ->
    exists c, mpt_n_rows_required H (ps ++ qs) = Some c /\ Z.max a b <= c <= a + b.
  Proof.
    intros Ea Eb.
    assert (U : exists c, mpt_n_rows_required H (ps ++ qs) = Some c /\ c <= a + b).
    { unfold mpt_n_rows_required in *. ob Ea. ob Ea. apply LookupMain.some_eq in Ea. ob Eb. ob Eb. apply LookupMain.some_eq in Eb.
      destruct (reprs_app ps qs _ _ E E1) as (re & -> & L1). destruct (key_bits_app ps qs _ _ E0 E2) as (lk & -> & L2). pose proof (keys_app ps qs) as L3.
      cbn [obind]. eexists. split; [reflexivity|]. subst a b. cbn [fold_left]. unfold update_n_rows, canonical_n_rows, key_bit_n_rows, byte_bit_n_rows. rewrite total_app. lia. }
    destruct U as (c & E & L). exists c. split; [exact E|].
    destruct (rows_required_part ps (ps ++ qs) c) as (k & Ek & Lk); [exists qs; apply Permutation_refl|exact E|].
    destruct (rows_required_part qs (ps ++ qs) c) as (k' & Ek' & Lk'); [exists ps; apply Permutation_app_comm|exact E|].
    assert (k = a) by congruence. assert (k' = b) by congruence. lia.
  Qed.

  (** * Exactly when the assignment of a batch succeeds *)
  Lemma ready_assignable r p : ready H r p -> assignable H r p.
  Proof.
    intros R. pose proof R as (R1 & (o & Ro & _) & (l & Rl & _)).
    assert (B : exists re, byte_representations [p] = Some re) by (unfold byte_representations; cbn [omap_from obind]; rewrite Ro; cbn [obind]; eauto).
    assert (K : exists lk, key_bit_lookups H [p] = Some lk) by (unfold key_bit_lookups; cbn [oconcat obind]; rewrite Rl; cbn [obind]; eauto).
    destruct B as (re & B). destruct K as (lk & K). assert (E : exists m, mpt_n_rows_required H [p] = Some m) by (unfold mpt_n_rows_required; rewrite B, K; cbn [obind]; eauto).
    destruct E as (m & E). set (n := Z.max m (32 * (Z.of_nat (length (mpt_update_keys H [p])) + 1))).
    destruct (ready_assigned H true 1 [p] n r) as (ws & W); [lia|constructor; [exact R|constructor]|exists m; split; [exact E|lia]|lia|].
    exists true, 1%nat, n, ws. split; [lia|exact W].
  Qed.
  Lemma single_ready par threads ps n r ws : (0 < threads)%nat -> mpt_assign H par threads ps n r = Some ws -> Forall (ready H r) ps.
  Proof.
    intros Ht E. assert (Ht' : par = true -> (0 < threads)%nat) by auto. destruct (assign_inv _ _ _ _ _ _ _ Ht' E) as (re & lk & upd & cr & kb & br & P).
    assert (S : Forall (fun p => assign_single_proof H p r 1 <> None) ps).
    { assert (W : exists w, assign_proofs H ps r 1 = Some w).
      { unfold mpt_assign in E. ob E. ob E. clear E. unfold updates in E1. destruct par.
        - apply obind_some in E1. destruct E1 as (u & E1 & _). unfold assign_par in E1. ob E1. exact (update_regions_seq H ps r _ _ 1 E).
        - apply obind_some in E1. destruct E1 as (u & E1 & _). eauto. }
      destruct W as (w & W). clear - W. revert w W. generalize 1 at 1 as o. induction ps as [|p ps IH]; intros o w W; constructor.
      - cbn [assign_proofs] in W. ob W. apply (single_some_at H p r o 1). congruence.
      - cbn [assign_proofs] in W. ob W. ob W. exact (IH _ _ E0). }
    rewrite Forall_forall in S. apply Forall_forall. intros p Hp. split; [exact (S p Hp)|]. split.
    - destruct (reprs_in _ _ p (as_reprs _ _ _ _ _ _ _ _ _ _ _ _ P) Hp) as (o & Eo & _ & _ & _ & I). exists o. split; [exact Eo|].
      apply Forall_forall. intros x Hx. apply I in Hx. pose proof (as_br _ _ _ _ _ _ _ _ _ _ _ _ P) as B.
      destruct (Z_lt_dec (val x) (256 ^ 31)) as [|N]; [assumption|]. exfalso.
      assert (X : Exists (fun x => 256 ^ 31 <= val x) (re_frs re)) by (apply Exists_exists; exists x; split; [exact Hx|lia]).
      apply (proj2 (byte_repr_panics r (re_u32s re) (re_u64s re) (re_u128s re) (re_frs re))) in X. congruence.
    - destruct (key_bits_proof H _ _ p (as_lookups _ _ _ _ _ _ _ _ _ _ _ _ P) Hp) as (o & Eo & I). exists o. split; [exact Eo|].
      apply Forall_forall. intros l Hl. apply I in Hl. destruct (kbc_all _ _ (as_kbc _ _ _ _ _ _ _ _ _ _ _ _ P) l Hl) as (i & rw & _ & R & _). congruence.
  Qed.
  Lemma fits_of_assigned par threads ps n r ws : mpt_assign H par threads ps n r = Some ws -> updates_fit par ps n.
  Proof.
    intros E. unfold mpt_assign in E. ob E. ob E. clear E. unfold updates, updates_fit in *. destruct par.
    - ob E1. destruct (Z.eqb_spec (Z.of_nat (total_rows ps)) 0); [left; lia|right]. ob E1. apply oassert_some in E2. apply Z.leb_le in E2. lia.
    - ob E1. ob E1. apply oassert_some in E2. apply Z.leb_le in E2. lia.
  Qed.
  Lemma updates_exist par ps r n : Forall (ready H r) ps -> updates_fit par ps n -> exists u, updates H par ps r n = Some u.
  Proof.
    intros F U. assert (W : exists w, assign_proofs H ps r 1 = Some w).
    { clear - F. generalize 1. induction F as [|p proofs F1 F2 IH]; intros o; [exists []; reflexivity|]. cbn [assign_proofs].
      assert (N := single_some_at H p r 1 o (proj1 F1)). destruct (assign_single_proof H p r o); [|congruence].
      destruct (IH (o + Z.of_nat (proof_n_rows p))) as (ws & ->). cbn [obind]. eauto. }
    assert (G : exists rs, update_regions H true ps r = Some rs).
    { clear - F. generalize true. induction F as [|p proofs F1 F2 IH]; intros b; [exists []; reflexivity|]. cbn [update_regions].
      destruct (IH false) as (rs & ->). cbn [obind].
      assert (N := single_some_at H p r 1 (if b then 1 else 0) (proj1 F1)). destruct (assign_single_proof H p r (if b then 1 else 0)); [|congruence]. cbn [obind]. eauto. }
    destruct W as (w & W). destruct G as (rs & G). unfold updates, updates_fit, assign_par in *. rewrite W, G. cbn [obind]. destruct par.
    - destruct (Z.eqb_spec (Z.of_nat (total_rows ps)) 0); [eauto|]. unfold oassert. replace (1 + Z.of_nat (total_rows ps) <=? n) with true by (symmetry; apply Z.leb_le; lia). cbn [obind]. eauto.
    - unfold oassert. replace (2 + Z.of_nat (total_rows ps) <=? n) with true by (symmetry; apply Z.leb_le; lia). cbn [obind]. eauto.
  Qed.
  Theorem assigned_iff par threads ps n r : (0 < threads)%nat ->
    ((exists ws, mpt_assign H par threads ps n r = Some ws) <->
     Forall (assignable H r) ps /\ updates_fit par ps n /\ 32 * (Z.of_nat (length (mpt_update_keys H ps)) + 1) <= n).
  Proof.
    intros Ht. split.
    - intros (ws & E). split; [|split; [exact (fits_of_assigned _ _ _ _ _ _ E)|exact (assign_needs H _ _ _ _ _ _ E)]].
      eapply Forall_impl; [|exact (single_ready _ _ _ _ _ _ Ht E)]. apply ready_assignable.
    - intros (F & U & K). assert (F' : Forall (ready H r) ps) by (eapply Forall_impl; [|exact F]; apply assignable_ready).
      (* with enough rows everything succeeds; the tables do not depend on the number of rows *)
      assert (T : exists re lk kb br, byte_representations ps = Some re /\ key_bit_lookups H ps = Some lk /\ key_bit_assign lk = Some kb /\
        byte_repr_assign r (re_u32s re) (re_u64s re) (re_u128s re) (re_frs re) = Some br).
      { assert (R : exists re, byte_representations ps = Some re).
        { unfold byte_representations. rewrite omap_oconcat. destruct (oconcat _ ps) eqn:Q; [cbn [obind]; eauto|]. exfalso. apply (proj1 (oconcat_none _ _)) in Q. destruct Q as (p & Hp & N).
          rewrite Forall_forall in F'. destruct (F' p Hp) as (_ & (o & Eo & _) & _). rewrite Eo in N. discriminate N. }
        assert (L : exists lk, key_bit_lookups H ps = Some lk).
        { unfold key_bit_lookups. destruct (oconcat _ ps) eqn:Q; [cbn [obind]; eauto|]. exfalso. apply (proj1 (oconcat_none _ _)) in Q. destruct Q as (p & Hp & N).
          rewrite Forall_forall in F'. destruct (F' p Hp) as (_ & _ & (o & Eo & _)). rewrite Eo in N. discriminate N. }
        destruct R as (re & R). destruct L as (lk & L). assert (E : exists m, mpt_n_rows_required H ps = Some m) by (unfold mpt_n_rows_required; rewrite R, L; cbn [obind]; eauto).
        destruct E as (m & E). destruct (ready_assigned H false 1 ps (Z.max m (32 * (Z.of_nat (length (mpt_update_keys H ps)) + 1))) r) as (ws & W); [lia|exact F'|exists m; split; [exact E|lia]|lia|].
        unfold mpt_assign in W. rewrite R, L in W. cbn [obind] in W. ob W. ob W. ob W. ob W. unfold keys_region in E3.
        destruct (canonical_assign _ _ _); [|discriminate E3]. destruct (key_bit_assign lk) as [kb|] eqn:Q1; [|discriminate E3]. destruct (byte_repr_assign _ _ _ _ _) as [br|] eqn:Q2; [|discriminate E3].
        exists re, lk, kb, br. auto. }
      destruct T as (re & lk & kb & br & T1 & T2 & T3 & T4). destruct (updates_exist par ps r n F' U) as (u & Eu).
      unfold mpt_assign. rewrite T1, T2, Eu. cbn [obind].
      assert (Q : Z.of_nat (length (mpt_update_keys H ps)) + 1 <= n / 32) by (apply Z.div_le_lower_bound; lia).
      replace (sort_dedup cmp_fr (mpt_update_keys H ps)) with (mpt_update_keys H ps) by (symmetry; apply (sort_dedup_twice _ cmp_ok_fr)).
      unfold oassert. replace (1 <=? n / 32) with true by (symmetry; apply Z.leb_le; lia). cbn [obind].
      replace (Z.of_nat (length (mpt_update_keys H ps)) <=? n / 32 - 1) with true by (symmetry; apply Z.leb_le; lia). cbn [obind]. destruct par.
      + unfold keys_regions_par, canonical_assign_par, key_bit_assign_par. unfold key_bit_assign in T3. destruct (all_some kb_row lk) as [rows|]; [|discriminate T3]. rewrite T4.
        pose proof (chunk_size_pos (Z.to_nat (n / 32)) threads Ht ltac:(lia)) as P1.
        destruct (key_bits_sorted H _ _ T2) as (_ & _ & Hd). assert (L : (0 < length lk)%nat) by (destruct lk; [discriminate Hd|cbn; lia]).
        pose proof (chunk_size_pos (length lk) threads Ht L) as P2.
        destruct (Nat.eqb_spec (chunk_size (Z.to_nat (n / 32)) threads) 0); [lia|]. destruct (Nat.eqb_spec (chunk_size (length lk) threads) 0); [lia|]. cbn [obind]. eauto.
      + unfold keys_region, canonical_assign. rewrite T3, T4. destruct (Z.leb_spec (Z.of_nat (length (mpt_update_keys H ps))) (n / 32)); [|lia]. cbn [obind]. eauto.
  Qed.
  Theorem part_assigned par threads ps qs n r ws : (0 < threads)%nat -> part ps qs -> mpt_assign H par threads qs n r = Some ws ->
    exists ws', mpt_assign H par threads ps n r = Some ws'.
  Proof.
    intros Ht P E. destruct (proj1 (assigned_iff par threads qs n r Ht) (ex_intro _ ws E)) as (F & U & K). apply (proj2 (assigned_iff par threads ps n r Ht)).
    pose proof (part_total _ _ P) as T. apply part_incl in P. pose proof (keys_incl ps qs P) as L. split; [|split].
    - rewrite Forall_forall in *. intros p Hp. apply F, P, Hp.
    - unfold updates_fit in *. destruct par; lia.
    - lia.
  Qed.
  (* one row more than the sequential mode accepts *)
  Theorem more_rows par threads ps n n' r ws : (0 < threads)%nat -> n <= n' -> mpt_assign H par threads ps n r = Some ws ->
    exists ws', mpt_assign H par threads ps n' r = Some ws'.
  Proof.
    intros Ht L E. destruct (proj1 (assigned_iff par threads ps n r Ht) (ex_intro _ ws E)) as (F & U & K). apply (proj2 (assigned_iff par threads ps n' r Ht)).
    split; [exact F|split; [|lia]]. unfold updates_fit in *. destruct par; lia.
  Qed.

  (** * The exposed claims *)
  Theorem same_claims par par' threads threads' ps qs n n' r ws ws' e e' row :
    Forall (fun p => exists kind trace, proof_from H kind trace = Some p) ps -> Forall (fun p => address_ok (c_address (pf_claim p))) ps -> same_members ps qs ->
    (0 < threads)%nat -> (0 < threads')%nat -> mpt_assign H par threads ps n r = Some ws -> mpt_assign H par' threads' qs n' r = Some ws' ->
    filled e r ws -> filled e' r ws' -> room e n -> room e' n' -> enough_rows H ps n -> enough_rows H qs n' ->
    exposes e row -> row = blank_row \/ row = final_row \/ exposes e' row.
  Proof.
    intros C A I T T' E E' FL FL' R R' N N' X. destruct (only_claims C T E FL R N row A X) as [->|[->|(p & Hp & ->)]]; [auto|auto|]. right; right.
    rewrite (fl_chal _ _ _ FL), <- (fl_chal _ _ _ FL'). apply (claims_exposed (H := H) (proofs := qs) (par := par') (threads := threads') (n := n') (r := r) (ws := ws')); try assumption.
    - rewrite Forall_forall in *. intros q Hq. apply C, I, Hq.
    - apply I, Hp.
    - rewrite Forall_forall in A. apply A, Hp.
  Qed.
End Batch.
Theorem batch_case : exists p q, proof_from toy NonceChanged ex_nonce_trace = Some p /\ proof_from toy StorageChanged ex_storage_trace = Some q /\
  same_members [p; q] [q; p; q] /\ Permutation [p; q] [q; p] /\ part [q] [p; q] /\ Forall (assignable toy (fz 5)) [p; q] /\ updates_fit false [p; q] 2050 /\
  exists ws, mpt_assign toy false 1 [q] 2050 (fz 5) = Some ws.
Proof.
  destruct assign_case as (p & q & P & Q & _ & _ & (ws & W) & _). exists p, q. split; [exact P|]. split; [exact Q|]. clear P Q.
  assert (Pt : part [q] [p; q]) by (exists [p]; constructor).
  assert (Ht : (0 < 1)%nat) by constructor. destruct (proj1 (assigned_iff toy false 1 [p; q] 2050 (fz 5) Ht) (ex_intro _ ws W)) as (F & U & _).
  split; [|split; [constructor|split; [exact Pt|split; [exact F|split; [exact U|exact (part_assigned toy false 1 [q] [p; q] 2050 (fz 5) ws Ht Pt W)]]]]].
  clear. intros x. cbn [In]. tauto.
Qed.
