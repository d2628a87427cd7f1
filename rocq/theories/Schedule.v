(* Proofs for C57: every schedule of the parallel assignment writes the same table. *)
From Coq Require Import ZArith List Bool Lia.
From Verif Require Import Pocklington Fr Query Builder Gadgets MptUpdate Bytes Assign AssignProofs AssignOk AssignRegion GadgetMain GadgetMain2 Util Serde Trie Storage Types Lookups LookupProofs HonestTrace LookupMain UpdateAssign MptAssign MptModes MptRows MptCases ScheduleSpec.
Import ListNotations.
Open Scope Z_scope.

(** * Interleavings *)
Lemma interleave_concat {X} (ls : list (list X)) : interleave ls (concat ls).
Proof.
  enough (G : forall (ls : list (list X)) before, Forall (eq []) before -> interleave (before ++ ls) (concat ls)) by (apply (G ls []); constructor).
  clear. induction ls as [|l ls IH]; intros before B; cbn [concat].
  { rewrite app_nil_r. apply il_done. exact B. }
  induction l as [|x l IHl]; cbn [app].
  - replace (before ++ [] :: ls) with ((before ++ [[]]) ++ ls) by (rewrite <- app_assoc; reflexivity). apply IH. apply Forall_app. split; [exact B|constructor; [reflexivity|constructor]].
  - apply il_step. exact IHl.
Qed.
Lemma interleave_filter {X} (f : X -> bool) ls out : interleave ls out -> interleave (map (filter f) ls) (filter f out).
Proof.
  induction 1 as [ls E|before x l after out E IH].
  - apply il_done. apply Forall_map. eapply Forall_impl; [|exact E]. intros a <-. reflexivity.
  - rewrite map_app in *. cbn [map filter] in *. destruct (f x); [apply il_step|]; exact IH.
Qed.
(* at most one of the lists is not empty *)
Fixpoint lonely {X} (ls : list (list X)) : Prop :=
  match ls with [] => True | l :: r => (l = [] /\ lonely r) \/ Forall (eq []) r end.
Lemma empty_lonely {X} (ls : list (list X)) : Forall (eq []) ls -> lonely ls.
Proof. destruct ls; [intros; exact Logic.I|]. intros E. inversion E. right. assumption. Qed.
Lemma empty_concat {X} (ls : list (list X)) : Forall (eq []) ls -> concat ls = [].
Proof. induction 1 as [|l ls <- E IH]; [reflexivity|exact IH]. Qed.
Lemma lonely_head {X} before (x : X) l after : lonely (before ++ (x :: l) :: after) -> Forall (eq []) before /\ Forall (eq []) after.
Proof.
  induction before as [|b before IH]; cbn [app lonely]; intros [[E L]|L].
  - discriminate E.
  - split; [constructor|exact L].
  - destruct (IH L) as [P Q]. split; [constructor; [symmetry; exact E|exact P]|exact Q].
  - exfalso. apply Forall_app in L. destruct L as [_ L]. inversion L. discriminate.
Qed.
Lemma lonely_only {X} before (l : list X) after : Forall (eq []) before -> Forall (eq []) after -> lonely (before ++ l :: after).
Proof.
  intros B A. induction B as [|b before <- B IH]; cbn [app lonely]; [right; exact A|left; split; [reflexivity|exact IH]].
Qed.
Lemma lonely_interleave {X} (ls : list (list X)) out : interleave ls out -> lonely ls -> out = concat ls.
Proof.
  induction 1 as [ls E|before x l after out E IH]; intros L; [symmetry; apply empty_concat; exact E|].
  destruct (lonely_head _ _ _ _ L) as [B A]. rewrite (IH (lonely_only _ _ _ B A)). rewrite !concat_app. cbn [concat].
  rewrite (empty_concat _ B). reflexivity.
Qed.

(** * Writes to one cell *)
Definition to_cell (c : col) (i : Z) (w : write) : bool := (if col_eq_dec c (fst (fst w)) then true else false) && (i =? snd (fst w)).
Lemma wfind_filter ws c i : wfind ws c i = wfind (filter (to_cell c i) ws) c i.
Proof.
  induction ws as [|[[c' i'] v] ws IH]; [reflexivity|]. cbn [wfind filter]. unfold to_cell at 1. cbn [fst snd]. rewrite IH.
  destruct (col_eq_dec c c') as [->|N]; cbn [andb].
  - destruct (i =? i') eqn:E; [cbn [wfind]; rewrite E; destruct (col_eq_dec c' c'); [reflexivity|congruence]|].
    destruct (wfind (filter (to_cell c' i) ws) c' i); reflexivity.
  - destruct (wfind (filter (to_cell c i) ws) c i); reflexivity.
Qed.
Lemma filter_none (f : write -> bool) ws : (forall w, In w ws -> f w = false) -> filter f ws = [].
Proof. induction ws as [|w ws IH]; [reflexivity|]. intros E. cbn [filter]. rewrite (E w (or_introl eq_refl)). apply IH. intros x Hx. apply E. right. exact Hx. Qed.
Lemma within_none lo hi ws c i : within lo hi ws -> ~ lo <= i < hi -> filter (to_cell c i) ws = [].
Proof.
  intros W N. apply filter_none. intros w Hw. unfold within in W. rewrite Forall_forall in W. specialize (W w Hw). unfold to_cell.
  apply andb_false_iff. right. apply Z.eqb_neq. lia.
Qed.

(** * Regions that stay in their rows *)
Fixpoint confined (start : Z) (rs : list (Z * (Z -> list write))) : Prop :=
  match rs with
  | [] => True
  | (h, body) :: rest => 0 <= h /\ within start (start + h) (body start) /\ confined (start + h) rest
  end.
Lemma tasks_concat rs : forall start, concat (tasks start rs) = place start rs.
Proof. induction rs as [|[h b] rs IH]; intros start; [reflexivity|]. cbn [tasks place concat]. f_equal. apply IH. Qed.
Lemma confined_below rs : forall start c i, confined start rs -> i < start -> Forall (eq []) (map (filter (to_cell c i)) (tasks start rs)).
Proof.
  induction rs as [|[h b] rs IH]; intros start c i C L; cbn [tasks map confined] in *; [constructor|]. destruct C as (Hh & W & C).
  constructor; [symmetry; eapply within_none; [exact W|lia]|]. apply IH; [exact C|lia].
Qed.
Lemma confined_lonely rs : forall start c i, confined start rs -> lonely (map (filter (to_cell c i)) (tasks start rs)).
Proof.
  induction rs as [|[h b] rs IH]; intros start c i C; cbn [tasks map confined lonely] in *; [exact Logic.I|]. destruct C as (Hh & W & C).
  destruct (Z_lt_dec i (start + h)) as [L|L].
  - right. apply confined_below; assumption.
  - left. split; [eapply within_none; [exact W|lia]|]. apply IH. exact C.
Qed.
Theorem confined_schedule rs start out c i : confined start rs -> interleave (tasks start rs) out -> wfind out c i = wfind (place start rs) c i.
Proof.
  intros C E. rewrite (wfind_filter out), (wfind_filter (place start rs)). f_equal.
  rewrite (lonely_interleave _ _ (interleave_filter (to_cell c i) _ _ E) (confined_lonely _ _ c i C)).
  rewrite <- tasks_concat, concat_filter_map. reflexivity.
Qed.
Theorem confined_within rs : forall start, confined start rs -> Forall2 stays_within (tasks start rs) (reserved start rs).
Proof.
  induction rs as [|[h b] rs IH]; intros start C; cbn [tasks reserved confined] in *; [constructor|]. destruct C as (Hh & W & C).
  constructor; [|apply IH; exact C]. intros c i v Hw. unfold within in W. rewrite Forall_forall in W. exact (W _ Hw).
Qed.
Lemma reserved_from rs : forall start j p, confined start rs -> nth_error (reserved start rs) j = Some p -> start <= fst p.
Proof.
  induction rs as [|[h b] rs IH]; intros start j p C E; cbn [reserved confined] in *; [destruct j; discriminate|]. destruct C as (Hh & W & C).
  destruct j as [|j]; cbn [nth_error] in E; [apply some_eq in E; subst p; cbn; lia|]. specialize (IH _ _ _ C E). lia.
Qed.
Lemma reserved_apart rs : forall start j k p q i, confined start rs -> nth_error (reserved start rs) j = Some p -> nth_error (reserved start rs) k = Some q ->
  fst p <= i < snd p -> fst q <= i < snd q -> j = k.
Proof.
  induction rs as [|[h b] rs IH]; intros start j k p q i C Ep Eq Hp Hq; cbn [reserved] in *; [destruct j; discriminate|]. destruct C as (Hh & W & C).
  destruct j as [|j], k as [|k]; cbn [nth_error] in *.
  - reflexivity.
  - apply some_eq in Ep. subst p. pose proof (reserved_from _ _ _ _ C Eq). cbn in *. lia.
  - apply some_eq in Eq. subst q. pose proof (reserved_from _ _ _ _ C Ep). cbn in *. lia.
  - f_equal. eapply IH; eassumption.
Qed.
Lemma forall2_nth {X Y} (R : X -> Y -> Prop) xs ys : Forall2 R xs ys -> forall j x, nth_error xs j = Some x -> exists y, nth_error ys j = Some y /\ R x y.
Proof. induction 1 as [|x y xs ys E F IH]; intros j z N; destruct j; try discriminate; cbn in *; [apply some_eq in N; subst z; eauto|apply IH; exact N]. Qed.
Theorem confined_races rs start : confined start rs -> race_free (tasks start rs).
Proof.
  intros C j k s t c i v w Es Et Hs Ht. pose proof (confined_within _ _ C) as F.
  destruct (forall2_nth _ _ _ F _ _ Es) as (p & Ep & Sp). destruct (forall2_nth _ _ _ F _ _ Et) as (q & Eq & Sq).
  exact (reserved_apart _ _ _ _ _ _ _ C Ep Eq (Sp _ _ _ Hs) (Sq _ _ _ Ht)).
Qed.

(** * The regions of the three parallel calls *)
Lemma kb_rest_confined cs : forall start, confined start (map (fun c' => (Z.of_nat (length c'), fun s => emit s c')) cs).
Proof. induction cs as [|c cs IH]; intros start; cbn [map confined]; [exact Logic.I|]. split; [lia|]. split; [apply within_emit; lia|apply IH]. Qed.
Lemma kb_confined cs : confined 0 (kb_regions cs).
Proof. destruct cs as [|c cs]; cbn [kb_regions confined]; [exact Logic.I|]. split; [lia|]. split; [apply within_emit; lia|apply kb_rest_confined]. Qed.
Lemma cr_rows_count r c : Z.of_nat (length (flat_map (cr_rows_of r) c)) = Z.of_nat (length c) * 32.
Proof. induction c as [|v c IH]; [reflexivity|]. cbn [flat_map length]. rewrite app_length, cr_rows_length. lia. Qed.
Lemma cr_rest_confined r cs : forall start, confined start (map (fun c' => (Z.of_nat (length c') * 32, fun s => emit s (flat_map (cr_rows_of r) c'))) cs).
Proof.
  induction cs as [|c cs IH]; intros start; cbn [map confined]; [exact Logic.I|]. split; [lia|]. split; [|apply IH].
  apply within_emit; [lia|]. rewrite cr_rows_count. lia.
Qed.
Lemma cr_confined r cs : confined 0 (canonical_regions r cs).
Proof.
  destruct cs as [|c cs]; cbn [canonical_regions confined]; [exact Logic.I|]. split; [lia|]. split; [|apply cr_rest_confined].
  apply within_emit; [lia|]. rewrite cr_rows_count. lia.
Qed.
Section Hash.
  Variable H : Fr -> Fr -> Fr -> Fr.
  Lemma update_confined proofs r : Forall (fun p => exists t tr, proof_from H t tr = Some p) proofs ->
    forall first rs start, update_regions H first proofs r = Some rs -> confined start rs.
  Proof.
    induction 1 as [|p proofs (t & tr & F) G IH]; intros first rs start E; cbn [update_regions] in E.
    { apply some_eq in E. subst rs. exact Logic.I. }
    ob E. ob E. apply some_eq in E. subst rs. cbn [confined]. pose proof (proof_rows_pos p) as P.
    split; [destruct first; lia|]. split; [|eapply IH; exact E0].
    set (o := start + (if first then 1 else 0)). destruct (assign_single_proof H p r o) as [w|] eqn:Q.
    - cbn [or_else]. destruct (single_rows H p r o w (from_lengths H _ _ _ F) Q) as [W _]. eapply within_le; [| |exact W]; unfold o; destruct first; lia.
    - constructor.
  Qed.

  Definition parts (threads : nat) (proofs : list Proof) (n : Z) (r : Fr) reprs lookups urs brs krs pad br : Prop :=
    let keys := sort_dedup cmp_fr (mpt_update_keys H proofs) in
    byte_representations proofs = Some reprs /\ key_bit_lookups H proofs = Some lookups /\ 1 <= n / 32 /\ Z.of_nat (length keys) <= n / 32 - 1 /\
    update_regions H true proofs r = Some urs /\ padding H proofs n = Some pad /\ key_bit_regions threads lookups = Some brs /\
    keys_regions threads r keys n = Some krs /\ byte_repr_assign r (re_u32s reprs) (re_u64s reprs) (re_u128s reprs) (re_frs reprs) = Some br.
  Definition joined n urs brs krs pad br : list write :=
    (place 0 urs ++ pad) ++ place 0 brs ++ place 0 krs ++ selector_writes n ++ byte_bit_assign ++ br ++ final_row_write n.
  Lemma updates_parts proofs r n upd : updates H true proofs r n = Some upd <->
    exists urs pad, update_regions H true proofs r = Some urs /\ padding H proofs n = Some pad /\ upd = place 0 urs ++ pad.
  Proof.
    unfold updates, assign_par, padding. destruct (update_regions H true proofs r) as [urs|]; cbn [obind].
    2:{ split; [discriminate|]. intros (urs & pad & E & _). discriminate E. }
    destruct (Z.of_nat (total_rows proofs) =? 0).
    - split; [intros E; apply some_eq in E; subst upd; eauto|]. intros (u & pad & E & P & ->). apply some_eq in E, P. subst u pad. reflexivity.
    - unfold oassert. destruct (1 + Z.of_nat (total_rows proofs) <=? n); cbn [obind].
      + split; [intros E; apply some_eq in E; subst upd; eauto|]. intros (u & pad & E & P & ->). apply some_eq in E, P. subst u pad. reflexivity.
      + split; [discriminate|]. intros (u & pad & _ & P & _). discriminate P.
  Qed.
  Lemma tables_parts threads r u32s u64s u128s frs keys lookups n tables :
    keys_regions_par threads r u32s u64s u128s frs keys lookups n = Some tables <->
    exists brs krs br, key_bit_regions threads lookups = Some brs /\ keys_regions threads r keys n = Some krs /\ byte_repr_assign r u32s u64s u128s frs = Some br /\
      tables = place 0 brs ++ place 0 krs ++ selector_writes n ++ byte_bit_assign ++ br ++ final_row_write n.
  Proof.
    unfold keys_regions_par, canonical_assign_par, key_bit_assign_par, key_bit_regions, keys_regions.
    destruct (chunk_size (Z.to_nat (n / 32)) threads =? 0)%nat.
    { split; [discriminate|]. intros (? & ? & ? & _ & E & _). discriminate E. }
    destruct (chunk_size (length lookups) threads =? 0)%nat.
    { split; [discriminate|]. intros (? & ? & ? & E & _). discriminate E. }
    destruct (all_some kb_row lookups) as [rows|].
    2:{ split; [discriminate|]. intros (? & ? & ? & E & _). discriminate E. }
    destruct (byte_repr_assign r u32s u64s u128s frs) as [br|].
    2:{ split; [discriminate|]. intros (? & ? & ? & _ & _ & E & _). discriminate E. }
    split.
    - intros E. apply some_eq in E. subst tables. eexists _, _, _. repeat split.
    - intros (brs & krs & b & Eb & Ek & Er & ->). apply some_eq in Eb, Ek, Er. subst brs krs b. reflexivity.
  Qed.
  Lemma assign_parts threads proofs n r ws : mpt_assign H true threads proofs n r = Some ws <->
    exists reprs lookups urs brs krs pad br, parts threads proofs n r reprs lookups urs brs krs pad br /\ ws = joined n urs brs krs pad br.
  Proof.
    unfold mpt_assign. split.
    - intros E. ob E. ob E. ob E. ob E. ob E. ob E. apply some_eq in E. subst ws. apply oassert_some in E3, E4. apply Z.leb_le in E3, E4.
      apply updates_parts in E1. destruct E1 as (urs & pad & Eu & Ep & ->).
      apply tables_parts in E5. destruct E5 as (brs & krs & br & Eb & Ek & Er & ->).
      exists a, a1, urs, brs, krs, pad, br. split; [|reflexivity]. unfold parts. repeat split; assumption.
    - intros (reprs & lookups & urs & brs & krs & pad & br & (E0 & E1 & E2 & E3 & E4 & E5 & E6 & E7 & E8) & ->). rewrite E0, E1. cbn [obind].
      rewrite (proj2 (updates_parts proofs r n (place 0 urs ++ pad))) by eauto. cbn [obind]. unfold oassert. rewrite (proj2 (Z.leb_le _ _) E2), (proj2 (Z.leb_le _ _) E3). cbn [obind].
      erewrite (proj2 (tables_parts _ _ _ _ _ _ _ _ _ _)); [reflexivity|]. exists brs, krs, br. repeat split; assumption.
  Qed.

  (* the program order is one of the schedules *)
  Theorem sequential_run threads proofs n r ws : mpt_assign H true threads proofs n r = Some ws -> parallel_run H threads proofs n r ws.
  Proof.
    intros E. apply assign_parts in E. destruct E as (reprs & lookups & urs & brs & krs & pad & br & (E0 & E1 & E2 & E3 & E4 & E5 & E6 & E7 & E8) & ->).
    exists reprs, lookups, urs, brs, krs, (place 0 urs), pad, (place 0 brs), (place 0 krs), br.
    repeat (split; [first [assumption|rewrite <- tasks_concat; apply interleave_concat]|]). reflexivity.
  Qed.
  Lemma wfind_app a b c i : wfind (a ++ b) c i = match wfind b c i with Some v => Some v | None => wfind a c i end.
  Proof.
    induction a as [|[[c' i'] v] a IH]; cbn [app wfind]; [destruct (wfind b c i); reflexivity|]. rewrite IH. destruct (wfind b c i); reflexivity.
  Qed.
  Theorem any_schedule threads proofs n r ws : Forall (fun p => exists t tr, proof_from H t tr = Some p) proofs -> parallel_run H threads proofs n r ws ->
    exists ws0, mpt_assign H true threads proofs n r = Some ws0 /\ forall c i, cell ws c i = cell ws0 c i.
  Proof.
    intros F (reprs & lookups & urs & brs & krs & upd & pad & bits & canon & br & E0 & E1 & E2 & E3 & E4 & Iu & E5 & E6 & Ib & E7 & Ik & E8 & ->).
    exists (joined n urs brs krs pad br). split.
    { apply assign_parts. exists reprs, lookups, urs, brs, krs, pad, br. split; [|reflexivity]. unfold parts. repeat split; assumption. }
    intros c i. unfold cell, joined. rewrite !wfind_app.
    rewrite (confined_schedule _ _ _ c i (update_confined _ _ F _ _ 0 E4) Iu).
    assert (Cb : confined 0 brs).
    { unfold key_bit_regions in E6. destruct (_ =? 0)%nat; [discriminate|]. destruct (all_some kb_row lookups); [|discriminate]. apply some_eq in E6. subst brs. apply kb_confined. }
    assert (Ck : confined 0 krs).
    { unfold keys_regions in E7. destruct (_ =? 0)%nat; [discriminate|]. apply some_eq in E7. subst krs. apply cr_confined. }
    rewrite (confined_schedule _ _ _ c i Cb Ib), (confined_schedule _ _ _ c i Ck Ik). reflexivity.
  Qed.
End Hash.

(** * Statements for the property file *)
Section Statements.
  Variable H : Fr -> Fr -> Fr -> Fr.
  Theorem updates_apart proofs r rs : Forall (fun p => exists t tr, proof_from H t tr = Some p) proofs -> update_regions H true proofs r = Some rs ->
    Forall2 stays_within (tasks 0 rs) (reserved 0 rs) /\ race_free (tasks 0 rs).
  Proof. intros F E. pose proof (update_confined H _ _ F _ _ 0 E) as C. split; [apply confined_within|apply confined_races]; exact C. Qed.
  Theorem key_bits_apart threads lookups rs : key_bit_regions threads lookups = Some rs ->
    Forall2 stays_within (tasks 0 rs) (reserved 0 rs) /\ race_free (tasks 0 rs).
  Proof.
    unfold key_bit_regions. destruct (_ =? 0)%nat; [discriminate|]. destruct (all_some kb_row lookups); [|discriminate]. intros E. apply some_eq in E. subst rs.
    split; [apply confined_within|apply confined_races]; apply kb_confined.
  Qed.
  Theorem keys_apart threads r keys n rs : keys_regions threads r keys n = Some rs -> Forall2 stays_within (tasks 0 rs) (reserved 0 rs) /\ race_free (tasks 0 rs).
  Proof.
    unfold keys_regions. destruct (_ =? 0)%nat; [discriminate|]. intros E. apply some_eq in E. subst rs. split; [apply confined_within|apply confined_races]; apply cr_confined.
  Qed.
  Lemma filled_same e r ws ws' : (forall c i, cell ws c i = cell ws' c i) -> filled e r ws -> filled e r ws'.
  Proof. intros E F. constructor; [apply (fl_chal _ _ _ F)|intros; rewrite <- E; apply (fl_adv _ _ _ F); assumption|intros; rewrite <- E; apply (fl_fix _ _ _ F); assumption]. Qed.
  Theorem schedules_verdict proofs n r th th' ws ws' e e' : Forall (fun p => exists t tr, proof_from H t tr = Some p) proofs ->
    (0 < th)%nat -> (0 < th')%nat -> parallel_run H th proofs n r ws -> parallel_run H th' proofs n r ws' ->
    filled e r ws -> filled e' r ws' -> same_context e' e -> room e n -> enough_rows H proofs n ->
    (sat e (circuit_of (circuit H)) <-> sat e' (circuit_of (circuit H))).
  Proof.
    intros F T T' P P' G G' C R N. destruct (any_schedule _ _ _ _ _ _ F P) as (w & E & S). destruct (any_schedule _ _ _ _ _ _ F P') as (w' & E' & S').
    eapply (modes_equivalent H proofs n r true true th th' w w'); try eassumption; eapply filled_same; eauto.
  Qed.
  Theorem runs_agree proofs n r th ws ws' : Forall (fun p => exists t tr, proof_from H t tr = Some p) proofs ->
    parallel_run H th proofs n r ws -> parallel_run H th proofs n r ws' -> forall c i, cell ws c i = cell ws' c i.
  Proof.
    intros F P P' c i. destruct (any_schedule _ _ _ _ _ _ F P) as (w & E & S). destruct (any_schedule _ _ _ _ _ _ F P') as (w' & E' & S').
    rewrite E in E'. apply some_eq in E'. subst w'. rewrite S, S'. reflexivity.
  Qed.
End Statements.

(** * An example: two updates, run in the other order *)
Lemma interleave_swap {X} (a b : list X) : interleave [a; b] (b ++ a).
Proof.
  induction b as [|x b IH]; cbn [app].
  - induction a as [|y a IH]; [apply il_done; repeat constructor|]. exact (il_step [] y a [[]] a IH).
  - exact (il_step [a] x b [] (b ++ a) IH).
Qed.
Lemma swapped_differ lo mid hi a b (rest : list write) : within lo mid a -> within mid hi b -> a <> [] -> b <> [] -> (b ++ a) ++ rest <> (a ++ b) ++ rest.
Proof.
  intros A B Na Nb E. destruct a as [|x a]; [congruence|]. destruct b as [|y b]; [congruence|]. cbn [app] in E. injection E as E _.
  inversion A as [|? ? Hx _]; subst. inversion B as [|? ? Hy _]; subst. lia.
Qed.
Theorem other_schedule : exists p q ws ws', proof_from toy NonceChanged ex_nonce_trace = Some p /\ proof_from toy StorageChanged ex_storage_trace = Some q /\
  parallel_run toy 2 [p; q] 2050 (fz 5) ws /\ parallel_run toy 2 [p; q] 2050 (fz 5) ws' /\ ws <> ws'.
Proof.
  destruct assign_case as (p & q & Ep & Eq & _ & _ & _ & Par). destruct (Par 2%nat ltac:(lia)) as (ws & E).
  pose proof (sequential_run toy _ _ _ _ _ E) as R. apply assign_parts in E.
  destruct E as (reprs & lookups & urs & brs & krs & pad & br & (E0 & E1 & E2 & E3 & E4 & E5 & E6 & E7 & E8) & ->).
  cbn [update_regions obind] in E4. destruct (assign_single_proof toy q (fz 5) 0) as [wq|] eqn:Q; [|discriminate E4]. cbn [obind] in E4.
  destruct (assign_single_proof toy p (fz 5) 1) as [wp|] eqn:P; [|discriminate E4]. cbn [obind] in E4. apply some_eq in E4. subst urs.
  set (h := Z.of_nat (proof_n_rows p)) in *.
  destruct (assign_single_proof toy q (fz 5) (1 + h)) as [wq'|] eqn:Q'.
  2:{ exfalso. apply (single_some_at toy q (fz 5) 0 (1 + h)); congruence. }
  assert (L : place 0 [(h + 1, fun start => or_else (assign_single_proof toy p (fz 5) (start + 1)) []);
     (Z.of_nat (proof_n_rows q) - 1 + 1, fun start => or_else (assign_single_proof toy q (fz 5) (start + 0)) [])] = wp ++ wq').
  { cbn [place]. change (0 + 1) with 1. rewrite P. replace (0 + (h + 1) + 0) with (1 + h) by lia. rewrite Q'. cbn [or_else]. rewrite app_nil_r. reflexivity. }
  exists p, q, (joined 2050 [(h + 1, fun start => or_else (assign_single_proof toy p (fz 5) (start + 1)) []);
     (Z.of_nat (proof_n_rows q) - 1 + 1, fun start => or_else (assign_single_proof toy q (fz 5) (start + 0)) [])] brs krs pad br).
  exists (((wq' ++ wp) ++ pad) ++ place 0 brs ++ place 0 krs ++ selector_writes 2050 ++ byte_bit_assign ++ br ++ final_row_write 2050).
  split; [exact Ep|]. split; [exact Eq|]. split; [exact R|]. split.
  - exists reprs, lookups. eexists _. exists brs, krs, (wq' ++ wp), pad, (place 0 brs), (place 0 krs), br.
    split; [exact E0|]. split; [exact E1|]. split; [exact E2|]. split; [exact E3|]. split.
    { cbn [update_regions obind]. rewrite Q, P. cbn [obind]. reflexivity. }
    split.
    { fold h. cbn [tasks]. change (0 + 1) with 1. rewrite P. replace (0 + (h + 1) + 0) with (1 + h) by lia. rewrite Q'. cbn [or_else]. apply interleave_swap. }
    repeat (split; [first [assumption|rewrite <- tasks_concat; apply interleave_concat]|]). reflexivity.
  - unfold joined. rewrite L. intros X. rewrite <- !app_assoc in X. rewrite (app_assoc wp), (app_assoc wq') in X. symmetry in X. revert X.
    destruct (single_rows toy p (fz 5) 1 wp (from_lengths toy _ _ _ Ep) P) as [W1 W1'].
    destruct (single_rows toy q (fz 5) (1 + h) wq' (from_lengths toy _ _ _ Eq) Q') as [W2 W2'].
    pose proof (proof_rows_pos p). pose proof (proof_rows_pos q).
    apply (swapped_differ 1 (1 + h) (1 + h + Z.of_nat (proof_n_rows q))); [exact W1|exact W2| |].
    + intros ->. destruct (W1' 1 ltac:(lia)) as (w & [] & _).
    + intros ->. destruct (W2' (1 + h) ltac:(lia)) as (w & [] & _).
Qed.
