(* A table filled by MptCircuitConfig::assign: the helper gadgets are satisfied and cover their lists, and the two
   assignment modes satisfy the same circuits. *)
From Coq Require Import ZArith List Bool Lia.
From Verif Require Import Pocklington Fr Query Builder BuilderProofs Gadgets MptUpdate Bytes Fixed GadgetProofs Util UtilProofs Serde Trie Storage Types Lookups LookupProofs
  Assign AssignProofs AssignOk AssignRegion GadgetMain GadgetMain2 LookupMain UpdateAssign MptAssign.
Import ListNotations.
Open Scope Z_scope.

(* columns of the Poseidon table, which another circuit fills *)
Definition poseidon_col (c : acol) : bool := match c with P_hash | P_left | P_right | P_control | P_domain | P_head => true | _ => false end.
(* the table e contains the assignments ws (and 0 in the other cells), with challenge r and any Poseidon table *)
Record filled (e : env) (r : Fr) (ws : list write) : Prop := {
  fl_chal : echal e = r;
  fl_adv : forall c i, poseidon_col c = false -> 0 <= i < eN e -> eadv e c i = cell ws (A c) i;
  fl_fix : forall c i, c <> P_q_enable -> 0 <= i < eN e -> efix e c i = cell ws (Fx c) i }.

(** * Tables that agree outside the key-bit columns *)
Definition kb_acol (c : acol) : bool := match c with KB_value | KB_index | KB_bit | KB_index_div_8 | KB_index_mod_8 | KB_byte => true | _ => false end.
Fixpoint q_avoids (q : query) : bool :=
  match q with
  | QAdvice c _ => negb (kb_acol c)
  | QNeg a => q_avoids a
  | QAdd a b | QMul a b => q_avoids a && q_avoids b
  | _ => true
  end.
Definition is_kb_table (r : list query) : bool :=
  match r with [QAdvice KB_value 0; QAdvice KB_index 0; QAdvice KB_bit 0] => true | _ => false end.
Fixpoint c_avoids (c : cmd) : bool :=
  match c with
  | Seq a b => c_avoids a && c_avoids b
  | AssertZero _ q => q_avoids q
  | Condition q body => q_avoids q && c_avoids body
  | AddLookup _ l r => forallb q_avoids l && (forallb q_avoids r || is_kb_table r)
  | PoseidonLookup _ l r d h => q_avoids l && q_avoids r && q_avoids d && q_avoids h
  | _ => true
  end.
Lemma is_kb_table_eq r : is_kb_table r = true -> r = key_bit_lookup.
Proof.
  unfold is_kb_table. destruct r as [|q1 r]; [discriminate|]. destruct q1 as [| c1 z1 | | | | |]; try discriminate. destruct c1; try discriminate. destruct z1; try discriminate.
  destruct r as [|q2 r]; [discriminate|]. destruct q2 as [| c2 z2 | | | | |]; try discriminate. destruct c2; try discriminate. destruct z2; try discriminate.
  destruct r as [|q3 r]; [discriminate|]. destruct q3 as [| c3 z3 | | | | |]; try discriminate. destruct c3; try discriminate. destruct z3; try discriminate.
  destruct r; [reflexivity|discriminate].
Qed.
Lemma update_avoids H : c_avoids (mpt_update_configure H) = true. Proof. lazy. reflexivity. Qed.
Lemma br_avoids : c_avoids byte_representation_configure = true. Proof. vm_compute. reflexivity. Qed.
Lemma cr_avoids : c_avoids canonical_representation_configure = true. Proof. vm_compute. reflexivity. Qed.
Lemma final_avoids : c_avoids final_row_configure = true. Proof. vm_compute. reflexivity. Qed.

Section Agree.
  Variables e e' : env.
  Hypothesis HN : eN e' = eN e.
  Hypothesis Hus : eusable e' = eusable e.
  Hypothesis Hch : echal e' = echal e.
  Hypothesis Pos : 0 < eusable e <= eN e.
  Hypothesis Hadv : forall c i, kb_acol c = false -> 0 <= i < eN e -> eadv e' c i = eadv e c i.
  Hypothesis Hfix : forall c i, 0 <= i < eN e -> efix e' c i = efix e c i.
  (* every key-bit row of e occurs in e' with the same selector *)
  Hypothesis Tab : forall t, 0 <= t < eusable e -> exists t', 0 <= t' < eusable e /\ efix e SEL t' = efix e SEL t /\
    forall c, In c [KB_value; KB_index; KB_bit] -> eadv e' c t' = eadv e c t.
  Lemma eval_agree q i : q_avoids q = true -> eval e' i q = eval e i q.
  Proof.
    assert (M : forall x, 0 <= x mod eN e < eN e) by (intros; apply Z.mod_pos_bound; lia).
    induction q as [k|c z|c z| |q1 IH1|q1 IH1 q2 IH2|q1 IH1 q2 IH2]; cbn [eval q_avoids]; intros A.
    - reflexivity.
    - rewrite HN. apply Hadv; [|apply M]. destruct (kb_acol c); [discriminate A|reflexivity].
    - rewrite HN. apply Hfix, M.
    - exact Hch.
    - rewrite IH1 by exact A. reflexivity.
    - apply andb_prop in A. rewrite IH1, IH2 by apply A. reflexivity.
    - apply andb_prop in A. rewrite IH1, IH2 by apply A. reflexivity.
  Qed.
  Lemma conj_avoids cs : forallb q_avoids cs = true -> q_avoids (conjunction cs) = true.
  Proof.
    intros A. unfold conjunction. assert (G : forall cs a, q_avoids a = true -> forallb q_avoids cs = true -> q_avoids (fold_left band cs a) = true).
    { clear. induction cs as [|c cs IH]; intros a Ha B; [exact Ha|]. cbn [fold_left]. cbn [forallb] in B. apply andb_prop in B. destruct B as [B1 B2].
      apply IH; [|exact B2]. cbn. rewrite Ha, B1. reflexivity. }
    apply G; [reflexivity|exact A].
  Qed.
  Lemma combine_agree2 i t t' cs l r : forallb q_avoids l = true -> Forall (fun q => eval e' t' q = eval e t q) r -> forallb q_avoids cs = true ->
    Forall (fun p => eval e i (fst p) = eval e t (snd p)) (combine (map (fun q => (q * conjunction cs)%q) l) r) ->
    Forall (fun p => eval e' i (fst p) = eval e' t' (snd p)) (combine (map (fun q => (q * conjunction cs)%q) l) r).
  Proof.
    intros A B C. revert l A. induction B as [|q' r Bq B IH]; intros [|q l] A E; try constructor.
    - cbn [map combine] in E. inversion E; subst. cbn [forallb] in A. apply andb_prop in A. cbn [fst snd] in *.
      rewrite Bq. cbn [eval]. rewrite (eval_agree q i) by apply A. rewrite (eval_agree _ i (conj_avoids cs C)). assumption.
    - cbn [map combine] in E. inversion E; subst. cbn [forallb] in A. apply andb_prop in A. apply IH; [apply A|assumption].
  Qed.
  Lemma combine_agree i t cs l r : forallb q_avoids l = true -> forallb q_avoids r = true -> forallb q_avoids cs = true ->
    Forall (fun p => eval e i (fst p) = eval e t (snd p)) (combine (map (fun q => (q * conjunction cs)%q) l) r) ->
    Forall (fun p => eval e' i (fst p) = eval e' t (snd p)) (combine (map (fun q => (q * conjunction cs)%q) l) r).
  Proof.
    intros A B. apply combine_agree2; [exact A|]. rewrite forallb_forall in B. apply Forall_forall. intros q Hq. apply eval_agree, B, Hq.
  Qed.
  Lemma cmd_agree c : c_avoids c = true -> forall cs, hd bone cs = fcur SEL -> forallb q_avoids cs = true ->
    Forall (fun g => gate_sat e (snd g)) (gates c cs) -> Forall (fun l => lookup_sat e (snd l)) (lkps c cs) ->
    Forall (fun g => gate_sat e' (snd g)) (gates c cs) /\ Forall (fun l => lookup_sat e' (snd l)) (lkps c cs).
  Proof.
    induction c as [|x IHx y IHy|nm q|q body IH|nm l r|nm l r d h]; intros A cs Hd C G L; cbn [gates lkps c_avoids] in *.
    - auto.
    - apply andb_prop in A. apply Forall_app in G. apply Forall_app in L. destruct A, G, L.
      destruct (IHx ltac:(assumption) cs Hd C) as [X1 X2]; try assumption. destruct (IHy ltac:(assumption) cs Hd C) as [Y1 Y2]; try assumption.
      split; apply Forall_app; auto.
    - split; [|constructor]. inversion G as [|? ? G1 _]; subst. constructor; [|constructor]. cbn [snd] in *. intros i Hi. rewrite HN in Hi.
      rewrite eval_agree; [apply G1, Hi|]. cbn. rewrite conj_avoids by exact C. rewrite A. reflexivity.
    - apply andb_prop in A. destruct A as [A1 A2]. apply IH; [exact A2| | |exact G|exact L].
      + destruct cs; [discriminate Hd|exact Hd].
      + rewrite forallb_app, C. cbn. rewrite A1. reflexivity.
    - split; [constructor|]. constructor; [|constructor]. cbn [snd]. inversion L as [|? ? L1 _]; subst. cbn [snd] in L1. clear L.
      apply andb_prop in A. destruct A as [A1 A2]. apply orb_prop in A2. intros i Hi. rewrite Hus in *. destruct (L1 i Hi) as (t & Ht & M). apply Forall_app in M. destruct M as [M1 M2].
      rewrite Hd in *. inversion M2 as [|? ? M3 _]; subst. cbn [fst snd] in M3. clear M2. destruct A2 as [A2|A2].
      + exists t. split; [exact Ht|]. apply Forall_app. split; [apply combine_agree; assumption|]. constructor; [|constructor]. cbn [fst snd].
        rewrite (eval_agree _ i (conj_avoids cs C)), (eval_agree (fcur SEL) t eq_refl). exact M3.
      + apply is_kb_table_eq in A2. subst r. destruct (Tab t Ht) as (t' & Ht' & S & T). exists t'. split; [exact Ht'|]. apply Forall_app. split.
        * assert (V : forall c, In c [KB_value; KB_index; KB_bit] -> eval e' t' (cur c) = eval e t (cur c)).
          { intros c0 Hc. unfold cur. cbn [eval]. rewrite HN, !Z.add_0_r, !Z.mod_small by lia. apply T, Hc. }
          revert M1. apply combine_agree2; [exact A1| |exact C]. unfold key_bit_lookup. repeat constructor; apply V; cbn; tauto.
        * constructor; [|constructor]. cbn [fst snd]. rewrite (eval_agree _ i (conj_avoids cs C)), (eval_agree (fcur SEL) t' eq_refl).
          rewrite M3. rewrite !eval_fcur by lia. symmetry. exact S.
    - split; [constructor|]. constructor; [|constructor]. cbn [snd]. inversion L as [|? ? L1 _]; subst. cbn [snd] in L1. clear L.
      intros i Hi. rewrite Hus in *. destruct (L1 i Hi) as (t & Ht & M). exists t. split; [exact Ht|]. revert M.
      apply (combine_agree i t (tl cs) [qone; h; l; r; qzero; d; qone] poseidon_table).
      + cbn [forallb]. rewrite !andb_true_iff in *. intuition.
      + reflexivity.
      + destruct cs; [reflexivity|]. cbn [forallb tl] in *. apply andb_prop in C. apply C.
  Qed.
  Lemma sat_agree c : c_avoids c = true -> sat e (circuit_of c) -> sat e' (circuit_of c).
  Proof.
    intros A [G L]. unfold circuit_of, sat in *. destruct (run_spec c (builder_new SEL)) as (E1 & E2 & _). rewrite E1, E2 in *.
    cbn [builder_new constraints lookups conditions app] in *. apply cmd_agree; auto.
  Qed.
End Agree.

Lemma key_bits_pos H proofs l : key_bit_lookups H proofs = Some l -> forall x, In x l -> 0 <= snd (fst x).
Proof.
  intros E [[v i] b] Hx. cbn [fst snd]. unfold key_bit_lookups in E. ob E. apply some_eq in E. subst l. apply (proj1 (sort_dedup_in _ cmp_ok_lookup _ _)) in Hx.
  destruct Hx as [Hx|[Hx|Hx]]; [injection Hx; lia|injection Hx; lia|].
  apply (proj1 (oconcat_in _ _ _ _ E0)) in Hx. destruct Hx as (p & o & Hp & Eo & Hx). unfold proof_key_bits in Eo. ob Eo. apply some_eq in Eo. subst o.
  apply in_app_iff in Hx. destruct Hx as [Hx|Hx].
  - destruct (oconcat_from_in _ _ _ _ _ E Hx) as (k & t & o & _ & Eo & Ho). unfold trace_key_bits in Eo.
    destruct (ht_padding_open t), (ht_padding_close t); try discriminate Eo; apply some_eq in Eo; subst o.
    + destruct Ho as [Ho|[]]. injection Ho. lia.
    + destruct Ho as [Ho|[]]. injection Ho. lia.
    + apply in_map_iff in Ho. destruct Ho as (y & Ho & _). injection Ho. lia.
  - unfold sp_key_bit_lookups in Hx. destruct (pf_storage p) as [|sk key rows o n]; [contradiction|]. revert Hx. unfold trie_key_bit_lookups. generalize O.
    induction rows as [|row rows IH]; intros j Hx; cbn [trie_key_bit_lookups_from] in Hx; [contradiction|]. apply in_app_iff in Hx. destruct Hx as [Hx|Hx]; [|exact (IH _ Hx)].
    destruct (tr_path row); cbn in Hx; [contradiction| | |]; repeat (destruct Hx as [Hx|Hx]; [injection Hx; lia|]); contradiction.
Qed.

(** * A filled table *)
(* rows that assignment needs, without the panics (mpt.rs:269-287) *)
Definition enough_rows H (proofs : list Proof) (n : Z) : Prop := exists m, mpt_n_rows_required H proofs = Some m /\ m <= n.
Lemma enough_inv H proofs n reprs lookups : enough_rows H proofs n -> byte_representations proofs = Some reprs -> key_bit_lookups H proofs = Some lookups ->
  2050 <= n /\ 2 + Z.of_nat (total_rows proofs) <= n /\ 2 + Z.of_nat (length lookups) <= n /\
  byte_repr_n_rows (re_u32s reprs) (re_u64s reprs) (re_u128s reprs) (re_frs reprs) < n.
Proof.
  intros (m & E & Hm) E1 E2. unfold mpt_n_rows_required in E. rewrite E1, E2 in E. cbn [obind] in E. apply some_eq in E.
  cbn [fold_left] in E. unfold update_n_rows, key_bit_n_rows, byte_bit_n_rows in E. lia.
Qed.
Section Filled.
  Context {H par proofs n r ws reprs lookups upd cr kb br} (P : assigned H par proofs n r ws reprs lookups upd cr kb br).
  Variable e : env.
  Hypothesis FL : filled e r ws.
  Hypothesis Hn : 2049 <= n <= eusable e.
  Hypothesis Hu : eusable e <= eN e.
  Hypothesis Hs : eN e < 2 ^ 64.
  Lemma filled_fixed : fixed_ok e n.
  Proof.
    split; try assumption. intros c i Hc Hi. rewrite (fl_fix _ _ _ FL) by assumption. apply (as_fixed P). exact Hc.
  Qed.
  Lemma filled_kb c i : In c KB_cols -> 0 <= i < eN e -> eadv e c i = cell kb (A c) i.
  Proof.
    intros Hc Hi. assert (Hc' : In (A c) KB_S) by (apply in_map; exact Hc).
    rewrite (fl_adv _ _ _ FL); [|destruct c; cbn in Hc; intuition discriminate|exact Hi].
    apply (as_find P (A c) i); [destruct c; cbn in Hc; intuition discriminate|exact Hc'].
  Qed.
  Lemma filled_br c i : In c BR_cols -> 0 <= i < eN e -> eadv e c i = cell br (A c) i.
  Proof.
    intros Hc Hi. assert (Hc' : In (A c) BR_S) by (right; apply in_map; exact Hc).
    rewrite (fl_adv _ _ _ FL); [|destruct c; cbn in Hc; intuition discriminate|exact Hi].
    apply (as_find P (A c) i); [destruct c; cbn in Hc; intuition discriminate|exact Hc'].
  Qed.
  Lemma filled_cr c i : In c CR_cols -> 0 <= i < eN e -> eadv e c i = cr_cell (echal e) (mpt_update_keys H proofs) n (A c) i.
  Proof.
    intros Hc Hi. assert (Hc' : In (A c) CR_S) by (do 4 right; apply in_map; exact Hc).
    rewrite (fl_adv _ _ _ FL); [|destruct c; cbn in Hc; intuition discriminate|exact Hi]. rewrite (fl_chal _ _ _ FL).
    apply (as_find P (A c) i); [destruct c; cbn in Hc; intuition discriminate|exact Hc'].
  Qed.
  Lemma filled_mu c i : mu_col (A c) = true -> 0 <= i < eN e -> eadv e c i = cell upd (A c) i.
  Proof.
    intros Hc Hi. rewrite (fl_adv _ _ _ FL); [|destruct c; cbn in Hc; try discriminate Hc; reflexivity|exact Hi]. apply (as_upd_cell P). exact Hc.
  Qed.
  Lemma filled_br_sat : sat e (circuit_of byte_representation_configure).
  Proof.
    eapply (byte_repr_satisfied e n filled_fixed); [rewrite (fl_chal _ _ _ FL); apply (as_br _ _ _ _ _ _ _ _ _ _ _ _ P)|].
    intros c i. apply filled_br.
  Qed.
  Hypothesis HnN : n < eN e.
  Lemma filled_cr_sat : sat e (circuit_of canonical_representation_configure).
  Proof.
    apply (canonical_satisfied e n filled_fixed (mpt_update_keys H proofs)); [apply (as_fit _ _ _ _ _ _ _ _ _ _ _ _ P)|exact HnN|]. intros c i. apply filled_cr.
  Qed.
  Lemma lookups_pos : Forall (fun l => 0 <= snd (fst l)) lookups.
  Proof. apply Forall_forall. intros l Hl. exact (key_bits_pos H proofs _ (as_lookups _ _ _ _ _ _ _ _ _ _ _ _ P) l Hl). Qed.
  Lemma filled_keys v k : In v (mpt_update_keys H proofs) -> (k < 32)%nat -> accepts e canonical_lookup [v; fz (Z.of_nat k); fz (nth k (be_bytes 32 (val v)) 0)].
  Proof.
    intros Hv Hk. apply (canonical_listed e n filled_fixed (mpt_update_keys H proofs)); auto using filled_cr. apply (as_fit _ _ _ _ _ _ _ _ _ _ _ _ P).
  Qed.
  Lemma filled_roots v : In v (mpt_update_keys H proofs) -> accepts e fr_rlc_lookup [v; rlc (be_bytes 32 (val v)) (echal e)].
  Proof.
    intros Hv. apply (root_listed e n filled_fixed (mpt_update_keys H proofs)); auto using filled_cr. apply (as_fit _ _ _ _ _ _ _ _ _ _ _ _ P).
  Qed.
  Lemma row0_cr : eadv e CR_value 0 = f0 /\ eadv e CR_byte 0 = f0.
  Proof.
    split; rewrite filled_cr by (cbn; try tauto; lia); unfold cr_cell; replace (in_range 1 0 _) with false by (symmetry; apply in_range_false; lia); reflexivity.
  Qed.
  Lemma filled_kb_sat : sat e (circuit_of key_bit_configure).
  Proof.
    apply (key_bit_satisfied e n filled_fixed lookups kb (as_kbc _ _ _ _ _ _ _ _ _ _ _ _ P)).
    - intros c i. apply filled_kb.
    - apply lookups_pos.
    - intros v k Hv Hk. apply filled_keys; [|exact Hk]. destruct Hv as [->|Hv].
      + apply (proj2 (sort_dedup_in _ cmp_ok_fr _ _)). left. reflexivity.
      + apply in_map_iff in Hv. destruct Hv as ([[v' i] b] & <- & Hl). exact (keys_cover_bits H proofs _ v' i b (as_lookups _ _ _ _ _ _ _ _ _ _ _ _ P) Hl).
    - apply row0_cr.
  Qed.
  Hypothesis Hlk : Z.of_nat (length lookups) < n.
  Lemma filled_bits v x b : In (v, x, b) lookups -> accepts e key_bit_lookup [v; fz x; fb b].
  Proof.
    apply (key_bit_listed e n filled_fixed lookups kb (as_kbc _ _ _ _ _ _ _ _ _ _ _ _ P)); [intros c i; apply filled_kb|apply lookups_pos|exact Hlk].
  Qed.
End Filled.

(** * The two modes *)
Lemma par_total H threads threads' proofs n r ws : (0 < threads)%nat -> mpt_assign H false threads' proofs n r = Some ws ->
  exists ws', mpt_assign H true threads proofs n r = Some ws'.
Proof.
  intros Ht E. unfold mpt_assign in *. ob E. ob E. ob E. ob E. ob E. ob E. rewrite E0, E2. apply (proj1 (updates_modes _ _ _ _ _)) in E1. destruct E1 as [E1 _].
  rewrite E1, E3, E4. cbn [obind]. apply oassert_some in E3. apply Z.leb_le in E3.
  unfold keys_region in E5. unfold keys_regions_par.
  destruct (canonical_assign _ _ _) as [cr|] eqn:Qc; [|discriminate E5]. destruct (key_bit_assign _) as [kb|] eqn:Qk; [|discriminate E5].
  destruct (byte_repr_assign _ _ _ _ _) as [br|] eqn:Qb; [|discriminate E5].
  unfold canonical_assign_par, key_bit_assign_par. unfold key_bit_assign in Qk.
  destruct (all_some kb_row a1) as [rows|]; [|discriminate Qk].
  pose proof (chunk_size_pos (Z.to_nat (n / 32)) threads Ht ltac:(lia)) as P1.
  destruct (key_bits_sorted H _ _ E2) as (_ & _ & Hd). assert (L : (0 < length a1)%nat) by (destruct a1; [discriminate Hd|cbn; lia]).
  pose proof (chunk_size_pos (length a1) threads Ht L) as P2.
  destruct (Nat.eqb_spec (chunk_size (Z.to_nat (n / 32)) threads) 0); [lia|]. destruct (Nat.eqb_spec (chunk_size (length a1) threads) 0); [lia|].
  eexists. reflexivity.
Qed.
Lemma seq_total H threads threads' proofs n r ws : (0 < threads)%nat -> mpt_assign H true threads proofs n r = Some ws -> 2 + Z.of_nat (total_rows proofs) <= n ->
  exists ws', mpt_assign H false threads' proofs n r = Some ws'.
Proof.
  intros Ht E Hn. unfold mpt_assign in *. ob E. ob E. ob E. ob E. ob E. ob E. rewrite E0, E2.
  rewrite (proj2 (updates_modes H proofs r n a0) (conj E1 Hn)), E3, E4. cbn [obind]. apply oassert_some in E4. apply Z.leb_le in E4.
  unfold keys_regions_par in E5. unfold keys_region.
  destruct (canonical_assign_par _ _ _ _) as [cr|] eqn:Qc; [|discriminate E5]. destruct (key_bit_assign_par _ _) as [kb|] eqn:Qk; [|discriminate E5].
  destruct (byte_repr_assign _ _ _ _ _) as [br|] eqn:Qb; [|discriminate E5].
  unfold canonical_assign. destruct (Z.leb_spec (Z.of_nat (length (sort_dedup cmp_fr (mpt_update_keys H proofs)))) (n / 32)); [|lia].
  unfold key_bit_assign. unfold key_bit_assign_par in Qk. destruct (_ =? 0)%nat; [discriminate Qk|]. destruct (all_some kb_row a1); [|discriminate Qk].
  eexists. reflexivity.
Qed.
Lemma upd_same H par par' proofs r n u u' : updates H par proofs r n = Some u -> updates H par' proofs r n = Some u' -> u = u'.
Proof.
  intros E E'. destruct par, par'; try congruence.
  - apply (proj1 (updates_modes _ _ _ _ _)) in E'. destruct E' as [E' _]. congruence.
  - apply (proj1 (updates_modes _ _ _ _ _)) in E. destruct E as [E _]. congruence.
Qed.
Section Modes.
  Context {H : Fr -> Fr -> Fr -> Fr} {proofs : list Proof} {n : Z} {r : Fr} {par par' : bool} {th th' : nat} {ws ws' : list write}.
  Hypothesis Ht : par = true -> (0 < th)%nat.
  Hypothesis Ht' : par' = true -> (0 < th')%nat.
  Hypothesis E : mpt_assign H par th proofs n r = Some ws.
  Hypothesis E' : mpt_assign H par' th' proofs n r = Some ws'.
  Theorem modes_cells c i : ~ In c KB_S -> cell ws c i = cell ws' c i.
  Proof.
    intros Hc. destruct (assign_inv _ _ _ _ _ _ _ Ht E) as (re & lk & upd & cr & kb & br & P). destruct (assign_inv _ _ _ _ _ _ _ Ht' E') as (re' & lk' & upd' & cr' & kb' & br' & P').
    destruct (mu_col c) eqn:M.
    - rewrite (as_upd_cell P), (as_upd_cell P') by exact M. rewrite (upd_same _ _ _ _ _ _ _ _ (as_upd _ _ _ _ _ _ _ _ _ _ _ _ P) (as_upd _ _ _ _ _ _ _ _ _ _ _ _ P')). reflexivity.
    - assert (B : br = br').
      { pose proof (as_br _ _ _ _ _ _ _ _ _ _ _ _ P) as B1. pose proof (as_br _ _ _ _ _ _ _ _ _ _ _ _ P') as B2.
        pose proof (as_reprs _ _ _ _ _ _ _ _ _ _ _ _ P) as R1. pose proof (as_reprs _ _ _ _ _ _ _ _ _ _ _ _ P') as R2. rewrite R1 in R2. apply some_eq in R2. subst re'. congruence. }
      destruct (in_dec col_eq_dec c CR_S) as [I|I]; [rewrite (proj1 (as_find P c i M) I), (proj1 (as_find P' c i M) I); reflexivity|].
      destruct (in_dec col_eq_dec c BR_S) as [I2|I2].
      { rewrite (proj2 (proj2 (as_find P c i M)) I2), (proj2 (proj2 (as_find P' c i M)) I2), B. reflexivity. }
      destruct c as [c|c].
      + assert (N : wfind ws (A c) i = None /\ wfind ws' (A c) i = None); [|unfold cell; destruct N as [-> ->]; reflexivity].
        assert (G : forall par ws re lk upd cr kb br, assigned H par proofs n r ws re lk upd cr kb br -> wfind ws (A c) i = None).
        { intros ? ? ? ? ? ? ? ? Q.
          assert (N0 : wfind upd0 (A c) i = None) by (apply mu_none; [eapply mu_updates; apply (as_upd _ _ _ _ _ _ _ _ _ _ _ _ Q)|exact M]).
          assert (N1 : wfind cr0 (A c) i = None) by (eapply only_none; [apply (as_cr _ _ _ _ _ _ _ _ _ _ _ _ Q)|exact I]).
          assert (N2 : wfind kb0 (A c) i = None) by (eapply only_none; [apply (as_kb _ _ _ _ _ _ _ _ _ _ _ _ Q)|exact Hc]).
          assert (N3 : wfind br0 (A c) i = None) by (eapply only_none; [eapply br_only; apply (as_br _ _ _ _ _ _ _ _ _ _ _ _ Q)|exact I2]).
          assert (N4 : wfind byte_bit_assign (A c) i = None) by (eapply only_none; [apply bb_only|not_in]).
          assert (N5 : wfind (selector_writes n) (A c) i = None) by (eapply only_none; [apply sel_only|not_in]).
          assert (N6 : wfind (final_row_write n) (A c) i = None) by reflexivity.
          destruct (as_ws _ _ _ _ _ _ _ _ _ _ _ _ Q) as [-> | ->]; rewrite !wfind_app, N0, N1, N2, N3, N4, N5, N6; reflexivity. }
        split; [exact (G _ _ _ _ _ _ _ _ P)|exact (G _ _ _ _ _ _ _ _ P')].
      + destruct (fcol_eq_dec c P_q_enable) as [->|Hp].
        * assert (N : wfind ws (Fx P_q_enable) i = None /\ wfind ws' (Fx P_q_enable) i = None); [|unfold cell; destruct N as [-> ->]; reflexivity].
          assert (G : forall par ws re lk upd cr kb br, assigned H par proofs n r ws re lk upd cr kb br -> wfind ws (Fx P_q_enable) i = None).
          { intros ? ? ? ? ? ? ? ? Q.
            assert (N0 : wfind upd0 (Fx P_q_enable) i = None) by (apply mu_none; [eapply mu_updates; apply (as_upd _ _ _ _ _ _ _ _ _ _ _ _ Q)|exact M]).
            assert (N1 : wfind cr0 (Fx P_q_enable) i = None) by (eapply only_none; [apply (as_cr _ _ _ _ _ _ _ _ _ _ _ _ Q)|exact I]).
            assert (N2 : wfind kb0 (Fx P_q_enable) i = None) by (eapply only_none; [apply (as_kb _ _ _ _ _ _ _ _ _ _ _ _ Q)|exact Hc]).
            assert (N3 : wfind br0 (Fx P_q_enable) i = None) by (eapply only_none; [eapply br_only; apply (as_br _ _ _ _ _ _ _ _ _ _ _ _ Q)|exact I2]).
            assert (N4 : wfind byte_bit_assign (Fx P_q_enable) i = None) by (eapply only_none; [apply bb_only|not_in]).
            assert (N5 : wfind (selector_writes n) (Fx P_q_enable) i = None) by (eapply only_none; [apply sel_only|not_in]).
            assert (N6 : wfind (final_row_write n) (Fx P_q_enable) i = None) by reflexivity.
            destruct (as_ws _ _ _ _ _ _ _ _ _ _ _ _ Q) as [-> | ->]; rewrite !wfind_app, N0, N1, N2, N3, N4, N5, N6; reflexivity. }
          split; [exact (G _ _ _ _ _ _ _ _ P)|exact (G _ _ _ _ _ _ _ _ P')].
        * rewrite (as_fixed P), (as_fixed P') by exact Hp. reflexivity.
  Qed.
  (* the tables made in the two modes have the same key-bit rows *)
  Variables e e' : env.
  Hypothesis F : filled e r ws.
  Hypothesis F' : filled e' r ws'.
  Hypothesis HN : eN e' = eN e.
  Hypothesis Hus : eusable e' = eusable e.
  Hypothesis Hn : n <= eusable e.
  Hypothesis Hu : eusable e <= eN e.
  Hypothesis Hs : eN e < 2 ^ 64.
  Hypothesis HnN : n < eN e.
  Hypothesis Hpos : forall c i, poseidon_col c = true -> eadv e' c i = eadv e c i.
  Hypothesis Hq : forall i, efix e' P_q_enable i = efix e P_q_enable i.
  Hypothesis Hrows : enough_rows H proofs n.
  Theorem modes_sat : sat e (circuit_of (circuit H)) -> sat e' (circuit_of (circuit H)).
  Proof.
    destruct (assign_inv _ _ _ _ _ _ _ Ht E) as (re & lk & upd & cr & kb & br & P). destruct (assign_inv _ _ _ _ _ _ _ Ht' E') as (re' & lk' & upd' & cr' & kb' & br' & P').
    destruct (enough_inv _ _ _ _ _ Hrows (as_reprs _ _ _ _ _ _ _ _ _ _ _ _ P) (as_lookups _ _ _ _ _ _ _ _ _ _ _ _ P)) as (H1 & H2 & H3 & H4).
    assert (lk' = lk) as -> by (pose proof (as_lookups _ _ _ _ _ _ _ _ _ _ _ _ P); pose proof (as_lookups _ _ _ _ _ _ _ _ _ _ _ _ P'); congruence).
    assert (HK : Z.of_nat (length lk) < n) by lia.
    pose proof (filled_fixed P e F ltac:(lia) Hu Hs) as FX.
    assert (Hadv : forall c i, kb_acol c = false -> 0 <= i < eN e -> eadv e' c i = eadv e c i).
    { intros c i Hc Hi. destruct (poseidon_col c) eqn:Pc; [apply Hpos, Pc|]. rewrite (fl_adv _ _ _ F), (fl_adv _ _ _ F') by (rewrite ?HN; assumption).
      symmetry. apply modes_cells. intros X. destruct c; try discriminate Hc; cbn in X; repeat destruct X as [X|X]; try discriminate X; exact X. }
    assert (Hfix : forall c i, 0 <= i < eN e -> efix e' c i = efix e c i).
    { intros c i Hi. destruct (fcol_eq_dec c P_q_enable) as [->|Pc]; [apply Hq|]. rewrite (fl_fix _ _ _ F), (fl_fix _ _ _ F') by (rewrite ?HN; assumption).
      symmetry. apply modes_cells. not_in. }
    assert (KBc : forall c, In c [KB_value; KB_index; KB_bit] -> In c KB_cols) by (intros c Hc; cbn in *; tauto).
    assert (Z0 : In kb_zero lk).
    { destruct (key_bits_sorted H _ _ (as_lookups _ _ _ _ _ _ _ _ _ _ _ _ P)) as (_ & _ & Hd). destruct lk as [|x l]; [discriminate Hd|].
      cbn [hd_error] in Hd. apply some_eq in Hd. subst x. left. reflexivity. }
    assert (Tab : forall t, 0 <= t < eusable e -> exists t', 0 <= t' < eusable e /\ efix e SEL t' = efix e SEL t /\
      forall c, In c [KB_value; KB_index; KB_bit] -> eadv e' c t' = eadv e c t).
    { intros t Ht0. destruct (Z_lt_dec t 1) as [L|L]; [|destruct (Z_lt_dec t n) as [L2|L2]].
      - assert (t = 0) by lia. subst t. exists 0. split; [exact Ht0|]. split; [reflexivity|]. intros c Hc.
        rewrite (filled_kb P e F), (filled_kb P' e' F') by (auto; lia). rewrite (as_kb0 _ _ _ _ _ _ _ _ _ _ _ _ P), (as_kb0 _ _ _ _ _ _ _ _ _ _ _ _ P') by (apply in_map, KBc, Hc). reflexivity.
      - destruct (kbc_rows _ _ (as_kbc _ _ _ _ _ _ _ _ _ _ _ _ P) t) as (l & rw & Hl & R & C).
        assert (Hl' : In l lk) by (destruct Hl as [<-|Hl]; [exact Z0|exact Hl]).
        destruct (kbc_all _ _ (as_kbc _ _ _ _ _ _ _ _ _ _ _ _ P') l Hl') as (t' & rw' & Ht1 & R' & C'). rewrite R in R'. apply some_eq in R'. subst rw'.
        exists t'. split; [lia|]. split.
        + rewrite !(sel_on e n FX) by lia. reflexivity.
        + intros c Hc. rewrite (filled_kb P e F), (filled_kb P' e' F') by (auto; lia). rewrite C, C' by (apply in_map, KBc, Hc). reflexivity.
      - exists 0. split; [lia|]. split; [rewrite !(zero_sel_off e n FX) by lia; reflexivity|]. intros c Hc.
        rewrite (filled_kb P e F), (filled_kb P' e' F') by (auto; lia).
        rewrite (as_kb0 _ _ _ _ _ _ _ _ _ _ _ _ P') by (apply in_map, KBc, Hc). rewrite (as_kbn _ _ _ _ _ _ _ _ _ _ _ _ P) by (try (apply in_map, KBc, Hc); lia). reflexivity. }
    assert (Hch : echal e' = echal e) by (rewrite (fl_chal _ _ _ F), (fl_chal _ _ _ F'); reflexivity).
    assert (PosE : 0 < eusable e <= eN e) by lia.
    pose proof (fun c => sat_agree e e' HN Hus Hch PosE Hadv Hfix Tab c) as G.
    unfold circuit. rewrite !sat_seq. intros (S1 & S2 & S3 & S4 & S5).
    split; [apply G; [exact br_avoids|exact S1]|]. split; [apply G; [exact cr_avoids|exact S2]|].
    split; [apply (filled_kb_sat P' e' F'); lia|]. split; [apply G; [apply update_avoids|exact S4]|apply G; [exact final_avoids|exact S5]].
  Qed.
End Modes.
