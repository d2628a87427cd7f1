(* The table of HonestCase.v meets the hypotheses of the soundness theorems. *)
From Coq Require Import ZArith List Bool Lia.
From Verif Require Import Pocklington Fr Query Builder BuilderProofs Gadgets MptUpdate Fixed Bytes GadgetProofs UpdateRows UpdateSound TrieSpec Util Serde Types TypesProofs Lookups LookupMain Assign AssignProofs AssignOk AssignRegion UpdateAssign MptAssign MptModes GadgetMain GadgetMain2 HonestTrace UpdateProps MptCases MptRows Trie TablesOk PaddingOk BlocksOk BlockRows RowCells HonestPath HonestAssign TableSpec HonestSpec HonestMain HonestCase ChangeSpec NewAccount.
Import ListNotations.
Open Scope Z_scope.

Lemma fill_hits N u r ws traces l rr d h : poseidon_hit (fill_env N u r ws traces) l rr d h -> In ((l, rr), d, h) traces.
Proof.
  intros (t & Ht & Q & A1 & A2 & A3 & A4 & A5 & A6). unfold fill_env in *. cbn [efix eadv poseidon_col] in *.
  destruct (t <? Z.of_nat (length traces)) eqn:E; [|discriminate Q]. apply Z.ltb_lt in E. cbn [eusable] in Ht.
  subst. assert (X : nth (Z.to_nat t) traces no_trace = (((fst (fst (fst (nth (Z.to_nat t) traces no_trace))), snd (fst (fst (nth (Z.to_nat t) traces no_trace)))), snd (fst (nth (Z.to_nat t) traces no_trace))), snd (nth (Z.to_nat t) traces no_trace))) by (destruct (nth (Z.to_nat t) traces no_trace) as [[[? ?] ?] ?]; reflexivity).
  rewrite <- X. apply nth_In. lia.
Qed.
Lemma cf_list_ok H l : cf_check (map (fun x => (x, hash3 H x)) l) = true -> collision_free H (fun x => In x l).
Proof.
  intros E. apply andb_true_iff in E. destruct E as [E1 E2]. rewrite forallb_forall in E1. destruct (distinct_ok _ _ E2) as (m & _ & M).
  assert (I : forall x, In x l -> In (x, hash3 H x) (map (fun x => (x, hash3 H x)) l)) by (intros x Hx; apply in_map_iff; exists x; auto).
  split.
  - intros x y Hx Hy E. pose proof (M _ (I x Hx)) as Q1. pose proof (M _ (I y Hy)) as Q2. cbn [fst snd] in Q1, Q2. change (hash3 H x = hash3 H y) in E. rewrite E in Q1. congruence.
  - intros x Hx E. specialize (E1 _ (I x Hx)). cbn [snd] in E1. unfold hash3 in E1. rewrite E, feqb_refl in E1. discriminate E1.
Qed.
Lemma cf_sub H (P Q : triple -> Prop) : (forall x, P x -> Q x) -> collision_free H Q -> collision_free H P.
Proof. intros S [A B]. split; [intros x y Hx Hy; apply A; auto|intros x Hx; apply B; auto]. Qed.
Definition small_heights (t : tree account) : bool := (height t <=? 200)%nat && all_check (fun a => (height (storage a) <=? 200)%nat) t.
Lemma states_checks : forallb (fun t => wf_check t && small_heights t) states = true.
Proof. vm_compute. reflexivity. Qed.
Theorem sound_case2 r : exists e, circuit_ok mix e 2081 /\ echal e = r /\ (forall t, In t states -> trie_of mix e 2081 (state_root mix t) t) /\
  (forall t t', In t states -> In t' states -> collision_free mix (inputs2 mix e t t')) /\
  (forall u, In u us -> exists s, says mix r u s /\ exposes e (encode r s)).
Proof.
  pose proof us_sizes as X. destruct (omap_from (fun _ u => proof_from mix (u_kind u) (u_trace u)) 0 us) as [proofs|] eqn:E; [|discriminate X]. cbn [obind] in X.
  destruct (mpt_n_rows_required mix proofs) as [m|] eqn:M; [|discriminate X]. cbn [obind] in X. destruct (hash_traces mix proofs) as [traces|] eqn:T; [|discriminate X]. cbn [obind checkb] in X.
  apply andb_true_iff in X. destruct X as [X X3]. apply andb_true_iff in X. destruct X as [X1 X2]. apply Z.eqb_eq in X1. apply Nat.ltb_lt in X2. subst m. pose proof (omap_forall2 us 0 proofs E) as C.
  destruct (honest_assigned mix us proofs 2050 true 4 2081 r us_ok C ltac:(lia) M ltac:(lia)) as (ws & W).
  destruct (fill_env_ok 4096 4090 r ws traces 2081) as (F & R & PL); [lia|lia|lia|lia|]. assert (En : enough_rows mix proofs 2081) by (exists 2050; split; [exact M|lia]).
  pose proof (fill_hits 4096 4090 r ws traces) as Hits. remember (fill_env 4096 4090 r ws traces) as e eqn:Ee.
  apply andb_true_iff in X3. destruct X3 as [X3 X4]. rewrite forallb_forall in X3.
  assert (T4 : (0 < 4)%nat) by lia. pose proof (honest_accepted mix (threads := 4%nat) us_ok C T4 W F R En T PL) as S.
  assert (Ch : echal e = r) by (rewrite Ee; reflexivity).
  destruct (assign_inv mix true 4 proofs 2081 r ws (fun _ => T4) W) as (reprs & lookups & upd & cr & kb & br & P). destruct R as (R1 & R2 & R3 & R4). destruct (glue_sizes P En) as (S1 & S2 & _ & _).
  pose proof (filled_fixed P e F ltac:(lia) R2 R4) as Fx.
  assert (OK : circuit_ok mix e 2081).
  { split; [exact Fx|exact S| |].
    - intros l rr d h Hh. specialize (X3 _ (Hits _ _ _ _ Hh)). cbn [fst snd] in X3. apply feqb_eq in X3. exact X3.
    - assert (HB : holds e BR_cols br) by (intros c i Hc Hi; exact (filled_br P e F ltac:(lia) c i Hc Hi)).
      pose proof (as_br _ _ _ _ _ _ _ _ _ _ _ _ P) as Qb. rewrite <- Ch in Qb. exact (byte_repr_anchor e 2081 Fx _ _ _ _ _ Qb HB). }
  assert (CF : forall t t', In t states -> In t' states -> collision_free mix (inputs2 mix e t t')).
  { intros t t' Ht Ht'. apply (cf_sub mix _ (fun x => In x (map fst traces ++ account_inputs mix new_account ++ flat_map (state_inputs mix) states))); [|apply cf_list_ok, X4].
    intros x [[(h & Hh)|Hx]|[Hx|Hx]]; apply in_or_app; [left|right; apply in_or_app; right|right; apply in_or_app; right|right; apply in_or_app; left; exact Hx].
    - destruct x as [[a b] d]. cbn [fst snd] in Hh. apply in_map_iff. exists ((a, b), d, h). split; [reflexivity|exact (Hits _ _ _ _ Hh)].
    - apply in_flat_map. exists t. auto.
    - apply in_flat_map. exists t'. auto. }
  exists e. split; [exact OK|]. split; [exact Ch|]. split.
  - intros t Ht. pose proof states_checks as Sc. rewrite forallb_forall in Sc. specialize (Sc t Ht). apply andb_true_iff in Sc. destruct Sc as [Sc1 Sc2]. apply wf_check_ok in Sc1. destruct Sc1 as [Sf _]. apply andb_true_iff in Sc2. destruct Sc2 as [Sh1 Sh2].
    split; [reflexivity|]. split; [|split; [|split]].
    + clear - Sf. revert Sf. induction t as [|k v|l IHl rr IHr]; cbn [tree_all]; [auto|intros [A _]; exact A|intros [A B]; auto].
    + left. reflexivity.
    + clear. induction t as [|k v|l IHl rr IHr]; cbn [tree_all]; [exact Logic.I|left; reflexivity|auto].
    + apply (cf_sub mix _ (inputs2 mix e t t)); [intros x Hx; left; exact Hx|]. exact (CF t t Ht Ht).
  - split; [exact CF|]. intros u Hu. rewrite <- Ch. exact (honest_stated mix us_ok C T4 W F ltac:(unfold room; lia) En u Hu).
Qed.

Theorem sound_case r : exists e, circuit_ok mix e 2081 /\ echal e = r /\ (forall t, In t states -> trie_of mix e 2081 (state_root mix t) t) /\
  (forall u, In u us -> exists s, says mix r u s /\ exposes e (encode r s)).
Proof. destruct (sound_case2 r) as (e & A & B & C & _ & D). exists e. auto. Qed.
