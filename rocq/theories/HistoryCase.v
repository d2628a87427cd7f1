(* The tables of SoundCase.v and of three more updates as histories: examples for the theorems about histories. *)
From Coq Require Import ZArith List Bool Lia.
From Verif Require Import Pocklington Fr Query Builder BuilderProofs Gadgets MptUpdate Fixed Bytes GadgetProofs UpdateRows UpdateSound TrieSpec Util UtilProofs Serde Types TypesProofs Lookups LookupMain Assign AssignProofs AssignOk AssignRegion UpdateAssign MptAssign MptModes GadgetMain GadgetMain2 HonestTrace UpdateProps MptCases MptRows Trie TablesOk PaddingOk BlocksOk BlockRows RowCells HonestPath HonestAssign TableSpec HonestSpec HonestMain HonestCase SoundCase RefuteCase ChangeSpec NewAccount NewProps NewCase HistorySpec History Forge Forgeries ForgeCase ByteFree TableFree.
Import ListNotations.
Open Scope Z_scope.

(* slot 1 of account 11 becomes 9 *)
Definition D1 := set_storage (modify (fun _ => 9) (storage C1) 0 (sl 1)) C1.
Definition S6 := modify (fun _ => D1) S3 0 (ac 11).
Definition us2 : list update := [
  Update (ad 11) S1 S2 StorageChanged (storage_trace_of mix S1 S2 (ad 11) 1);
  Update (ad 11) S2 S3 StorageChanged (storage_trace_of mix S2 S3 (ad 11) 5);
  Update (ad 11) S3 S6 StorageChanged (storage_trace_of mix S3 S6 (ad 11) 1)].
Definition states2 : list (tree account) := [S1; S2; S3; S6].
(* words that are hashed in the table: below the modulus, and only slot 1 has its key *)
Definition words_check (slot : Z) (traces : list Trace) : bool :=
  forallb (fun t => if feqb (snd (fst t)) (fdom DPair) then let w := val (fst (fst (fst t))) * 2 ^ 128 + val (snd (fst (fst t))) in (w <? modulus) && (negb (feqb (snd t) (slot_key mix slot)) || (w =? slot)) else true) traces.
Definition table_check (l : list update) (sts : list (tree account)) (slot : Z) : bool :=
  checkb (proofs <- omap_from (fun _ u => proof_from mix (u_kind u) (u_trace u)) 0 l; m <- mpt_n_rows_required mix proofs; traces <- hash_traces mix proofs;
    Some ((m =? 2050) && (length traces <? 4000)%nat && (forallb (fun t => feqb (hash3 mix (fst t)) (snd t)) traces && cf_check (map (fun x => (x, hash3 mix x)) (map fst traces ++ account_inputs mix new_account ++ flat_map (state_inputs mix) sts))) && words_check slot traces)).
Lemma us2_checks : forallb (fun u => wf_check (u_old u) && wf_check (u_new u) && cf_check (HonestCase.all_inputs mix (u_old u) (u_new u))) us2 = true.
Proof. vm_compute. reflexivity. Qed.
Lemma us2_table : table_check us2 states2 1 = true.
Proof. vm_compute. reflexivity. Qed.
Lemma us2_ok : Forall (honest_update mix) us2.
Proof.
  assert (Ho : Forall (fun u => honest mix (u_address u) (u_old u) (u_new u) (u_kind u) (u_trace u)) us2).
  { pose proof us_honest as Ho. rewrite Forall_forall in Ho. apply Forall_cons; [apply Ho; right; left; reflexivity|]. apply Forall_cons; [apply Ho; do 2 right; left; reflexivity|]. apply Forall_cons; [|apply Forall_nil].
    cbn [u_address u_old u_new u_kind u_trace].
    apply (hon_slot mix _ _ _ C1 1 (Some 12) (Some 9) (modify (fun _ => 9) (storage C1) 0 (sl 1))); try discriminate; [lia|left; discriminate| |].
    + split; [vm_compute; reflexivity|reflexivity].
    + split; [vm_compute; reflexivity|reflexivity]. }
  pose proof us2_checks as Ch. rewrite forallb_forall in Ch. rewrite Forall_forall in Ho |- *. intros u Hu. specialize (Ch u Hu). rewrite !andb_true_iff in Ch. destruct Ch as [[C1 C2] C3].
  constructor; [exact (Ho u Hu)| |apply wf_check_ok, C1|apply wf_check_ok, C2|apply cf_check_ok, C3].
  cbn [In us2] in Hu. intuition (subst u; cbn [u_address]; unfold ad; lia).
Qed.
(* a table of honest updates *)
Lemma table_case l sts slot r : Forall (honest_update mix) l -> table_check l sts slot = true -> exists e traces, circuit_ok mix e 2081 /\ echal e = r /\
  (forall t t', In t sts -> In t' sts -> collision_free mix (inputs2 mix e t t')) /\
  (forall u, In u l -> exists s, says mix r u s /\ exposes e (encode r s)) /\
  (forall a b d h, poseidon_hit e a b d h -> In ((a, b), d, h) traces) /\ words_check slot traces = true /\ spare_row e 2081 BR_cols.
Proof.
  intros L X. unfold table_check in X. destruct (omap_from (fun _ u => proof_from mix (u_kind u) (u_trace u)) 0 l) as [proofs|] eqn:E; [|discriminate X]. cbn [obind] in X.
  destruct (mpt_n_rows_required mix proofs) as [m|] eqn:M; [|discriminate X]. cbn [obind] in X. destruct (hash_traces mix proofs) as [traces|] eqn:T; [|discriminate X]. cbn [obind checkb] in X.
  apply andb_true_iff in X. destruct X as [X W0]. apply andb_true_iff in X. destruct X as [X X3]. apply andb_true_iff in X. destruct X as [X1 X2]. apply Z.eqb_eq in X1. apply Nat.ltb_lt in X2. subst m. pose proof (omap_forall2 l 0 proofs E) as C.
  destruct (honest_assigned mix l proofs 2050 true 4 2081 r L C ltac:(lia) M ltac:(lia)) as (ws & W).
  destruct (fill_env_ok 4096 4090 r ws traces 2081) as (F & R & PL); [lia|lia|lia|lia|]. assert (En : enough_rows mix proofs 2081) by (exists 2050; split; [exact M|lia]).
  pose proof (fill_hits 4096 4090 r ws traces) as Hits. remember (fill_env 4096 4090 r ws traces) as e eqn:Ee.
  apply andb_true_iff in X3. destruct X3 as [X3 X4]. rewrite forallb_forall in X3.
  assert (T4 : (0 < 4)%nat) by lia. pose proof (honest_accepted mix (threads := 4%nat) L C T4 W F R En T PL) as S.
  assert (Ch : echal e = r) by (rewrite Ee; reflexivity).
  destruct (assign_inv mix true 4 proofs 2081 r ws (fun _ => T4) W) as (reprs & lookups & upd & cr & kb & br & P). destruct R as (R1 & R2 & R3 & R4). destruct (glue_sizes P En) as (S1 & S2 & _ & _).
  pose proof (filled_fixed P e F ltac:(lia) R2 R4) as Fx.
  assert (OK : circuit_ok mix e 2081).
  { split; [exact Fx|exact S| |].
    - intros a b d h Hh. specialize (X3 _ (Hits _ _ _ _ Hh)). cbn [fst snd] in X3. apply feqb_eq in X3. exact X3.
    - assert (HB : holds e BR_cols br) by (intros c i Hc Hi; exact (filled_br P e F ltac:(lia) c i Hc Hi)).
      pose proof (as_br _ _ _ _ _ _ _ _ _ _ _ _ P) as Qb. rewrite <- Ch in Qb. exact (byte_repr_anchor e 2081 Fx _ _ _ _ _ Qb HB). }
  exists e, traces. split; [exact OK|]. split; [exact Ch|]. split; [|split; [|split; [exact Hits|split; [exact W0|apply (spare_br P e F ltac:(rewrite Ee; cbn [eusable fill_env]; lia)); first [lia|exact R4|exists 2050; split; [exact M|lia]]]]]].
  - intros t t' Ht Ht'. apply (cf_sub mix _ (fun x => In x (map fst traces ++ account_inputs mix new_account ++ flat_map (state_inputs mix) sts))); [|apply cf_list_ok, X4].
    intros x [[(h & Hh)|Hx]|[Hx|Hx]]; apply in_or_app; [left|right; apply in_or_app; right|right; apply in_or_app; right|right; apply in_or_app; left; exact Hx].
    + destruct x as [[a b] d]. cbn [fst snd] in Hh. apply in_map_iff. exists ((a, b), d, h). split; [reflexivity|exact (Hits _ _ _ _ Hh)].
    + apply in_flat_map. exists t. auto.
    + apply in_flat_map. exists t'. auto.
  - intros u Hu. rewrite <- Ch. exact (honest_stated mix L C T4 W F ltac:(unfold room; lia) En u Hu).
Qed.
Lemma checked_unconfused e slot traces : echal e = fz 256 -> (forall a b d h, poseidon_hit e a b d h -> In ((a, b), d, h) traces) -> words_check slot traces = true -> 0 <= slot < modulus -> unconfused mix slot e.
Proof.
  intros Ch Hits W Hs w Ww Hw Q. specialize (Hits _ _ _ _ Hw). unfold words_check in W. rewrite forallb_forall in W. specialize (W _ Hits). cbn [fst snd] in W. rewrite feqb_refl in W.
  assert (M : 2 ^ 128 < modulus) by reflexivity. unfold word_ok in Ww. change (2 ^ 256) with (2 ^ 128 * 2 ^ 128) in Ww.
  assert (D : 0 <= w / 2 ^ 128 < 2 ^ 128) by (split; [apply Z.div_pos; lia|apply Z.div_lt_upper_bound; lia]). pose proof (Z.mod_pos_bound w (2 ^ 128) ltac:(lia)) as Dm.
  rewrite !val_fz in W. rewrite (Z.mod_small (w / 2 ^ 128)), (Z.mod_small (w mod 2 ^ 128)) in W by lia.
  replace (w / 2 ^ 128 * 2 ^ 128 + w mod 2 ^ 128) with w in W by (rewrite (Z.div_mod w (2 ^ 128)) at 1; lia). apply andb_true_iff in W. destruct W as [W1 W2]. apply Z.ltb_lt in W1.
  destruct Q as [Q|Q].
  - assert (modulus < 2 ^ 128 * 2 ^ 128) by reflexivity. rewrite Ch, !word_256 in Q by (unfold word_ok; change (2 ^ 256) with (2 ^ 128 * 2 ^ 128); lia). apply fz_inj in Q; [exact Q|lia|lia].
  - rewrite Q, feqb_refl in W2. apply Z.eqb_eq. exact W2.
Qed.
(* a stated update as a step *)
Lemma case_step e l sts u s : circuit_ok mix e 2081 -> echal e = fz 256 -> (forall t t', In t sts -> In t' sts -> collision_free mix (inputs2 mix e t t')) -> Forall (honest_update mix) l -> In u l -> 0 < u_address u ->
  In (u_old u) sts -> In (u_new u) sts -> says mix (fz 256) u s -> exposes e (encode (fz 256) s) -> forall R : env -> statement -> tree account -> tree account -> Prop, R e s (u_old u) (u_new u) -> step mix R e s (u_old u) (u_new u).
Proof.
  intros OK Ch CF L Hu Ap U1 U2 (Q1 & Q2 & Q3 & Q4 & _) (i & En & Ei) R HR. rewrite Forall_forall in L. destruct (L u Hu) as [_ Ad (O1 & _) (O2 & _) _].
  assert (Z : fz (st_address s) <> f0).
  { intros Q. change f0 with (fz 0) in Q. rewrite Q1 in Q. apply fz_inj in Q; [lia|apply small_lt_modulus; lia|apply small_lt_modulus; lia]. }
  pose proof En as En'. apply (fix_enabled e 2081 i (co_fixed _ _ _ OK)) in En'. exists 2081, i. split; [exact OK|]. split; [lia|].
  destruct (table_rows mix e 2081 OK i En) as [X|[(_ & X)|(Lt & s' & Rs & X)]]; [exfalso; apply Z; rewrite Ei in X; exact (f_equal (fun l => nth 0 l f0) X)|exfalso; apply Z; rewrite Ei in X; exact (f_equal (fun l => nth 0 l f0) X)|].
  rewrite Ei, Ch in X. assert (s' = s) as -> by (symmetry; apply (encode_256 s s' X); [rewrite Q1; lia|apply Rs]). split; [lia|]. split; [|split; [|exact HR]].
  - split; [rewrite Ch; exact Ei| |apply Rs|exact (rs_old_root _ _ _ _ Rs)|exact (rs_new_root _ _ _ _ Rs)]. rewrite Ei. intros X0. apply Z. exact (f_equal (fun l => nth 0 l f0) X0).
  - split; [symmetry; exact Q3|symmetry; exact Q4| | |left; reflexivity|left; reflexivity|apply bits_all|apply bits_all|exact (CF _ _ U1 U2)]; clear - O1 O2.
    + revert O1. generalize (u_old u) as t. induction t as [|k v|t1 IH1 t2 IH2]; cbn [tree_all]; [auto|intros [A _]; exact A|intros [A B]; auto].
    + revert O2. generalize (u_new u) as t. induction t as [|k v|t1 IH1 t2 IH2]; cbn [tree_all]; [auto|intros [A _]; exact A|intros [A B]; auto].
Qed.
Lemma storage_says r address t t' slot s : says mix r (Update address t t' StorageChanged (storage_trace_of mix t t' address slot)) s ->
  st_address s = address /\ st_kind s = StorageChanged /\ st_slot_rlc s = word_rlc r slot /\ st_old_value s = word_rlc r (slot_value mix t address slot) /\ st_new_value s = word_rlc r (slot_value mix t' address slot).
Proof.
  intros (Q1 & Q2 & _ & _ & x & Q5 & Q6 & Q7 & Q8). cbn [u_address u_kind u_old u_new u_trace] in *. apply trace_slot in Q5. destruct Q5 as [Q5 Qk].
  assert (V : forall t, slot_value mix t address x = slot_value mix t address slot) by (intros t0; unfold slot_value; rewrite Qk; reflexivity). rewrite V in Q7, Q8. unfold word_rlc in Q6. rewrite <- Q5 in Q6. auto.
Qed.
Notation R0 := (fun _ : env => regular mix).
Lemma present_11 t : In t [S0; S1; S2; S3; S4; S5; S6] -> present t (ac 11).
Proof.
  assert (C : forallb (fun t => match get t 0 (ac 11) with Some _ => true | None => false end) [S0; S1; S2; S3; S4; S5; S6] = true) by (vm_compute; reflexivity).
  rewrite forallb_forall in C. intros Ht. specialize (C t Ht). unfold present. destruct (get t 0 (ac 11)) as [a|]; [exists a; reflexivity|discriminate C].
Qed.
Lemma present_11_S0 : present S0 (addr_key mix (ad 11)).
Proof. apply present_11. left. reflexivity. Qed.
Lemma key_eq u s c : says mix c u s -> addr_key mix (st_address s) = addr_key mix (u_address u).
Proof. intros (-> & _). reflexivity. Qed.
(* five updates; account 15 is in none of them, account 11 in the first three *)
Theorem long_case : exists e s1 s2 s3 s4 s5, step mix R0 e s1 S0 S1 /\ history mix R0 S1 [(e, s2); (e, s3); (e, s4); (e, s5)] S5 /\
  map (fun s => (st_kind s, st_address s)) [s1; s2; s3; s4; s5] = [(NonceChanged, ad 11); (StorageChanged, ad 11); (StorageChanged, ad 11); (BalanceChanged, ad 14); (StorageChanged, ad 2)] /\ st_new_value s1 = fz 8.
Proof.
  destruct (sound_case2 (fz 256)) as (e & OK & Ch & _ & CF & Cl).
  destruct (Cl _ (or_introl eq_refl)) as (s1 & Y1 & X1). destruct (Cl _ (or_intror (or_introl eq_refl))) as (s2 & Y2 & X2). destruct (Cl _ (or_intror (or_intror (or_introl eq_refl)))) as (s3 & Y3 & X3).
  destruct (Cl _ (or_intror (or_intror (or_intror (or_introl eq_refl))))) as (s4 & Y4 & X4). destruct (Cl _ (or_intror (or_intror (or_intror (or_intror (or_introl eq_refl)))))) as (s5 & Y5 & X5).
  pose proof states_of_us as Su. rewrite Forall_forall in Su.
  assert (St : forall u s, In u us -> 0 < u_address u -> says mix (fz 256) u s -> exposes e (encode (fz 256) s) -> regular mix s (u_old u) (u_new u) -> step mix R0 e s (u_old u) (u_new u)).
  { intros u s Hu Ap Sy Ex Rg. destruct (Su u Hu) as [U1 U2]. exact (case_step e us states u s OK Ch CF us_ok Hu Ap U1 U2 Sy Ex R0 Rg). }
  exists e, s1, s2, s3, s4, s5.
  assert (P11 : forall u s, says mix (fz 256) u s -> u_address u = ad 11 -> In (u_old u) [S0; S1; S2; S3; S4; S5; S6] -> regular mix s (u_old u) (u_new u)).
  { intros u s Sy Eu I. left. rewrite (key_eq u s _ Sy), Eu. exact (present_11 _ I). }
  split; [|split; [|split]].
  - refine (St _ s1 (or_introl eq_refl) _ Y1 X1 _); [reflexivity|]. apply (P11 _ s1 Y1 eq_refl). left. reflexivity.
  - apply (h_step mix R0 e s2 S1 S2).
    { refine (St _ s2 (or_intror (or_introl eq_refl)) _ Y2 X2 _); [reflexivity|]. apply (P11 _ s2 Y2 eq_refl). right; left. reflexivity. }
    apply (h_step mix R0 e s3 S2 S3).
    { refine (St _ s3 (or_intror (or_intror (or_introl eq_refl))) _ Y3 X3 _); [reflexivity|]. apply (P11 _ s3 Y3 eq_refl). do 2 right; left. reflexivity. }
    apply (h_step mix R0 e s4 S3 S4).
    { refine (St _ s4 (or_intror (or_intror (or_intror (or_introl eq_refl)))) _ Y4 X4 _); [reflexivity|]. cbn [u_old u_new]. right; right. rewrite (key_eq _ s4 _ Y4). cbn [u_address]. destruct Y4 as (_ & Q & _). rewrite Q.
      split; [discriminate|]. split; [exists A8; vm_compute; reflexivity|]. split; [apply states_placed; cbn [HonestCase.states In]; auto 10|]. intros o b E. exfalso. clear - E. vm_compute in E. discriminate E. }
    apply (h_step mix R0 e s5 S4 S5); [|apply h_done].
    refine (St _ s5 (or_intror (or_intror (or_intror (or_intror (or_introl eq_refl))))) _ Y5 X5 _); [reflexivity|]. cbn [u_old u_new]. left. rewrite (key_eq _ s5 _ Y5). exists A3. vm_compute. reflexivity.
  - cbn [map]. destruct Y1 as (-> & -> & _), Y2 as (-> & -> & _), Y3 as (-> & -> & _), Y4 as (-> & -> & _), Y5 as (-> & -> & _). reflexivity.
  - destruct Y1 as (_ & _ & _ & _ & _ & _ & ->). vm_compute get. reflexivity.
Qed.
(* the balance of account 11, claimed twice with another claim in between *)
Theorem twice_case : exists e s1 s2 s3, step mix R0 e s1 S1 S1 /\ history mix R0 S1 [(e, s2)] S1 /\ step mix R0 e s3 S1 S1 /\
  map (fun s => (st_kind s, st_address s)) [s1; s2; s3] = [(BalanceChanged, ad 11); (CodeSizeExists, ad 11); (BalanceChanged, ad 11)] /\ st_new_value s1 = word_rlc (echal e) 3.
Proof.
  destruct (sound_case2 (fz 256)) as (e & OK & Ch & _ & CF & Cl).
  assert (I1 : In (Update (ad 11) S1 S1 BalanceChanged (account_trace_of mix S1 S1 (ad 11))) us) by (do 9 right; left; reflexivity).
  assert (I2 : In (Update (ad 11) S1 S1 CodeSizeExists (account_trace_of mix S1 S1 (ad 11))) us) by (do 10 right; left; reflexivity).
  destruct (Cl _ I1) as (s1 & Y1 & X1). destruct (Cl _ I2) as (s2 & Y2 & X2). exists e, s1, s2, s1.
  assert (Is : In S1 states) by (right; left; reflexivity).
  assert (A : step mix R0 e s1 S1 S1).
  { refine (case_step e us states _ s1 OK Ch CF us_ok I1 _ Is Is Y1 X1 R0 _); [reflexivity|]. left. rewrite (key_eq _ s1 _ Y1). apply present_11. right; left. reflexivity. }
  split; [exact A|]. split; [|split; [exact A|split]].
  - apply (h_step mix R0 e s2 S1 S1); [|apply h_done]. refine (case_step e us states _ s2 OK Ch CF us_ok I2 _ Is Is Y2 X2 R0 _); [reflexivity|]. left. rewrite (key_eq _ s2 _ Y2). apply present_11. right; left. reflexivity.
  - cbn [map]. destruct Y1 as (-> & -> & _), Y2 as (-> & -> & _). reflexivity.
  - destruct Y1 as (_ & _ & _ & _ & _ & _ & V). rewrite V, Ch. vm_compute get. reflexivity.
Qed.
(* slot 1 of account 11 becomes 12, slot 5 is filled, slot 1 becomes 9 *)
Theorem slots_case : exists e s1 s2 s3, step mix (slot_regular mix (ac 11) 1) e s1 S1 S2 /\ history mix (slot_regular mix (ac 11) 1) S2 [(e, s2)] S3 /\ step mix (slot_regular mix (ac 11) 1) e s3 S3 S6 /\
  about_slot mix (ac 11) 1 e s1 /\ ~ about_slot mix (ac 11) 1 e s2 /\ about_slot mix (ac 11) 1 e s3 /\
  (exists a, get S1 0 (ac 11) = Some a /\ present (storage a) (slot_key mix 1)) /\ (exists a, get S6 0 (ac 11) = Some a /\ present (storage a) (slot_key mix 1)) /\
  st_new_value s1 = word_rlc (echal e) 12 /\ st_old_value s3 = word_rlc (echal e) 12 /\ st_new_value s3 = word_rlc (echal e) 9.
Proof.
  destruct (table_case us2 states2 1 (fz 256) us2_ok us2_table) as (e & traces & OK & Ch & CF & Cl & Hits & W & _).
  assert (M1 : 0 <= 1 < modulus) by (split; [lia|reflexivity]). assert (M5 : 0 <= 5 < modulus) by (split; [lia|reflexivity]).
  pose proof (checked_unconfused e 1 traces Ch Hits W M1) as Un.
  destruct (Cl _ (or_introl eq_refl)) as (s1 & Y1 & X1). destruct (Cl _ (or_intror (or_introl eq_refl))) as (s2 & Y2 & X2). destruct (Cl _ (or_intror (or_intror (or_introl eq_refl)))) as (s3 & Y3 & X3).
  exists e, s1, s2, s3.
  assert (Wk : forall z, 0 <= z < modulus -> word_ok z) by (intros z Hz; unfold word_ok; assert (modulus < 2 ^ 256) by reflexivity; lia).
  (* a word with the RLC of a small slot that is hashed is that slot *)
  assert (Only : forall w z, word_ok w -> slot_hashed mix e w -> 0 <= z < modulus -> word_rlc (fz 256) z = word_rlc (echal e) w -> w = z).
  { intros w z Ww Hw Hz Q. specialize (Hits _ _ _ _ Hw). unfold words_check in W. rewrite forallb_forall in W. specialize (W _ Hits). cbn [fst snd] in W. rewrite feqb_refl in W. apply andb_true_iff in W. destruct W as [W _]. apply Z.ltb_lt in W.
    assert (M : 2 ^ 128 < modulus) by reflexivity. pose proof Ww as Ww'. unfold word_ok in Ww. change (2 ^ 256) with (2 ^ 128 * 2 ^ 128) in Ww.
    assert (D : 0 <= w / 2 ^ 128 < 2 ^ 128) by (split; [apply Z.div_pos; lia|apply Z.div_lt_upper_bound; lia]). pose proof (Z.mod_pos_bound w (2 ^ 128) ltac:(lia)) as Dm.
    rewrite !val_fz in W. rewrite (Z.mod_small (w / 2 ^ 128)), (Z.mod_small (w mod 2 ^ 128)) in W by lia.
    replace (w / 2 ^ 128 * 2 ^ 128 + w mod 2 ^ 128) with w in W by (rewrite (Z.div_mod w (2 ^ 128)) at 1; lia).
    rewrite Ch, !word_256 in Q by auto. symmetry. apply fz_inj in Q; [exact Q|lia|lia]. }
  assert (Reg : forall u s z a a', In u us2 -> says mix (fz 256) u s -> u_address u = ad 11 -> In (u_old u) [S0; S1; S2; S3; S4; S5; S6] -> 0 <= z < modulus -> st_slot_rlc s = word_rlc (fz 256) z ->
    get (u_old u) 0 (ac 11) = Some a -> get (u_new u) 0 (ac 11) = Some a' -> placed (storage a) [] /\ placed (storage a') [] /\ present (storage a') (slot_key mix z) -> slot_regular mix (ac 11) 1 e s (u_old u) (u_new u)).
  { intros u s z a a' _ Sy Eu I Hz Sl G G' (P1 & P2 & P3). split; [left; rewrite (key_eq u s _ Sy), Eu; exact (present_11 _ I)|]. intros _ _. split; [exact Un|]. intros w b b' Ww Hw Q Gb Gb'.
    rewrite Sl in Q. rewrite (Only w z Ww Hw Hz Q). assert (b = a) by congruence. assert (b' = a') by congruence. subst b b'. auto. }
  pose proof (storage_says _ _ _ _ _ _ Y1) as (F1 & A2 & A3 & A4 & A5). pose proof (storage_says _ _ _ _ _ _ Y2) as (F2 & B2 & B3 & _ & _). pose proof (storage_says _ _ _ _ _ _ Y3) as (E1 & E2 & E3 & E4 & E5).
  assert (G1 : get S1 0 (ac 11) = Some (set_nonce 8 A1)) by (vm_compute; reflexivity). assert (G2 : get S2 0 (ac 11) = Some B1) by (vm_compute; reflexivity).
  assert (G3 : get S3 0 (ac 11) = Some C1) by (vm_compute; reflexivity). assert (G6 : get S6 0 (ac 11) = Some D1) by (vm_compute; reflexivity).
  assert (L1 : placed (storage A1) []) by (apply placed_check_ok; vm_compute; reflexivity). assert (L2 : placed (storage B1) []) by (apply placed_check_ok; vm_compute; reflexivity).
  assert (L3 : placed (storage C1) []) by (apply placed_check_ok; vm_compute; reflexivity). assert (L6 : placed (storage D1) []) by (apply placed_check_ok; vm_compute; reflexivity).
  assert (T1 : In S1 states2) by (left; reflexivity). assert (T2 : In S2 states2) by (right; left; reflexivity). assert (T3 : In S3 states2) by (do 2 right; left; reflexivity). assert (T6 : In S6 states2) by (do 3 right; left; reflexivity).
  split.
  { refine (case_step e us2 states2 _ s1 OK Ch CF us2_ok (or_introl eq_refl) _ T1 T2 Y1 X1 _ _); [reflexivity|]. cbn [u_old u_new].
    refine (Reg _ s1 1 _ _ (or_introl eq_refl) Y1 eq_refl _ M1 A3 G1 G2 _); [right; left; reflexivity|]. split; [exact L1|]. split; [exact L2|]. exists 12. vm_compute. reflexivity. }
  split.
  { apply (h_step mix _ e s2 S2 S3); [|apply h_done]. refine (case_step e us2 states2 _ s2 OK Ch CF us2_ok (or_intror (or_introl eq_refl)) _ T2 T3 Y2 X2 _ _); [reflexivity|]. cbn [u_old u_new].
    refine (Reg _ s2 5 _ _ (or_intror (or_introl eq_refl)) Y2 eq_refl _ M5 B3 G2 G3 _); [do 2 right; left; reflexivity|]. split; [exact L2|]. split; [exact L3|]. exists (2 ^ 200). vm_compute. reflexivity. }
  split.
  { refine (case_step e us2 states2 _ s3 OK Ch CF us2_ok (or_intror (or_intror (or_introl eq_refl))) _ T3 T6 Y3 X3 _ _); [reflexivity|]. cbn [u_old u_new].
    refine (Reg _ s3 1 _ _ (or_intror (or_intror (or_introl eq_refl))) Y3 eq_refl _ M1 E3 G3 G6 _); [do 3 right; left; reflexivity|]. split; [exact L3|]. split; [exact L6|]. exists 9. vm_compute. reflexivity. }
  split; [split; [rewrite F1; reflexivity|split; [exact A2|rewrite Ch; exact A3]]|].
  split; [intros (_ & _ & Q); rewrite B3, Ch, !word_256 in Q by auto; apply fz_inj in Q; [discriminate Q|exact M5|exact M1]|].
  split; [split; [rewrite E1; reflexivity|split; [exact E2|rewrite Ch; exact E3]]|].
  split; [eexists; split; [exact G1|]; exists 10; vm_compute; reflexivity|]. split; [eexists; split; [exact G6|]; exists 9; vm_compute; reflexivity|].
  assert (V2 : slot_value mix S2 (ad 11) 1 = 12) by (vm_compute; reflexivity). assert (V3 : slot_value mix S3 (ad 11) 1 = 12) by (vm_compute; reflexivity). assert (V6 : slot_value mix S6 (ad 11) 1 = 9) by (vm_compute; reflexivity).
  rewrite A5, E4, E5, V2, V3, V6, Ch. auto.
Qed.
Lemma exposed_states e s : circuit_ok mix e 2081 -> echal e = fz 256 -> exposes e (encode (fz 256) s) -> 0 < st_address s < 2 ^ 160 -> exists i, 1 <= i /\ i + 1 < 2081 /\ row_states e i s.
Proof.
  intros OK Ch (i & En & Ei) Ad.
  assert (Z : fz (st_address s) <> f0).
  { intros Q. change f0 with (fz 0) in Q. apply fz_inj in Q; [lia|apply small_lt_modulus; lia|apply small_lt_modulus; lia]. }
  pose proof En as En'. apply (fix_enabled e 2081 i (co_fixed _ _ _ OK)) in En'. exists i. split; [lia|].
  destruct (table_rows mix e 2081 OK i En) as [X|[(_ & X)|(Lt & s' & Rs & X)]]; [exfalso; apply Z; rewrite Ei in X; exact (f_equal (fun l => nth 0 l f0) X)|exfalso; apply Z; rewrite Ei in X; exact (f_equal (fun l => nth 0 l f0) X)|].
  rewrite Ei, Ch in X. assert (s' = s) as -> by (symmetry; apply (encode_256 s s' X); [lia|apply Rs]). split; [lia|].
  split; [rewrite Ch; exact Ei| |apply Rs|exact (rs_old_root _ _ _ _ Rs)|exact (rs_new_root _ _ _ _ Rs)]. rewrite Ei. intros X0. apply Z. exact (f_equal (fun l => nth 0 l f0) X0).
Qed.
(* without the restriction to regular updates: an account disappears although no update is about it *)
Theorem replaced_history : exists e s t t' k B, history mix (fun _ _ _ _ => True) t [(e, s)] t' /\ addr_key mix (st_address s) <> k /\ placed t [] /\ placed t' [] /\ get t 0 k = Some B /\ get t' 0 k = None.
Proof.
  destruct (replaced mix 2081 (fz 256) (ad 11) (ad 15) 8 A1 ltac:(lia) (ad_small 11 ltac:(lia)) (ad_small 15 ltac:(lia)) ltac:(discriminate) ltac:(lia) A1_ok ltac:(left; reflexivity) cf_replaced) as (e & OK & Ch & Ex & Tr).
  pose proof (replaced_lost mix (ad 11) (ad 15) 8 A1 (ad_small 11 ltac:(lia)) (ad_small 15 ltac:(lia)) ltac:(discriminate) cf_replaced) as [L1 L2].
  assert (Ap : 0 < ad 11 < 2 ^ 160) by (split; [reflexivity|exact (proj2 (ad_small 11 ltac:(lia)))]). destruct (exposed_states e _ OK Ch Ex Ap) as (i & I1 & I2 & I3).
  exists e; do 3 eexists; exists (addr_key mix (ad 15)), A1. split; [eapply h_step; [exists 2081, i; split; [exact OK|]; split; [exact I1|]; split; [exact I2|]; split; [exact I3|]; split; [exact Tr|exact Logic.I]|apply h_done]|].
  split; [intros Q; cbn [st_address] in Q; rewrite <- Q in L2; cbn [get] in L2; unfold ac in L2; rewrite feqb_refl in L2; discriminate L2|].
  split; [intros x b E; destruct x; discriminate E|]. split; [intros x b E; destruct x; discriminate E|]. split; [exact L1|exact L2].
Qed.
