(* A block of three claims: an example for the theorem about lucky challenges and blocks. *)
From Coq Require Import ZArith List Bool Lia.
From Verif Require Import Pocklington Fr Query Builder BuilderProofs Gadgets MptUpdate Fixed Bytes GadgetProofs UpdateRows UpdateSound TrieSpec Util UtilProofs Types GadgetMain HonestTrace UpdateProps TableSpec HonestSpec HonestMain HonestCase SoundCase RefuteCase ChangeSpec NewAccount NewProps NewCase HistorySpec History HistoryCase Serde TypesProofs Lookups LookupMain Assign AssignProofs AssignOk AssignRegion UpdateAssign MptAssign MptModes GadgetMain2 MptCases MptRows Trie TablesOk PaddingOk BlocksOk BlockRows RowCells HonestPath HonestAssign Forge PhaseSpec PhaseOk Challenge ChallengeCase BlockSpec Block.
Import ListNotations.
Open Scope Z_scope.

(* the nonce of account 11 becomes 8; its balance 3 is claimed as 3 plus the modulus; its slot 1 changes from 10 to 12 *)
Definition nonce_up : request := Request (ad 11) 0 NonceChanged (state_root mix S1) (state_root mix S0) 8 1.
Definition slot_write : request := Request (ad 11) 1 StorageChanged (state_root mix S2) (state_root mix S1) 12 10.
Definition three : list request := [nonce_up; false_balance; slot_write].

Lemma get_S1 : get S1 0 (addr_key mix (ad 11)) = Some (set_nonce 8 A1). Proof. vm_compute. reflexivity. Qed.
Lemma get_S0 : get S0 0 (addr_key mix (ad 11)) = Some A1. Proof. vm_compute. reflexivity. Qed.
Lemma apply_nonce : apply mix nonce_up S0 = S1.
Proof. unfold apply. cbn [rq_kind nonce_up rq_new rq_address]. rewrite (modify_const _ S0 0 _ A1 get_S0). reflexivity. Qed.
Lemma apply_slot : apply mix slot_write S1 = S2.
Proof. unfold apply. cbn [rq_kind slot_write rq_new rq_address rq_slot]. rewrite (modify_const _ S1 0 _ _ get_S1). reflexivity. Qed.
Lemma address_11 : 0 <= ad 11 < 2 ^ 160. Proof. split; [discriminate|reflexivity]. Qed.
Lemma three_ok : Forall request_ok three.
Proof.
  pose proof address_11 as A. unfold three. apply Forall_cons; [|apply Forall_cons; [exact false_balance_ok|apply Forall_cons; [|apply Forall_nil]]].
  - split; cbn [rq_address rq_slot rq_kind rq_new rq_old nonce_up value_ok]; [exact A|unfold word_ok; lia|lia|lia].
  - split; cbn [rq_address rq_slot rq_kind rq_new rq_old slot_write value_ok]; [exact A|unfold word_ok; lia|unfold word_ok; lia|unfold word_ok; lia].
Qed.
(* with the false balance the account has other numbers but the same hashes *)
Lemma same_inputs : state_inputs mix (apply mix false_balance S1) = state_inputs mix S1.
Proof.
  assert (I : forall l l' : list triple, map (fun x => (val (fst (fst x)), val (snd (fst x)), val (snd x))) l = map (fun x => (val (fst (fst x)), val (snd (fst x)), val (snd x))) l' -> l = l').
  { induction l as [|[[x y] z] l IH]; intros [|[[x' y'] z'] l'] E; try discriminate E; [reflexivity|]. cbn [map fst snd] in E. injection E as E1 E2 E3 E.
    rewrite (Fr_eq _ _ E1), (Fr_eq _ _ E2), (Fr_eq _ _ E3), (IH l' E). reflexivity. }
  apply I. vm_compute. reflexivity.
Qed.
Lemma get_false : get (apply mix false_balance S1) 0 (addr_key mix (ad 11)) = Some (set_balance (3 + modulus) (set_nonce 8 A1)).
Proof. unfold apply. cbn [rq_kind false_balance rq_new rq_address]. rewrite (modify_get _ S1 0 _ _ get_S1). reflexivity. Qed.
Lemma slot_there : get (storage A1) 0 (slot_key mix 1) <> None. Proof. vm_compute. discriminate. Qed.

Lemma not_padding q c : rq_address q = ad 11 -> encode c (requested c q) <> blank_row /\ encode c (requested c q) <> final_row.
Proof.
  assert (Nz : fz (ad 11) <> f0).
  { intros Q. change f0 with (fz 0) in Q. apply fz_inj in Q; [discriminate Q|apply small_lt_modulus; split; [discriminate|reflexivity]|apply small_lt_modulus; lia]. }
  intros Eq. split; intros Q; apply Nz; rewrite <- Eq; exact (f_equal (fun l => nth 0 l f0) Q).
Qed.
Lemma nonce_says c s : says mix c (Update (ad 11) S0 S1 NonceChanged (account_trace_of mix S0 S1 (ad 11))) s -> s = requested c nonce_up.
Proof.
  intros (Q1 & Q2 & Q3 & Q4 & Q5 & Q6 & Q7). cbn [u_address u_kind u_old u_new] in *. destruct s as [y0 y1 y2 y3 y4 y5 y6]. cbn [st_address st_slot_rlc st_kind st_new_root st_old_root st_new_value st_old_value] in *.
  rewrite get_S0 in Q6. rewrite get_S1 in Q7. unfold requested, nonce_up, value_column. cbn [rq_address rq_slot rq_kind rq_new_root rq_old_root rq_new rq_old].
  rewrite word_rlc_0, Q1, Q2, Q3, Q4, Q5, Q6, Q7. reflexivity.
Qed.
Lemma slot_says c s : says mix c (Update (ad 11) S1 S2 StorageChanged (storage_trace_of mix S1 S2 (ad 11) 1)) s -> s = requested c slot_write.
Proof.
  intros Y. pose proof Y as (_ & _ & Q3 & Q4 & _). apply storage_says in Y. destruct Y as (Q1 & Q2 & Q5 & Q6 & Q7). cbn [u_old u_new] in *. destruct s as [y0 y1 y2 y3 y4 y5 y6]. cbn [st_address st_slot_rlc st_kind st_new_root st_old_root st_new_value st_old_value] in *.
  assert (W1 : slot_value mix S1 (ad 11) 1 = 10) by (vm_compute; reflexivity). assert (W2 : slot_value mix S2 (ad 11) 1 = 12) by (vm_compute; reflexivity). rewrite W1 in Q6. rewrite W2 in Q7.
  unfold requested, slot_write, value_column. cbn [rq_address rq_slot rq_kind rq_new_root rq_old_root rq_new rq_old]. rewrite Q1, Q2, Q3, Q4, Q5, Q6, Q7. reflexivity.
Qed.
Theorem block_example : exists e, Forall request_ok three /\ start_state 2081 S0 /\ chained (state_root mix S0) three (state_root mix S2) /\
  throughout mix (overwrites mix) three S0 /\ (forall l1 q l2, three = l1 ++ q :: l2 -> collision_free mix (inputs mix e (run mix l1 S0))) /\
  NoDup [fz 256] /\ (forall c, In c [fz 256] -> block_fooled mix e 2081 three S0 (state_root mix S2) c).
Proof.
  destruct (sound_case2 (fz 256)) as (e & OK & Ch & Tr & CF & Cl).
  assert (I0 : In S0 states) by (left; reflexivity). assert (I1 : In S1 states) by (right; left; reflexivity).
  assert (C : forall t, In t states -> collision_free mix (inputs mix e t)) by (intros t Ht; apply (Tr t Ht)).
  exists e. split; [exact three_ok|]. split; [|split; [|split; [|split; [|split]]]].
  - destruct (Tr _ I0) as (_ & T2 & T3 & T4 & _). split; assumption.
  - repeat split; reflexivity.
  - cbn [throughout three]. rewrite apply_nonce. unfold overwrites. cbn [rq_kind nonce_up false_balance slot_write rq_address rq_slot rq_new].
    split; [rewrite get_S0; discriminate|]. split; [rewrite get_S1; discriminate|]. split; [|exact Logic.I]. split; [discriminate|].
    exists (set_balance (3 + modulus) (set_nonce 8 A1)). split; [exact get_false|exact slot_there].
  - intros l1 q l2 E. destruct l1 as [|x1 l1]; [exact (C _ I0)|]. injection E as <- E. destruct l1 as [|x2 l1]; [unfold run; cbn [fold_left]; rewrite apply_nonce; exact (C _ I1)|].
    injection E as <- E. destruct l1 as [|x3 l1]; [|exfalso; injection E as _ E; destruct l1; discriminate E].
    unfold run; cbn [fold_left]; rewrite apply_nonce. unfold inputs. rewrite same_inputs. exact (C _ I1).
  - apply NoDup_cons; [intros []|apply NoDup_nil].
  - intros c [<-|[]]. exists e. split; [split; intros; reflexivity|]. split; [exact Ch|]. split; [exact OK|].
    assert (V1 : field_value (fz 256) BalanceChanged (get S1 0 (addr_key mix (ad 11))) = word_rlc (fz 256) 3) by (rewrite get_S1; reflexivity).
    split.
    + apply Forall_cons; [|apply Forall_cons; [|apply Forall_cons; [|apply Forall_nil]]]; cbv zeta; (split; [|apply not_padding; reflexivity]).
      * destruct (Cl _ (or_introl eq_refl)) as (s & Y & X). rewrite <- (nonce_says _ s Y). exact X.
      * destruct (Cl (Update (ad 11) S1 S1 BalanceChanged (account_trace_of mix S1 S1 (ad 11)))) as (s & Y & X); [do 9 right; left; reflexivity|]. assert (E : s = requested (fz 256) false_balance); [|rewrite <- E; exact X].
        destruct Y as (Q1 & Q2 & Q3 & Q4 & Q5 & Q6 & Q7). cbn [u_address u_kind u_old u_new] in *. destruct s as [y0 y1 y2 y3 y4 y5 y6]. cbn [st_address st_slot_rlc st_kind st_new_root st_old_root st_new_value st_old_value] in *.
        rewrite V1 in Q6, Q7. unfold requested, false_balance, value_column. cbn [rq_address rq_slot rq_kind rq_new_root rq_old_root rq_new rq_old].
        rewrite word_wraps, word_rlc_0, Q1, Q2, Q3, Q4, Q5, Q6, Q7. reflexivity.
      * destruct (Cl _ (or_intror (or_introl eq_refl))) as (s & Y & X). rewrite <- (slot_says _ s Y). exact X.
    + cbn [throughout three]. rewrite apply_nonce. intros ((_ & (a & G & V) & _) & _). cbn [rq_kind false_balance rq_address rq_old] in G, V. rewrite get_S1 in G. injection G as <-. discriminate V.
Qed.

(* one committed table, and for every challenge a completed one that is accepted and shows the honest updates *)
Theorem case_any : exists e0, (forall t, In t states -> collision_free mix (inputs mix e0 t)) /\ forall r, exists e, commits e0 e /\ echal e = r /\ circuit_ok mix e 2081 /\
  (forall u, In u us -> exists s, says mix r u s /\ exposes e (encode r s)).
Proof.
  pose proof us_sizes as X. destruct (omap_from (fun _ u => proof_from mix (u_kind u) (u_trace u)) 0 us) as [proofs|] eqn:E; [|discriminate X]. cbn [obind] in X.
  destruct (mpt_n_rows_required mix proofs) as [m|] eqn:M; [|discriminate X]. cbn [obind] in X. destruct (hash_traces mix proofs) as [traces|] eqn:T; [|discriminate X]. cbn [obind checkb] in X.
  apply andb_true_iff in X. destruct X as [X X3]. apply andb_true_iff in X. destruct X as [X1 X2]. apply Z.eqb_eq in X1. apply Nat.ltb_lt in X2. subst m. pose proof (omap_forall2 us 0 proofs E) as C.
  destruct (honest_assigned mix us proofs 2050 true 4 2081 (fz 256) us_ok C ltac:(lia) M ltac:(lia)) as (ws & W).
  destruct (fill_env_ok 4096 4090 (fz 256) ws traces 2081) as (F & R & PL); [lia|lia|lia|lia|]. assert (En : enough_rows mix proofs 2081) by (exists 2050; split; [exact M|lia]).
  pose proof (fill_hits 4096 4090 (fz 256) ws traces) as Hits. set (e0 := fill_env 4096 4090 (fz 256) ws traces) in *. clearbody e0.
  apply andb_true_iff in X3. destruct X3 as [X3 X4]. rewrite forallb_forall in X3. assert (T4 : (0 < 4)%nat) by lia.
  exists e0. split.
  { intros t Ht. apply (cf_sub mix _ (fun x => In x (map fst traces ++ account_inputs mix new_account ++ flat_map (state_inputs mix) states))); [|apply cf_list_ok, X4].
    intros x [(h & Hh)|Hx]; apply in_or_app; [left|right; apply in_or_app; right].
    - destruct x as [[a b] d]. cbn [fst snd] in Hh. apply in_map_iff. exists ((a, b), d, h). split; [reflexivity|exact (Hits _ _ _ _ Hh)].
    - apply in_flat_map. exists t. auto. }
  intros r. destruct (completes mix true 4 proofs 2081 (fz 256) ws e0 W F r) as (ws' & e & W' & Co & Ch & F'). rewrite <- Ch in W', F'.
  assert (R' : room e 2081) by (unfold room in *; rewrite (cm_rows _ _ Co), (cm_usable _ _ Co); exact R).
  exists e. split; [exact Co|]. split; [exact Ch|]. split.
  - destruct (assign_inv mix true 4 proofs 2081 (echal e) ws' (fun _ => T4)) as (reprs & lookups & upd & cr & kb & br & P); [exact W'|]. destruct (glue_sizes P En) as (S1 & S2 & _ & _). destruct R' as (R1 & R2 & R3 & R4).
    pose proof (filled_fixed P e F' ltac:(lia) R2 R4) as Fx. split; [exact Fx|exact (phase_accepted mix us proofs true 4 2081 (fz 256) ws e0 traces us_ok C T4 W F R En T PL e ws' Co W' F')| |].
    + intros l rr d h Hh. apply (hit_committed e0 e Co) in Hh. specialize (X3 _ (Hits _ _ _ _ Hh)). cbn [fst snd] in X3. apply feqb_eq in X3. exact X3.
    + assert (HB : holds e BR_cols br) by (intros c i Hc Hi; exact (filled_br P e F' ltac:(lia) c i Hc Hi)).
      pose proof (as_br _ _ _ _ _ _ _ _ _ _ _ _ P) as Qb. exact (byte_repr_anchor e 2081 Fx _ _ _ _ _ Qb HB).
  - rewrite <- Ch. exact (honest_stated mix us_ok C T4 W' F' R' En).
Qed.
(* a block of two true claims is accepted and shown whatever the challenge is *)
Definition two : list request := [nonce_up; slot_write].
Theorem honest_block : exists e0, Forall request_ok two /\ start_state 2081 S0 /\ chained (state_root mix S0) two (state_root mix S2) /\
  throughout mix (overwrites mix) two S0 /\ (forall l1 q l2, two = l1 ++ q :: l2 -> collision_free mix (inputs mix e0 (run mix l1 S0))) /\
  forall c, exists e, commits e0 e /\ echal e = c /\ circuit_ok mix e 2081 /\
    Forall (fun q => let row := encode c (requested c q) in exposes e row /\ row <> blank_row /\ row <> final_row) two.
Proof.
  destruct case_any as (e0 & CF & An). exists e0. pose proof three_ok as TO. inversion TO as [|? ? O1 TO1]; subst. inversion TO1 as [|? ? _ TO2]; subst. inversion TO2 as [|? ? O3 _]; subst.
  split; [apply Forall_cons; [exact O1|apply Forall_cons; [exact O3|apply Forall_nil]]|]. split; [|split; [|split; [|split]]].
  - destruct (sound_case2 (fz 256)) as (e & _ & _ & Tr & _). destruct (Tr S0 (or_introl eq_refl)) as (_ & T2 & T3 & T4 & _). split; assumption.
  - repeat split; reflexivity.
  - cbn [throughout two]. rewrite apply_nonce. unfold overwrites. cbn [rq_kind nonce_up slot_write rq_address rq_slot rq_new].
    split; [rewrite get_S0; discriminate|]. split; [|exact Logic.I]. split; [discriminate|]. exists (set_nonce 8 A1). split; [exact get_S1|exact slot_there].
  - intros l1 q l2 E. destruct l1 as [|x1 l1]; [exact (CF _ (or_introl eq_refl))|]. injection E as <- E. destruct l1 as [|x2 l1]; [|exfalso; injection E as _ E; destruct l1; discriminate E].
    unfold run; cbn [fold_left]; rewrite apply_nonce; exact (CF _ (or_intror (or_introl eq_refl))).
  - intros c. destruct (An c) as (e & Co & Ch & OK & Cl). exists e. split; [exact Co|]. split; [exact Ch|]. split; [exact OK|].
    apply Forall_cons; [|apply Forall_cons; [|apply Forall_nil]]; cbv zeta; (split; [|apply not_padding; reflexivity]).
    + destruct (Cl _ (or_introl eq_refl)) as (s & Y & X). rewrite <- (nonce_says _ s Y). exact X.
    + destruct (Cl _ (or_intror (or_introl eq_refl))) as (s & Y & X). rewrite <- (slot_says _ s Y). exact X.
Qed.
