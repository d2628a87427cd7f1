(* What MptCircuitConfig::assign writes into first-phase and fixed columns does not depend on the challenge. *)
From Coq Require Import ZArith List Bool Lia.
From Verif Require Import Pocklington Fr Query Builder BuilderProofs Gadgets GadgetMain MptUpdate Bytes Fixed Util UtilProofs Serde Trie Storage Types Lookups LookupProofs
  Assign AssignProofs UpdateAssign MptAssign MptModes MptCases TablesOk TrieSpec TableSpec UpdateProps LookupMain HonestSpec HonestMain PhaseSpec.
Import ListNotations.
Open Scope Z_scope.

Definition later (c : col) : bool := match c with A a => second_phase a | Fx _ => false end.
Definition like {K} (k : K -> col) (p p' : K * Fr) : Prop := fst p = fst p' /\ (later (k (fst p)) = false -> snd p = snd p').
Definition sim_row (r r' : row) : Prop := Forall2 (like (fun c => c)) r r'.
Definition sim (ws ws' : list write) : Prop := Forall2 (like fst) ws ws'.
Definition both {X} (R : X -> X -> Prop) (o o' : option X) : Prop := match o, o' with Some x, Some x' => R x x' | None, None => True | _, _ => False end.

Lemma f2_refl {X} (R : X -> X -> Prop) l : (forall x, R x x) -> Forall2 R l l.
Proof. intros E. induction l; constructor; auto. Qed.
Lemma simr_refl r : sim_row r r. Proof. apply f2_refl. intros p. split; auto. Qed.
Lemma sim_refl r : sim r r. Proof. apply f2_refl. intros p. split; auto. Qed.
Lemma simr_app a b a' b' : sim_row a a' -> sim_row b b' -> sim_row (a ++ b) (a' ++ b'). Proof. apply Forall2_app. Qed.
Lemma sim_app a b a' b' : sim a a' -> sim b b' -> sim (a ++ b) (a' ++ b'). Proof. apply Forall2_app. Qed.
Lemma sim_at o r r' : sim_row r r' -> sim (at_ o r) (at_ o r').
Proof. induction 1 as [|x y l l' [E1 E2] F IH]; constructor; [|exact IH]. split; cbn [fst snd]; [rewrite E1; reflexivity|exact E2]. Qed.
Lemma sim_emit rows rows' : Forall2 sim_row rows rows' -> forall o, sim (emit o rows) (emit o rows').
Proof. induction 1 as [|x y l l' E F IH]; intros o; cbn [emit]; [constructor|]. apply sim_app; [apply (sim_at o), E|apply IH]. Qed.
Lemma sim_loop o n r r' : sim_row r r' -> sim (loop o n r) (loop o n r').
Proof. intros E. apply sim_emit. induction n; constructor; auto. Qed.
(* a cell of a second-phase column may hold anything *)
Lemma simr_later c v v' r r' : later c = true -> sim_row r r' -> sim_row ((c, v) :: r) ((c, v') :: r').
Proof. intros E F. constructor; [|exact F]. split; cbn [fst snd]; [reflexivity|congruence]. Qed.
Lemma simr_same p r r' : sim_row r r' -> sim_row (p :: r) (p :: r').
Proof. intros F. constructor; [|exact F]. split; auto. Qed.
Lemma simr_word w h l rh rl r r' : second_phase rh = true -> second_phase rl = true -> sim_row (word_rlc_assign w h l rh rl r) (word_rlc_assign w h l rh rl r').
Proof.
  intros E1 E2. unfold word_rlc_assign. destruct (u256_hi_lo w). do 2 apply simr_same. apply simr_later; [exact E1|]. apply simr_later; [exact E2|]. constructor.
Qed.
Lemma both_refl {X} (R : X -> X -> Prop) o : (forall x, R x x) -> both R o o. Proof. intros E. destruct o; cbn; auto. Qed.
Lemma both_bind {X Y} (R : X -> X -> Prop) (Q : Y -> Y -> Prop) o o' f f' : both R o o' -> (forall x x', R x x' -> both Q (f x) (f' x')) -> both Q (obind o f) (obind o' f').
Proof. intros E F. destruct o, o'; cbn [both obind] in *; auto; contradiction. Qed.
Lemma both_same {X Y} (Q : Y -> Y -> Prop) (o : option X) f f' : (forall x, o = Some x -> both Q (f x) (f' x)) -> both Q (obind o f) (obind o f').
Proof. intros E. destruct o; cbn [both obind]; auto. Qed.

(** * The helper tables *)
Lemma sim_br r r' bytes : forall i v rl rl', Forall2 sim_row (br_bytes_rows r bytes i v rl) (br_bytes_rows r' bytes i v rl').
Proof.
  induction bytes as [|b bytes IH]; intros i v rl rl'; cbn [br_bytes_rows]; [constructor|]. constructor; [|apply IH].
  apply simr_app; [|apply simr_refl]. do 2 apply simr_same. apply simr_later; [reflexivity|]. apply simr_refl.
Qed.
Lemma sim_flat {X} (f f' : X -> list row) l : (forall x, Forall2 sim_row (f x) (f' x)) -> Forall2 sim_row (flat_map f l) (flat_map f' l).
Proof. intros E. induction l; cbn [flat_map]; [constructor|]. apply Forall2_app; auto. Qed.
Lemma sim_byte_repr r r' a b c d : both sim (byte_repr_assign r a b c d) (byte_repr_assign r' a b c d).
Proof.
  unfold byte_repr_assign. destruct (br_strings a b c d) as [ss|]; cbn [both]; [|exact Logic.I]. constructor; [split; auto|]. apply sim_emit, sim_flat. intros x. apply sim_br.
Qed.
Lemma sim_cr_value r r' v bytes : forall m i z rl rl', Forall2 sim_row (cr_value_rows r v bytes m i z rl) (cr_value_rows r' v bytes m i z rl').
Proof.
  induction bytes as [|b bytes IH]; intros m i z rl rl'; cbn [cr_value_rows]; [constructor|]. destruct m as [|x m]; [constructor|]. constructor; [|apply IH].
  do 4 (apply simr_app; [apply simr_refl|]). do 2 apply simr_same. apply simr_later; [reflexivity|constructor].
Qed.
Lemma sim_cr r r' v : Forall2 sim_row (cr_rows_of r v) (cr_rows_of r' v). Proof. apply sim_cr_value. Qed.
Lemma f2_rows l : Forall2 sim_row l l. Proof. apply f2_refl, simr_refl. Qed.
Lemma sim_canonical r r' vs n : both sim (canonical_assign r vs n) (canonical_assign r' vs n).
Proof.
  unfold canonical_assign. destruct (_ <=? _); cbn [both]; [|exact Logic.I]. apply sim_emit, Forall2_app; [|apply f2_rows]. apply sim_flat, sim_cr.
Qed.
(* regions of the same height *)
Definition sim_regions (l l' : list (Z * (Z -> list write))) : Prop := Forall2 (fun x x' => fst x = fst x' /\ forall s, sim (snd x s) (snd x' s)) l l'.
Lemma sim_place l l' : sim_regions l l' -> forall s, sim (place s l) (place s l').
Proof.
  induction 1 as [|[h b] [h' b'] l l' [E1 E2] F IH]; intros s; cbn [place]; [constructor|]. cbn [fst snd] in *. subst h'. apply sim_app; [apply E2|apply IH].
Qed.
Lemma sim_canonical_par th r r' vs n : both sim (canonical_assign_par th r vs n) (canonical_assign_par th r' vs n).
Proof.
  unfold canonical_assign_par. destruct (_ =? 0)%nat; cbn [both]; [exact Logic.I|]. apply sim_place. unfold canonical_regions. destruct (firstn th _) as [|c rest]; [constructor|].
  constructor; [split; [reflexivity|]; intros s; cbn [snd]; apply sim_emit, sim_flat, sim_cr|].
  induction rest as [|d rest IH]; cbn [map]; [constructor|]. constructor; [|exact IH]. split; [reflexivity|]. intros s; cbn [snd]; apply sim_emit, sim_flat, sim_cr.
Qed.
Lemma sim_keys r r' a b c d ks ls n : both sim (keys_region r a b c d ks ls n) (keys_region r' a b c d ks ls n).
Proof.
  unfold keys_region. pose proof (sim_canonical r r' ks n) as E. pose proof (sim_byte_repr r r' a b c d) as E'.
  destruct (canonical_assign r ks n), (canonical_assign r' ks n); cbn [both] in E; try contradiction; [|exact Logic.I].
  destruct (key_bit_assign ls); [|exact Logic.I]. destruct (byte_repr_assign r a b c d), (byte_repr_assign r' a b c d); cbn [both] in E'; try contradiction; [|exact Logic.I].
  cbn [both]. apply sim_app; [apply sim_refl|]. apply sim_app; [exact E|]. do 2 (apply sim_app; [apply sim_refl|]). apply sim_app; [exact E'|apply sim_refl].
Qed.
Lemma sim_keys_par th r r' a b c d ks ls n : both sim (keys_regions_par th r a b c d ks ls n) (keys_regions_par th r' a b c d ks ls n).
Proof.
  unfold keys_regions_par. pose proof (sim_canonical_par th r r' ks n) as E. pose proof (sim_byte_repr r r' a b c d) as E'.
  destruct (canonical_assign_par th r ks n), (canonical_assign_par th r' ks n); cbn [both] in E; try contradiction; [|exact Logic.I].
  destruct (key_bit_assign_par th ls); [|exact Logic.I]. destruct (byte_repr_assign r a b c d), (byte_repr_assign r' a b c d); cbn [both] in E'; try contradiction; [|exact Logic.I].
  cbn [both]. apply sim_app; [apply sim_refl|]. apply sim_app; [exact E|]. do 2 (apply sim_app; [apply sim_refl|]). apply sim_app; [exact E'|apply sim_refl].
Qed.

(** * The update rows *)
Section Hash.
  Variables (H : Fr -> Fr -> Fr -> Fr) (r r' : Fr).
  Lemma simr_word_of l h lo k k' : sim_row (word_of l h lo (MU_sp k) (MU_sp k') r) (word_of l h lo (MU_sp k) (MU_sp k') r').
  Proof. unfold word_of. destruct l; try apply simr_refl. apply simr_word; reflexivity. Qed.
  Lemma sim_storage_leaf o k ok ol nl : both (fun p p' => sim (fst p) (fst p') /\ snd p = snd p') (assign_storage_leaf_row H o k ok ol nl r) (assign_storage_leaf_row H o k ok ol nl r').
  Proof.
    unfold assign_storage_leaf_row. destruct (storage_leaf_path ol nl) as [pt|]; [|apply both_refl; intros x; split; [apply sim_refl|reflexivity]].
    apply both_same. intros [oh nh] _. apply both_same. intros last _. cbn [both fst snd]. split; [|reflexivity]. apply sim_at.
    do 3 (apply simr_app; [apply simr_refl|]). do 2 (apply simr_app; [apply simr_word_of|]). apply simr_refl.
  Qed.
  Lemma sim_storage o s : both sim (assign_storage H o s r) (assign_storage H o s r').
  Proof.
    destruct s as [x|sk key rows ol nl]; [apply both_refl, sim_refl|]. cbn [assign_storage]. apply both_same. intros ok _. apply both_same. intros tr _.
    eapply both_bind; [apply sim_storage_leaf|]. intros [w m] [w' m'] [E1 E2]. cbn [fst snd] in *. subst m'. cbn [both]. apply sim_app; [apply sim_refl|]. apply sim_app; [exact E1|apply sim_refl].
  Qed.
  Lemma sim_leaf_row p path k ok da s sib oh nh d i : both sim_row (leaf_row_cells H p path k ok da r s sib oh nh d i) (leaf_row_cells H p path k ok da r' s sib oh nh d i).
  Proof.
    unfold leaf_row_cells. apply (both_bind sim_row).
    - destruct s; try apply both_refl, simr_refl. destruct (c_kind (pf_claim p)) as [| | | | |? ? ?|[?|]]; try apply both_refl, simr_refl;
        (apply both_same; intros sk _; apply both_same; intros sok _; cbn [both]; apply simr_app; [apply simr_refl|]; apply simr_app; [apply simr_word; reflexivity|apply simr_refl]).
    - intros x x' E. cbn [both]. repeat (apply simr_app; [apply simr_refl|]). exact E.
  Qed.
  Lemma both_omap {X Y} (R : Y -> Y -> Prop) (f f' : nat -> X -> option Y) l : (forall i x, both R (f i x) (f' i x)) -> forall i, both (Forall2 R) (omap_from f i l) (omap_from f' i l).
  Proof.
    intros E. induction l as [|x l IH]; intros i; cbn [omap_from]; [constructor|]. eapply both_bind; [apply E|]. intros y y' Ey. eapply both_bind; [apply IH|]. intros ys ys' Eys. cbn [both]. constructor; assumption.
  Qed.
  Lemma sim_leaf o p f fo fn k ok da : both sim (assign_account_leaf H o p f fo fn k ok da r) (assign_account_leaf H o p f fo fn k ok da r').
  Proof.
    unfold assign_account_leaf. apply both_same. intros path _. apply both_same. intros dirs _. apply both_same. intros sibs _.
    eapply both_bind; [apply (both_omap sim_row); intros i [[[[s sib] oh] nh] d]; apply sim_leaf_row|]. intros cs cs' Ec. eapply both_bind; [apply sim_storage|]. intros st st' Es. cbn [both].
    apply sim_app; [apply sim_emit; exact Ec|]. apply sim_app; [apply sim_refl|]. apply sim_app; [|exact Es]. apply sim_at.
    unfold code_hash_cells. destruct (c_kind (pf_claim p)); try apply simr_refl. apply simr_app; match goal with |- context [match ?x with _ => _ end] => destruct x end; try apply simr_refl; apply simr_word; reflexivity.
  Qed.
  Lemma sim_single p o : both sim (assign_single_proof H p r o) (assign_single_proof H p r' o).
  Proof.
    unfold assign_single_proof. apply both_same. intros [ok da] _. apply both_same. intros tr _. apply both_same. intros fin _. destruct (final_hashes H p) as [fo fn].
    apply (both_bind sim).
    - destruct (_ && _); [apply both_refl, sim_refl|apply sim_leaf].
    - intros x x' Ex. cbn [both]. apply sim_app; [apply sim_loop|].
      + unfold claim_cells. apply simr_app; [apply simr_refl|]. do 3 (apply simr_later; [reflexivity|]). constructor.
      + apply sim_app; [apply sim_at|].
        * unfold start_cells. do 2 (apply simr_app; [apply simr_refl|]). do 7 apply simr_same. do 2 (apply simr_later; [reflexivity|]). constructor.
        * do 2 (apply sim_app; [apply sim_refl|]). exact Ex.
  Qed.
  Lemma sim_proofs ps : forall o, both sim (assign_proofs H ps r o) (assign_proofs H ps r' o).
  Proof.
    induction ps as [|p ps IH]; intros o; cbn [assign_proofs]; [constructor|]. eapply both_bind; [apply sim_single|]. intros a a' Ea. eapply both_bind; [apply IH|]. intros b b' Eb. cbn [both]. apply sim_app; assumption.
  Qed.
  Lemma sim_update_regions ps : forall first, both sim_regions (update_regions H first ps r) (update_regions H first ps r').
  Proof.
    induction ps as [|p ps IH]; intros first; cbn [update_regions]; [constructor|]. eapply both_bind; [apply IH|]. intros a a' Ea. eapply both_bind; [apply sim_single|]. intros b b' _. cbn [both]. constructor; [|exact Ea].
    split; [reflexivity|]. intros s. cbn [snd]. pose proof (sim_single p (s + (if first then 1 else 0))) as E. destruct (assign_single_proof H p r _), (assign_single_proof H p r' _); cbn [both or_else] in *; try contradiction; [exact E|constructor].
  Qed.
  Lemma sim_updates par ps n : both sim (updates H par ps r n) (updates H par ps r' n).
  Proof.
    unfold updates, assign_par. destruct par.
    - apply (both_bind sim).
      + eapply both_bind; [apply sim_update_regions|]. intros a a' Ea. cbn [both]. apply sim_place, Ea.
      + intros w w' Ew. destruct (_ =? 0); [cbn [both]; apply sim_app; [exact Ew|apply sim_refl]|]. apply both_same. intros [] _. cbn [both]. apply sim_app; [exact Ew|apply sim_refl].
    - eapply both_bind; [apply sim_proofs|]. intros w w' Ew. apply both_same. intros [] _. cbn [both]. apply sim_app; [exact Ew|apply sim_refl].
  Qed.
  Lemma sim_mpt par th ps n : both sim (mpt_assign H par th ps n r) (mpt_assign H par th ps n r').
  Proof.
    unfold mpt_assign. apply both_same. intros re _. eapply both_bind; [apply sim_updates|]. intros u u' Eu. apply both_same. intros ls _. apply both_same. intros [] _. apply both_same. intros [] _.
    apply (both_bind sim); [destruct par; [apply sim_keys_par|apply sim_keys]|]. intros t t' Et. cbn [both]. apply sim_app; assumption.
  Qed.
End Hash.

Lemma sim_find ws ws' c i : sim ws ws' -> both (fun v v' => later c = false -> v = v') (wfind ws c i) (wfind ws' c i).
Proof.
  induction 1 as [|[[c1 i1] v1] [[c2 i2] v2] l l' [E1 E2] F IH]; [exact Logic.I|]. cbn [fst snd] in *. injection E1 as <- <-. cbn [wfind].
  destruct (wfind l c i), (wfind l' c i); cbn [both] in IH; try contradiction; [exact IH|]. destruct (col_eq_dec c c1) as [->|]; [|exact Logic.I]. destruct (i =? i1); [exact E2|exact Logic.I].
Qed.
Lemma sim_cell ws ws' c i : sim ws ws' -> later c = false -> cell ws c i = cell ws' c i.
Proof. intros S L. pose proof (sim_find ws ws' c i S) as E. unfold cell. destruct (wfind ws c i), (wfind ws' c i); cbn [both] in E; try contradiction; auto. Qed.
Lemma sim_places ws ws' : sim ws ws' -> map fst ws = map fst ws'.
Proof. induction 1 as [|x y l l' [E _] F IH]; [reflexivity|]. cbn [map]. rewrite E, IH. reflexivity. Qed.

(* a panic depends on the challenge no more than the cells written and the values in first-phase and fixed columns *)
Theorem first_phase_fixed : forall H par threads proofs n r r',
  match mpt_assign H par threads proofs n r, mpt_assign H par threads proofs n r' with
  | Some ws, Some ws' => map fst ws = map fst ws' /\ (forall c i, second_phase c = false -> cell ws (A c) i = cell ws' (A c) i) /\ (forall c i, cell ws (Fx c) i = cell ws' (Fx c) i)
  | None, None => True
  | _, _ => False
  end.
Proof.
  intros H par th ps n r r'. pose proof (sim_mpt H r r' par th ps n) as E. destruct (mpt_assign H par th ps n r), (mpt_assign H par th ps n r'); cbn [both] in E; try assumption.
  split; [apply sim_places, E|]. split; [intros c i L; apply sim_cell; [exact E|exact L]|intros c i; apply sim_cell; [exact E|reflexivity]].
Qed.

(* a prover who has committed to the columns assigned for one challenge can complete them for every other one *)
Theorem completes : forall H par threads proofs n r ws e0, mpt_assign H par threads proofs n r = Some ws -> filled e0 r ws ->
  forall c, exists ws' e, mpt_assign H par threads proofs n c = Some ws' /\ commits e0 e /\ echal e = c /\ filled e c ws'.
Proof.
  intros H par th ps n r ws e0 E [F1 F2 F3] c. pose proof (first_phase_fixed H par th ps n r c) as X. rewrite E in X. destruct (mpt_assign H par th ps n c) as [ws'|]; [|destruct X]. destruct X as (_ & X2 & X3).
  exists ws', (mkEnv (eN e0) (eusable e0) (fun k i => if second_phase k then cell ws' (A k) i else eadv e0 k i) (efix e0) c). split; [reflexivity|]. split; [|split; [reflexivity|]].
  - split; try reflexivity. intros k i L. cbn [eadv]. rewrite L. reflexivity.
  - split; cbn [echal eadv efix eN]; [reflexivity| |].
    + intros k i P Hi. destruct (second_phase k) eqn:L; [reflexivity|]. rewrite <- (X2 k i L). apply F2; assumption.
    + intros k i P Hi. rewrite <- (X3 k i). apply F3; assumption.
Qed.
(* the table completed by the assignment is accepted *)
Lemma phase_accepted : forall H us proofs par threads n r ws e0 traces,
  Forall (honest_update H) us -> Forall2 (fun u p => proof_from H (u_kind u) (u_trace u) = Some p) us proofs ->
  (0 < threads)%nat -> mpt_assign H par threads proofs n r = Some ws -> filled e0 r ws -> room e0 n -> enough_rows H proofs n ->
  hash_traces H proofs = Some traces -> poseidon_listed e0 traces ->
  forall e ws', commits e0 e -> mpt_assign H par threads proofs n (echal e) = Some ws' -> filled e (echal e) ws' -> sat e (circuit_of (circuit H)).
Proof.
  intros H us ps par th n r ws e0 traces Hu C T W F R En Tr PL e ws' Co W' F'.
  assert (R' : room e n) by (unfold room in *; rewrite (cm_rows _ _ Co), (cm_usable _ _ Co); exact R).
  assert (PL' : poseidon_listed e traces) .
  { destruct PL as [P1 (t & Ht & P2)]. assert (Ad : forall k i, second_phase k = false -> eadv e k i = eadv e0 k i) by apply (cm_first _ _ Co). split.
    - intros l q d h Hi. destruct (P1 l q d h Hi) as (j & Hj & Q). exists j. rewrite (cm_usable _ _ Co), (cm_fixed _ _ Co), !Ad by reflexivity. auto.
    - exists t. rewrite (cm_usable _ _ Co). split; [exact Ht|]. unfold poseidon_table in *. rewrite Forall_forall in *. intros q Hq. rewrite <- (P2 q Hq). cbn [In] in Hq.
      repeat (destruct Hq as [<-|Hq]; [cbn [eval fcur cur]; rewrite (cm_rows _ _ Co), ?(cm_fixed _ _ Co), ?Ad by reflexivity; reflexivity|]). destruct Hq. }
  exact (honest_accepted H (threads := th) Hu C T W' F' R' En Tr PL').
Qed.
(* honest updates need no luck: whatever the challenge is, the table committed to can be completed, is accepted and says what the updates did *)
Theorem honest_any_challenge : forall H us proofs par threads n r ws e0 traces,
  Forall (honest_update H) us -> Forall2 (fun u p => proof_from H (u_kind u) (u_trace u) = Some p) us proofs ->
  (0 < threads)%nat -> mpt_assign H par threads proofs n r = Some ws -> filled e0 r ws -> room e0 n -> enough_rows H proofs n ->
  hash_traces H proofs = Some traces -> poseidon_listed e0 traces ->
  forall c, exists e, commits e0 e /\ echal e = c /\ sat e (circuit_of (circuit H)) /\ forall u, In u us -> exists s, says H c u s /\ exposes e (encode c s).
Proof.
  intros H us ps par th n r ws e0 traces Hu C T W F R En Tr PL c. destruct (completes H par th ps n r ws e0 W F c) as (ws' & e & W' & Co & Ch & F').
  assert (R' : room e n) by (unfold room in *; rewrite (cm_rows _ _ Co), (cm_usable _ _ Co); exact R).
  pose proof W' as W2. pose proof F' as F2. rewrite <- Ch in W2, F2.
  exists e. split; [exact Co|]. split; [exact Ch|]. split; [exact (phase_accepted H us ps par th n r ws e0 traces Hu C T W F R En Tr PL e ws' Co W2 F2)|]. rewrite <- Ch. exact (honest_stated H Hu C T W2 F2 R' En).
Qed.
