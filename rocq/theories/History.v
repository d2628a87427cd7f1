(* Histories of updates (HistorySpec.v) act on each account like the sequence of the claims about it. *)
From Coq Require Import ZArith String List Bool Lia.
From Verif Require Import Pocklington Fr Query Builder BuilderProofs Gadgets MptUpdate Bytes GadgetProofs LagrangeProofs Fixed CanonProofs UpdateRows TrieSpec TableSpec UpdateWalk UpdateAccount UpdateSound UpdateClaims UpdateProps GadgetMain ChangeSpec TwoTries NewSide NewAccount NewClaims NewProps HistorySpec.
Import ListNotations.
Open Scope Z_scope.

Lemma modify_other {V} (f : V -> V) (t : tree V) : forall d K k, k <> K -> get (modify f t d K) d k = get t d k.
Proof.
  induction t as [|k0 v|l IHl r IHr]; intros d K k N; cbn [modify]; [reflexivity| |].
  - destruct (feqb_spec K k0) as [<-|]; [|reflexivity]. cbn [get]. rewrite (proj2 (feqb_neq k K) N). reflexivity.
  - destruct (kbit K d) eqn:B; cbn [get]; destruct (kbit k d); try reflexivity; [apply IHr|apply IHl]; exact N.
Qed.
Lemma modify_get {V} (f : V -> V) (t : tree V) : forall d K v, get t d K = Some v -> get (modify f t d K) d K = Some (f v).
Proof.
  induction t as [|k0 v0|l IHl r IHr]; intros d K v G; cbn [modify get] in *; [discriminate G| |].
  - destruct (feqb K k0) eqn:Q; [|discriminate G]. injection G as ->. cbn [get]. rewrite Q. reflexivity.
  - destruct (kbit K d) eqn:B; cbn [get]; rewrite B; auto.
Qed.
Section Step.
  Variables (H : Fr -> Fr -> Fr -> Fr) (e : env) (n : Z).
  Hypothesis OK : circuit_ok H e n.
  Variables (i : Z) (s : statement).
  Hypothesis Hi : 1 <= i /\ i + 1 < n.
  Hypothesis St : row_states e i s.
  Lemma states_row : row_statement H e i s.
  Proof.
    assert (En : enabled e i) by (apply (fix_enabled e n i (co_fixed H e n OK)); lia).
    destruct (table_rows H e n OK i En) as [X|[(X & _)|(_ & s' & R & X)]]; [contradiction (ss_claims _ _ _ St)|lia|].
    pose proof (ss_row _ _ _ St) as E. rewrite X in E. unfold encode in E.
    assert (E0 := f_equal (fun l => nth 0 l f0) E). assert (E1 := f_equal (fun l => nth 1 l f0) E). assert (E2 := f_equal (fun l => nth 2 l f0) E). assert (E5 := f_equal (fun l => nth 5 l f0) E). assert (E6 := f_equal (fun l => nth 6 l f0) E).
    cbn [nth] in E0, E1, E2, E5, E6. pose proof (rs_address _ _ _ _ R) as A'. pose proof (ss_address _ _ _ St) as A.
    apply fz_inj in E0; [|apply small_lt_modulus; lia|apply small_lt_modulus; lia]. apply kind_inj in E2.
    assert (s = s') as ->; [|exact R]. pose proof (ss_old _ _ _ St) as R1. pose proof (ss_new _ _ _ St) as R2. pose proof (rs_old_root _ _ _ _ R) as R3. pose proof (rs_new_root _ _ _ _ R) as R4.
    change (st_old_root s' = eadv e MU_old_hash i) in R3. change (st_new_root s' = eadv e MU_new_hash i) in R4. rewrite <- R1 in R3. rewrite <- R2 in R4.
    clear - E0 E1 E2 E5 E6 R3 R4. destruct s, s'. cbn in *. congruence.
  Qed.
  Variables t t' : tree account.
  Hypothesis T : tries_of H e n s t t'.
  Notation K := (addr_key H (st_address s)).
  Lemma old_trie : trie_of H e n (st_old_root s) t.
  Proof.
    split; [apply T|]. split; [apply T|]. split; [apply T|]. split; [apply T|]. destruct (to_free _ _ _ _ _ _ T) as [A B].
    split; [intros x y Hx Hy; apply A; left; assumption|intros x Hx; apply B; left; exact Hx].
  Qed.
  Lemma same_root : st_new_root s = st_old_root s -> t' = t.
  Proof.
    intros E. pose proof (to_free _ _ _ _ _ _ T) as CF. symmetry. apply (tree_inj H (inputs2 H e t t') CF (account_hash H) (account_inputs H) account_ok).
    - intros v v' P P' Kv Kv'. exact (account_inj H _ CF v v' P P' Kv Kv').
    - apply known2.
    - apply known2.
    - apply T.
    - apply T.
    - change (state_root H t = state_root H t'). rewrite (to_old _ _ _ _ _ _ T), (to_new _ _ _ _ _ _ T). symmetry. exact E.
  Qed.
  Lemma not_destructed : st_kind s <> AccountDestructed.
  Proof. rewrite (rs_kind _ _ _ _ states_row). apply (never_destructed H e n (co_fixed H e n OK) (co_sat H e n OK)). apply (fix_enabled e n i (co_fixed H e n OK)). lia. Qed.
  Lemma step_this : regular H s t t' -> account_step H (echal e) s (get t 0 K) (get t' 0 K).
  Proof.
    intros Rg. pose proof states_row as R. destruct (get t 0 K) as [a|] eqn:G.
    - destruct (row_survives H e n OK i s t t' Hi R T a G) as (a0 & _ & G'). pose proof old_trie as To.
      destruct (st_kind s) eqn:Q; try (exfalso; apply not_destructed; exact Q).
      1-5: destruct (row_existing H e n OK i s t t' Hi R T a) as (a' & E & Fs); [rewrite Q; reflexivity|exact G|]; rewrite E, (modify_get _ t 0 K a G); apply as_field; [rewrite Q; cbn [In]; auto 6|exact Fs].
      + exfalso. pose proof (absent_sound H e n OK i s t (proj1 Hi) (proj2 Hi) R Q To) as [X _]. congruence.
      + destruct (row_slot H e n OK i s t t' Hi R T a Q G) as (st' & slot & E & W & Sl & _ & Ch). rewrite E, (modify_get _ t 0 K a G). apply (as_storage H _ _ a st' slot); assumption.
      + pose proof (slot_absent_sound H e n OK i s t (proj1 Hi) (proj2 Hi) R Q To) as (_ & _ & X & [Y|(slot & W & Sl & Y)]); [congruence|].
        rewrite (same_root X), G. apply (as_no_slot H _ _ a slot); auto.
    - destruct Rg as [(a & X)|[X|(Nk & (a' & X) & _)]]; [congruence| |].
      + rewrite (same_root X), G. apply as_absent.
      + rewrite X. destruct (row_created H e n OK i s t t' Hi R T a' Nk G X) as [A B]. apply as_created; assumption.
  Qed.
  Lemma step_other k : regular H s t t' -> k <> K -> get t' 0 k = get t 0 k.
  Proof.
    intros Rg N. pose proof states_row as R. destruct Rg as [(a & X)|[X|(_ & P & Pl & Sl)]].
    - destruct (row_survives H e n OK i s t t' Hi R T a X) as (a0 & E & _). rewrite E. apply modify_other. exact N.
    - rewrite (same_root X). reflexivity.
    - apply (row_others H e n OK i s t t' Hi R T Pl Sl k N). right; left. exact P.
  Qed.
End Step.

(** * Histories *)
Section Replay.
  Variable H : Fr -> Fr -> Fr -> Fr.
  Notation fields := [NonceChanged; BalanceChanged; CodeSizeExists; CodeHashExists; PoseidonCodeHashExists].
  Notation R0 := (fun _ : env => regular H).
  Lemma step_sub (R R' : env -> statement -> tree account -> tree account -> Prop) e s t t' : (forall e s u u', R e s u u' -> R' e s u u') -> step H R e s t t' -> step H R' e s t t'.
  Proof. intros S (n & i & A & B & C & D & E & F). exists n, i. auto 10. Qed.
  Lemma history_sub (R R' : env -> statement -> tree account -> tree account -> Prop) t l t' : (forall e s u u', R e s u u' -> R' e s u u') -> history H R t l t' -> history H R' t l t'.
  Proof. intros S. induction 1; [apply h_done|]. econstructor; [eapply step_sub; eauto|assumption]. Qed.
  Lemma this_step e s t t' : step H R0 e s t t' -> account_step H (echal e) s (get t 0 (addr_key H (st_address s))) (get t' 0 (addr_key H (st_address s))).
  Proof. intros (n & i & OK & L1 & L2 & St & T & Rg). exact (step_this H e n OK i s (conj L1 L2) St t t' T Rg). Qed.
  Lemma other_step e s t t' k : step H R0 e s t t' -> k <> addr_key H (st_address s) -> get t' 0 k = get t 0 k.
  Proof. intros (n & i & OK & L1 & L2 & St & T & Rg) N. exact (step_other H e n OK i s (conj L1 L2) St t t' T k Rg N). Qed.
  Theorem replays t l t' : history H R0 t l t' -> forall K, replay H K l (get t 0 K) (get t' 0 K).
  Proof.
    induction 1 as [t|e s t t1 l t2 St _ IH]; intros K; [apply rp_done|].
    destruct (feqb_spec (addr_key H (st_address s)) K) as [E|N].
    - apply (rp_this H K _ _ _ _ (get t1 0 K) _ E); [|apply IH]. rewrite <- E. exact (this_step e s t t1 St).
    - apply (rp_other H K _ _ _ _ _ N). rewrite <- (other_step e s t t1 K St); [apply IH|congruence].
  Qed.
  (* steps of an account that exists *)
  Lemma field_old c p a v w a' : field_step c p a v w a' -> table_value c p a = v.
  Proof. destruct p; cbn [field_step table_value]; intros X; try contradiction; try (destruct X as (x & _ & E & _); symmetry; exact E); destruct X as [E _]; symmetry; exact E. Qed.
  Lemma field_new c p a v w a' : field_step c p a v w a' -> table_value c p a' = w.
  Proof. destruct p; cbn [field_step table_value]; intros X; try contradiction; try (destruct X as (x & _ & _ & E & ->); symmetry; exact E); destruct X as [_ ->]; reflexivity. Qed.
  Lemma field_same c p a v w a' q : field_step c p a v w a' -> q <> p -> same_field q a a'.
  Proof. destruct p; cbn [field_step]; intros X N; try contradiction; try (destruct X as (x & _ & _ & _ & ->); destruct q; cbn [same_field]; first [reflexivity|exact Logic.I|congruence]); destruct X as [_ ->]; destruct q; cbn [same_field]; first [reflexivity|exact Logic.I|congruence]. Qed.
  Lemma same_refl q a : same_field q a a. Proof. destruct q; cbn [same_field]; first [reflexivity|exact Logic.I]. Qed.
  Lemma same_trans q a b c : same_field q a b -> same_field q b c -> same_field q a c.
  Proof. destruct q; cbn [same_field]; intros A B; first [exact Logic.I|rewrite B; exact A]. Qed.
  Lemma step_alive c s a o : account_step H c s (Some a) o -> exists a', o = Some a' /\ forall q, q <> st_kind s -> same_field q a a'.
  Proof.
    intros A. inversion A as [? a' I F|? st' slot Q W Sl Ch|? slot Q W Sl G| |]; subst; eexists; (split; [reflexivity|]); intros q N.
    - exact (field_same _ _ _ _ _ _ q F N).
    - destruct q; cbn [same_field]; first [reflexivity|exact Logic.I|congruence].
    - apply same_refl.
  Qed.
  Lemma replay_alive K l : forall a o, replay H K l (Some a) o -> exists a', o = Some a' /\ forall q, ~ claimed H K q l -> same_field q a a'.
  Proof.
    induction l as [|[e s] l IH]; intros a o R.
    - inversion R; subst. exists a. split; [reflexivity|]. intros q _. apply same_refl.
    - inversion R as [|? ? ? ? o1 ? E A R1|? ? ? ? ? N R1]; subst.
      + destruct (step_alive _ s a o1 A) as (a1 & -> & S1). destruct (IH _ _ R1) as (a' & -> & S2). exists a'. split; [reflexivity|]. intros q Nq. apply (same_trans q a a1).
        * apply S1. intros ->. apply Nq. exists e, s. split; [left; reflexivity|]. auto.
        * apply S2. intros (c' & s' & I & X). apply Nq. exists c', s'. split; [right; exact I|exact X].
      + destruct (IH _ _ R1) as (a' & -> & S2). exists a'. split; [reflexivity|]. intros q Nq. apply S2. intros (c' & s' & I & X). apply Nq. exists c', s'. split; [right; exact I|exact X].
  Qed.
  Lemma same_table q a a' c : In q fields -> same_field q a a' -> table_value c q a' = table_value c q a.
  Proof. cbn [In]. intros I. destruct q; cbn [same_field table_value]; intros E; try (rewrite E; reflexivity); exfalso; intuition discriminate. Qed.
  Lemma claim_step e s t t' a : step H R0 e s t t' -> get t 0 (addr_key H (st_address s)) = Some a -> In (st_kind s) fields ->
    exists a', get t' 0 (addr_key H (st_address s)) = Some a' /\ field_step (echal e) (st_kind s) a (st_old_value s) (st_new_value s) a'.
  Proof.
    intros St G I. pose proof (this_step e s t t' St) as A. rewrite G in A.
    inversion A as [? a' _ F|? st' slot Q W Sl Ch|? slot Q W Sl Gs| |]; [exists a'; auto| |]; exfalso; rewrite Q in I; cbn [In] in I; intuition discriminate.
  Qed.

  Theorem untouched t l t' K : history H R0 t l t' -> (forall e s, In (e, s) l -> addr_key H (st_address s) <> K) -> get t' 0 K = get t 0 K.
  Proof.
    induction 1 as [t|e s t t1 l t2 St _ IH]; intros N; [reflexivity|]. rewrite IH; [|intros e' s' I; apply (N e' s'); right; exact I].
    apply (other_step e s t t1 K St). apply not_eq_sym. apply (N e s). left. reflexivity.
  Qed.
  Theorem keeps_fields t l t' K a : history H R0 t l t' -> get t 0 K = Some a -> exists a', get t' 0 K = Some a' /\ forall p, ~ claimed H K p l -> same_field p a a'.
  Proof. intros Hh G. pose proof (replays _ _ _ Hh K) as R. rewrite G in R. exact (replay_alive K l a _ R). Qed.
  Theorem last_write t e s t1 l t' : let K := addr_key H (st_address s) in step H R0 e s t t1 -> history H R0 t1 l t' -> present t K -> In (st_kind s) fields ->
    ~ claimed H K (st_kind s) l -> exists a', get t' 0 K = Some a' /\ table_value (echal e) (st_kind s) a' = st_new_value s.
  Proof.
    intros K St Hh (a & G) I N. destruct (claim_step e s t t1 a St G I) as (a1 & G1 & F). destruct (keeps_fields t1 l t' K a1 Hh G1) as (a' & G' & S).
    exists a'. split; [exact G'|]. rewrite (same_table _ a1 a' (echal e) I (S _ N)). exact (field_new _ _ _ _ _ _ F).
  Qed.
  Theorem read_back t e1 s1 t1 l t2 e2 s2 t3 : let K := addr_key H (st_address s1) in
    step H R0 e1 s1 t t1 -> history H R0 t1 l t2 -> step H R0 e2 s2 t2 t3 -> present t K -> addr_key H (st_address s2) = K -> In (st_kind s1) fields -> st_kind s2 = st_kind s1 ->
    ~ claimed H K (st_kind s1) l -> exists a, get t2 0 K = Some a /\ st_new_value s1 = table_value (echal e1) (st_kind s1) a /\ st_old_value s2 = table_value (echal e2) (st_kind s1) a.
  Proof.
    intros K S1 Hh S2 P E I Q N. destruct (last_write t e1 s1 t1 l t2 S1 Hh P I N) as (a & G & V). exists a. split; [exact G|]. split; [symmetry; exact V|].
    destruct (claim_step e2 s2 t2 t3 a S2) as (a' & _ & F); [rewrite E; exact G|rewrite Q; exact I|]. rewrite <- Q. symmetry. exact (field_old _ _ _ _ _ _ F).
  Qed.
  (* with the same challenge, or for values the table shows without it *)
  Theorem read_same t e1 s1 t1 l t2 e2 s2 t3 : let K := addr_key H (st_address s1) in
    step H R0 e1 s1 t t1 -> history H R0 t1 l t2 -> step H R0 e2 s2 t2 t3 -> present t K -> addr_key H (st_address s2) = K -> In (st_kind s1) fields -> st_kind s2 = st_kind s1 ->
    ~ claimed H K (st_kind s1) l -> echal e2 = echal e1 \/ In (st_kind s1) [NonceChanged; CodeSizeExists; PoseidonCodeHashExists] -> st_old_value s2 = st_new_value s1.
  Proof.
    intros K S1 Hh S2 P E I Q N C. destruct (read_back t e1 s1 t1 l t2 e2 s2 t3 S1 Hh S2 P E I Q N) as (a & _ & -> & ->).
    destruct C as [->|C]; [reflexivity|]. cbn [In] in C. destruct C as [<-|[<-|[<-|[]]]]; reflexivity.
  Qed.
End Replay.

(** * Slots *)
Section Slots.
  Variables (H : Fr -> Fr -> Fr -> Fr) (K : Fr) (slot : Z).
  Notation hist := (history H (slot_regular H K slot)). Notation stp := (step H (slot_regular H K slot)).
  Notation k := (slot_key H slot).
  Lemma plain e s t t' : stp e s t t' -> step H (fun _ => regular H) e s t t'.
  Proof. apply step_sub. intros e0 s0 u u' [A _]. exact A. Qed.
  Lemma storage_step e s t t1 a : stp e s t t1 -> get t 0 K = Some a -> addr_key H (st_address s) = K -> st_kind s = StorageChanged ->
    exists a1 w, get t1 0 K = Some a1 /\ word_ok w /\ slot_hashed H e w /\ st_slot_rlc s = word_rlc (echal e) w /\
      slot_change (echal e) (slot_key H w) (storage a) (storage a1) (st_old_value s) (st_new_value s).
  Proof.
    intros (n & i & OK & L1 & L2 & St & T & [Rg _]) G E Q. pose proof (states_row H e n OK i s (conj L1 L2) St) as R. rewrite <- E in G.
    destruct (row_slot H e n OK i s t t1 (conj L1 L2) R T a Q G) as (st' & w & Et & W & Sl & Hw & Ch). exists (set_storage st' a), w.
    split; [rewrite Et, <- E; exact (modify_get _ t 0 _ a G)|]. auto.
  Qed.
  Lemma slot_step e s t t1 a : stp e s t t1 -> get t 0 K = Some a ->
    exists a1, get t1 0 K = Some a1 /\
    (~ about_slot H K slot e s -> get (storage a1) 0 k = get (storage a) 0 k) /\
    (about_slot H K slot e s ->
       (present (storage a) k -> st_new_value s = slot_table_value (echal e) (get (storage a1) 0 k)) /\
       (present (storage a1) k -> st_old_value s = slot_table_value (echal e) (get (storage a) 0 k))).
  Proof.
    intros St G. destruct (feqb_spec (addr_key H (st_address s)) K) as [E|N].
    - pose proof (this_step H e s t t1 (plain _ _ _ _ St)) as A. rewrite E, G in A.
      assert (D : {st_kind s = StorageChanged} + {st_kind s <> StorageChanged}) by decide equality. destruct D as [Q|Q].
      + destruct (storage_step e s t t1 a St G E Q) as (a1 & w & G1 & W & Hw & Sl & Ch). exists a1. split; [exact G1|].
        destruct St as (n & i & _ & _ & _ & _ & _ & [_ Sr]). destruct (Sr E Q) as [Un Pl]. destruct (Pl w a a1 W Hw Sl G G1) as (P1 & P2 & Pr). split.
        * intros Na. apply (sc_others _ _ _ _ _ _ Ch P1 P2 k); [|destruct Pr as [X|X]; auto]. intros X. apply Na. split; [exact E|]. split; [exact Q|]. rewrite Sl, (Un w W Hw (or_intror (eq_sym X))). reflexivity.
        * intros (_ & _ & Sl'). assert (w = slot) as -> by (apply (Un w W Hw); left; congruence). split.
          -- intros (v & X). destruct (get (storage a1) 0 k) as [v1|] eqn:Y; cbn [slot_table_value].
             ++ exact (proj2 (proj2 (proj2 (sc_both _ _ _ _ _ _ Ch v v1 X Y)))).
             ++ apply (sc_clear _ _ _ _ _ _ Ch); [exists v; exact X|]. intros (v1 & Z). congruence.
          -- intros (v1 & Y). destruct (get (storage a) 0 k) as [v|] eqn:X; cbn [slot_table_value].
             ++ exact (proj1 (proj2 (proj2 (sc_both _ _ _ _ _ _ Ch v v1 X Y)))).
             ++ apply (sc_fill _ _ _ _ _ _ Ch); [intros (v & Z); congruence|exists v1; exact Y].
      + destruct (step_alive H _ _ _ _ A) as (a1 & G1 & S1). specialize (S1 StorageChanged (not_eq_sym Q)). cbn [same_field] in S1.
        exists a1. split; [exact G1|]. split; [intros _; rewrite S1; reflexivity|]. intros (_ & Q' & _). contradiction.
    - exists a. split; [rewrite (other_step H e s t t1 K (plain _ _ _ _ St)); [exact G|congruence]|]. split; [reflexivity|]. intros (E & _). contradiction.
  Qed.
  Theorem slot_kept t l t' : hist t l t' -> (forall e s, In (e, s) l -> ~ about_slot H K slot e s) -> forall a, get t 0 K = Some a -> exists a', get t' 0 K = Some a' /\ get (storage a') 0 k = get (storage a) 0 k.
  Proof.
    induction 1 as [t|e s t t1 l t2 St _ IH]; intros N a G; [exists a; auto|].
    destruct (slot_step e s t t1 a St G) as (a1 & G1 & Sa & _). destruct (IH (fun e' s' I => N e' s' (or_intror I)) a1 G1) as (a' & G' & E). exists a'. split; [exact G'|].
    rewrite E. apply Sa. exact (N _ _ (or_introl eq_refl)).
  Qed.
  Theorem slot_last_write t e s t1 l t' a : stp e s t t1 -> hist t1 l t' -> about_slot H K slot e s -> get t 0 K = Some a -> present (storage a) k ->
    (forall e' s', In (e', s') l -> ~ about_slot H K slot e' s') -> exists a', get t' 0 K = Some a' /\ st_new_value s = slot_table_value (echal e) (get (storage a') 0 k).
  Proof.
    intros St Hh Ab G P N. destruct (slot_step e s t t1 a St G) as (a1 & G1 & _ & B). destruct (B Ab) as [X _]. destruct (slot_kept _ _ _ Hh N a1 G1) as (a' & G' & E).
    exists a'. split; [exact G'|]. rewrite E. exact (X P).
  Qed.
  Theorem slot_read_back t e1 s1 t1 l t2 e2 s2 t3 a a3 : stp e1 s1 t t1 -> hist t1 l t2 -> stp e2 s2 t2 t3 -> about_slot H K slot e1 s1 -> about_slot H K slot e2 s2 ->
    get t 0 K = Some a -> present (storage a) k -> get t3 0 K = Some a3 -> present (storage a3) k ->
    (forall e' s', In (e', s') l -> ~ about_slot H K slot e' s') -> exists o, st_new_value s1 = slot_table_value (echal e1) o /\ st_old_value s2 = slot_table_value (echal e2) o.
  Proof.
    intros S1 Hh S2 Ab1 Ab2 G P G3 P3 N. destruct (slot_last_write t e1 s1 t1 l t2 a S1 Hh Ab1 G P N) as (a2 & G2 & V). exists (get (storage a2) 0 k). split; [exact V|].
    destruct (slot_step e2 s2 t2 t3 a2 S2 G2) as (a3' & G3' & _ & B). assert (a3' = a3) by congruence. subst a3'. exact (proj2 (B Ab2) P3).
  Qed.
End Slots.
(* the root determines the state *)
Theorem one_state H t t' : tree_all account_ok t -> tree_all account_ok t' -> collision_free H (fun x => In x (state_inputs H t) \/ In x (state_inputs H t')) ->
  state_root H t = state_root H t' -> t = t'.
Proof.
  intros A A' CF E. apply (tree_inj H _ CF (account_hash H) (account_inputs H) account_ok).
  - intros v v' P P' Kv Kv'. exact (account_inj H _ CF v v' P P' Kv Kv').
  - intros x Hx. left. exact Hx.
  - intros x Hx. right. exact Hx.
  - exact A.
  - exact A'.
  - exact E.
Qed.
