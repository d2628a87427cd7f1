(* Concrete false claims that the circuit accepts, from the table of SoundCase.v with the challenge 256. *)
From Coq Require Import ZArith List Bool Lia.
From Verif Require Import Pocklington Fr Query Builder BuilderProofs Gadgets MptUpdate Fixed Bytes GadgetProofs UpdateRows UpdateWalk UpdateSound TrieSpec TableSpec Util UtilProofs Serde HonestTrace Types GadgetMain UpdateProps HonestSpec HonestCase SoundCase Address Free.
Import ListNotations.
Open Scope Z_scope.

Lemma word_256 w : word_ok w -> word_rlc (fz 256) w = fz w.
Proof. intros W. unfold word_rlc. rewrite rlc_256, be_val_be_bytes by exact W. reflexivity. Qed.
Lemma root_256 x : root_rlc (fz 256) x = x.
Proof. pose proof (word_256 (val x)) as W. unfold word_rlc in W. unfold root_rlc. rewrite W, fz_val; [reflexivity|]. pose proof (val_range x). unfold word_ok. assert (modulus < 2 ^ 256) by reflexivity. lia. Qed.
Lemma encode_256 s s' : encode (fz 256) s = encode (fz 256) s' -> 0 <= st_address s < 2 ^ 160 -> 0 <= st_address s' < 2 ^ 160 -> s = s'.
Proof.
  intros E A A'. unfold encode in E. rewrite !root_256 in E.
  assert (E0 := f_equal (fun l => nth 0 l f0) E). assert (E1 := f_equal (fun l => nth 1 l f0) E). assert (E2 := f_equal (fun l => nth 2 l f0) E). assert (E3 := f_equal (fun l => nth 3 l f0) E). assert (E4 := f_equal (fun l => nth 4 l f0) E). assert (E5 := f_equal (fun l => nth 5 l f0) E). assert (E6 := f_equal (fun l => nth 6 l f0) E).
  cbn [nth] in *. clear E. apply fz_inj in E0; [|apply small_lt_modulus; lia|apply small_lt_modulus; lia]. apply kind_inj in E2. destruct s, s'; cbn in *; congruence.
Qed.
Lemma words_256 l : forallb word_range l = true -> forallb (fun w => negb (w mod modulus =? 0)) l = true -> Forall (fun w => word_rlc (fz 256) w <> f0) l.
Proof.
  rewrite !forallb_forall, Forall_forall. intros A B w Hw Q. specialize (A w Hw). specialize (B w Hw). unfold word_range in A. apply andb_true_iff in A. rewrite Z.leb_le, Z.ltb_lt in A. rewrite word_256 in Q by (split; apply A).
  apply (f_equal val) in Q. rewrite val_fz in Q. change (val f0) with 0 in Q. rewrite Q in B. discriminate B.
Qed.
Lemma statement_is s a b c d e f g : st_address s = a -> st_slot_rlc s = b -> st_kind s = c -> st_new_root s = d -> st_old_root s = e -> st_new_value s = f -> st_old_value s = g -> s = Statement a b c d e f g.
Proof. intros <- <- <- <- <- <- <-. destruct s; reflexivity. Qed.
Definition claims (e : env) (s : statement) : Prop := exposes e (encode (echal e) s).
(* the table accepts s, and holds only correct hashes without collisions with the states t and t' *)
Record accepted_about (t t' : tree account) (s : statement) (e : env) : Prop := {
  aa_ok : circuit_ok mix e 2081; aa_chal : echal e = fz 256;
  aa_old : trie_of mix e 2081 (state_root mix t) t; aa_new : trie_of mix e 2081 (state_root mix t') t'; aa_claims : claims e s }.
Lemma trace_slot H t t' a slot slot' : storage_trace_of H t t' a slot = storage_trace_of H t t' a slot' -> be_bytes 32 slot = be_bytes 32 slot' /\ slot_key H slot = slot_key H slot'.
Proof.
  intros E. split.
  - pose proof (f_equal t_state_update E) as Q. unfold storage_trace_of in Q. cbn [t_state_update] in Q. congruence.
  - pose proof (f_equal t_state_key E) as Q. unfold storage_trace_of in Q. cbn [t_state_key] in Q. assert (Q' : fr_to_bytes (slot_key H slot) = fr_to_bytes (slot_key H slot')) by congruence.
    apply (f_equal fr_from_bytes) in Q'. rewrite !fr_from_to in Q'. congruence.
Qed.
(* what the table claims about a storage update of the case *)
Lemma storage_said e t t' address slot : circuit_ok mix e 2081 -> echal e = fz 256 -> word_ok slot -> word_ok (slot_value mix t address slot) -> word_ok (slot_value mix t' address slot) ->
  (exists s, says mix (fz 256) (Update address t t' StorageChanged (storage_trace_of mix t t' address slot)) s /\ exposes e (encode (fz 256) s)) ->
  claims e (Statement address (fz slot) StorageChanged (state_root mix t') (state_root mix t) (fz (slot_value mix t' address slot)) (fz (slot_value mix t address slot))).
Proof.
  intros OK Ch W W1 W2 (s & (Q1 & Q2 & Q3 & Q4 & x & Q5 & Q6 & Q7 & Q8) & Ex). cbn [u_address u_kind u_old u_new u_trace] in *. apply trace_slot in Q5. destruct Q5 as [Q5 Qk].
  assert (V : forall t, slot_value mix t address x = slot_value mix t address slot) by (intros t0; unfold slot_value; rewrite Qk; reflexivity). rewrite V in Q7, Q8. rewrite word_256 in Q7, Q8 by assumption. unfold word_rlc in Q6. rewrite <- Q5 in Q6. change (rlc (be_bytes 32 slot) (fz 256)) with (word_rlc (fz 256) slot) in Q6. rewrite word_256 in Q6 by exact W.
  unfold claims. rewrite Ch. rewrite <- (statement_is s _ _ _ _ _ _ _ Q1 Q6 Q2 Q4 Q3 Q8 Q7). exact Ex.
Qed.
Lemma small_word w : 0 <= w < 100 -> word_ok w.
Proof. unfold word_ok. assert (100 < 2 ^ 256) by reflexivity. lia. Qed.
Lemma zero_word : word_ok 0. Proof. apply small_word. lia. Qed.
Lemma slot_word t address slot : tree_all account_ok t -> word_ok (slot_value mix t address slot).
Proof.
  intros A. unfold slot_value. destruct (get t 0 (addr_key mix address)) as [a|] eqn:G; [|exact zero_word].
  apply get_reached in G. pose proof (found_all account_ok t _ 0 _ _ A G) as (_ & _ & _ & _ & S). destruct (get (storage a) 0 (slot_key mix slot)) as [w|] eqn:G2; [|exact zero_word]. apply get_reached in G2. exact (found_all word_ok _ _ 0 _ _ S G2).
Qed.
Lemma ad_range h : 0 <= h < 100 -> 0 <= ad h < 2 ^ 160.
Proof. unfold ad. intros A. assert (2 ^ 160 = 2 ^ 128 * 2 ^ 32) by reflexivity. assert (0 < 2 ^ 32) by reflexivity. assert (100 < 2 ^ 128) by reflexivity. nia. Qed.
Lemma inserted_case x : exists e, accepted_about S2 S3 (Statement (ad 11) (fz 5) StorageChanged (state_root mix S3) (state_root mix S2) x f0) e.
Proof.
  destruct (sound_case (fz 256)) as (e & OK & Ch & Tr & Cl). assert (T2 := Tr S2 ltac:(cbn [states In]; auto 10)). assert (T3 := Tr S3 ltac:(cbn [states In]; auto 10)).
  pose proof (storage_said e S2 S3 (ad 11) 5 OK Ch (small_word 5 ltac:(lia)) (slot_word _ _ _ (proj1 (proj2 T2))) (slot_word _ _ _ (proj1 (proj2 T3))) (Cl _ ltac:(right; right; left; reflexivity))) as C.
  destruct (inserted_value_free mix e 2081 OK _ C eq_refl) as (s & E & _ & As & Fr). rewrite Ch in E. pose proof (encode_256 _ s E (ad_range 11 ltac:(lia)) As) as Es. clear E. rewrite <- Es in Fr. clear Es s As. cbn [st_address st_old_root st_new_root st_old_value st_new_value] in Fr.
  destruct (Fr S2 B1 T2 ltac:(vm_compute; reflexivity)) with (x := x) as (e' & O' & Ch' & Tr' & C' & _).
  - rewrite Ch. assert (W := words_256 [12; 11] ltac:(vm_compute; reflexivity) ltac:(vm_compute; reflexivity)). inversion W as [|? ? W1 W2]. inversion W2 as [|? ? W3 _]. change (storage B1) with (Node (Leaf (sl 1) 12) (Leaf (sl 4) 11)). cbn [tree_all]. auto.
  - replace (slot_value mix S2 (ad 11) 5) with 0 by (vm_compute; reflexivity). reflexivity.
  - replace (slot_value mix S3 (ad 11) 5) with (2 ^ 200) by (vm_compute; reflexivity). intros Q. apply (f_equal val) in Q. vm_compute in Q. discriminate Q.
  - exists e'. split; [exact O'|congruence|auto|auto|]. unfold claims. rewrite Ch'. unfold with_new_value in C'. cbn [st_address st_slot_rlc st_kind st_old_root st_new_root st_old_value st_new_value] in C'.
    replace (fz (slot_value mix S2 (ad 11) 5)) with f0 in C' by (replace (slot_value mix S2 (ad 11) 5) with 0 by (vm_compute; reflexivity); reflexivity). exact C'.
Qed.
Lemma zero_words w : word_ok w -> w <> 0 -> word_rlc (fz 256) w = f0 -> In w [modulus; 2 * modulus; 3 * modulus; 4 * modulus; 5 * modulus].
Proof.
  intros W N Q. rewrite word_256 in Q by exact W. apply (f_equal val) in Q. rewrite val_fz in Q. change (val f0) with 0 in Q.
  destruct W as [W1 W2]. assert (M : 2 ^ 256 < 6 * modulus) by reflexivity. assert (P : 0 < modulus) by reflexivity.
  apply Z.mod_divide in Q; [|lia]. destruct Q as (q & ->). cbn [In]. assert (1 <= q <= 5) by nia. assert (C : q = 1 \/ q = 2 \/ q = 3 \/ q = 4 \/ q = 5) by lia. destruct C as [->|[->|[->|[->| ->]]]]; auto 10.
Qed.
Lemma cleared_case x : exists e, accepted_about S4 S5 (Statement (ad 2) (fz 1) StorageChanged (state_root mix S5) (state_root mix S4) f0 x) e.
Proof.
  destruct (sound_case (fz 256)) as (e & OK & Ch & Tr & Cl). assert (T2 := Tr S4 ltac:(cbn [states In]; auto 10)). assert (T3 := Tr S5 ltac:(cbn [states In]; auto 10)).
  pose proof (storage_said e S4 S5 (ad 2) 1 OK Ch (small_word 1 ltac:(lia)) (slot_word _ _ _ (proj1 (proj2 T2))) (slot_word _ _ _ (proj1 (proj2 T3))) (Cl _ ltac:(do 4 right; left; reflexivity))) as C.
  destruct (deleted_value_free mix e 2081 OK _ C eq_refl) as (s & E & _ & As & Fr). rewrite Ch in E. pose proof (encode_256 _ s E (ad_range 2 ltac:(lia)) As) as Es. clear E. rewrite <- Es in Fr. clear Es s As. cbn [st_address st_old_root st_new_root st_old_value st_new_value] in Fr.
  destruct (Fr S4 A3 T2 ltac:(vm_compute; reflexivity)) with (x := x) as (e' & O' & Ch' & Tr' & C' & _).
  - replace (slot_value mix S4 (ad 2) 1) with 10 by (vm_compute; reflexivity). intros Q. apply (f_equal val) in Q. vm_compute in Q. discriminate Q.
  - replace (slot_value mix S5 (ad 2) 1) with 0 by (vm_compute; reflexivity). reflexivity.
  - rewrite Ch. intros slot w' W N Z. pose proof (zero_words w' W N Z) as I. clear - I.
    change (modify_reached (fun _ : Z => w') (storage A3) 0 (slot_key mix slot)) with (Leaf (sl 1) w').
    assert (B : forallb (fun w => negb (feqb (state_root mix (modify_reached (set_storage (Leaf (sl 1) w)) S4 0 (addr_key mix (ad 2)))) (state_root mix S5))) [modulus; 2 * modulus; 3 * modulus; 4 * modulus; 5 * modulus] = true) by (vm_compute; reflexivity).
    rewrite forallb_forall in B. specialize (B w' I). cbn beta in B. intros Q. rewrite Q, feqb_refl in B. discriminate B.
  - exists e'. split; [exact O'|congruence|auto|auto|]. unfold claims. rewrite Ch'. unfold with_old_value in C'. cbn [st_address st_slot_rlc st_kind st_old_root st_new_root st_old_value st_new_value] in C'.
    replace (fz (slot_value mix S5 (ad 2) 1)) with f0 in C' by (replace (slot_value mix S5 (ad 2) 1) with 0 by (vm_compute; reflexivity); reflexivity). exact C'.
Qed.
(* the account 3 does not exist, and its place is taken by the leaf of account 11 *)
Lemma no_account_3 : get S0 0 (ac 3) = None /\ get S1 0 (ac 3) = None /\ get S2 0 (ac 3) = None.
Proof. vm_compute. auto. Qed.
Lemma absent_said e : echal e = fz 256 -> (exists s, says mix (fz 256) (Update (ad 3) S1 S1 AccountDoesNotExist (account_trace_of mix S1 S1 (ad 3))) s /\ exposes e (encode (fz 256) s)) ->
  claims e (Statement (ad 3) f0 AccountDoesNotExist (state_root mix S1) (state_root mix S1) f0 f0).
Proof.
  intros Ch (s & (Q1 & Q2 & Q3 & Q4 & Q5 & Q6 & Q7) & Ex). cbn [u_address u_kind u_old u_new u_trace] in *. change (addr_key mix (ad 3)) with (ac 3) in *. rewrite (proj1 (proj2 no_account_3)) in *. cbn [field_value] in *.
  unfold claims. rewrite Ch. rewrite <- (statement_is s _ _ _ _ _ _ _ Q1 Q5 Q2 Q4 Q3 Q7 Q6). exact Ex.
Qed.
Lemma nonce_said e : echal e = fz 256 -> (exists s, says mix (fz 256) (Update (ad 11) S0 S1 NonceChanged (account_trace_of mix S0 S1 (ad 11))) s /\ exposes e (encode (fz 256) s)) ->
  claims e (Statement (ad 11) f0 NonceChanged (state_root mix S1) (state_root mix S0) (fz 8) (fz 1)).
Proof.
  intros Ch (s & (Q1 & Q2 & Q3 & Q4 & Q5 & Q6 & Q7) & Ex). cbn [u_address u_kind u_old u_new u_trace] in *.
  replace (get S0 0 (addr_key mix (ad 11))) with (Some A1) in Q6 by (vm_compute; reflexivity). replace (get S1 0 (addr_key mix (ad 11))) with (Some (set_nonce 8 A1)) in Q7 by (vm_compute; reflexivity). cbn [field_value nonce set_nonce A1] in Q6, Q7.
  unfold claims. rewrite Ch. rewrite <- (statement_is s _ _ _ _ _ _ _ Q1 Q5 Q2 Q4 Q3 Q7 Q6). exact Ex.
Qed.
Definition depth_11 : nat := 3.
Lemma same_way : forall j, (j < depth_11)%nat -> kbit (ac 3) j = kbit (ac 11) j.
Proof. intros j Hj. unfold depth_11 in Hj. do 3 (destruct j as [|j]; [vm_compute; reflexivity|]). lia. Qed.
Lemma final_kind s c : encode c s = final_row -> st_address s = 0 \/ ~ 0 <= st_address s < 2 ^ 160.
Proof.
  intros E. assert (E0 := f_equal (fun l => nth 0 l f0) E). cbn [nth encode final_row] in E0. destruct (Z_le_dec 0 (st_address s)); [|lia]. destruct (Z_lt_dec (st_address s) (2 ^ 160)); [|lia].
  left. change f0 with (fz 0) in E0. apply fz_inj in E0; [exact E0|apply small_lt_modulus; lia|apply small_lt_modulus; lia].
Qed.
(* both the claim about account 3 and the claim that it does not exist *)
Lemma other_account t t' d a p rlc new old e : circuit_ok mix e 2081 -> echal e = fz 256 -> (forall t, In t states -> trie_of mix e 2081 (state_root mix t) t) -> In t states -> In t' states -> In p account_kinds ->
  claims e (Statement (ad 11) rlc p (state_root mix t') (state_root mix t) new old) -> claims e (Statement (ad 3) f0 AccountDoesNotExist (state_root mix S1) (state_root mix S1) f0 f0) ->
  sub t (ac 11) 0 d = Some (Leaf (ac 11) a) -> (d <= 3)%nat ->
  exists e', accepted_about t t' (Statement (ad 3) rlc p (state_root mix t') (state_root mix t) new old) e' /\ trie_of mix e' 2081 (state_root mix S1) S1 /\ claims e' (Statement (ad 3) f0 AccountDoesNotExist (state_root mix S1) (state_root mix S1) f0 f0).
Proof.
  intros OK Ch Tr I I' Kp C1 C2 Sb Ld. pose proof C1 as X1. pose proof C2 as X2. unfold claims in X1, X2. rewrite Ch in X1, X2.
  assert (Np : encode (fz 256) (Statement (ad 11) rlc p (state_root mix t') (state_root mix t) new old) <> encode (fz 256) (Statement (ad 3) f0 AccountDoesNotExist (state_root mix S1) (state_root mix S1) f0 f0)).
  { intros E. apply encode_256 in E; [|exact (ad_range 11 ltac:(lia))|exact (ad_range 3 ltac:(lia))]. apply (f_equal st_address) in E. cbn [st_address] in E. clear - E. vm_compute in E. discriminate E. }
  destruct (address_free mix e 2081 OK _ _ X1 X2) as (s & s2 & E1 & E2 & _ & _ & R1 & R2 & Fr).
  - exists p. split; [exact Kp|reflexivity].
  - intros E. assert (E0 := f_equal (fun l => nth 0 l f0) E). cbn [nth encode blank_row] in E0. apply (f_equal val) in E0. clear - E0. vm_compute in E0. discriminate E0.
  - reflexivity.
  - intros E. assert (E0 := f_equal (fun l => nth 0 l f0) E). cbn [nth encode final_row] in E0. apply (f_equal val) in E0. clear - E0. vm_compute in E0. discriminate E0.
  - rewrite Ch in E1, E2. pose proof (encode_256 _ s E1 (ad_range 11 ltac:(lia)) R1) as Es. pose proof (encode_256 _ s2 E2 (ad_range 3 ltac:(lia)) R2) as Es2. clear E1 E2 R1 R2. rewrite <- Es, <- Es2 in Fr. clear Es Es2 s s2. cbn [st_address st_old_root] in Fr. change (addr_key mix (ad 11)) with (ac 11) in Fr. change (addr_key mix (ad 3)) with (ac 3) in Fr. cbv zeta in Fr.
    assert (U2 : exists u2, sub S1 (ac 3) 0 d = Some u2).
    { clear - Ld. destruct d as [|[|[|[|d]]]]; [..|lia]; (eexists; vm_compute; reflexivity). }
    destruct U2 as (u2 & U2). destruct (Fr t S1 d a u2 (Tr t I) (Tr S1 ltac:(cbn [states In]; auto 10)) Sb U2) as (e' & O' & Ch' & Tr' & C' & K').
    { intros j Hj. apply same_way. unfold depth_11. lia. }
    unfold with_address in C'. cbn [st_address st_slot_rlc st_kind st_old_root st_new_root st_old_value st_new_value] in C'. rewrite Ch in C', K', Ch'. exists e'. split; [split; [exact O'|exact Ch'|auto|auto|]|split; [apply Tr', Tr; cbn [states In]; auto 10|]].
    + unfold claims. rewrite Ch'. exact C'.
    + unfold claims. rewrite Ch'. apply K'; [exact X2|]. intros E. apply Np. symmetry. exact E.
Qed.
Theorem other_nonce : exists e, accepted_about S0 S1 (Statement (ad 3) f0 NonceChanged (state_root mix S1) (state_root mix S0) (fz 8) (fz 1)) e /\ trie_of mix e 2081 (state_root mix S1) S1 /\ claims e (Statement (ad 3) f0 AccountDoesNotExist (state_root mix S1) (state_root mix S1) f0 f0).
Proof.
  destruct (sound_case (fz 256)) as (e & OK & Ch & Tr & Cl).
  apply (other_account S0 S1 3 A1 NonceChanged f0 (fz 8) (fz 1) e OK Ch Tr); [cbn [states In]; auto 10|cbn [states In]; auto 10|cbn; auto| | |vm_compute; reflexivity|lia].
  - apply nonce_said; [exact Ch|]. apply Cl. left. reflexivity.
  - apply absent_said; [exact Ch|]. apply Cl. do 8 right. left. reflexivity.
Qed.
Theorem other_slot : exists e, accepted_about S1 S2 (Statement (ad 3) (fz 1) StorageChanged (state_root mix S2) (state_root mix S1) (fz 12) (fz 10)) e /\ trie_of mix e 2081 (state_root mix S1) S1 /\ claims e (Statement (ad 3) f0 AccountDoesNotExist (state_root mix S1) (state_root mix S1) f0 f0).
Proof.
  destruct (sound_case (fz 256)) as (e & OK & Ch & Tr & Cl). assert (T1 := Tr S1 ltac:(cbn [states In]; auto 10)). assert (T2 := Tr S2 ltac:(cbn [states In]; auto 10)).
  apply (other_account S1 S2 3 (set_nonce 8 A1) StorageChanged (fz 1) (fz 12) (fz 10) e OK Ch Tr); [cbn [states In]; auto 10|cbn [states In]; auto 10|cbn; auto 10| | |vm_compute; reflexivity|lia].
  - pose proof (storage_said e S1 S2 (ad 11) 1 OK Ch (small_word 1 ltac:(lia)) (slot_word _ _ _ (proj1 (proj2 T1))) (slot_word _ _ _ (proj1 (proj2 T2))) (Cl _ ltac:(do 1 right; left; reflexivity))) as C.
    replace (slot_value mix S1 (ad 11) 1) with 10 in C by (vm_compute; reflexivity). replace (slot_value mix S2 (ad 11) 1) with 12 in C by (vm_compute; reflexivity). exact C.
  - apply absent_said; [exact Ch|]. apply Cl. do 8 right. left. reflexivity.
Qed.
(* a read of a field of account 11, turned into a read of account 3 *)
Theorem other_read p : In p [BalanceChanged; CodeSizeExists; CodeHashExists; PoseidonCodeHashExists] ->
  let v := field_value (fz 256) p (Some (set_nonce 8 A1)) in
  exists e, accepted_about S1 S1 (Statement (ad 3) f0 p (state_root mix S1) (state_root mix S1) v v) e /\ trie_of mix e 2081 (state_root mix S1) S1 /\ claims e (Statement (ad 3) f0 AccountDoesNotExist (state_root mix S1) (state_root mix S1) f0 f0).
Proof.
  intros Hp v. destruct (sound_case (fz 256)) as (e & OK & Ch & Tr & Cl).
  assert (Said : exists s, says mix (fz 256) (Update (ad 11) S1 S1 p (account_trace_of mix S1 S1 (ad 11))) s /\ exposes e (encode (fz 256) s)).
  { cbn [In] in Hp. destruct Hp as [<-|[<-|[<-|[<-|[]]]]]; apply Cl; [do 9 right|do 10 right|do 11 right|do 12 right]; left; reflexivity. }
  assert (Kp : In p account_kinds) by (unfold account_kinds; cbn [In] in *; tauto).
  apply (other_account S1 S1 3 (set_nonce 8 A1) p f0 v v e OK Ch Tr); [cbn [states In]; auto 10|cbn [states In]; auto 10|exact Kp| | |vm_compute; reflexivity|lia].
  - destruct Said as (s & (Q1 & Q2 & Q3 & Q4 & Q5) & Ex). cbn [u_address u_kind u_old u_new u_trace] in *.
    assert (Q6 : st_slot_rlc s = f0 /\ st_old_value s = v /\ st_new_value s = v).
    { assert (G : get S1 0 (addr_key mix (ad 11)) = Some (set_nonce 8 A1)) by (vm_compute; reflexivity). rewrite G in Q5. fold v in Q5. cbn [In] in Hp. destruct Hp as [<-|[<-|[<-|[<-|[]]]]]; exact Q5. }
    destruct Q6 as (Q6 & Q7 & Q8). unfold claims. rewrite Ch, <- (statement_is s _ _ _ _ _ _ _ Q1 Q6 Q2 Q4 Q3 Q8 Q7). exact Ex.
  - apply absent_said; [exact Ch|]. apply Cl. do 8 right. left. reflexivity.
Qed.
Lemma reads_nonzero p : In p [BalanceChanged; CodeSizeExists; CodeHashExists; PoseidonCodeHashExists] -> field_value (fz 256) p (Some (set_nonce 8 A1)) <> f0.
Proof. intros Hp Q. apply (f_equal val) in Q. cbn [In] in Hp. destruct Hp as [<-|[<-|[<-|[<-|[]]]]]; vm_compute in Q; discriminate Q. Qed.
(** * The statements for PropsRefuted.v *)
Definition absent_nonce_accepted : Prop := exists H e n t t' address,
  circuit_ok H e n /\ trie_of H e n (state_root H t) t /\ trie_of H e n (state_root H t') t' /\ 0 <= address < 2 ^ 160 /\
  get t 0 (addr_key H address) = None /\ get t' 0 (addr_key H address) = None /\
  exposes e (encode (echal e) (Statement address f0 NonceChanged (state_root H t') (state_root H t) (fz 8) (fz 1))) /\
  exposes e (encode (echal e) (Statement address f0 AccountDoesNotExist (state_root H t') (state_root H t') f0 f0)).
Lemma absent_nonce : absent_nonce_accepted.
Proof.
  destruct other_nonce as (e & [A1 A2 A3 A4 A5] & _ & C). exists mix, e, 2081, S0, S1, (ad 3).
  exact (conj A1 (conj A3 (conj A4 (conj (ad_range 3 (conj (Zle_bool_imp_le 0 3 eq_refl) eq_refl)) (conj (proj1 no_account_3) (conj (proj1 (proj2 no_account_3)) (conj A5 C))))))).
Qed.
Lemma absent_read p : In p [BalanceChanged; CodeSizeExists; CodeHashExists; PoseidonCodeHashExists] ->
  exists H e n t address v,
  circuit_ok H e n /\ trie_of H e n (state_root H t) t /\ 0 <= address < 2 ^ 160 /\ get t 0 (addr_key H address) = None /\ v <> f0 /\
  exposes e (encode (echal e) (Statement address f0 p (state_root H t) (state_root H t) v v)) /\
  exposes e (encode (echal e) (Statement address f0 AccountDoesNotExist (state_root H t) (state_root H t) f0 f0)).
Proof.
  intros Hp. destruct (other_read p Hp) as (e & [A1 A2 A3 A4 A5] & _ & C). exists mix, e, 2081, S1, (ad 3), (field_value (fz 256) p (Some (set_nonce 8 HonestCase.A1))).
  exact (conj A1 (conj A3 (conj (ad_range 3 (conj (Zle_bool_imp_le 0 3 eq_refl) eq_refl)) (conj (proj1 (proj2 no_account_3)) (conj (reads_nonzero p Hp) (conj A5 C)))))).
Qed.
Lemma absent_slot : exists H e n t t' address slot,
  circuit_ok H e n /\ trie_of H e n (state_root H t) t /\ trie_of H e n (state_root H t') t' /\ 0 <= address < 2 ^ 160 /\
  get t 0 (addr_key H address) = None /\ get t' 0 (addr_key H address) = None /\
  exposes e (encode (echal e) (Statement address (word_rlc (echal e) slot) StorageChanged (state_root H t') (state_root H t) (word_rlc (echal e) 12) (word_rlc (echal e) 10))) /\
  exposes e (encode (echal e) (Statement address f0 AccountDoesNotExist (state_root H t) (state_root H t) f0 f0)).
Proof.
  destruct other_slot as (e & [A1 A2 A3 A4 A5] & _ & C). exists mix, e, 2081, S1, S2, (ad 3), 1.
  refine (conj A1 (conj A3 (conj A4 (conj (ad_range 3 (conj (Zle_bool_imp_le 0 3 eq_refl) eq_refl)) (conj (proj1 (proj2 no_account_3)) (conj (proj2 (proj2 no_account_3)) (conj _ C))))))).
  rewrite A2, !word_256 by (apply small_word; lia). rewrite <- A2. exact A5.
Qed.
Lemma any_inserted : exists H n t t' address slot,
  0 <= address < 2 ^ 160 /\ word_ok slot /\ get t 0 (addr_key H address) <> None /\ slot_value H t address slot = 0 /\ slot_value H t' address slot = 2 ^ 200 /\
  forall x, exists e, circuit_ok H e n /\ trie_of H e n (state_root H t) t /\ trie_of H e n (state_root H t') t' /\
  exposes e (encode (echal e) (Statement address (word_rlc (echal e) slot) StorageChanged (state_root H t') (state_root H t) x f0)).
Proof.
  exists mix, 2081, S2, S3, (ad 11), 5. split; [exact (ad_range 11 (conj (Zle_bool_imp_le 0 11 eq_refl) eq_refl))|]. split; [apply small_word; lia|]. split; [intros Q; vm_compute in Q; discriminate Q|]. split; [vm_compute; reflexivity|]. split; [vm_compute; reflexivity|].
  intros x. destruct (inserted_case x) as (e & [A1 A2 A3 A4 A5]). exists e. split; [exact A1|]. split; [exact A3|]. split; [exact A4|]. rewrite A2, word_256 by (apply small_word; lia). rewrite <- A2. exact A5.
Qed.
Lemma any_cleared : exists H n t t' address slot,
  0 <= address < 2 ^ 160 /\ word_ok slot /\ get t 0 (addr_key H address) <> None /\ slot_value H t address slot = 10 /\ slot_value H t' address slot = 0 /\
  forall x, exists e, circuit_ok H e n /\ trie_of H e n (state_root H t) t /\ trie_of H e n (state_root H t') t' /\
  exposes e (encode (echal e) (Statement address (word_rlc (echal e) slot) StorageChanged (state_root H t') (state_root H t) f0 x)).
Proof.
  exists mix, 2081, S4, S5, (ad 2), 1. split; [exact (ad_range 2 (conj (Zle_bool_imp_le 0 2 eq_refl) eq_refl))|]. split; [apply small_word; lia|]. split; [intros Q; vm_compute in Q; discriminate Q|]. split; [vm_compute; reflexivity|]. split; [vm_compute; reflexivity|].
  intros x. destruct (cleared_case x) as (e & [A1 A2 A3 A4 A5]). exists e. split; [exact A1|]. split; [exact A3|]. split; [exact A4|]. rewrite A2, word_256 by (apply small_word; lia). rewrite <- A2. exact A5.
Qed.
(** * The soundness theorems apply to the table *)
Lemma sound_example u : In u us -> In (u_old u) states -> exists e row, circuit_ok mix e 2081 /\ exposes e row /\ nth 2 row f0 = fz (kind_number (u_kind u)) /\ row <> blank_row /\ row <> final_row /\
  forall s, row = encode (echal e) s -> 0 <= st_address s < 2 ^ 160 -> st_address s = u_address u /\ trie_of mix e 2081 (st_old_root s) (u_old u).
Proof.
  intros Hu Ho. destruct (sound_case (fz 256)) as (e & OK & Ch & Tr & Cl). destruct (Cl u Hu) as (s & (Q1 & Q2 & Q3 & Q4 & _) & Ex). rewrite <- Ch in Ex.
  assert (A : 0 < u_address u < 2 ^ 160).
  { assert (A : Forall (fun u => exists h, u_address u = ad h /\ 0 < h < 100) us) by (repeat (apply Forall_cons || apply Forall_nil); cbn [u_address]; eexists; (split; [reflexivity|lia])).
    rewrite Forall_forall in A. destruct (A u Hu) as (h & -> & Hh). pose proof (ad_range h ltac:(lia)) as R. assert (0 < 2 ^ 32) by reflexivity. unfold ad in *. nia. }
  assert (Z : fz (st_address s) <> f0).
  { intros Q. change f0 with (fz 0) in Q. rewrite Q1 in Q. apply fz_inj in Q; [lia|apply small_lt_modulus; lia|apply small_lt_modulus; lia]. }
  exists e, (encode (echal e) s). split; [exact OK|]. split; [exact Ex|]. split; [rewrite <- Q2; reflexivity|]. split; [intros E; apply Z; exact (f_equal (fun l => nth 0 l f0) E)|]. split; [intros E; apply Z; exact (f_equal (fun l => nth 0 l f0) E)|].
  intros s' E R'. rewrite Ch in E. pose proof (encode_256 s s' E ltac:(rewrite Q1; lia) R') as Es. rewrite <- Es, Q1, Q3. split; [reflexivity|]. apply Tr. exact Ho.
Qed.
Lemma field_example p a : forall address t t', In (Update address t t' p (account_trace_of mix t t' address)) us -> In t states -> get t 0 (addr_key mix address) = Some a ->
  exists e row, circuit_ok mix e 2081 /\ exposes e row /\ nth 2 row f0 = fz (kind_number p) /\ row <> blank_row /\
  forall s, row = encode (echal e) s -> 0 <= st_address s < 2 ^ 160 -> exists t a, trie_of mix e 2081 (st_old_root s) t /\ get t 0 (addr_key mix (st_address s)) = Some a.
Proof.
  intros address t t' Hu Ht G. destruct (sound_example _ Hu Ht) as (e & row & A & B & C & D & _ & E). cbn [u_kind u_address u_old] in *. exists e, row. split; [exact A|]. split; [exact B|]. split; [exact C|]. split; [exact D|].
  intros s X R. destruct (E s X R) as [Y Z]. exists t, a. split; [exact Z|]. rewrite Y. exact G.
Qed.
Lemma absent_example p tr : forall address t t', In (Update address t t' p tr) us -> In t states ->
  exists e row, circuit_ok mix e 2081 /\ exposes e row /\ nth 2 row f0 = fz (kind_number p) /\ row <> final_row /\
  forall s, row = encode (echal e) s -> 0 <= st_address s < 2 ^ 160 -> exists t, trie_of mix e 2081 (st_old_root s) t.
Proof.
  intros address t t' Hu Ht. destruct (sound_example _ Hu Ht) as (e & row & A & B & C & _ & D & E). cbn [u_kind u_address u_old] in *. exists e, row. split; [exact A|]. split; [exact B|]. split; [exact C|]. split; [exact D|].
  intros s X R. destruct (E s X R) as [Y Z]. exists t. exact Z.
Qed.
Lemma nonce_example : exists e row, circuit_ok mix e 2081 /\ exposes e row /\ nth 2 row f0 = fz (kind_number NonceChanged) /\ row <> blank_row /\
  forall s, row = encode (echal e) s -> 0 <= st_address s < 2 ^ 160 -> exists t a, trie_of mix e 2081 (st_old_root s) t /\ get t 0 (addr_key mix (st_address s)) = Some a.
Proof. apply (field_example NonceChanged A1 (ad 11) S0 S1); [left; reflexivity|cbn [states In]; auto|vm_compute; reflexivity]. Qed.
Lemma read_example p : In p [BalanceChanged; CodeSizeExists; CodeHashExists; PoseidonCodeHashExists] -> exists e row, circuit_ok mix e 2081 /\ exposes e row /\ nth 2 row f0 = fz (kind_number p) /\ row <> blank_row /\
  forall s, row = encode (echal e) s -> 0 <= st_address s < 2 ^ 160 -> exists t a, trie_of mix e 2081 (st_old_root s) t /\ get t 0 (addr_key mix (st_address s)) = Some a.
Proof.
  intros Hp. apply (field_example p (set_nonce 8 A1) (ad 11) S1 S1); [|cbn [states In]; auto|vm_compute; reflexivity]. cbn [In] in Hp. destruct Hp as [<-|[<-|[<-|[<-|[]]]]]; [do 9 right|do 10 right|do 11 right|do 12 right]; left; reflexivity.
Qed.
Lemma missing_example : exists e row, circuit_ok mix e 2081 /\ exposes e row /\ nth 2 row f0 = fz (kind_number AccountDoesNotExist) /\ row <> final_row /\
  forall s, row = encode (echal e) s -> 0 <= st_address s < 2 ^ 160 -> exists t, trie_of mix e 2081 (st_old_root s) t.
Proof. apply (absent_example AccountDoesNotExist (account_trace_of mix S1 S1 (ad 3)) (ad 3) S1 S1); [do 8 right; left; reflexivity|cbn [states In]; auto]. Qed.
Lemma empty_slot_example : exists e row, circuit_ok mix e 2081 /\ exposes e row /\ nth 2 row f0 = fz (kind_number StorageDoesNotExist) /\ row <> final_row /\
  forall s, row = encode (echal e) s -> 0 <= st_address s < 2 ^ 160 -> exists t, trie_of mix e 2081 (st_old_root s) t.
Proof. apply (absent_example StorageDoesNotExist (storage_trace_of mix S5 S5 (ad 15) 7) (ad 15) S5 S5); [do 7 right; left; reflexivity|cbn [states In]; auto 10]. Qed.
(* a slot that is overwritten *)
Lemma storage_example : exists e row, circuit_ok mix e 2081 /\ exposes e row /\ nth 2 row f0 = fz (kind_number StorageChanged) /\
  forall s, row = encode (echal e) s -> 0 <= st_address s < 2 ^ 160 -> exists t a, trie_of mix e 2081 (st_old_root s) t /\ get t 0 (addr_key mix (st_address s)) = Some a /\
    st_slot_rlc s = word_rlc (echal e) 1 /\ get (storage a) 0 (slot_key mix 1) = Some 10 /\ st_new_value s = word_rlc (echal e) 12 /\ st_new_value s <> f0.
Proof.
  destruct (sound_case (fz 256)) as (e & OK & Ch & Tr & Cl). assert (T1 := Tr S1 ltac:(cbn [states In]; auto 10)). assert (T2 := Tr S2 ltac:(cbn [states In]; auto 10)).
  pose proof (storage_said e S1 S2 (ad 11) 1 OK Ch (small_word 1 ltac:(lia)) (slot_word _ _ _ (proj1 (proj2 T1))) (slot_word _ _ _ (proj1 (proj2 T2))) (Cl _ ltac:(do 1 right; left; reflexivity))) as C.
  replace (slot_value mix S1 (ad 11) 1) with 10 in C by (vm_compute; reflexivity). replace (slot_value mix S2 (ad 11) 1) with 12 in C by (vm_compute; reflexivity).
  eexists e, _. split; [exact OK|]. split; [exact C|]. split; [reflexivity|]. intros s E R. rewrite Ch in *. pose proof (encode_256 _ s E (ad_range 11 ltac:(lia)) R) as Es. rewrite <- Es. cbn [st_address st_old_root st_slot_rlc st_new_value]. exists S1, (set_nonce 8 A1).
  split; [exact T1|]. split; [vm_compute; reflexivity|]. rewrite !word_256 by (apply small_word; lia). split; [reflexivity|]. split; [vm_compute; reflexivity|]. split; [reflexivity|]. intros Q. apply (f_equal val) in Q. clear - Q. vm_compute in Q. discriminate Q.
Qed.
(* a row where an update starts, and one inside it *)
Lemma row_example : exists e i, fixed_ok e 2081 /\ sat e (circuit_of (circuit mix)) /\ 1 <= i /\ i + 1 < 2081 /\ sg e i = SegStart /\ pt e i = NonceChanged /\ sg e (i + 1) <> SegStart /\ enabled e (i + 1).
Proof.
  destruct (sound_example _ (or_introl eq_refl) ltac:(cbn [states In u_old]; auto)) as (e & row & A & B & C & D & D' & E). cbn [u_kind u_old u_address] in *.
  destruct (exposes_statement mix e 2081 A row B D D') as (i & s & I1 & I2 & R & Er). destruct (E s Er (rs_address _ _ _ _ R)) as [Ad T].
  assert (Ks : st_kind s = NonceChanged) by (apply kind_inj; rewrite <- C, Er; reflexivity).
  pose proof (rs_key _ _ _ _ R) as Rk. rewrite Ad in Rk. rewrite (rs_old_root _ _ _ _ R) in T. pose proof (co_fixed _ _ _ A) as F.
  assert (Sb : sub S0 (ac 11) 0 3 = Some (Leaf (ac 11) A1)) by (vm_compute; reflexivity). unfold ac in Sb. rewrite <- Rk in Sb.
  destruct (existing_rows mix e 2081 A i S0 3 A1 I1 I2 (rs_seg _ _ _ _ R) ltac:(rewrite <- (rs_kind _ _ _ _ R), Ks; cbn; auto) T Sb) as (b & [B1 B2 B3 B0 _ _ _]).
  exists e, i. split; [exact F|]. split; [exact (co_sat _ _ _ A)|]. split; [exact I1|]. split; [exact I2|]. split; [exact (rs_seg _ _ _ _ R)|]. split; [rewrite <- (rs_kind _ _ _ _ R); exact Ks|]. split; [rewrite B0 by lia; discriminate|]. apply (proj2 (fix_enabled e 2081 (i + 1) F)). lia.
Qed.
