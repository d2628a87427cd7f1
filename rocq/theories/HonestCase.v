(* Concrete honest updates: six in a row, on a state with three accounts, and reads. *)
From Coq Require Import ZArith List Bool Lia FMapPositive.
From Verif Require Import Pocklington Fr Query Builder BuilderProofs Gadgets MptUpdate Fixed Bytes TrieSpec Util Serde Trie Storage Types Lookups LookupMain
  Assign UpdateAssign MptModes GadgetMain GadgetMain2 HonestTrace MptRows MptCases TablesOk PaddingOk UpdateProps TableSpec HonestSpec HonestMain ChangeSpec.
Import ListNotations.
Open Scope Z_scope.

Definition mix (l r d : Fr) : Fr := (fz 1000003 * l + fz 998244353 * r + fz 7919 * d + fz 12345678910111)%fr.
Definition ad (h : Z) : Z := h * 2 ^ 32.
Definition ac (h : Z) := addr_key mix (ad h).
Definition sl (s : Z) := slot_key mix s.
Definition A1 : account := mkAccount 1 2 3 4 (fz 5) (Node (Leaf (sl 1) 10) (Leaf (sl 4) 11)).
Definition A16 : account := mkAccount 7 0 100 0 (fz 6) Empty.
Definition A3 : account := mkAccount 2 0 50 2 (fz 8) (Leaf (sl 1) 10).
(* three accounts, at the addresses 11, 15 and 2 (times 2^32) *)
Definition S0 : tree account := Node (Node (Node (Leaf (ac 11) A1) (Leaf (ac 15) A16)) Empty) (Leaf (ac 2) A3).
(* the nonce of account 11 becomes 8 *)
Definition S1 := modify (fun _ => set_nonce 8 A1) S0 0 (ac 11).
(* its slot 1 becomes 12 *)
Definition B1 := set_storage (modify (fun _ => 12) (storage A1) 0 (sl 1)) (set_nonce 8 A1).
Definition S2 := modify (fun _ => B1) S1 0 (ac 11).
(* its slot 5 is filled with 2^200 *)
Definition C1 := set_storage (Node (Node (Node (Leaf (sl 1) 12) (Leaf (sl 5) (2 ^ 200))) Empty) (Leaf (sl 4) 11)) B1.
Definition S3 := modify (fun _ => C1) S2 0 (ac 11).
(* the account 14 is created with a balance, pushing the leaf of account 2 two levels down *)
Definition A8 : account := mkAccount 0 0 (2 ^ 100) 0 f0 Empty.
Definition S4 : tree account := match S3 with Node l _ => Node l (Node (Node (Leaf (ac 14) A8) (Leaf (ac 2) A3)) Empty) | t => t end.
(* slot 1 of account 2 is cleared *)
Definition S5 := modify (fun _ => set_storage Empty A3) S4 0 (ac 2).
Definition us : list update := [
  Update (ad 11) S0 S1 NonceChanged (account_trace_of mix S0 S1 (ad 11));
  Update (ad 11) S1 S2 StorageChanged (storage_trace_of mix S1 S2 (ad 11) 1);
  Update (ad 11) S2 S3 StorageChanged (storage_trace_of mix S2 S3 (ad 11) 5);
  Update (ad 14) S3 S4 BalanceChanged (account_trace_of mix S3 S4 (ad 14));
  Update (ad 2) S4 S5 StorageChanged (storage_trace_of mix S4 S5 (ad 2) 1);
  Update (ad 1) S5 S5 AccountDoesNotExist (account_trace_of mix S5 S5 (ad 1));
  Update (ad 15) S5 S5 CodeHashExists (account_trace_of mix S5 S5 (ad 15));
  Update (ad 15) S5 S5 StorageDoesNotExist (storage_trace_of mix S5 S5 (ad 15) 7);
  Update (ad 3) S1 S1 AccountDoesNotExist (account_trace_of mix S1 S1 (ad 3));
  Update (ad 11) S1 S1 BalanceChanged (account_trace_of mix S1 S1 (ad 11));
  Update (ad 11) S1 S1 CodeSizeExists (account_trace_of mix S1 S1 (ad 11));
  Update (ad 11) S1 S1 CodeHashExists (account_trace_of mix S1 S1 (ad 11));
  Update (ad 11) S1 S1 PoseidonCodeHashExists (account_trace_of mix S1 S1 (ad 11))].

(* deciding collision freedom *)
Definition domains := [DPair; DLeaf; Branch0; Branch1; Branch2; Branch3; AccountFields].
Definition eq3 (x y : triple) : bool := feqb (fst (fst x)) (fst (fst y)) && feqb (snd (fst x)) (snd (fst y)) && feqb (snd x) (snd y).
Definition hash3 (H : Fr -> Fr -> Fr -> Fr) (x : triple) : Fr := H (fst (fst x)) (snd (fst x)) (snd x).
Definition all_inputs (H : Fr -> Fr -> Fr -> Fr) (t t' : tree account) : list (triple * Fr) :=
  flat_map (fun x => map (fun d => let y := (fst x, fdom d) in (y, hash3 H y)) domains) ((f0, f0, fdom DPair) :: state_inputs H t ++ state_inputs H t').
Definition key_of (h : Fr) : positive := Z.to_pos (val h + 1).
Fixpoint distinct (l : list (triple * Fr)) (m : PositiveMap.t triple) : bool :=
  match l with
  | [] => true
  | x :: r => match PositiveMap.find (key_of (snd x)) m with Some y => eq3 (fst x) y && distinct r m | None => distinct r (PositiveMap.add (key_of (snd x)) (fst x) m) end
  end.
Definition cf_check (l : list (triple * Fr)) : bool := forallb (fun x => negb (feqb (snd x) f0)) l && distinct l (PositiveMap.empty _).
Lemma eq3_eq x y : eq3 x y = true -> x = y.
Proof. destruct x as [[a b] c], y as [[a' b'] c']. unfold eq3. cbn [fst snd]. intros E. apply andb_true_iff in E. destruct E as [E E3]. apply andb_true_iff in E. destruct E as [E1 E2]. apply feqb_eq in E1, E2, E3. congruence. Qed.
Lemma distinct_ok l : forall m, distinct l m = true -> exists m', (forall k y, PositiveMap.find k m = Some y -> PositiveMap.find k m' = Some y) /\ forall x, In x l -> PositiveMap.find (key_of (snd x)) m' = Some (fst x).
Proof.
  induction l as [|x l IH]; intros m E; [exists m; split; [auto|intros x []]|]. cbn [distinct] in E. destruct (PositiveMap.find (key_of (snd x)) m) as [y|] eqn:F.
  - apply andb_true_iff in E. destruct E as [E1 E2]. apply eq3_eq in E1. destruct (IH m E2) as (m' & A & B). exists m'. split; [exact A|]. intros z [<-|Hz]; [|exact (B z Hz)]. rewrite (A _ _ F), E1. reflexivity.
  - destruct (IH _ E) as (m' & A & B). exists m'. split.
    + intros k y G. apply A. rewrite PositiveMap.gso by congruence. exact G.
    + intros z [<-|Hz]; [|exact (B z Hz)]. apply A, PositiveMap.gss.
Qed.
Lemma cf_check_ok H t t' : cf_check (all_inputs H t t') = true -> collision_free H (inputs_of H t t').
Proof.
  intros E. apply andb_true_iff in E. destruct E as [E1 E2]. rewrite forallb_forall in E1. destruct (distinct_ok _ _ E2) as (m & _ & M).
  assert (I : forall x, inputs_of H t t' x -> In (x, hash3 H x) (all_inputs H t t')).
  { intros [[a b] c] [(d & I) (d' & D)]. cbn [fst snd] in I, D. subst c. unfold all_inputs. apply in_flat_map. exists ((a, b), d). split; [exact I|]. apply in_map_iff. exists d'. split; [reflexivity|]. destruct d'; cbn; tauto. }
  split.
  - intros x y Hx Hy E. pose proof (M _ (I x Hx)) as Q1. pose proof (M _ (I y Hy)) as Q2. cbn [fst snd] in Q1, Q2. change (hash3 H x = hash3 H y) in E. rewrite E in Q1. congruence.
  - intros x Hx E. specialize (E1 _ (I x Hx)). cbn [snd] in E1. unfold hash3 in E1. rewrite E, feqb_refl in E1. discriminate E1.
Qed.
(* deciding the shape *)
Fixpoint placed_check {V} (t : tree V) (prefix : list bool) : bool :=
  match t with
  | Empty => true
  | Leaf k _ => forallb (fun i => Bool.eqb (kbit k i) (nth i prefix false)) (seq 0 (length prefix))
  | Node l r => placed_check l (prefix ++ [false]) && placed_check r (prefix ++ [true])
  end.
Lemma placed_check_ok {V} (t : tree V) : forall prefix, placed_check t prefix = true -> placed t prefix.
Proof.
  induction t as [|k v|l IHl r IHr]; intros prefix E; cbn [placed placed_check] in *; [exact Logic.I| |].
  - intros i b N. rewrite forallb_forall in E. assert (L : (i < length prefix)%nat) by (apply nth_error_Some; congruence). specialize (E i ltac:(apply in_seq; lia)). apply eqb_prop in E. rewrite E. apply nth_error_nth. exact N.
  - apply andb_true_iff in E. destruct E. split; [apply IHl|apply IHr]; assumption.
Qed.
Definition in_range (a : account) : bool :=
  (0 <=? nonce a) && (nonce a <? 2 ^ 64) && (0 <=? code_size a) && (code_size a <? 2 ^ 64) && (0 <=? balance a) && (balance a <? 2 ^ 248) && (0 <=? keccak_code_hash a) && (keccak_code_hash a <? 2 ^ 256).
Definition word_range (w : Z) : bool := (0 <=? w) && (w <? 2 ^ 256).
Fixpoint all_check {V} (f : V -> bool) (t : tree V) : bool := match t with Empty => true | Leaf _ v => f v | Node l r => all_check f l && all_check f r end.
Lemma all_check_ok {V} (f : V -> bool) (P : V -> Prop) (t : tree V) : (forall v, f v = true -> P v) -> all_check f t = true -> tree_all P t.
Proof. intros FP. induction t as [|k v|l IHl r IHr]; cbn [tree_all all_check]; [auto|auto|]. rewrite andb_true_iff. intuition. Qed.
Definition shaped_check {V} (t : tree V) : bool := placed_check t [] && (height t <=? 256)%nat.
Definition wf_check (t : tree account) : bool := all_check (fun a => in_range a && all_check word_range (storage a)) t && shaped_check t && all_check (fun a => shaped_check (storage a)) t.
Lemma shaped_ok {V} (t : tree V) : shaped_check t = true -> shaped t.
Proof. unfold shaped_check. intros E. apply andb_true_iff in E. destruct E as [E1 E2]. split; [apply placed_check_ok, E1|apply Nat.leb_le, E2]. Qed.
Lemma wf_check_ok t : wf_check t = true -> state_wf t.
Proof.
  unfold wf_check. rewrite !andb_true_iff. intros [[E1 E2] E3]. split; [|split; [apply shaped_ok, E2|exact (all_check_ok _ _ _ (fun a => shaped_ok (storage a)) E3)]].
  revert E1. apply all_check_ok. intros a. unfold in_range, fits, account_ok. rewrite !andb_true_iff, !Z.leb_le, !Z.ltb_lt. intros [R St]. assert (2 ^ 248 < modulus) by reflexivity.
  assert (tree_all word_ok (storage a)) by (revert St; apply all_check_ok; intros w; unfold word_range, word_ok; rewrite andb_true_iff, Z.leb_le, Z.ltb_lt; auto). unfold word_ok. intuition lia.
Qed.
Definition pairs : list (tree account * tree account) := [(S0, S1); (S1, S2); (S2, S3); (S3, S4); (S4, S5); (S5, S5); (S1, S1)].
Lemma pairs_checks : forallb (fun p => wf_check (fst p) && wf_check (snd p) && cf_check (all_inputs mix (fst p) (snd p))) pairs = true.
Proof. vm_compute. reflexivity. Qed.
Lemma us_checks u : In u us -> wf_check (u_old u) && wf_check (u_new u) && cf_check (all_inputs mix (u_old u) (u_new u)) = true.
Proof.
  intros Hu. pose proof pairs_checks as Ch. rewrite forallb_forall in Ch. apply (Ch (u_old u, u_new u)).
  assert (A : Forall (fun u => In (u_old u, u_new u) pairs) us) by (repeat (apply Forall_cons || apply Forall_nil); cbn [u_old u_new]; unfold pairs; [left|right; left|do 2 right; left|do 3 right; left|do 4 right; left|do 5 right; left|do 5 right; left|do 5 right; left|do 6 right; left|do 6 right; left|do 6 right; left|do 6 right; left|do 6 right; left]; reflexivity).
  rewrite Forall_forall in A. exact (A u Hu).
Qed.
Lemma us_honest : Forall (fun u => honest mix (u_address u) (u_old u) (u_new u) (u_kind u) (u_trace u)) us.
Proof.
  repeat (apply Forall_cons || apply Forall_nil); cbn [u_address u_old u_new u_kind u_trace].
  - apply (hon_nonce mix _ _ _ A1 8). split; [vm_compute; reflexivity|reflexivity].
  - apply (hon_slot mix _ _ _ (set_nonce 8 A1) 1 (Some 10) (Some 12) (modify (fun _ => 12) (storage A1) 0 (sl 1))); try discriminate; [lia|left; discriminate| |].
    + split; [vm_compute; reflexivity|reflexivity].
    + split; [vm_compute; reflexivity|reflexivity].
  - apply (hon_slot mix _ _ _ B1 5 None (Some (2 ^ 200)) (storage C1)); try discriminate; [lia|right; discriminate| |].
    + unfold written. replace (storage B1) with (Node (Leaf (sl 1) 12) (Leaf (sl 4) 11)) by (vm_compute; reflexivity). apply ins_left; [vm_compute; reflexivity|]. apply ins_fork.
      change (Node (Node (Leaf (sl 1) 12) (Leaf (sl 5) (2 ^ 200))) Empty) with (if false then Node Empty (Node (Leaf (sl 1) 12) (Leaf (sl 5) (2 ^ 200))) else Node (Node (Leaf (sl 1) 12) (Leaf (sl 5) (2 ^ 200))) Empty).
      replace false with (kbit (slot_key mix 5) 1) by (vm_compute; reflexivity). apply fork_below; [vm_compute; reflexivity|].
      replace (Node (Leaf (sl 1) 12) (Leaf (sl 5) (2 ^ 200))) with (if kbit (slot_key mix 5) 2 then Node (Leaf (sl 1) 12) (Leaf (slot_key mix 5) (2 ^ 200)) else Node (Leaf (slot_key mix 5) (2 ^ 200)) (Leaf (sl 1) 12)); [apply fork_here; vm_compute; discriminate|].
      replace (kbit (slot_key mix 5) 2) with true by (vm_compute; reflexivity). reflexivity.
    + split; [vm_compute; reflexivity|reflexivity].
  - apply (hon_create_balance mix _ _ _ (2 ^ 100)); [discriminate|]. unfold written. 
    assert (E : S3 = Node (Node (Node (Leaf (ac 11) C1) (Leaf (ac 15) A16)) Empty) (Leaf (ac 2) A3)) by (vm_compute; reflexivity). unfold S4. rewrite E. apply ins_right; [vm_compute; reflexivity|]. apply ins_fork.
    replace (Node (Node (Leaf (ac 14) A8) (Leaf (ac 2) A3)) Empty) with (if kbit (addr_key mix (ad 14)) 1 then Node Empty (Node (Leaf (ac 14) A8) (Leaf (ac 2) A3)) else Node (Node (Leaf (ac 14) A8) (Leaf (ac 2) A3)) Empty) by (replace (kbit (addr_key mix (ad 14)) 1) with false by (vm_compute; reflexivity); reflexivity).
    apply fork_below; [vm_compute; reflexivity|].
    replace (Node (Leaf (ac 14) A8) (Leaf (ac 2) A3)) with (if kbit (addr_key mix (ad 14)) 2 then Node (Leaf (ac 2) A3) (Leaf (addr_key mix (ad 14)) A8) else Node (Leaf (addr_key mix (ad 14)) A8) (Leaf (ac 2) A3)); [apply fork_here; vm_compute; discriminate|].
    replace (kbit (addr_key mix (ad 14)) 2) with false by (vm_compute; reflexivity). reflexivity.
  - apply (hon_slot mix _ _ _ A3 1 (Some 10) None Empty); try discriminate; [lia|left; discriminate| |].
    + apply ins_empty.
    + split; [vm_compute; reflexivity|reflexivity].
  - apply (hon_missing mix _ _ _ AccountDoesNotExist); [cbn; tauto|]. split; [vm_compute; reflexivity|reflexivity].
  - apply (hon_code_hash mix _ _ _ A16 0). split; [vm_compute; reflexivity|]. symmetry. replace (set_keccak 0 A16) with A16 by (vm_compute; reflexivity). apply HonestBlock.modify_same. vm_compute. reflexivity.
  - apply (hon_empty_slot mix _ _ _ A16 7); [lia|vm_compute; reflexivity|vm_compute; reflexivity|reflexivity].
  - apply (hon_missing mix _ _ _ AccountDoesNotExist); [cbn; tauto|]. split; [vm_compute; reflexivity|reflexivity].
  - apply (hon_balance mix _ _ _ (set_nonce 8 A1) 3). split; [vm_compute; reflexivity|]. symmetry. replace (set_balance 3 (set_nonce 8 A1)) with (set_nonce 8 A1) by (vm_compute; reflexivity). apply HonestBlock.modify_same. vm_compute. reflexivity.
  - apply (hon_code_size mix _ _ _ (set_nonce 8 A1) 2). split; [vm_compute; reflexivity|]. symmetry. replace (set_code_size 2 (set_nonce 8 A1)) with (set_nonce 8 A1) by (vm_compute; reflexivity). apply HonestBlock.modify_same. vm_compute. reflexivity.
  - apply (hon_code_hash mix _ _ _ (set_nonce 8 A1) 4). split; [vm_compute; reflexivity|]. symmetry. replace (set_keccak 4 (set_nonce 8 A1)) with (set_nonce 8 A1) by (vm_compute; reflexivity). apply HonestBlock.modify_same. vm_compute. reflexivity.
  - apply (hon_poseidon mix _ _ _ (set_nonce 8 A1) (fz 5)). split; [vm_compute; reflexivity|]. symmetry. replace (set_poseidon (fz 5) (set_nonce 8 A1)) with (set_nonce 8 A1) by (vm_compute; reflexivity). apply HonestBlock.modify_same. vm_compute. reflexivity.
Qed.
Theorem us_ok : Forall (honest_update mix) us.
Proof.
  pose proof us_honest as Ho. rewrite Forall_forall in Ho |- *. intros u Hu. pose proof (us_checks u Hu) as Ch. rewrite !andb_true_iff in Ch. destruct Ch as [[C1 C2] C3].
  constructor; [exact (Ho u Hu)| |apply wf_check_ok, C1|apply wf_check_ok, C2|apply cf_check_ok, C3].
  cbn [In us] in Hu. intuition (subst u; cbn [u_address]; unfold ad; lia).
Qed.
(* the states, a new account and all hashes in the table: the hashes are right and do not collide *)
Definition states : list (tree account) := [S0; S1; S2; S3; S4; S5].
Definition traces_check (traces : list Trace) : bool :=
  forallb (fun t => feqb (hash3 mix (fst t)) (snd t)) traces && cf_check (map (fun x => (x, hash3 mix x)) (map fst traces ++ account_inputs mix new_account ++ flat_map (state_inputs mix) states)).
Lemma us_sizes : checkb (proofs <- omap_from (fun _ u => proof_from mix (u_kind u) (u_trace u)) 0 us; m <- mpt_n_rows_required mix proofs; traces <- hash_traces mix proofs; Some ((m =? 2050) && (length traces <? 4000)%nat && traces_check traces)) = true.
Proof. vm_compute. reflexivity. Qed.
Lemma omap_forall2 l : forall i proofs, omap_from (fun _ u => proof_from mix (u_kind u) (u_trace u)) i l = Some proofs -> Forall2 (converts mix) l proofs.
Proof. induction l as [|u l IH]; intros i proofs E; cbn [omap_from] in E; [apply some_eq in E; subst; constructor|]. ob E. ob E. apply some_eq in E. subst proofs. constructor; [exact E0|exact (IH _ _ E1)]. Qed.
Theorem honest_case r : exists proofs ws e traces, Forall (honest_update mix) us /\ length us = 13%nat /\ Forall2 (converts mix) us proofs /\ enough_rows mix proofs 2080 /\ mpt_assign mix true 4 proofs 2080 r = Some ws /\
  filled e r ws /\ room e 2080 /\ hash_traces mix proofs = Some traces /\ poseidon_listed e traces /\ sat e (circuit_of (circuit mix)).
Proof.
  pose proof us_sizes as X. destruct (omap_from (fun _ u => proof_from mix (u_kind u) (u_trace u)) 0 us) as [proofs|] eqn:E; [|discriminate X]. cbn [obind] in X.
  destruct (mpt_n_rows_required mix proofs) as [m|] eqn:M; [|discriminate X]. cbn [obind] in X. destruct (hash_traces mix proofs) as [traces|] eqn:T; [|discriminate X]. cbn [obind checkb] in X.
  apply andb_true_iff in X. destruct X as [X _]. apply andb_true_iff in X. destruct X as [X1 X2]. apply Z.eqb_eq in X1. apply Nat.ltb_lt in X2. subst m. pose proof (omap_forall2 us 0 proofs E) as C.
  destruct (honest_assigned mix us proofs 2050 true 4 2080 r us_ok C ltac:(lia) M ltac:(lia)) as (ws & W).
  destruct (fill_env_ok 4096 4090 r ws traces 2080) as (F & R & PL); [lia|lia|lia|lia|]. assert (En : enough_rows mix proofs 2080) by (exists 2050; split; [exact M|lia]).
  exists proofs, ws, (fill_env 4096 4090 r ws traces), traces. repeat (split; [first [exact us_ok|reflexivity|assumption]|]). exact (honest_accepted mix (threads := 4%nat) us_ok C ltac:(lia) W F R En T PL).
Qed.
