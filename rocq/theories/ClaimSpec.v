(* C37: what claim a trace stands for, stated without reference to the conversion code. *)
From Coq Require Import ZArith List Bool Lia.
From Verif Require Import Pocklington Fr Query Builder Gadgets MptUpdate Bytes Util UtilProofs Serde Trie Storage Types TrieProofs.
Import ListNotations.
Open Scope Z_scope.

(** * Specification *)
Definition account_types := [NonceChanged; BalanceChanged; CodeHashExists; PoseidonCodeHashExists; CodeSizeExists].
(* the account field that a proof type is about *)
Definition field (p : MPTProofType) (a : AccountData) : Z :=
  match p with
  | NonceChanged => ad_nonce a | BalanceChanged => ad_balance a | CodeHashExists => ad_code_hash a
  | PoseidonCodeHashExists => ad_poseidon_code_hash a | CodeSizeExists => ad_code_size a | _ => 0
  end.
(* the claim "field p changes from o to n" *)
Definition kind_of (p : MPTProofType) (o n : option Z) : ClaimKind :=
  match p with
  | NonceChanged => KNonce o n | BalanceChanged => KBalance o n | CodeHashExists => KCodeHash o n
  | PoseidonCodeHashExists => KPoseidonCodeHash (option_map fz o) (option_map fz n)
  | _ => KCodeSize o n
  end.
Definition account_claim (p : MPTProofType) (accounts : option AccountData * option AccountData) (k : ClaimKind) : Prop :=
  match accounts with
  | (Some old, Some new) =>
      k = kind_of p (Some (field p old)) (Some (field p new)) /\
      (forall q, In q account_types -> q <> p -> field q old = field q new) /\
      (In p [BalanceChanged; CodeHashExists] -> field p old < 2 ^ 256 /\ field p new < 2 ^ 256)
  | (None, None) => k = kind_of p (Some 0) (Some 0) /\ p <> PoseidonCodeHashExists
  | (None, Some new) =>
      k = kind_of p None (Some (field p new)) /\ field p new <> 0 /\
      (p = NonceChanged \/ p = BalanceChanged /\ ad_nonce new = 0 /\ ad_balance new < 2 ^ 256)
  | (Some _, None) => False
  end.
(* an absent storage slot and a slot holding 0 are the same *)
Definition slot_value (v : Z) (o : option Z) : Prop := (v = 0 /\ o = None) \/ (v <> 0 /\ o = Some v).
Definition storage_claim (p : MPTProofType) (accounts : option AccountData * option AccountData) (so sn : StateData) (k : ClaimKind) : Prop :=
  (fst accounts = snd accounts \/ accounts = (None, Some (mkAccountData 0 0 0 0 0))) /\ sd_key so = sd_key sn /\
  (p = StorageDoesNotExist /\ be_val (sd_value so) = 0 /\ be_val (sd_value sn) = 0 /\ k = KIsEmpty (Some (be_val (sd_key so)))
   \/ p = StorageChanged /\ exists o n, slot_value (be_val (sd_value so)) o /\ slot_value (be_val (sd_value sn)) n /\ (o <> None \/ n <> None) /\
        k = KStorage (be_val (sd_key so)) o n).
Definition kind_spec (p : MPTProofType) (tr : SMTTrace) (k : ClaimKind) : Prop :=
  match t_state_update tr with
  | Some (Some so, Some sn) => storage_claim p (t_account_update tr) so sn k
  | None | Some (None, None) =>
      In p account_types /\ account_claim p (t_account_update tr) k
      \/ p = AccountDoesNotExist /\ t_account_update tr = (None, None) /\ k = KIsEmpty None
      \/ p = StorageDoesNotExist /\ t_account_update tr = (None, None) /\
         exists key, t_state_key tr = Some key /\ k = KIsEmpty (Some (be_val key))
  | _ => False
  end.
Definition claim_spec (p : MPTProofType) (tr : SMTTrace) (c : Claim) : Prop :=
  fr_from_bytes (p_root (fst (t_account_path tr))) = Some (c_old_root c) /\
  fr_from_bytes (p_root (snd (t_account_path tr))) = Some (c_new_root c) /\
  c_address c = t_address tr /\ kind_spec p tr (c_kind c).

(* values of the Rust types *)
Definition word (l : list Z) : Prop := length l = 32%nat /\ bytes_ok l.
Definition data_wf (a : AccountData) : Prop := 0 <= ad_nonce a /\ 0 <= ad_balance a /\ 0 <= ad_code_hash a /\ 0 <= ad_poseidon_code_hash a /\ 0 <= ad_code_size a.
Definition oforall {A} (P : A -> Prop) (x : option A) : Prop := match x with Some a => P a | None => True end.
Definition trace_wf (tr : SMTTrace) : Prop :=
  oforall data_wf (fst (t_account_update tr)) /\ oforall data_wf (snd (t_account_update tr)) /\
  oforall word (t_state_key tr) /\
  oforall (fun u => oforall (fun s => word (sd_key s) /\ word (sd_value s)) (fst u) /\ oforall (fun s => word (sd_key s) /\ word (sd_value s)) (snd u)) (t_state_update tr).

(** * Proof *)
Lemma oassert_some b x : oassert b = Some x <-> b = true /\ x = tt.
Proof. destruct b, x; cbn; intuition congruence. Qed.
Lemma bind_assert {B} b (k : option B) y : (_ <- oassert b; k) = Some y <-> b = true /\ k = Some y.
Proof. destruct b; cbn; intuition congruence. Qed.
Lemma data_eqb_eq a b : data_eqb a b = true <-> a = b.
Proof.
  unfold data_eqb. rewrite !andb_true_iff, !Z.eqb_eq. destruct a, b; cbn. split; [|intros E; injection E; auto].
  intros [[[[-> ->] ->] ->] ->]. reflexivity.
Qed.
Lemma odata_eqb_eq a b : odata_eqb a b = true <-> a = b.
Proof. destruct a, b; cbn; try (split; congruence). rewrite data_eqb_eq. split; congruence. Qed.
Lemma ptype_eqb_eq a b : ptype_eqb a b = true <-> a = b.
Proof. destruct a, b; cbn; split; congruence. Qed.
Lemma nonzero_slot v o : nonzero v = o <-> slot_value v o.
Proof.
  unfold nonzero, slot_value. destruct (Z.eqb_spec v 0); split; intros E; [left; auto|destruct E as [[_ ->]|[E _]]; congruence|right; auto|].
  destruct E as [[E _]|[_ ->]]; congruence.
Qed.
Ltac bools := repeat (rewrite bind_assert in * ); rewrite ?Z.eqb_eq, ?ptype_eqb_eq in *.

Lemma others_intro p a b : (forall q, In q account_types -> q <> p -> field q a = field q b) <->
  (p <> NonceChanged -> ad_nonce a = ad_nonce b) /\ (p <> BalanceChanged -> ad_balance a = ad_balance b) /\
  (p <> CodeHashExists -> ad_code_hash a = ad_code_hash b) /\ (p <> PoseidonCodeHashExists -> ad_poseidon_code_hash a = ad_poseidon_code_hash b) /\
  (p <> CodeSizeExists -> ad_code_size a = ad_code_size b).
Proof.
  split.
  - intros X. repeat split; intros N.
    + apply (X NonceChanged); [cbn; tauto|congruence].
    + apply (X BalanceChanged); [cbn; tauto|congruence].
    + apply (X CodeHashExists); [cbn; tauto|congruence].
    + apply (X PoseidonCodeHashExists); [cbn; tauto|congruence].
    + apply (X CodeSizeExists); [cbn; tauto|congruence].
  - intros (x1 & x2 & x3 & x4 & x5) q Hq N. assert (N' : p <> q) by congruence. cbn in Hq.
    destruct Hq as [<-|[<-|[<-|[<-|[<-|[]]]]]]; cbn [field]; auto.
Qed.
Lemma u256_two x y (f : Z -> Z -> ClaimKind) k : 0 <= x -> 0 <= y ->
  ((o <- u256_from_biguint x; n <- u256_from_biguint y; Some (f o n)) = Some k <-> (x < 2 ^ 256 /\ y < 2 ^ 256) /\ k = f x y).
Proof.
  intros Hx Hy. rewrite !u256_from_biguint_spec by assumption. set (B := 2 ^ 256). clearbody B.
  destruct (Z.ltb_spec x B); cbn [obind]; [|split; [discriminate|lia]].
  destruct (Z.ltb_spec y B); cbn [obind]; [|split; [discriminate|lia]]. split; [intros E; split; [auto|congruence]|intros [_ ->]; reflexivity].
Qed.
Lemma some_eq {A} (x y : A) : Some x = Some y <-> y = x.
Proof. split; congruence. Qed.
Lemma true_imp (P Q : Prop) : P -> ((P -> Q) <-> Q).
Proof. tauto. Qed.
Lemma false_imp (P Q : Prop) : ~ P -> ((P -> Q) <-> True).
Proof. tauto. Qed.
Lemma both_case p old new k tr : t_account_update tr = (Some old, Some new) -> t_state_update tr = None \/ t_state_update tr = Some (None, None) ->
  data_wf old -> data_wf new -> In p account_types -> (claim_kind_from p tr = Some k <-> account_claim p (Some old, Some new) k).
Proof.
  intros Eu Es (a1 & a2 & a3 & a4 & a5) (b1 & b2 & b3 & b4 & b5) Hp. unfold claim_kind_from, account_claim. rewrite Eu, others_intro.
  set (B := 2 ^ 256) in *.
  cbn in Hp. destruct Hp as [<-|[<-|[<-|[<-|[<-|[]]]]]]; destruct Es as [-> | ->]; rewrite !bind_assert, !Z.eqb_eq; cbn [kind_of field option_map].
  all: try (rewrite u256_two by assumption; fold B); rewrite ?some_eq; rewrite ?big_uint_to_fr_spec by assumption; clearbody B.
  all: repeat match goal with |- context [?x <> ?x -> ?Q] => rewrite (false_imp (x <> x) Q) by congruence | |- context [?x <> ?y -> ?Q] => rewrite (true_imp (x <> y) Q) by discriminate end.
  all: match goal with |- context [In ?x [BalanceChanged; CodeHashExists] -> ?Q] =>
     first [rewrite (true_imp (In x [BalanceChanged; CodeHashExists]) Q) by (cbn; tauto) | rewrite (false_imp (In x [BalanceChanged; CodeHashExists]) Q) by (cbn; intuition discriminate)] end.
  all: tauto.
Qed.
Lemma created_case p new k tr : t_account_update tr = (None, Some new) -> t_state_update tr = None \/ t_state_update tr = Some (None, None) ->
  data_wf new -> In p account_types -> (claim_kind_from p tr = Some k <-> account_claim p (None, Some new) k).
Proof.
  intros Eu Es (b1 & b2 & b3 & b4 & b5) Hp. unfold claim_kind_from, account_claim. rewrite Eu.
  match goal with |- (match t_state_update tr with Some _ => _ | None => ?x end = _ <-> _) => assert (X : x = Some k <-> account_claim p (None, Some new) k); [|destruct Es as [-> | ->]; exact X] end.
  unfold account_claim. set (B := 2 ^ 256).
  destruct (Z.eqb_spec (ad_nonce new) 0) as [N0|N0]; cbn [negb].
  - destruct (Z.eqb_spec (ad_balance new) 0) as [B0|B0]; cbn [negb].
    + split; [discriminate|]. intros (_ & E & [-> | (-> & _)]); cbn [field] in E; congruence.
    + rewrite bind_assert, ptype_eqb_eq, u256_from_biguint_spec by assumption. fold B. clearbody B. split.
      * intros [-> E]. destruct (Z.ltb_spec (ad_balance new) B); [|discriminate]. cbn [obind] in E. rewrite some_eq in E. subst k. cbn [field kind_of]. auto 10.
      * intros (-> & E & [-> | (-> & _ & L)]); [cbn [field] in E; congruence|]. split; [reflexivity|]. apply Z.ltb_lt in L. rewrite L. reflexivity.
  - rewrite bind_assert, ptype_eqb_eq, some_eq. clearbody B. split; [intros [-> ->]; cbn [field kind_of]; auto 10|].
    intros (-> & E & [-> | (-> & E0 & _)]); [split; reflexivity|congruence].
Qed.
Lemma absent_case p k tr : t_account_update tr = (None, None) -> t_state_update tr = None \/ t_state_update tr = Some (None, None) ->
  In p account_types -> (claim_kind_from p tr = Some k <-> account_claim p (None, None) k).
Proof.
  intros Eu Es Hp. unfold claim_kind_from, account_claim. rewrite Eu.
  cbn in Hp. destruct Hp as [<-|[<-|[<-|[<-|[<-|[]]]]]]; destruct Es as [-> | ->]; cbn [kind_of].
  all: first [rewrite some_eq; split; [intros ->; split; [reflexivity|discriminate]|intros [-> _]; reflexivity] | split; [discriminate|intros [_ E]; congruence]].
Qed.
Lemma from_accounts p u k : oforall data_wf (fst u) -> oforall data_wf (snd u) -> In p account_types ->
  forall tr, t_account_update tr = u -> t_state_update tr = None \/ t_state_update tr = Some (None, None) ->
  (claim_kind_from p tr = Some k <-> account_claim p u k).
Proof.
  intros W1 W2 Hp tr Eu Es. destruct u as [[old|] [new|]]; cbn [fst snd oforall] in *.
  - apply both_case; assumption.
  - unfold claim_kind_from, account_claim. rewrite Eu. destruct Es as [-> | ->]; split; (discriminate || contradiction).
  - apply created_case; assumption.
  - apply absent_case; assumption.
Qed.
Theorem kind_exact p tr k : trace_wf tr -> (claim_kind_from p tr = Some k /\ proof_type_of k = p <-> kind_spec p tr k).
Proof.
  intros (W1 & W2 & W3 & W4). unfold kind_spec.
  assert (NS : t_state_update tr = None \/ t_state_update tr = Some (None, None) ->
    (claim_kind_from p tr = Some k /\ proof_type_of k = p <->
      In p account_types /\ account_claim p (t_account_update tr) k
      \/ p = AccountDoesNotExist /\ t_account_update tr = (None, None) /\ k = KIsEmpty None
      \/ p = StorageDoesNotExist /\ t_account_update tr = (None, None) /\
         exists key, t_state_key tr = Some key /\ k = KIsEmpty (Some (be_val key)))).
  { intros Es. assert (Cases : In p account_types \/ p = AccountDoesNotExist \/ p = StorageDoesNotExist \/ p = StorageChanged \/ p = AccountDestructed) by (destruct p; cbn; tauto).
    destruct Cases as [Hp|[->|[->|[->| ->]]]].
    - pose proof (from_accounts p _ k W1 W2 Hp tr eq_refl Es) as X. rewrite X. split.
      + intros [Y _]. left. auto.
      + intros [[_ Y]|[(-> & _)|(-> & _)]]; [|cbn in Hp; intuition discriminate|cbn in Hp; intuition discriminate]. split; [exact Y|].
        destruct (t_account_update tr) as [[o|] [n|]]; cbn in Y; try contradiction; destruct Y as [-> _]; cbn in Hp; repeat destruct Hp as [<-|Hp]; try contradiction; reflexivity.
    - unfold claim_kind_from. destruct Es as [-> | ->]; destruct (t_account_update tr) as [[o|] [n|]]; cbn [proof_type_of].
      all: split; [intros [E _]; try discriminate E|intros [[Y _]|[(_ & Y & ->)|(Y & _)]]; try discriminate; try (cbn in Y; intuition discriminate)].
      all: try (injection E as <-; right; left; auto). all: try (split; reflexivity).
      all: destruct (negb (ad_nonce n =? 0)); [bools; intuition discriminate|]; destruct (negb (ad_balance n =? 0)); [bools; intuition discriminate|discriminate E].
    - unfold claim_kind_from. destruct Es as [-> | ->]; destruct (t_account_update tr) as [[o|] [n|]]; cbn [proof_type_of].
      all: split; [intros [E _]; try discriminate E|intros [[Y _]|[(Y & _)|(_ & Y & kb & Ek & ->)]]; try discriminate; try (cbn in Y; intuition discriminate)].
      all: try (destruct (negb (ad_nonce n =? 0)); [bools; intuition discriminate|]; destruct (negb (ad_balance n =? 0)); [bools; intuition discriminate|discriminate E]).
      all: try (rewrite Ek in *; cbn [obind oforall] in *; destruct (u256_from_hex_spec kb (proj1 W3) (proj2 W3)) as [-> _]; split; reflexivity).
      all: destruct (t_state_key tr) as [kb|]; [|discriminate E]; cbn [obind oforall] in *; destruct (u256_from_hex_spec kb (proj1 W3) (proj2 W3)) as [X _]; rewrite X in E; cbn [obind] in E; injection E as <-; right; right; split; [reflexivity|]; split; [reflexivity|]; exists kb; auto.
    - split.
      + intros [E T]. exfalso. unfold claim_kind_from in E. destruct Es as [Es|Es]; rewrite Es in E; destruct (t_account_update tr) as [[o|] [n|]]; try discriminate E.
        all: destruct (negb (ad_nonce n =? 0)); [bools; intuition discriminate|]; destruct (negb (ad_balance n =? 0)); [bools; intuition discriminate|discriminate E].
      + intros [[Y _]|[(Y & _)|(Y & _)]]; try discriminate. cbn in Y. intuition discriminate.
    - split.
      + intros [E T]. exfalso. destruct k as [| | | | | |[?|]]; discriminate T.
      + intros [[Y _]|[(Y & _)|(Y & _)]]; try discriminate. cbn in Y. intuition discriminate. }
  destruct (t_state_update tr) as [[[so|] [sn|]]|] eqn:Es.
  - cbn [oforall fst snd] in W4. destruct W4 as ((K1 & V1) & (K2 & V2)). unfold claim_kind_from, storage_claim. rewrite Es.
    destruct (t_account_update tr) as [ao an]. cbn [fst snd].
    destruct (u256_from_hex_spec _ (proj1 V1) (proj2 V1)) as [-> _]. destruct (u256_from_hex_spec _ (proj1 V2) (proj2 V2)) as [-> _].
    destruct (u256_from_hex_spec _ (proj1 K1) (proj2 K1)) as [-> _]. cbn [obind]. rewrite !bind_assert, bytes_eqb_eq.
    assert (Acc : odata_eqb ao an || is_none ao && odata_eqb an (Some default_data) = true <-> ao = an \/ (ao, an) = (None, Some (mkAccountData 0 0 0 0 0))).
    { rewrite orb_true_iff, andb_true_iff, !odata_eqb_eq. split.
      - intros [E|[E ->]]; [left; exact E|right]. destruct ao; [discriminate E|reflexivity].
      - intros [E|E]; [left; exact E|right]. injection E as -> ->. split; reflexivity. }
    rewrite Acc. split.
    + intros ((A1 & A2 & E) & T). split; [exact A1|]. split; [exact A2|].
      destruct (Z.eqb_spec (be_val (sd_value so)) 0) as [Z1|Z1], (Z.eqb_spec (be_val (sd_value sn)) 0) as [Z2|Z2]; cbn [andb] in E; injection E as <-; cbn [proof_type_of] in T; subst p.
      * left. auto.
      * right. split; [reflexivity|]. exists (nonzero (be_val (sd_value so))), (nonzero (be_val (sd_value sn))). split; [apply nonzero_slot; reflexivity|]. split; [apply nonzero_slot; reflexivity|]. split; [|reflexivity].
        right. unfold nonzero. destruct (Z.eqb_spec (be_val (sd_value sn)) 0); congruence.
      * right. split; [reflexivity|]. exists (nonzero (be_val (sd_value so))), (nonzero (be_val (sd_value sn))). split; [apply nonzero_slot; reflexivity|]. split; [apply nonzero_slot; reflexivity|]. split; [|reflexivity].
        left. unfold nonzero. destruct (Z.eqb_spec (be_val (sd_value so)) 0); congruence.
      * right. split; [reflexivity|]. exists (nonzero (be_val (sd_value so))), (nonzero (be_val (sd_value sn))). split; [apply nonzero_slot; reflexivity|]. split; [apply nonzero_slot; reflexivity|]. split; [|reflexivity].
        left. unfold nonzero. destruct (Z.eqb_spec (be_val (sd_value so)) 0); congruence.
    + intros (A1 & A2 & [(-> & Z1 & Z2 & ->)|(-> & o & n & S1 & S2 & Ne & ->)]).
      * rewrite Z1, Z2. cbn. auto.
      * apply nonzero_slot in S1. apply nonzero_slot in S2. split; [|reflexivity]. split; [exact A1|]. split; [exact A2|].
        destruct ((be_val (sd_value so) =? 0) && (be_val (sd_value sn) =? 0)) eqn:Q; [|rewrite S1, S2; reflexivity]. apply andb_true_iff in Q. destruct Q as [Q1 Q2].
        unfold nonzero in S1, S2. rewrite Q1 in S1. rewrite Q2 in S2. destruct Ne; congruence.
  - unfold claim_kind_from. rewrite Es. destruct (t_account_update tr). split; [intros [E _]; discriminate E|contradiction].
  - unfold claim_kind_from. rewrite Es. destruct (t_account_update tr). split; [intros [E _]; discriminate E|contradiction].
  - apply NS. auto.
  - apply NS. auto.
Qed.
Theorem claim_exact p tr c : trace_wf tr -> (claim_from p tr = Some c <-> claim_spec p tr c).
Proof.
  intros W. unfold claim_from, claim_spec, fr. destruct (fr_from_bytes (p_root (fst (t_account_path tr)))) as [ro|]; cbn [obind]; [|split; [discriminate|intros (E & _); discriminate E]].
  destruct (fr_from_bytes (p_root (snd (t_account_path tr)))) as [rn|]; cbn [obind]; [|split; [discriminate|intros (_ & E & _); discriminate E]].
  split.
  - destruct (claim_kind_from p tr) as [k|] eqn:K; cbn [obind]; [|discriminate]. rewrite bind_assert, ptype_eqb_eq. intros [T E]. injection E as <-. cbn.
    repeat split. apply (kind_exact p tr k W). auto.
  - intros (E1 & E2 & E3 & E4). apply (kind_exact p tr _ W) in E4. destruct E4 as [-> T]. cbn [obind].
    rewrite bind_assert, ptype_eqb_eq. split; [exact T|]. destruct c. cbn in *. congruence.
Qed.
(* creating an account with several non-zero fields is accepted as a nonce change *)
Definition creation_trace (new : AccountData) : SMTTrace :=
  mkTrace (repeat 0 20) (repeat 0 32) (mkPath (repeat 0 32) None [], mkPath (repeat 0 32) None []) (None, Some new) (None, None) (Some (repeat 0 32)) None None.
Theorem creation_other_fields : exists p tr c old new,
  trace_wf tr /\ t_account_update tr = (old, Some new) /\ old = None /\ claim_from p tr = Some c /\ In p account_types /\
  exists q, In q account_types /\ q <> p /\ field q new <> 0.
Proof.
  exists NonceChanged, (creation_trace (mkAccountData 1 5 0 0 0)). eexists. exists None, (mkAccountData 1 5 0 0 0).
  split; [repeat split; cbn; lia|]. split; [reflexivity|]. split; [reflexivity|]. split; [vm_compute; reflexivity|]. split; [cbn; tauto|].
  exists BalanceChanged. split; [cbn; tauto|]. split; [discriminate|cbn; lia].
Qed.
Lemma update_case : exists c, claim_from NonceChanged
  (mkTrace (repeat 0 20) (repeat 0 32) (mkPath (fr_to_bytes f1) None [], mkPath (fr_to_bytes (fz 9)) None [])
     (Some (mkAccountData 1 5 6 7 8), Some (mkAccountData 2 5 6 7 8)) (None, None) (Some (repeat 0 32)) None None) = Some c /\
  c_kind c = KNonce (Some 1) (Some 2) /\ val (c_new_root c) = 9.
Proof. eexists. split; [vm_compute; reflexivity|]. split; vm_compute; reflexivity. Qed.
Lemma claim_type p tr c : claim_from p tr = Some c -> proof_type_of (c_kind c) = p.
Proof.
  unfold claim_from. destruct (fr _) as [ro|]; cbn [obind]; [|discriminate]. destruct (fr _) as [rn|]; cbn [obind]; [|discriminate].
  destruct (claim_kind_from p tr) as [k|]; cbn [obind]; [|discriminate]. rewrite bind_assert, ptype_eqb_eq. intros [T E]. injection E as <-. exact T.
Qed.
Lemma claim_only_field p tr c old new : trace_wf tr -> claim_from p tr = Some c ->
  t_account_update tr = (Some old, Some new) -> In p account_types ->
  c_kind c = kind_of p (Some (field p old)) (Some (field p new)) /\
  (forall q, In q account_types -> q <> p -> field q old = field q new).
Proof.
  intros W E U Hp. apply (claim_exact p tr c W) in E. destruct E as (_ & _ & _ & K). unfold kind_spec in K.
  assert (X : In p account_types /\ account_claim p (Some old, Some new) (c_kind c) \/ False).
  { destruct (t_state_update tr) as [[[so|] [sn|]]|]; try contradiction.
    - exfalso. destruct K as (_ & _ & [[-> _]|[-> _]]); cbn in Hp; intuition discriminate.
    - rewrite U in K. destruct K as [K|[(_ & K & _)|(_ & K & _)]]; [left; exact K|discriminate K|discriminate K].
    - rewrite U in K. destruct K as [K|[(_ & K & _)|(_ & K & _)]]; [left; exact K|discriminate K|discriminate K]. }
  destruct X as [[_ (X1 & X2 & _)]|[]]. auto.
Qed.
