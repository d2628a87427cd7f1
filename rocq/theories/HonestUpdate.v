(* Every honest update is accepted. *)
From Coq Require Import ZArith List Bool Lia.
From Verif Require Import Pocklington Fr Query Builder BuilderProofs Gadgets MptUpdate Bytes GadgetProofs UpdateRows TrieSpec UpdateComplete Util UtilProofs Serde Trie Storage Types TypesProofs Lookups LookupMain
  Assign AssignProofs UpdateAssign MptAssign GadgetMain GadgetMain2 TrieProofs HonestTrace HonestSpec RowView BlockView BlocksOk RowsOk RowCells BlockRows Chain UpperOk LeafOk StorageOk TreeChain HonestPath TablesOk HonestInputs HonestBlock.
Import ListNotations.
Open Scope Z_scope.

(* the claims of a trace without storage update *)
Lemma kind_both ty tr d d' kd : claim_kind_from ty tr = Some kd -> t_state_update tr = None -> t_account_update tr = (Some d, Some d') ->
  match ty with
  | NonceChanged => kd = KNonce (Some (ad_nonce d)) (Some (ad_nonce d'))
  | BalanceChanged => exists o n, u256_from_biguint (ad_balance d) = Some o /\ u256_from_biguint (ad_balance d') = Some n /\ kd = KBalance (Some o) (Some n)
  | CodeHashExists => exists o n, u256_from_biguint (ad_code_hash d) = Some o /\ u256_from_biguint (ad_code_hash d') = Some n /\ kd = KCodeHash (Some o) (Some n)
  | CodeSizeExists => kd = KCodeSize (Some (ad_code_size d)) (Some (ad_code_size d'))
  | PoseidonCodeHashExists => kd = KPoseidonCodeHash (Some (big_uint_to_fr (ad_poseidon_code_hash d))) (Some (big_uint_to_fr (ad_poseidon_code_hash d')))
  | _ => False
  end.
Proof.
  intros E Su Au. unfold claim_kind_from in E. rewrite Su, Au in E. destruct ty; try discriminate E; do 4 ob E; try congruence; apply obind_some in E; destruct E as (o & E1' & E); apply obind_some in E; destruct E as (n & E2' & E); exists o, n; (split; [exact E1'|]); (split; [exact E2'|]); congruence.
Qed.
Lemma kind_new ty tr d' kd : claim_kind_from ty tr = Some kd -> t_state_update tr = None -> t_account_update tr = (None, Some d') ->
  (ad_nonce d' <> 0 /\ kd = KNonce None (Some (ad_nonce d'))) \/ (ad_nonce d' = 0 /\ exists n, u256_from_biguint (ad_balance d') = Some n /\ kd = KBalance None (Some n)).
Proof.
  intros E Su Au. unfold claim_kind_from in E. rewrite Su, Au in E. destruct (Z.eqb_spec (ad_nonce d') 0) as [Q|Q]; cbn [negb] in E.
  - right. split; [exact Q|]. destruct (negb _) in E; [|discriminate E]. ob E. apply obind_some in E; destruct E as (n & E1' & E). exists n. split; [exact E1'|congruence].
  - left. split; [exact Q|]. ob E. congruence.
Qed.
Lemma kind_none ty tr kd : claim_kind_from ty tr = Some kd -> t_state_update tr = None -> t_account_update tr = (None, None) -> In ty [NonceChanged; BalanceChanged; CodeHashExists; CodeSizeExists; AccountDoesNotExist] ->
  In kd [KNonce (Some 0) (Some 0); KBalance (Some 0) (Some 0); KCodeHash (Some 0) (Some 0); KCodeSize (Some 0) (Some 0); KIsEmpty None].
Proof.
  intros E Su Au. unfold claim_kind_from in E. rewrite Su, Au in E. intros [<-|[<-|[<-|[<-|[<-|[]]]]]]; apply some_eq in E; subst kd; cbn [In]; tauto.
Qed.
Lemma ptype_refl x : ptype_eqb x x = true. Proof. destruct x; reflexivity. Qed.

Section Update.
  Context {H : Fr -> Fr -> Fr -> Fr} {e : env} {proofs : list Proof} {traces : list Trace} {lookups : list (Fr * Z * bool)} {reprs : Reprs} {p : Proof} {address : Z} {t t' : tree account}.
  Hypothesis ET : hash_traces H proofs = Some traces.
  Hypothesis EK : key_bit_lookups H proofs = Some lookups.
  Hypothesis ER : byte_representations proofs = Some reprs.
  Hypothesis T : tables e traces lookups (re_u32s reprs) (re_u64s reprs) (re_u128s reprs) (re_frs reprs) (mpt_update_keys H proofs).
  Hypothesis Hp : In p proofs.
  Hypothesis CF : collision_free H (inputs_of H t t').
  Hypothesis Ad : 0 <= address < 2 ^ 160.
  Hypothesis Ft : tree_all fits t.
  Hypothesis Ft' : tree_all fits t'.
  Notation k := (addr_key H address).
  Notation r := (echal e).
  Notation kt := (proof_type_of (c_kind (pf_claim p))).
  Lemma get_all (x : tree account) a : tree_all fits x -> get x 0 k = Some a -> fits a.
  Proof.
    intros A G. rewrite get_end in G. destruct (tree_end x 0 k) as [|k' v|] eqn:E; try discriminate G. destruct (feqb k k') eqn:F; [|discriminate G]. apply some_eq in G. subst v. exact (end_all fits x k k' a 0 A E).
  Qed.
  Section Trace.
    Context {ty : MPTProofType} {tr : SMTTrace} {ov nv : option account}.
    Hypothesis PF : proof_from H ty tr = Some p.
    Hypothesis TA : t_address tr = be_bytes 20 address.
    Hypothesis TK : t_account_path tr = (trace_path H (account_hash H) t k, trace_path H (account_hash H) t' k).
    Hypothesis TU : t_account_update tr = (option_map data_of ov, option_map data_of nv).
    Hypothesis W : written k ov nv t t'.
    Let HP := path_of PF Ad TA TK W.
    Lemma fits_old a : ov = Some a -> fits a.
    Proof. intros O. apply (get_all t a Ft). destruct (written_get k ov nv t t' W) as [G _]. congruence. Qed.
    Lemma fits_new a : nv = Some a -> fits a.
    Proof. intros O. apply (get_all t' a Ft'). destruct (written_get k ov nv t t' W) as [_ G]. congruence. Qed.
    Definition same_account (ea : EthAccount) (a : account) : Prop := ea_nonce ea = nonce a /\ ea_code_size ea = code_size a /\ ea_balance ea = fz (balance a) /\ ea_keccak_codehash ea = keccak_code_hash a.
    Lemma eth_same a ea root : account_ok a -> account_of (Some (data_of a)) root = Some (Some ea) -> same_account ea a.
    Proof.
      intros (A1 & A2 & A3 & A4 & _) E. cbn [account_of] in E. unfold eth_account_from, data_of in E. cbn [ad_nonce ad_balance ad_code_hash ad_poseidon_code_hash ad_code_size] in E.
      rewrite u256_from_biguint_spec in E by (unfold word_ok in A4; lia). rewrite (proj2 (Z.ltb_lt _ _)) in E by apply A4. cbn [obind] in E. ob E. rewrite fr_from_biguint_spec in E by lia.
      apply some_eq, some_eq in E. subst ea. repeat split.
    Qed.
    Lemma old_eth a : ov = Some a -> exists ea, pf_old_account p = Some ea /\ same_account ea a.
    Proof.
      intros O. destruct (hp_leafs HP) as (p0 & p1 & l0 & l1 & F). pose proof (ft_old_account _ _ _ _ _ _ _ _ F) as A. rewrite TU, O in A. cbn [fst option_map] in A.
      destruct (pf_old_account p) as [ea|] eqn:E; [exists ea; split; [reflexivity|]; exact (eth_same a ea _ (proj1 (fits_old a O)) A)|]. unfold account_of in A. ob A. ob A. discriminate A.
    Qed.
    Lemma new_eth a : nv = Some a -> exists ea, pf_new_account p = Some ea /\ same_account ea a.
    Proof.
      intros O. destruct (hp_leafs HP) as (p0 & p1 & l0 & l1 & F). pose proof (ft_new_account _ _ _ _ _ _ _ _ F) as A. rewrite TU, O in A. cbn [snd option_map] in A.
      destruct (pf_new_account p) as [ea|] eqn:E; [exists ea; split; [reflexivity|]; exact (eth_same a ea _ (proj1 (fits_new a O)) A)|]. unfold account_of in A. ob A. ob A. discriminate A.
    Qed.
    (* the byte tables hold the values of the accounts *)
    Definition covered (a : account) : Prop :=
      (kt = NonceChanged \/ kt = CodeSizeExists -> accepts e bytes_lookup [fz (nonce a); fz 7] /\ accepts e bytes_lookup [fz (code_size a); fz 7]) /\
      (kt = BalanceChanged -> accepts e rlc_lookup [fz (balance a); fz 30; rlc (u256_to_big_endian (balance a)) r]) /\
      (kt = CodeHashExists -> halves_in (keccak_code_hash a) (re_u128s reprs)).
    Lemma covered_account a ea : fits a -> same_account ea a -> account_of_proof p ea -> covered a.
    Proof.
      intros [(A1 & A2 & A3 & A4 & _) A5] (S1 & S2 & S3 & S4) Ac. pose proof (reprs_cover _ _ _ ER Hp) as (_ & _ & RC). split; [|split].
      - intros [K|K]; rewrite K in RC; destruct (RC ea Ac) as [I1 I2]; rewrite S1 in I1; rewrite S2 in I2; split; apply (tb_64 _ _ _ _ _ _ _ _ T); assumption.
      - intros K. rewrite K in RC. specialize (RC ea Ac). rewrite S3 in RC. apply (balance_in T); [lia|exact RC].
      - intros K. rewrite K in RC. specialize (RC ea Ac). rewrite S4 in RC. apply RC, A4.
    Qed.
    Lemma covered_old a : ov = Some a -> covered a.
    Proof. intros O. destruct (old_eth a O) as (ea & E & Sm). apply (covered_account a ea); auto; [apply fits_old, O|left; exact E]. Qed.
    Lemma covered_new a : nv = Some a -> covered a.
    Proof. intros O. destruct (new_eth a O) as (ea & E & Sm). apply (covered_account a ea); auto; [apply fits_new, O|right; exact E]. Qed.
    Lemma root_storage rb : t_common_state_root tr = Some (fr_to_bytes rb) -> pf_storage p = SRoot rb.
    Proof.
      intros TC. destruct (hp_leafs HP) as (p0 & p1 & l0 & l1 & F). pose proof (ft_storage _ _ _ _ _ _ _ _ F) as E. unfold storage_proof_from in E. rewrite TC in E. apply obind_some in E. destruct E as (x & E1 & E). rewrite fr_of_bytes in E1. congruence.
    Qed.
    Lemma biguint_word w : word_ok w -> u256_from_biguint w = Some w.
    Proof. intros A. unfold word_ok in A. rewrite u256_from_biguint_spec by lia. rewrite (proj2 (Z.ltb_lt _ _)) by apply A. reflexivity. Qed.
    Lemma biguint_balance w : 0 <= w < modulus -> u256_from_biguint w = Some w.
    Proof. intros A. apply biguint_word. assert (modulus < 2 ^ 256) by reflexivity. unfold word_ok. lia. Qed.
    (* one field is rewritten *)
    Lemma field_ok a a' : ov = Some a -> nv = Some a' -> t_state_update tr = None -> t_common_state_root tr = Some (fr_to_bytes (storage_root H (storage a))) -> storage a' = storage a ->
      match ty with
      | NonceChanged => exists x, a' = set_nonce x a
      | BalanceChanged => exists x, a' = set_balance x a
      | CodeHashExists => exists x, a' = set_keccak x a
      | CodeSizeExists => exists x, a' = set_code_size x a
      | PoseidonCodeHashExists => exists x, a' = set_poseidon x a
      | _ => False
      end -> block_accepted H e r p.
    Proof.
      intros O N Su TC Es Fd. destruct (fits_old a O) as [OK _]. destruct (fits_new a' N) as [OK' _].
      pose proof (covered_old a O) as (C1 & C2 & C3). pose proof (covered_new a' N) as (C1' & C2' & C3').
      assert (TU' := TU). rewrite O, N in TU'. cbn [option_map] in TU'. pose proof (kind_both _ _ _ _ _ (hp_kind HP) Su TU') as Kd.
      pose proof (root_storage _ TC) as Sx.
      apply (both_ok ET EK ER T Hp CF PF Ad TA TK TU W a a' (storage_root H (storage a)) O N OK OK' Sx eq_refl); [rewrite Es; reflexivity|].
      pose proof OK as (R1 & R2 & R3 & R4 & _). pose proof OK' as (R1' & R2' & R3' & R4' & _). unfold lv_s, lv_ns, lv_n, lv_k. rewrite !(lv_acc_eq H) by assumption.
      destruct ty; try contradiction; destruct Fd as [x Fd]; cbn [data_of ad_nonce ad_balance ad_code_hash ad_poseidon_code_hash ad_code_size] in Kd.
      - rewrite Kd in *. cbn [proof_type_of] in *. cbn [changed]. unfold lv_s, lv_k. cbn [lv_nc lv_bal lv_root lv_hi lv_lo lv_pch]. rewrite Es.
        destruct (C1 (or_introl eq_refl)) as [D1 D2]. destruct (C1' (or_introl eq_refl)) as [D1' D2']. assert (Cs : code_size a' = code_size a) by (rewrite Fd; reflexivity).
        split; [rewrite Fd; reflexivity|]. split; [rewrite Fd; reflexivity|]. split; [rewrite Fd; reflexivity|]. exists (fz (code_size a)). rewrite !fz_add, !fz_mul, Cs. rewrite c64_eq. auto.
      - destruct Kd as (b & b' & B1 & B2 & Kd). rewrite biguint_balance in B1, B2 by assumption. apply some_eq in B1, B2. subst b b'. rewrite Kd in *. cbn [proof_type_of] in *. cbn [changed]. unfold lv_s, lv_k. cbn [lv_nc lv_bal lv_root lv_hi lv_lo lv_pch]. rewrite Es.
        split; [rewrite Fd; reflexivity|]. split; [rewrite Fd; reflexivity|]. split; [rewrite Fd; reflexivity|]. auto.
      - destruct Kd as (b & b' & B1 & B2 & Kd). rewrite biguint_word in B1, B2 by assumption. apply some_eq in B1, B2. subst b b'. rewrite Kd in *. cbn [proof_type_of] in *. cbn [changed]. unfold lv_n, lv_k. cbn [lv_nc lv_bal lv_root lv_hi lv_lo lv_pch]. rewrite Es.
        split; [rewrite Fd; reflexivity|]. split; [reflexivity|]. split; [rewrite Fd; reflexivity|].
        destruct (traces_old ET T Hp CF PF Ad TA TK TU W a O OK) as (_ & _ & _ & H1 & _); [rewrite Sx; reflexivity|].
        destruct (traces_new ET T Hp CF PF Ad TA TK TU W a' N OK') as (_ & _ & _ & H2 & _); [rewrite Sx, Es; reflexivity|].
        split; apply (word_in T); auto.
        + pose proof (lh_k _ _ _ _ H1) as X. unfold lv_k in X. rewrite (lv_acc_eq H a OK) in X. exact X.
        + pose proof (lh_k _ _ _ _ H2) as X. unfold lv_k in X. rewrite (lv_acc_eq H a' OK') in X. exact X.
      - rewrite Kd in *. cbn [proof_type_of] in *. cbn [changed]. unfold lv_ns, lv_s, lv_n, lv_k. cbn [lv_nc lv_bal lv_root lv_hi lv_lo lv_pch]. rewrite Es.
        split; [rewrite Fd; reflexivity|]. rewrite !big_uint_to_fr_spec by (apply val_range). rewrite !fz_val. auto.
      - rewrite Kd in *. cbn [proof_type_of] in *. cbn [changed]. unfold lv_s, lv_k. cbn [lv_nc lv_bal lv_root lv_hi lv_lo lv_pch]. rewrite Es.
        destruct (C1 (or_intror eq_refl)) as [D1 D2]. destruct (C1' (or_intror eq_refl)) as [D1' D2']. assert (Cs : nonce a' = nonce a) by (rewrite Fd; reflexivity).
        split; [rewrite Fd; reflexivity|]. split; [rewrite Fd; reflexivity|]. split; [rewrite Fd; reflexivity|]. exists (fz (nonce a)). rewrite !fz_add, !fz_mul, Cs. rewrite c64_eq. auto.
    Qed.
    Lemma fresh_s a' : account_ok a' -> keccak_code_hash a' = 0 -> storage a' = Empty -> lv_s H (lv_acc H a') = ZERO_STORAGE_ROOT_KECCAK_CODEHASH_HASH H.
    Proof. intros OK K E. unfold lv_s, lv_k. rewrite (lv_acc_eq H a' OK), K, E. cbn [lv_root lv_hi lv_lo]. reflexivity. Qed.
    Lemma create_ok a' : ov = None -> nv = Some a' -> t_state_update tr = None -> t_common_state_root tr = Some (fr_to_bytes (storage_root H (storage a'))) ->
      code_size a' = 0 -> keccak_code_hash a' = 0 -> poseidon_code_hash a' = f0 -> storage a' = Empty -> (nonce a' <> 0 /\ balance a' = 0 \/ nonce a' = 0 /\ balance a' <> 0) -> block_accepted H e r p.
    Proof.
      intros O N Su TC Cs Ck Cp Es Cr. destruct (fits_new a' N) as [OK' _]. pose proof (covered_new a' N) as (C1' & C2' & _).
      assert (TU' := TU). rewrite O, N in TU'. cbn [option_map] in TU'. pose proof (kind_new _ _ _ _ (hp_kind HP) Su TU') as Kd. cbn [data_of ad_nonce ad_balance] in Kd.
      apply (created_ok ET EK ER T Hp CF PF Ad TA TK TU W a' _ O N OK' (root_storage _ TC) eq_refl).
      split; [apply fresh_s; assumption|]. rewrite (lv_acc_eq H a' OK'). cbn [lv_pch lv_nc lv_bal]. split; [exact Cp|]. destruct OK' as (R1' & R2' & R3' & R4' & _).
      destruct Kd as [[K1 K2]|(K1 & n & K2 & K3)].
      - assert (B0 : balance a' = 0) by (destruct Cr as [[_ X]|[X _]]; [exact X|contradiction]). rewrite K2 in *. cbn [proof_type_of] in *. rewrite B0, Cs. split; [reflexivity|]. split; [f_equal; lia|]. apply (C1' (or_introl eq_refl)).
      - rewrite biguint_balance in K2 by assumption. apply some_eq in K2. subst n. rewrite K3 in *. cbn [proof_type_of] in *. rewrite K1, Cs. split; [reflexivity|]. apply (C2' eq_refl).
    Qed.
    Lemma missing_ok : ov = None -> nv = None -> t_state_update tr = None -> In ty [NonceChanged; BalanceChanged; CodeHashExists; CodeSizeExists; AccountDoesNotExist] -> block_accepted H e r p.
    Proof.
      intros O N Su Ty. assert (TU' := TU). rewrite O, N in TU'. cbn [option_map] in TU'. pose proof (kind_none _ _ _ (hp_kind HP) Su TU' Ty) as Kd.
      apply (none_ok ET EK ER T Hp CF PF Ad TA TK TU W O N).
      - unfold ov_, old_value_assignment. destruct Kd as [<-|[<-|[<-|[<-|[<-|[]]]]]]; try reflexivity; apply rlc_zero_word.
      - unfold nv_, new_value_assignment. destruct Kd as [<-|[<-|[<-|[<-|[<-|[]]]]]]; try reflexivity; apply rlc_zero_word.
      - destruct Kd as [<-|[<-|[<-|[<-|[<-|[]]]]]]; cbn [proof_type_of In]; intuition discriminate.
    Qed.
    Lemma missing_slot_ok slot : 0 <= slot < 2 ^ 256 -> ov = None -> nv = None ->
      t_state_update tr = Some (Some (mkStateData (be_bytes 32 slot) (be_bytes 32 0)), Some (mkStateData (be_bytes 32 slot) (be_bytes 32 0))) -> block_accepted H e r p.
    Proof.
      intros Sl O N Su. destruct (claim_storage_inv _ _ _ _ _ (hp_kind HP) Su) as (vo & vn & kk & E1 & E2 & E3 & E4). cbn [sd_value sd_key] in E1, E2, E3.
      rewrite hex_word in E1, E2 by lia. apply some_eq in E1, E2. subst vo vn. change (0 =? 0) with true in E4. cbn [andb] in E4.
      apply (none_ok ET EK ER T Hp CF PF Ad TA TK TU W O N).
      - unfold ov_, old_value_assignment. rewrite E4. reflexivity.
      - unfold nv_, new_value_assignment. rewrite E4. reflexivity.
      - rewrite E4. cbn [proof_type_of In]. intuition discriminate.
    Qed.
  End Trace.
  Theorem honest_ok ty tr : honest H address t t' ty tr -> proof_from H ty tr = Some p -> block_accepted H e r p.
  Proof.
    intros HO PF. destruct HO as [a x W|a x W|a x W|a x W|a x W|x Nx W|x Nx W|ty Ty W|a slot ov nv s' Sl _ Zo Zn WS W|a slot Sl G Gs Eq|slot Sl W].
    1-5: destruct (written_get k _ _ t t' W) as [G G']; refine (field_ok PF eq_refl eq_refl _ W _ _ eq_refl eq_refl eq_refl _ eq_refl _); unfold account_trace_of; cbn [t_account_update t_common_state_root];
      [rewrite G, G'; reflexivity|rewrite G; reflexivity|eauto].
    1-2: destruct (written_get k _ _ t t' W) as [G G']; refine (create_ok PF eq_refl eq_refl _ W _ eq_refl eq_refl eq_refl _ eq_refl eq_refl eq_refl eq_refl _); unfold account_trace_of; cbn [t_account_update t_common_state_root nonce balance];
      [rewrite G, G'; reflexivity|rewrite G, G'; reflexivity|auto].
    - destruct (written_get k _ _ t t' W) as [G G']. refine (missing_ok PF eq_refl eq_refl _ W eq_refl eq_refl eq_refl Ty). unfold account_trace_of. cbn [t_account_update]. rewrite G, G'. reflexivity.
    - destruct (written_get k _ _ t t' W) as [G G']. destruct (written_get _ _ _ _ _ WS) as [V V'].
      refine (slot_block_ok ET EK ER T Hp CF PF Ad eq_refl eq_refl _ W Sl eq_refl eq_refl (proj1 (fits_old W a eq_refl)) (proj1 (fits_new W _ eq_refl)) eq_refl (WS : written _ ov nv (storage a) (storage (set_storage s' a))) Zo Zn eq_refl eq_refl _ _);
        unfold storage_trace_of; cbn [t_account_update t_state_path t_state_update]; rewrite G, G'; cbn [storage_of]; [reflexivity|reflexivity|].
      unfold slot_value_of. cbn [storage set_storage]. rewrite V, V'. reflexivity.
    - assert (W : written k (Some a) (Some a) t t') by (split; [exact G|rewrite Eq; symmetry; apply modify_same; exact G]). destruct (written_get k _ _ t t' W) as [_ G'].
      assert (WS : written (slot_key H slot) None None (storage a) (storage a)) by (split; [exact Gs|reflexivity]).
      refine (slot_block_ok ET EK ER T Hp CF PF Ad eq_refl eq_refl _ W Sl eq_refl eq_refl (proj1 (fits_old W a eq_refl)) (proj1 (fits_new W a eq_refl)) _ WS _ _ eq_refl eq_refl _ _);
        unfold storage_trace_of; cbn [t_account_update t_state_path t_state_update]; rewrite ?G, ?G'; cbn [storage_of]; try reflexivity; try discriminate.
      + destruct a; reflexivity.
      + unfold slot_value_of. rewrite Gs. reflexivity.
    - destruct (written_get k _ _ t t' W) as [G G']. refine (missing_slot_ok PF eq_refl eq_refl _ W slot Sl eq_refl eq_refl _); unfold storage_trace_of; cbn [t_account_update t_state_update]; rewrite G, G'; reflexivity.
  Qed.
End Update.
