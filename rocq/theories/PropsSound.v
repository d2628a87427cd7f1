(* Properties C15-C25: soundness of the update table.  Only statements; the proofs are in Update*.v.
   Specification: TrieSpec.v (state tries, hashing, get/modify) and TableSpec.v (what a table row means).
   - circuit_ok H e n    the assignment e satisfies the whole circuit with n_rows = n; the Poseidon table is correct for H;
                         the fixed columns are those assign writes (C27); the byte-representation table starts a byte
                         string in its first enabled row (assign does so, C07; the constraints do not force it, C06)
   - exposes e row       some enabled row of the table that the circuit exposes to other circuits equals row
   - trie_of H e n r t   t is a state trie with root r, values in range, paths no longer than the key-bit table is
                         reliable for (any length if n_rows = 1 mod 32, 248 otherwise), and no two hash inputs of t or of
                         the circuit's Poseidon table collide or hash to 0
   - mix, 2081           the hash function and n_rows of a concrete table (HonestCase.v, SoundCase.v): the examples show that the
                         hypotheses of the theorems are met
   - get t 0 k           value under key k;  reached t 0 k: key and value of the leaf at the end of k's path *)
From Coq Require Import ZArith String List Bool Lia.
From Verif Require Import Pocklington Fr Query Builder BuilderProofs Gadgets MptUpdate Fixed Bytes TrieSpec TableSpec UpdateRows UpdateSound UpdateClaims UpdateStorage GadgetMain UpdateProps UpdateShape HonestCase RefuteCase.
Import ListNotations.
Open Scope Z_scope.

(** * C15 *)
(* sg, pa, pt: the segment, path and proof type encoded in a row *)
Theorem C15_update_is_complete : forall H e n, fixed_ok e n -> sat e (circuit_of (circuit H)) ->
  forall i, 1 <= i -> i + 1 < n -> sg e i = SegStart ->
  exists m, 1 <= m /\ i + m < n /\ sg e (i + m) = SegStart /\
    update_rows (pt e i) (map (sg e) (rows_between i m)) /\ path_rows (map (pa e) (rows_between i m)) /\
    (forall j, i < j < i + m -> pt e j = pt e i /\ eadv e MU_old_value j = eadv e MU_old_value i /\
       eadv e MU_new_value j = eadv e MU_new_value i /\ eadv e MU_storage_key_rlc j = eadv e MU_storage_key_rlc i).
Proof. exact update_shape. Qed.
Example C15_C24_C25_case : exists e i, fixed_ok e 2081 /\ sat e (circuit_of (circuit mix)) /\ 1 <= i /\ i + 1 < 2081 /\ sg e i = SegStart /\ pt e i = NonceChanged /\ sg e (i + 1) <> SegStart /\ enabled e (i + 1).
Proof. exact row_example. Qed.

(** * C16-C20: proved for accounts that exist in the old trie.  What is missing: for an account that does not exist the full
      property demands old = 0 and, for new = 0, an unchanged root; the code also accepts the leaf of another account there
      (refuted: PropsRefuted.v).  What the new state looks like is C49 (PropsNew.v) *)
Theorem C16_nonce_sound_partial : forall H e n, circuit_ok H e n ->
  forall row, exposes e row -> nth 2 row f0 = fz (kind_number NonceChanged) -> row <> blank_row ->
  exists s, row = encode (echal e) s /\ st_kind s = NonceChanged /\ 0 <= st_address s < 2 ^ 160 /\
  forall t, trie_of H e n (st_old_root s) t ->
    account_field_updated H (echal e) s t /\
    (get t 0 (addr_key H (st_address s)) = None ->
      st_old_value s = f0 \/
      (exists k b, reached t 0 (addr_key H (st_address s)) = Some (k, b) /\ k <> addr_key H (st_address s))).
Proof. intros H e n OK row. exact (written_kind H e n OK NonceChanged row ltac:(auto)). Qed.
Example C16_case : exists e row, circuit_ok mix e 2081 /\ exposes e row /\ nth 2 row f0 = fz (kind_number NonceChanged) /\ row <> blank_row /\
  forall s, row = encode (echal e) s -> 0 <= st_address s < 2 ^ 160 -> exists t a, trie_of mix e 2081 (st_old_root s) t /\ get t 0 (addr_key mix (st_address s)) = Some a.
Proof. exact nonce_example. Qed.
Theorem C17_balance_sound_partial : forall H e n, circuit_ok H e n ->
  forall row, exposes e row -> nth 2 row f0 = fz (kind_number BalanceChanged) -> row <> blank_row ->
  exists s, row = encode (echal e) s /\ st_kind s = BalanceChanged /\ 0 <= st_address s < 2 ^ 160 /\
  forall t, trie_of H e n (st_old_root s) t ->
    account_field_updated H (echal e) s t /\
    (get t 0 (addr_key H (st_address s)) = None ->
      st_old_value s = f0 \/
      (exists k b, reached t 0 (addr_key H (st_address s)) = Some (k, b) /\ k <> addr_key H (st_address s))).
Proof. intros H e n OK row. exact (written_kind H e n OK BalanceChanged row ltac:(auto)). Qed.
Example C17_case : exists e row, circuit_ok mix e 2081 /\ exposes e row /\ nth 2 row f0 = fz (kind_number BalanceChanged) /\ row <> blank_row /\
  forall s, row = encode (echal e) s -> 0 <= st_address s < 2 ^ 160 -> exists t a, trie_of mix e 2081 (st_old_root s) t /\ get t 0 (addr_key mix (st_address s)) = Some a.
Proof. exact (read_example BalanceChanged ltac:(cbn; auto)). Qed.
Theorem C18_code_size_sound_partial : forall H e n, circuit_ok H e n ->
  forall row, exposes e row -> nth 2 row f0 = fz (kind_number CodeSizeExists) -> row <> blank_row ->
  exists s, row = encode (echal e) s /\ st_kind s = CodeSizeExists /\ 0 <= st_address s < 2 ^ 160 /\
  forall t, trie_of H e n (st_old_root s) t ->
    account_field_updated H (echal e) s t /\
    (get t 0 (addr_key H (st_address s)) = None ->
      (st_old_value s = f0 /\ st_new_value s = f0 /\ st_new_root s = st_old_root s) \/
      (exists k b, reached t 0 (addr_key H (st_address s)) = Some (k, b) /\ k <> addr_key H (st_address s))).
Proof. intros H e n OK row. exact (read_kind H e n OK CodeSizeExists row eq_refl ltac:(discriminate) ltac:(discriminate)). Qed.
Example C18_case : exists e row, circuit_ok mix e 2081 /\ exposes e row /\ nth 2 row f0 = fz (kind_number CodeSizeExists) /\ row <> blank_row /\
  forall s, row = encode (echal e) s -> 0 <= st_address s < 2 ^ 160 -> exists t a, trie_of mix e 2081 (st_old_root s) t /\ get t 0 (addr_key mix (st_address s)) = Some a.
Proof. exact (read_example CodeSizeExists ltac:(cbn; auto)). Qed.
Theorem C19_keccak_code_hash_sound_partial : forall H e n, circuit_ok H e n ->
  forall row, exposes e row -> nth 2 row f0 = fz (kind_number CodeHashExists) -> row <> blank_row ->
  exists s, row = encode (echal e) s /\ st_kind s = CodeHashExists /\ 0 <= st_address s < 2 ^ 160 /\
  forall t, trie_of H e n (st_old_root s) t ->
    account_field_updated H (echal e) s t /\
    (get t 0 (addr_key H (st_address s)) = None ->
      (st_old_value s = f0 /\ st_new_value s = f0 /\ st_new_root s = st_old_root s) \/
      (exists k b, reached t 0 (addr_key H (st_address s)) = Some (k, b) /\ k <> addr_key H (st_address s))).
Proof. intros H e n OK row. exact (read_kind H e n OK CodeHashExists row eq_refl ltac:(discriminate) ltac:(discriminate)). Qed.
Example C19_case : exists e row, circuit_ok mix e 2081 /\ exposes e row /\ nth 2 row f0 = fz (kind_number CodeHashExists) /\ row <> blank_row /\
  forall s, row = encode (echal e) s -> 0 <= st_address s < 2 ^ 160 -> exists t a, trie_of mix e 2081 (st_old_root s) t /\ get t 0 (addr_key mix (st_address s)) = Some a.
Proof. exact (read_example CodeHashExists ltac:(cbn; auto)). Qed.
Theorem C20_poseidon_code_hash_sound_partial : forall H e n, circuit_ok H e n ->
  forall row, exposes e row -> nth 2 row f0 = fz (kind_number PoseidonCodeHashExists) -> row <> blank_row ->
  exists s, row = encode (echal e) s /\ st_kind s = PoseidonCodeHashExists /\ 0 <= st_address s < 2 ^ 160 /\
  forall t, trie_of H e n (st_old_root s) t ->
    account_field_updated H (echal e) s t /\
    (get t 0 (addr_key H (st_address s)) = None ->
      (st_old_value s = f0 /\ st_new_value s = f0 /\ st_new_root s = st_old_root s) \/
      (exists k b, reached t 0 (addr_key H (st_address s)) = Some (k, b) /\ k <> addr_key H (st_address s))).
Proof. intros H e n OK row. exact (read_kind H e n OK PoseidonCodeHashExists row eq_refl ltac:(discriminate) ltac:(discriminate)). Qed.
Example C20_case : exists e row, circuit_ok mix e 2081 /\ exposes e row /\ nth 2 row f0 = fz (kind_number PoseidonCodeHashExists) /\ row <> blank_row /\
  forall s, row = encode (echal e) s -> 0 <= st_address s < 2 ^ 160 -> exists t a, trie_of mix e 2081 (st_old_root s) t /\ get t 0 (addr_key mix (st_address s)) = Some a.
Proof. exact (read_example PoseidonCodeHashExists ltac:(cbn; auto)). Qed.

(** * C21 *)
Theorem C21_account_absence_sound_partial : forall H e n, circuit_ok H e n ->
  forall row, exposes e row -> nth 2 row f0 = fz (kind_number AccountDoesNotExist) -> row <> final_row ->
  exists s, row = encode (echal e) s /\ st_kind s = AccountDoesNotExist /\ 0 <= st_address s < 2 ^ 160 /\
  forall t, trie_of H e n (st_old_root s) t -> account_absent H s t.
Proof. exact absent_kind. Qed.
Example C21_case : exists e row, circuit_ok mix e 2081 /\ exposes e row /\ nth 2 row f0 = fz (kind_number AccountDoesNotExist) /\ row <> final_row /\
  forall s, row = encode (echal e) s -> 0 <= st_address s < 2 ^ 160 -> exists t, trie_of mix e 2081 (st_old_root s) t.
Proof. exact missing_example. Qed.

(** * C22: in full for overwriting an existing non-zero slot by a non-zero value; missing: insertion (the new value is not
      constrained), deletion (the old value is not constrained), missing accounts *)
Theorem C22_storage_sound_partial : forall H e n, circuit_ok H e n ->
  forall row, exposes e row -> nth 2 row f0 = fz (kind_number StorageChanged) ->
  exists s, row = encode (echal e) s /\ st_kind s = StorageChanged /\ 0 <= st_address s < 2 ^ 160 /\
  forall t, trie_of H e n (st_old_root s) t ->
    (forall a, get t 0 (addr_key H (st_address s)) = Some a ->
     exists slot, word_ok slot /\ st_slot_rlc s = word_rlc (echal e) slot /\
     match get (storage a) 0 (slot_key H slot) with
     | Some w => st_new_value s = f0 \/ (w <> 0 /\ exists w', w' <> 0 /\ slot_overwritten H (echal e) s t slot w w')
     | None => st_old_value s = f0 \/ st_new_value s = f0 \/
               exists k v, reached (storage a) 0 (slot_key H slot) = Some (k, v) /\ k <> slot_key H slot
     end) /\
    (get t 0 (addr_key H (st_address s)) = None -> st_old_value s = f0 \/
     exists k b, reached t 0 (addr_key H (st_address s)) = Some (k, b) /\ k <> addr_key H (st_address s)).
Proof. exact slot_kind. Qed.
Example C22_case : exists e row, circuit_ok mix e 2081 /\ exposes e row /\ nth 2 row f0 = fz (kind_number StorageChanged) /\ 
  forall s, row = encode (echal e) s -> 0 <= st_address s < 2 ^ 160 -> exists t a, trie_of mix e 2081 (st_old_root s) t /\ get t 0 (addr_key mix (st_address s)) = Some a /\
    st_slot_rlc s = word_rlc (echal e) 1 /\ get (storage a) 0 (slot_key mix 1) = Some 10 /\ st_new_value s = word_rlc (echal e) 12 /\ st_new_value s <> f0.
Proof. exact storage_example. Qed.

(** * C23 *)
Theorem C23_storage_absence_sound_partial : forall H e n, circuit_ok H e n ->
  forall row, exposes e row -> nth 2 row f0 = fz (kind_number StorageDoesNotExist) ->
  exists s, row = encode (echal e) s /\ st_kind s = StorageDoesNotExist /\ 0 <= st_address s < 2 ^ 160 /\
  forall t, trie_of H e n (st_old_root s) t -> slot_absent H (echal e) s t.
Proof. exact slot_absent_kind. Qed.
Example C23_case : exists e row, circuit_ok mix e 2081 /\ exposes e row /\ nth 2 row f0 = fz (kind_number StorageDoesNotExist) /\ row <> final_row /\
  forall s, row = encode (echal e) s -> 0 <= st_address s < 2 ^ 160 -> exists t, trie_of mix e 2081 (st_old_root s) t.
Proof. exact empty_slot_example. Qed.

(** * C24 *)
Theorem C24_never_destructed : forall H e n, fixed_ok e n -> sat e (circuit_of (circuit H)) ->
  forall row, exposes e row -> nth 2 row f0 <> fz (kind_number AccountDestructed).
Proof. exact never_exposed_destructed. Qed.
Theorem C24_no_account_deletion_rows_partial : forall H e n, fixed_ok e n -> sat e (circuit_of (circuit H)) ->
  forall i, enabled e i -> 2 <= i -> pa e i = ExtensionOld -> sg e i = StorageTrie \/ sg e i = StorageLeaf0.
Proof. exact account_rows_not_deleted. Qed.

(** * C25 *)
Theorem C25_inner_rows_blank : forall H e n, fixed_ok e n -> sat e (circuit_of (circuit H)) ->
  forall i, enabled e i -> sg e i <> SegStart -> table_row e i = blank_row.
Proof. exact inner_rows. Qed.

Print Assumptions C15_update_is_complete. Print Assumptions C16_nonce_sound_partial. Print Assumptions C17_balance_sound_partial. Print Assumptions C18_code_size_sound_partial. Print Assumptions C19_keccak_code_hash_sound_partial. Print Assumptions C20_poseidon_code_hash_sound_partial. Print Assumptions C21_account_absence_sound_partial. Print Assumptions C22_storage_sound_partial. Print Assumptions C23_storage_absence_sound_partial. Print Assumptions C24_never_destructed. Print Assumptions C24_no_account_deletion_rows_partial. Print Assumptions C25_inner_rows_blank.
