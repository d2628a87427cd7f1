(* Updates that the circuit accepts although they damage the state trie: for every hash function without collisions among the
   hashes involved, every size and every challenge. *)
From Coq Require Import ZArith String List Bool Lia.
From Verif Require Import Pocklington Fr Query Builder BuilderProofs Gadgets MptUpdate Bytes Fixed GadgetProofs UpdateRows UpdateWalk UpdateSound TableSpec UpdateComplete Util UtilProofs Serde Trie Storage Types Lookups LookupProofs LookupMain TrieSpec ChangeSpec
  Assign AssignProofs AssignOk AssignRegion UpdateAssign MptAssign MptModes MptRows MptCases GadgetMain GadgetMain2 CircuitOk RowView BlockView TablesOk BlocksOk PaddingOk RowsOk LeafOk UpdateProps NewAccount NewProps Forge.
Import ListNotations.
Open Scope Z_scope.

(* the hash of an address, and the hash of an empty word *)
Definition address_input (a : Z) : triple := (fz (a / 2 ^ 32), fz ((a mod 2 ^ 32) * 2 ^ 96), fdom DPair).
Definition zero_input : triple := (f0, f0, fdom DPair).
Definition h3 (H : Fr -> Fr -> Fr -> Fr) (x : triple) : Fr := H (fst (fst x)) (snd (fst x)) (snd x).
Definition traced (H : Fr -> Fr -> Fr -> Fr) (x : triple) : Trace := (fst (fst x), snd (fst x), snd x, h3 H x).
Lemma traced_in H l a b d : In (a, b, d) l -> In ((a, b), d, H a b d) (map (traced H) l).
Proof. intros I. apply in_map_iff. exists (a, b, d). split; [reflexivity|exact I]. Qed.
Lemma traced_of H l a b d h : In ((a, b), d, h) (map (traced H) l) -> In (a, b, d) l.
Proof. intros I. apply in_map_iff in I. destruct I as ([[x y] z] & E & I). unfold traced in E. cbn [fst snd] in E. injection E as <- <- <- _. exact I. Qed.
Lemma traced_true H l : Forall (fun t : Trace => snd t = H (fst (fst (fst t))) (snd (fst (fst t))) (snd (fst t))) (map (traced H) l).
Proof. apply Forall_map, Forall_forall. intros x _. reflexivity. Qed.

(** * Addresses *)
Lemma addr_key_in H a : addr_key H a = h3 H (address_input a). Proof. reflexivity. Qed.
Lemma addr_inj H (S : triple -> Prop) a b : collision_free H S -> S (address_input a) -> S (address_input b) -> 0 <= a < 2 ^ 160 -> 0 <= b < 2 ^ 160 -> addr_key H a = addr_key H b -> a = b.
Proof.
  intros [CF _] Sa Sb Ra Rb E. specialize (CF _ _ Sa Sb E). unfold address_input in CF.
  pose proof (f_equal (fun x : triple => fst (fst x)) CF) as E1. pose proof (f_equal (fun x : triple => snd (fst x)) CF) as E2. cbn [fst snd] in E1, E2.
  assert (P32 : 0 < 2 ^ 32) by lia. assert (Q : forall x, 0 <= x < 2 ^ 160 -> 0 <= x / 2 ^ 32 < 2 ^ 128 /\ 0 <= (x mod 2 ^ 32) * 2 ^ 96 < 2 ^ 128 /\ x = 2 ^ 32 * (x / 2 ^ 32) + x mod 2 ^ 32).
  { intros x Hx. pose proof (Z.mod_pos_bound x (2 ^ 32) P32). pose proof (Z_div_mod_eq_full x (2 ^ 32)). split; [split; [apply Z.div_pos; lia|apply Z.div_lt_upper_bound; lia]|]. split; [lia|exact H1]. }
  destruct (Q a Ra) as (A1 & A2 & A3). destruct (Q b Rb) as (B1 & B2 & B3).
  apply fz_inj in E1; [|apply small_lt_modulus; lia|apply small_lt_modulus; lia]. apply fz_inj in E2; [|apply small_lt_modulus; lia|apply small_lt_modulus; lia]. lia.
Qed.
Lemma addr_split a : fz a = (fz (a / 2 ^ 32) * fz (2 ^ 32) + fz (a mod 2 ^ 32))%fr.
Proof. rewrite <- fz_mul, <- fz_add. f_equal. pose proof (Z_div_mod_eq_full a (2 ^ 32)). lia. Qed.

(** * Rows *)
Section Rows.
  Variables (H : Fr -> Fr -> Fr -> Fr) (r : Fr) (p : MPTProofType) (a : Z) (skr ov nv : Fr) (other old : Fr).
  Notation key := (addr_key H a).
  Definition start_f (new i3 z2 z3 : Fr) : rowf :=
    RowF p SegStart PathStart skr ov nv key other f0 f0 old new (fdom DPair) f0 (fz (a / 2 ^ 32)) (fz (a mod 2 ^ 32)) f0 i3 f0 (root_rlc r old) (root_rlc r new) f0 f0 f0 f0 z2 z3.
  (* rows that only the new path has *)
  Definition new_f (sg : SegmentType) (b : bool) (sib new : Fr) (d : HashDomain) (depth i9 i3 z2 z3 : Fr) : rowf :=
    RowF p sg ExtensionNew skr ov nv key other (fb b) sib old new (fdom d) depth f0 f0 f0 i3 i9 f0 f0 f0 f0 f0 f0 z2 z3.
  Definition leaf0_f (new i9 : Fr) : rowf := new_f AccountLeaf0 true key new DLeaf f0 i9 f0 (key - other)%fr old.
  Definition in_f (sg : SegmentType) (b : bool) (sib new : Fr) : rowf := new_f sg b sib new AccountFields f0 f0 f0 f0 f0.
End Rows.
Section Chain.
  Variables (H : Fr -> Fr -> Fr -> Fr) (e : env).
  Lemma start_good f' p a skr ov nv other old new i3 z2 z3 rest : chain_ok H e (start_f H (echal e) p a skr ov nv other old new i3 z2 z3) rest ->
    hit e (fz (a / 2 ^ 32)) (fz ((a mod 2 ^ 32) * 2 ^ 96)) DPair (addr_key H a) -> accepts e bytes_lookup [fz (a / 2 ^ 32); fz 15] -> accepts e bytes_lookup [fz (a mod 2 ^ 32); fz 3] ->
    accepts e fr_rlc_lookup [old; root_rlc (echal e) old] -> accepts e fr_rlc_lookup [new; root_rlc (echal e) new] ->
    trans (start_f H (echal e) p a skr ov nv other old new i3 z2 z3) (next_sg rest) -> above e (start_f H (echal e) p a skr ov nv other old new i3 z2 z3) (next_sg rest) p ->
    chain_ok H e f' (start_f H (echal e) p a skr ov nv other old new i3 z2 z3 :: rest).
  Proof.
    intros C Hk B1 B2 R1 R2 T Ab. cbn [chain_ok]. split; [|exact C]. intros i Q' Q Es Eq. rewrite fz_mul in Hk.
    apply (RowsOk.start_row H e i f' _ _ _ Q' Q Es Eq); try assumption; reflexivity.
  Qed.
  Lemma ext_leaf f' f rest b d : chain_ok H e f rest -> is_trie_seg (f_sg f) = false -> f_sg f <> SegStart -> f_pa f = ExtensionNew -> same_claim f' f -> (f_sg f <> AccountLeaf3 -> same_key f' f) -> f_depth f = f0 ->
    f_dom f = fdom d -> In d (seg_domains (f_sg f)) -> f_dir f = fb b -> In (f_pt f) [NonceChanged; BalanceChanged; StorageChanged] -> f_ov f = f0 -> f_old f = f_old f' -> nodeh e b (f_sib f) (f_new f) d (f_new f') ->
    (f_pa f' = ExtensionNew \/ is_leaf0 (f_sg f) = true) -> (is_leaf0 (f_sg f) = true -> absent_at e f (f_ov f) (f_old f) (f_i9 f)) -> next_pa rest = ExtensionNew \/ next_pa rest = PathStart ->
    trans f (next_sg rest) -> inside H e f (next_sg rest) (f_pt f) -> chain_ok H e f' (f :: rest).
  Proof.
    intros C T N P Cl K Dp Dm Di Dr Pt Ov Ol Nd Up Ab Nx Tr In. cbn [chain_ok]. split; [|exact C]. intros i Q' Q Es Eq.
    apply (leaf_row H e i f' f _ _ Q' Q Es Eq); try assumption.
    - rewrite P. discriminate.
    - exists d. auto.
    - apply (ps_ext_new _ _ _ _ _ b d); try assumption.
      + destruct Up as [Up|Up]; auto.
      + intros X. rewrite T in X. discriminate X.
    - rewrite P. destruct Nx as [-> | ->]; cbn; tauto.
  Qed.
  Lemma ext_trie f' f rest k b d : chain_ok H e f rest -> is_trie_seg (f_sg f) = true -> f_pa f = ExtensionNew -> same_claim f' f -> same_key f' f -> f_dir f = fb b -> f_depth f = fz (Z.of_nat k + 1) -> f_depth f' = fz (Z.of_nat k) ->
    accepts e key_bit_lookup [f_key f; fz (Z.of_nat k); fb b] -> f_dom f = fdom d -> In d [Branch0; Branch1; Branch2; Branch3] ->
    In (f_pt f) [NonceChanged; BalanceChanged; StorageChanged] -> f_ov f = f0 -> f_old f = f_old f' -> nodeh e b (f_sib f) (f_new f) d (f_new f') -> f_sib f = (if is_trie_seg (next_sg rest) then f0 else f_old f) ->
    next_pa rest = ExtensionNew \/ next_pa rest = PathStart -> trans f (next_sg rest) -> above e f (next_sg rest) (f_pt f) -> chain_ok H e f' (f :: rest).
  Proof.
    intros C T P Cl K Dr Dp Dp' Kb Dm Di Pt Ov Ol Nd Sb Nx Tr Ab. cbn [chain_ok]. split; [|exact C]. intros i Q' Q Es Eq.
    apply (trie_row H e i f' f _ _ Q' Q Es Eq k b d); try assumption.
    - rewrite P. discriminate.
    - rewrite P. discriminate.
    - apply (ps_ext_new _ _ _ _ _ b d); try assumption; auto. intros X. exfalso. destruct (f_sg f); discriminate.
    - rewrite P. destruct Nx as [-> | ->]; cbn; tauto.
  Qed.
End Chain.

(** * A new account with a nonce *)
Definition nonce_rows (H : Fr -> Fr -> Fr -> Fr) (a : Z) (x : Z) (other old i9 : Fr) : list rowf :=
  let v := set_nonce x new_account in
  let n1 := H (fz x) f0 (fdom AccountFields) in let n2 := H n1 (ZERO_STORAGE_ROOT_KECCAK_CODEHASH_HASH H) (fdom AccountFields) in
  [leaf0_f H NonceChanged a f0 f0 (fz x) other old (account_hash H v) i9;
   in_f H NonceChanged a f0 f0 (fz x) other old AccountLeaf1 false f0 n2;
   in_f H NonceChanged a f0 f0 (fz x) other old AccountLeaf2 false (ZERO_STORAGE_ROOT_KECCAK_CODEHASH_HASH H) n1;
   in_f H NonceChanged a f0 f0 (fz x) other old AccountLeaf3 false f0 (fz x)].
Lemma nonce_hash H x : account_hash H (set_nonce x new_account) =
  H (H (H (fz x) f0 (fdom AccountFields)) (ZERO_STORAGE_ROOT_KECCAK_CODEHASH_HASH H) (fdom AccountFields)) f0 (fdom AccountFields).
Proof.
  unfold account_hash, set_nonce, new_account. cbn [nonce code_size balance keccak_code_hash poseidon_code_hash storage]. replace (x + 0 * 2 ^ 64) with x by lia. reflexivity.
Qed.
Section Nonce.
  Variables (H : Fr -> Fr -> Fr -> Fr) (e : env) (a x : Z) (other old i9 : Fr).
  Notation v := (set_nonce x new_account).
  Hypothesis Hx : 0 <= x < 2 ^ 64.
  Hypothesis Hits : forall y, In y (state_inputs H (Leaf (addr_key H a) v)) -> poseidon_hit e (fst (fst y)) (snd (fst y)) (snd y) (h3 H y).
  Hypothesis Bx : accepts e bytes_lookup [fz x; fz 7].
  Hypothesis Ab : absent e (addr_key H a) other old i9.
  Lemma hit_in l rr d h : In (l, rr, fdom d) (state_inputs H (Leaf (addr_key H a) v)) -> H l rr (fdom d) = h -> hit e l rr d h.
  Proof. intros I <-. exact (Hits _ I). Qed.
  Lemma nonce_good f' : f_pt f' = NonceChanged -> f_skr f' = f0 -> f_ov f' = f0 -> f_nv f' = fz x -> f_key f' = addr_key H a -> f_other f' = other -> f_old f' = old ->
    f_new f' = state_root H (Leaf (addr_key H a) v) -> chain_ok H e f' (nonce_rows H a x other old i9).
  Proof.
    intros P1 P2 P3 P4 P5 P6 P7 P8. unfold nonce_rows. assert (X0 : fz (nonce v + code_size v * 2 ^ 64) = fz x) by (cbn [nonce code_size set_nonce new_account]; f_equal; lia).
    assert (SI : state_inputs H (Leaf (addr_key H a) v) = [(addr_key H a, account_hash H v, fdom DLeaf); (fz x, f0, fdom AccountFields); (f0, ZERO_PAIR_HASH H, fdom AccountFields);
      (H (fz x) f0 (fdom AccountFields), ZERO_STORAGE_ROOT_KECCAK_CODEHASH_HASH H, fdom AccountFields);
      (H (H (fz x) f0 (fdom AccountFields)) (ZERO_STORAGE_ROOT_KECCAK_CODEHASH_HASH H) (fdom AccountFields), f0, fdom AccountFields); (f0, f0, fdom DPair)]).
    { unfold state_inputs. cbn [tree_inputs]. unfold account_inputs. rewrite X0. reflexivity. }
    apply (ext_leaf H e _ _ _ true DLeaf);
      [|reflexivity|discriminate|reflexivity|unfold same_claim; cbn [leaf0_f new_f f_pt f_skr f_ov f_nv]; rewrite P1, P2, P3, P4; auto|intros _; split; cbn [leaf0_f new_f f_key f_other]; congruence|reflexivity|reflexivity|left; reflexivity|reflexivity|left; reflexivity|reflexivity|exact (eq_sym P7)
       |unfold nodeh; cbn [children fst snd]; apply hit_in; [rewrite SI; cbn [In]; tauto|symmetry; exact P8]|right; reflexivity|intros _; split; [reflexivity|]; split; [exact Ab|]; split; reflexivity|left; reflexivity|eexists; split; [reflexivity|cbn [In]; auto]|split; [discriminate|reflexivity]].
    apply (ext_leaf H e _ _ _ false AccountFields);
      [|reflexivity|discriminate|reflexivity|split; [reflexivity|]; split; [reflexivity|]; split; reflexivity|intros _; split; reflexivity|reflexivity|reflexivity|left; reflexivity|reflexivity|left; reflexivity|reflexivity|reflexivity
       |unfold nodeh; cbn [children fst snd]; apply hit_in; [rewrite SI; cbn [In]; tauto|symmetry; apply nonce_hash]|left; reflexivity|discriminate|left; reflexivity|eexists; split; [reflexivity|cbn [In]; auto]|split; [discriminate|]; split; reflexivity].
    apply (ext_leaf H e _ _ _ false AccountFields);
      [|reflexivity|discriminate|reflexivity|split; [reflexivity|]; split; [reflexivity|]; split; reflexivity|intros _; split; reflexivity|reflexivity|reflexivity|left; reflexivity|reflexivity|left; reflexivity|reflexivity|reflexivity
       |unfold nodeh; cbn [children fst snd]; apply hit_in; [rewrite SI; cbn [In]; tauto|reflexivity]|left; reflexivity|discriminate|left; reflexivity|eexists; split; [reflexivity|cbn [In]; auto]|split; [discriminate|]; split; reflexivity].
    apply (ext_leaf H e _ _ _ false AccountFields);
      [|reflexivity|discriminate|reflexivity|split; [reflexivity|]; split; [reflexivity|]; split; reflexivity|intros _; split; reflexivity|reflexivity|reflexivity|left; reflexivity|reflexivity|left; reflexivity|reflexivity|reflexivity
       |unfold nodeh; cbn [children fst snd]; apply hit_in; [rewrite SI; cbn [In]; tauto|reflexivity]|left; reflexivity|discriminate|right; reflexivity|eexists; split; [reflexivity|cbn [In]; auto]|idtac].
    - exact Logic.I.
    - split; [discriminate|]. split; [reflexivity|]. split; [exact Bx|]. exists f0. split; [cbn [in_f new_f f_new f_nv]; ring|]. split; [discriminate|]. intros _. repeat split.
  Qed.
End Nonce.

(** * Tables for an update of the account at address a *)
(* values: 64-bit and 128-bit numbers, keys: field elements whose bytes are looked up, l: hashes *)
Definition plan_for (H : Fr -> Fr -> Fr -> Fr) (a : Z) (w64 w128 : list Z) (keys : list Fr) (bits : list (Fr * Z * bool)) (l : list triple) (rows : list rowf) : plan :=
  Plan [a mod 2 ^ 32] w64 (0 :: a / 2 ^ 32 :: w128) [] (f0 :: keys) bits (map (traced H) (zero_input :: address_input a :: l)) rows.
Lemma plan_for_ok H n a w64 w128 keys bits l rows : 2052 <= n < 2 ^ 62 -> (List.length w64 <= 8)%nat -> (List.length w128 <= 8)%nat -> (List.length keys <= 32)%nat -> (List.length bits <= 256)%nat -> (List.length l <= 512)%nat -> (List.length rows <= 64)%nat ->
  Forall (fun l => 0 <= snd (fst l) < 256 /\ snd l = Z.testbit (val (fst (fst l))) (snd (fst l)) /\ In (fst (fst l)) keys) bits -> plan_ok H n (plan_for H a w64 w128 keys bits l rows).
Proof.
  intros Hn L1 L2 L3 L4 L5 L6 Fb. assert (N32 : 64 <= n / 32) by (apply Z.div_le_lower_bound; lia). constructor; unfold plan_for; cbn [pl_32 pl_64 pl_128 pl_frs pl_keys pl_bits pl_traces pl_rows].
  - lia.
  - lia.
  - unfold byte_repr_n_rows. cbn [List.length]. lia.
  - constructor.
  - cbn [List.length]. lia.
  - lia.
  - rewrite map_length. cbn [List.length]. lia.
  - left. reflexivity.
  - left. reflexivity.
  - left. reflexivity.
  - apply traced_true.
  - eapply Forall_impl; [|exact Fb]. cbv beta. intros y (B1 & B2 & B3). split; [exact B1|]. split; [exact B2|]. right. exact B3.
Qed.
Lemma more_rows n : n < n + 10. Proof. lia. Qed.
Section Case.
  Variables (H : Fr -> Fr -> Fr -> Fr) (n : Z) (r : Fr) (a : Z) (w64 w128 : list Z) (keys : list Fr) (bits : list (Fr * Z * bool)) (l : list triple) (rows : list rowf).
  Notation p := (plan_for H a w64 w128 keys bits l rows).
  Notation e := (forged H n r p).
  Hypothesis OK : plan_ok H n p.
  Hypothesis Ha : 0 <= a < 2 ^ 160.
  Let T := fg_tables H n r p OK.
  Lemma case_hi : 0 <= a / 2 ^ 32 < 2 ^ 128.
  Proof. assert (0 < 2 ^ 32) by reflexivity. split; [apply Z.div_pos; lia|apply Z.div_lt_upper_bound; lia]. Qed.
  Lemma case_hit x y d : In (x, y, fdom d) (zero_input :: address_input a :: l) -> hit e x y d (H x y (fdom d)).
  Proof. intros I. apply (proj2 (fg_hits H n r p OK _ _ _ _)). unfold plan_for. cbn [pl_traces]. apply traced_in. exact I. Qed.
  Lemma case_root v : In v (f0 :: keys) -> accepts e fr_rlc_lookup [v; root_rlc r v].
  Proof. intros I. apply (tb_root _ _ _ _ _ _ _ _ T v I). Qed.
  Lemma case_64 x : In x w64 -> 0 <= x < 2 ^ 64 -> accepts e bytes_lookup [fz x; fz 7].
  Proof. intros I B. apply (tb_64 _ _ _ _ _ _ _ _ T x I B). Qed.
  Lemma case_128 x : In x w128 -> 0 <= x < 2 ^ 128 -> accepts e bytes_lookup [fz x; fz 15] /\ accepts e rlc_lookup [fz x; fz 15; rlc (be_bytes 16 x) r].
  Proof. intros I B. apply (tb_128 _ _ _ _ _ _ _ _ T x (or_intror (or_intror I)) B). Qed.
  Lemma case_bit k x b : In (k, x, b) bits -> accepts e key_bit_lookup [k; fz x; fb b].
  Proof. intros I. apply (tb_bit _ _ _ _ _ _ _ _ T k x b I). Qed.
  Lemma case_start : hit e (fz (a / 2 ^ 32)) (fz ((a mod 2 ^ 32) * 2 ^ 96)) DPair (addr_key H a) /\ accepts e bytes_lookup [fz (a / 2 ^ 32); fz 15] /\ accepts e bytes_lookup [fz (a mod 2 ^ 32); fz 3].
  Proof.
    split; [apply (case_hit (fz (a / 2 ^ 32)) (fz ((a mod 2 ^ 32) * 2 ^ 96)) DPair); right; left; reflexivity|]. split.
    - apply (tb_128 _ _ _ _ _ _ _ _ T); [right; left; reflexivity|exact case_hi].
    - apply (tb_32 _ _ _ _ _ _ _ _ T); [left; reflexivity|]. pose proof (Z.mod_pos_bound a (2 ^ 32)). change (256 ^ 4) with (2 ^ 32). lia.
  Qed.
  Lemma case_exposes pt skr ov nv other old new i3 z2 z3 rest : rows = start_f H r pt a skr ov nv other old new i3 z2 z3 :: rest -> exposes e (encode r (Statement a skr pt new old nv ov)).
  Proof.
    intros E. destruct (fg_expose H e n rows (fg_fixed H n r p OK) (more_rows n) (fg_MU H n r p) (po_rows H n p OK) 0 (start_f H r pt a skr ov nv other old new i3 z2 z3)) as [A B]; [rewrite E; reflexivity|reflexivity|].
    rewrite A in B. unfold encode. cbn [st_address st_slot_rlc st_kind st_new_root st_old_root st_new_value st_old_value start_f f_i0 f_i1 f_skr f_pt f_s0 f_s1 f_nv f_ov] in *. rewrite (addr_split a). exact B.
  Qed.
  Lemma case_free (S : triple -> Prop) t t' : collision_free H S -> S zero_input -> S (address_input a) -> (forall x, In x l -> S x) -> (forall x, In x (state_inputs H t) -> S x) -> (forall x, In x (state_inputs H t') -> S x) ->
    (forall x, In x (account_inputs H new_account) -> S x) -> collision_free H (inputs2 H e t t').
  Proof.
    intros [C1 C2] S0 S1 S2 S3 S4 S5.
    assert (Q : forall x, inputs2 H e t t' x -> S x).
    { intros [[x y] d] [[(h & Hh)|I]|[I|I]]; auto. cbn [fst snd] in Hh. apply (proj1 (fg_hits H n r p OK _ _ _ _)) in Hh. unfold plan_for in Hh. cbn [pl_traces] in Hh. apply traced_of in Hh.
      destruct Hh as [<-|[<-|I]]; auto. }
    split; [intros x y X Y; apply C1; auto|intros x X; apply C2; auto].
  Qed.
End Case.

(** * The account of another address is lost (finding S7) *)
Lemma bits_zero n h : bits_ok n h -> bits_ok n 0.
Proof. intros [A|[A _]]; [left|right]; auto. split; [exact A|apply Nat.le_0_l]. Qed.
Lemma nonce_account_ok x : 0 <= x < 2 ^ 64 -> account_ok (set_nonce x new_account).
Proof. intros Hx. pose proof zero_account_ok as (_ & A2 & A3 & A4 & A5). unfold account_ok, set_nonce. cbn [nonce code_size balance keccak_code_hash storage]. auto. Qed.
Definition leaf_input (H : Fr -> Fr -> Fr -> Fr) (k : Fr) (a : account) : triple := (k, account_hash H a, fdom DLeaf).
Lemma leaf_input_in H k a : In (leaf_input H k a) (state_inputs H (Leaf k a)). Proof. left. reflexivity. Qed.
Definition all_inputs (H : Fr -> Fr -> Fr -> Fr) (a b : Z) (t t' : tree account) : list triple :=
  zero_input :: address_input a :: address_input b :: state_inputs H t ++ state_inputs H t' ++ account_inputs H new_account.
Section Replaced.
  Variables (H : Fr -> Fr -> Fr -> Fr) (n : Z) (r : Fr) (a b x : Z) (B : account).
  Notation kA := (addr_key H a). Notation kB := (addr_key H b). Notation v := (set_nonce x new_account).
  Notation t := (Leaf kB B). Notation t' := (Leaf kA v).
  Hypothesis Hn : 2052 <= n < 2 ^ 62.
  Hypothesis Ha : 0 <= a < 2 ^ 160.
  Hypothesis Hb : 0 <= b < 2 ^ 160.
  Hypothesis Hab : a <> b.
  Hypothesis Hx : 0 <= x < 2 ^ 64.
  Hypothesis HB : account_ok B.
  Hypothesis HS : bits_ok n (height (storage B)).
  Hypothesis CF : collision_free H (fun y => In y (all_inputs H a b t t')).
  Lemma rp_keys : kA <> kB.
  Proof. intros E. apply Hab. apply (addr_inj H _ a b CF); try assumption; unfold all_inputs; cbn [In]; auto. Qed.
  Lemma rp_root : state_root H t <> f0.
  Proof. apply (proj2 CF (leaf_input H kB B)). unfold all_inputs. do 3 right. apply in_or_app. left. apply leaf_input_in. Qed.
  Definition rp_start : rowf := start_f H r NonceChanged a f0 f0 (fz x) kB (state_root H t) (state_root H t') f0 f0 f0.
  Definition rp_rows : list rowf := rp_start :: nonce_rows H a x kB (state_root H t) (account_hash H B).
  Definition rp_plan : plan := plan_for H a [x] [] [state_root H t; state_root H t'] [] (leaf_input H kB B :: state_inputs H t') rp_rows.
  Lemma rp_ok : plan_ok H n rp_plan.
  Proof. apply plan_for_ok; [exact Hn|apply Nat.leb_le; reflexivity..|constructor]. Qed.
  Theorem replaced : exists e, circuit_ok H e n /\ echal e = r /\ let s := Statement a f0 NonceChanged (state_root H t') (state_root H t) (fz x) f0 in
    exposes e (encode r s) /\ tries_of H e n s t t'.
  Proof.
    exists (forged H n r rp_plan). pose proof rp_ok as OK. pose proof (case_start H n r a [x] [] _ _ _ _ OK Ha) as (C1 & C2 & C3). split; [|split; [reflexivity|]; split].
    - apply fg_ok; [exact OK|]. apply start_good; try assumption.
      + apply nonce_good; try reflexivity.
        * exact Hx.
        * intros y Hy. apply (proj2 (fg_hits H n r rp_plan OK _ _ _ _)). unfold rp_plan, plan_for. cbn [pl_traces]. apply traced_in. destruct y as [[y1 y2] y3]. do 3 right. exact Hy.
        * apply (case_64 H n r a [x] [] _ _ _ _ OK); [left; reflexivity|exact Hx].
        * right. split; [exact rp_keys|]. split; [exact rp_root|]. apply (case_hit H n r a [x] [] _ _ _ _ OK kB (account_hash H B) DLeaf). right. right. left. reflexivity.
      + apply (case_root H n r a [x] [] _ _ _ _ OK). right. left. reflexivity.
      + apply (case_root H n r a [x] [] _ _ _ _ OK). right. right. left. reflexivity.
      + eexists. split; [reflexivity|]. cbn [In next_sg nonce_rows leaf0_f new_f f_sg]. auto.
      + split; [discriminate|]. intros _ E. discriminate E.
    - apply (case_exposes H n r a [x] [] _ _ _ _ OK NonceChanged f0 f0 (fz x) kB _ _ f0 f0 f0 (nonce_rows H a x kB (state_root H t) (account_hash H B))). reflexivity.
    - constructor; try reflexivity.
      + exact HB.
      + exact (nonce_account_ok x Hx).
      + exact (bits_zero n _ HS).
      + exact (bits_zero n _ HS).
      + exact HS.
      + exact (bits_zero n _ HS).
      + apply (case_free H n r a [x] [] _ _ _ _ OK _ t t' CF); unfold all_inputs.
        * left. reflexivity.
        * right. left. reflexivity.
        * intros y [<-|I]; do 3 right; apply in_or_app; [left; apply leaf_input_in|right; apply in_or_app; left; exact I].
        * intros y I. do 3 right. apply in_or_app. left. exact I.
        * intros y I. do 3 right. apply in_or_app. right. apply in_or_app. left. exact I.
        * intros y I. do 3 right. apply in_or_app. right. apply in_or_app. right. exact I.
  Qed.
  Lemma replaced_lost : get t 0 kB = Some B /\ get t' 0 kB = None.
  Proof. cbn [get]. rewrite (proj2 (feqb_eq kB kB) eq_refl). rewrite (proj2 (feqb_neq kB kA)) by (intros E; apply rp_keys; congruence). auto. Qed.
End Replaced.

(** * An account is inserted beside another one, above the place where their paths part (finding S4) *)
Definition beside (b : bool) (t u : tree account) : tree account := if b then Node t u else Node u t.
Lemma beside_hash H b k a k' a' : state_root H (beside b (Leaf k a) (Leaf k' a')) = H (fst (children b (state_root H (Leaf k a)) (state_root H (Leaf k' a')))) (snd (children b (state_root H (Leaf k a)) (state_root H (Leaf k' a')))) (fdom Branch0).
Proof. destruct b; reflexivity. Qed.
Lemma beside_inputs H b t u y : In y (state_inputs H u) -> In y (state_inputs H (beside b t u)).
Proof. intros I. destruct b; right; apply in_or_app; [right|left]; exact I. Qed.
Definition beside_input (H : Fr -> Fr -> Fr -> Fr) (b : bool) (x y : Fr) : triple := (fst (children b x y), snd (children b x y), fdom Branch0).
Lemma beside_input_in H b k a k' a' : In (beside_input H b (state_root H (Leaf k a)) (state_root H (Leaf k' a'))) (state_inputs H (beside b (Leaf k a) (Leaf k' a'))).
Proof. destruct b; left; reflexivity. Qed.
Section Misplaced.
  Variables (H : Fr -> Fr -> Fr -> Fr) (n : Z) (r : Fr) (a b x : Z) (B : account).
  Notation kA := (addr_key H a). Notation kB := (addr_key H b). Notation v := (set_nonce x new_account). Notation side := (kbit kA 0).
  Notation t := (Leaf kB B). Notation u := (Leaf kA v). Notation t' := (beside side t u).
  Hypothesis Hn : 2052 <= n < 2 ^ 62.
  Hypothesis Ha : 0 <= a < 2 ^ 160.
  Hypothesis Hb : 0 <= b < 2 ^ 160.
  Hypothesis Hab : a <> b.
  Hypothesis Side : kbit kB 0 = kbit kA 0.
  Hypothesis Hx : 0 <= x < 2 ^ 64.
  Hypothesis HB : account_ok B.
  Hypothesis HS : bits_ok n (height (storage B)).
  Hypothesis CF : collision_free H (fun y => In y (all_inputs H a b t t')).
  Lemma mp_keys : kA <> kB.
  Proof. intros E. apply Hab. apply (addr_inj H _ a b CF); try assumption; unfold all_inputs; cbn [In]; auto. Qed.
  Lemma mp_root : state_root H t <> f0.
  Proof. apply (proj2 CF (leaf_input H kB B)). unfold all_inputs. do 3 right. apply in_or_app. left. apply leaf_input_in. Qed.
  Definition mp_trie : rowf := new_f H NonceChanged a f0 f0 (fz x) kB (state_root H t) AccountTrie side (state_root H t) (state_root H u) Branch0 f1 f0 f0 f0 f0.
  Definition mp_rows : list rowf := start_f H r NonceChanged a f0 f0 (fz x) kB (state_root H t) (state_root H t') f0 f0 f0 :: mp_trie :: nonce_rows H a x kB (state_root H t) (account_hash H B).
  Definition mp_keys_used : list Fr := [state_root H t; state_root H t'; kA].
  Definition mp_plan : plan := plan_for H a [x] [] mp_keys_used [(kA, 0, side)] (leaf_input H kB B :: beside_input H side (state_root H t) (state_root H u) :: state_inputs H u) mp_rows.
  Lemma mp_ok : plan_ok H n mp_plan.
  Proof.
    apply plan_for_ok; [exact Hn|apply Nat.leb_le; reflexivity..|]. constructor; [|constructor]. cbn [fst snd]. split; [lia|]. split; [reflexivity|]. right. right. left. reflexivity.
  Qed.
  Lemma bits_one h : bits_ok n h -> bits_ok n 1.
  Proof. intros [A|[A _]]; [left|right]; auto. split; [exact A|]. apply Nat.leb_le. reflexivity. Qed.
  Theorem misplaced : exists e, circuit_ok H e n /\ echal e = r /\ let s := Statement a f0 NonceChanged (state_root H t') (state_root H t) (fz x) f0 in
    exposes e (encode r s) /\ tries_of H e n s t t'.
  Proof.
    exists (forged H n r mp_plan). pose proof mp_ok as OK. pose proof (case_start H n r a [x] [] _ _ _ _ OK Ha) as (C1 & C2 & C3). split; [|split; [reflexivity|]; split].
    - apply fg_ok; [exact OK|]. apply start_good; try assumption.
      + apply (ext_trie H _ _ _ _ 0 side Branch0); [|reflexivity|reflexivity|split; [reflexivity|]; split; [reflexivity|]; split; reflexivity|split; reflexivity|reflexivity|reflexivity|reflexivity| |reflexivity|left; reflexivity|left; reflexivity|reflexivity|reflexivity| |reflexivity|left; reflexivity| | ].
        * apply nonce_good; try reflexivity.
          -- exact Hx.
          -- intros y Hy. apply (proj2 (fg_hits H n r mp_plan OK _ _ _ _)). unfold mp_plan, plan_for. cbn [pl_traces]. apply traced_in. destruct y as [[y1 y2] y3]. do 4 right. exact Hy.
          -- apply (case_64 H n r a [x] [] _ _ _ _ OK); [left; reflexivity|exact Hx].
          -- right. split; [exact mp_keys|]. split; [exact mp_root|]. apply (case_hit H n r a [x] [] _ _ _ _ OK kB (account_hash H B) DLeaf). right. right. left. reflexivity.
        * apply (case_bit H n r a [x] [] _ _ _ _ OK kA 0 side). left. reflexivity.
        * unfold nodeh. cbn [start_f mp_trie new_f f_new f_sib]. rewrite beside_hash. apply (case_hit H n r a [x] [] _ _ _ _ OK _ _ Branch0). right. right. right. left. reflexivity.
        * eexists. split; [reflexivity|]. cbn [In next_sg nonce_rows leaf0_f new_f f_sg]. auto.
        * split; [discriminate|]. intros _ E. discriminate E.
      + apply (case_root H n r a [x] [] _ _ _ _ OK). right. left. reflexivity.
      + apply (case_root H n r a [x] [] _ _ _ _ OK). right. right. left. reflexivity.
      + eexists. split; [reflexivity|]. cbn [In next_sg mp_trie new_f f_sg]. auto.
      + split; [discriminate|]. intros _ E. discriminate E.
    - apply (case_exposes H n r a [x] [] _ _ _ _ OK NonceChanged f0 f0 (fz x) kB _ _ f0 f0 f0 (mp_trie :: nonce_rows H a x kB (state_root H t) (account_hash H B))). reflexivity.
    - assert (Q : forall P : tree account -> Prop, P (Node t u) -> P (Node u t) -> P t') by (intros P P1 P2; unfold beside; destruct side; assumption).
      constructor; try reflexivity.
      + exact HB.
      + apply Q; split; try exact HB; exact (nonce_account_ok x Hx).
      + exact (bits_zero n _ HS).
      + apply (Q (fun w => bits_ok n (height w))); exact (bits_one _ HS).
      + exact HS.
      + apply Q; split; try exact HS; exact (bits_zero n _ HS).
      + apply (case_free H n r a [x] [] _ _ _ _ OK _ t t' CF); unfold all_inputs.
        * left. reflexivity.
        * right. left. reflexivity.
        * intros y [<-|[<-|I]]; do 3 right; apply in_or_app; [left; apply leaf_input_in|right; apply in_or_app; left..]; [apply beside_input_in|apply beside_inputs; exact I].
        * intros y I. do 3 right. apply in_or_app. left. exact I.
        * intros y I. do 3 right. apply in_or_app. right. apply in_or_app. left. exact I.
        * intros y I. do 3 right. apply in_or_app. right. apply in_or_app. right. exact I.
  Qed.
  Lemma misplaced_lost : placed t [] /\ get t 0 kB = Some B /\ ~ placed t' [] /\ get t' 0 kB = None.
  Proof.
    split; [|split; [|split]].
    - intros i c E. destruct i; discriminate E.
    - cbn [get]. rewrite (proj2 (feqb_eq kB kB) eq_refl). reflexivity.
    - unfold beside. intros P. destruct side eqn:E; destruct P as [P1 P2]; [specialize (P1 0%nat false eq_refl)|specialize (P2 0%nat true eq_refl)]; congruence.
    - pose proof mp_keys as K. assert (X : feqb kB kA = false) by (apply feqb_neq; intros X; apply K; symmetry; exact X). clear K CF. unfold beside. destruct side; cbn [get]; rewrite Side; cbn [get]; rewrite X; reflexivity.
  Qed.
End Misplaced.

(** * A claim about an absent account that changes the root (finding S5) *)
Section Doubled.
  Variables (H : Fr -> Fr -> Fr -> Fr) (n : Z) (r : Fr) (a b : Z) (B : account).
  Notation kA := (addr_key H a). Notation kB := (addr_key H b). Notation side := (kbit kA 0).
  Notation t := (Leaf kB B). Notation t' := (Node t t).
  Hypothesis Hn : 2052 <= n < 2 ^ 62.
  Hypothesis Ha : 0 <= a < 2 ^ 160.
  Hypothesis Hb : 0 <= b < 2 ^ 160.
  Hypothesis Hab : a <> b.
  Hypothesis HB : account_ok B.
  Hypothesis HS : bits_ok n (height (storage B)).
  Hypothesis CF : collision_free H (fun y => In y (all_inputs H a b t t')).
  Lemma db_keys : kA <> kB.
  Proof. intros E. apply Hab. apply (addr_inj H _ a b CF); try assumption; unfold all_inputs; cbn [In]; auto. Qed.
  Lemma db_root : state_root H t <> f0.
  Proof. apply (proj2 CF (leaf_input H kB B)). unfold all_inputs. do 3 right. apply in_or_app. left. apply leaf_input_in. Qed.
  Definition db_trie : rowf := new_f H NonceChanged a f0 f0 f0 kB (state_root H t) AccountTrie side (state_root H t) (state_root H t) Branch0 f1 f0 (account_hash H B) (kA - kB)%fr (state_root H t).
  Definition db_rows : list rowf := [start_f H r NonceChanged a f0 f0 f0 kB (state_root H t) (state_root H t') f0 f0 f0; db_trie].
  Definition db_plan : plan := plan_for H a [] [] [state_root H t; state_root H t'; kA] [(kA, 0, side)] [leaf_input H kB B; (state_root H t, state_root H t, fdom Branch0)] db_rows.
  Lemma db_ok : plan_ok H n db_plan.
  Proof.
    apply plan_for_ok; [exact Hn|apply Nat.leb_le; reflexivity..|]. constructor; [|constructor]. cbn [fst snd]. split; [lia|]. split; [reflexivity|]. right. right. left. reflexivity.
  Qed.
  Theorem doubled : exists e, circuit_ok H e n /\ echal e = r /\ let s := Statement a f0 NonceChanged (state_root H t') (state_root H t) f0 f0 in
    exposes e (encode r s) /\ tries_of H e n s t t'.
  Proof.
    exists (forged H n r db_plan). pose proof db_ok as OK. pose proof (case_start H n r a [] [] _ _ _ _ OK Ha) as (C1 & C2 & C3). split; [|split; [reflexivity|]; split].
    - apply fg_ok; [exact OK|]. apply start_good; try assumption.
      + apply (ext_trie H _ _ _ _ 0 side Branch0); [exact Logic.I|reflexivity|reflexivity|split; [reflexivity|]; split; [reflexivity|]; split; reflexivity|split; reflexivity|reflexivity|reflexivity|reflexivity| |reflexivity|left; reflexivity|left; reflexivity|reflexivity|reflexivity| |reflexivity|right; reflexivity| | ].
        * apply (case_bit H n r a [] [] _ _ _ _ OK kA 0 side). left. reflexivity.
        * unfold nodeh. cbn [start_f db_trie new_f f_new f_sib]. replace (children side (state_root H t) (state_root H t)) with (state_root H t, state_root H t) by (destruct side; reflexivity).
          apply (case_hit H n r a [] [] _ _ _ _ OK _ _ Branch0). right. right. right. left. reflexivity.
        * eexists. split; [reflexivity|]. cbn [In next_sg]. auto.
        * split; [discriminate|]. intros _ _. split; [reflexivity|]. split; [reflexivity|]. split; [reflexivity|]. split; [|split; reflexivity].
          right. split; [exact db_keys|]. split; [exact db_root|]. apply (case_hit H n r a [] [] _ _ _ _ OK kB (account_hash H B) DLeaf). right. right. left. reflexivity.
      + apply (case_root H n r a [] [] _ _ _ _ OK). right. left. reflexivity.
      + apply (case_root H n r a [] [] _ _ _ _ OK). right. right. left. reflexivity.
      + eexists. split; [reflexivity|]. cbn [In next_sg db_trie new_f f_sg]. auto.
      + split; [discriminate|]. intros _ E. discriminate E.
    - apply (case_exposes H n r a [] [] _ _ _ _ OK NonceChanged f0 f0 f0 kB _ _ f0 f0 f0 [db_trie]). reflexivity.
    - constructor; try reflexivity.
      + exact HB.
      + split; exact HB.
      + exact (bits_zero n _ HS).
      + exact (bits_one n _ HS).
      + exact HS.
      + split; exact HS.
      + apply (case_free H n r a [] [] _ _ _ _ OK _ t t' CF); unfold all_inputs.
        * left. reflexivity.
        * right. left. reflexivity.
        * intros y [<-|[<-|[]]]; do 3 right; apply in_or_app; [left; apply leaf_input_in|right; apply in_or_app; left; left; reflexivity].
        * intros y I. do 3 right. apply in_or_app. left. exact I.
        * intros y I. do 3 right. apply in_or_app. right. apply in_or_app. left. exact I.
        * intros y I. do 3 right. apply in_or_app. right. apply in_or_app. right. exact I.
  Qed.
  Lemma doubled_bad : placed t [] /\ get t 0 kA = None /\ state_root H t' <> state_root H t /\ ~ placed t' [].
  Proof.
    assert (E1 : In (leaf_input H kB B) (all_inputs H a b t t')) by (unfold all_inputs; do 3 right; apply in_or_app; left; apply leaf_input_in).
    assert (E2 : In (state_root H t, state_root H t, fdom Branch0) (all_inputs H a b t t')) by (unfold all_inputs; do 3 right; apply in_or_app; right; apply in_or_app; left; left; reflexivity).
    split; [|split; [|split]].
    - intros i c E. destruct i; discriminate E.
    - cbn [get]. rewrite (proj2 (feqb_neq kA kB) db_keys). reflexivity.
    - intros E. pose proof (proj1 CF _ _ E2 E1 E) as X. apply (f_equal snd) in X. cbn [leaf_input snd] in X. discriminate (fdom_inj _ _ X).
    - intros [P1 P2]. specialize (P1 0%nat false eq_refl). specialize (P2 0%nat true eq_refl). congruence.
  Qed.
End Doubled.

(** * A storage claim that creates an account with any contents (finding S6) *)
Lemma rlc_halves r w : word_rlc r w = (rlc (be_bytes 16 (w / 2 ^ 128)) r * fpow r 16 + rlc (be_bytes 16 (w mod 2 ^ 128)) r)%fr.
Proof.
  pose proof (word_rlc_halves w r) as E. change (u256_to_big_endian w) with (be_bytes 32 w) in E. unfold word_rlc. rewrite E. f_equal. f_equal. change (2 ^ 128) with (256 ^ Z.of_nat 16). symmetry. apply Bytes.be_bytes_mod.
Qed.
Lemma word_parts w : word_ok w -> 0 <= w / 2 ^ 128 < 2 ^ 128 /\ 0 <= w mod 2 ^ 128 < 2 ^ 128.
Proof. intros W. unfold word_ok in W. assert (0 < 2 ^ 128) by reflexivity. split; [split; [apply Z.div_pos; lia|apply Z.div_lt_upper_bound; [lia|change (2 ^ 128 * 2 ^ 128) with (2 ^ 256); lia]]|apply Z.mod_pos_bound; lia]. Qed.
Section Created.
  Variables (H : Fr -> Fr -> Fr -> Fr) (n : Z) (r : Fr) (a : Z) (slot w nonce code_size balance keccak : Z) (poseidon : Fr) (nv : Fr).
  Notation kA := (addr_key H a). Notation kS := (slot_key H slot). Notation st := (Leaf kS w).
  Notation v := (mkAccount nonce code_size balance keccak poseidon st). Notation t' := (Leaf kA v).
  Hypothesis Hn : 2052 <= n < 2 ^ 62.
  Hypothesis Hb : bits_ok n 0.
  Hypothesis Ha : 0 <= a < 2 ^ 160.
  Hypothesis Hs : word_ok slot.
  Hypothesis Hv : account_ok v.
  Hypothesis Hw : w <> 0.
  Definition cr_inputs : list triple := zero_input :: address_input a :: word_inputs slot ++ state_inputs H t' ++ account_inputs H new_account.
  Hypothesis CF : collision_free H (fun y => In y cr_inputs).
  Lemma cr_word : word_ok w. Proof. exact (proj2 (proj2 (proj2 (proj2 Hv)))). Qed.
  Lemma cr_zero : f0 <> ZERO_PAIR_HASH H.
  Proof. intros E. apply (proj2 CF zero_input); [left; reflexivity|]. symmetry. exact E. Qed.
  Lemma cr_nonzero : word_hash H w <> ZERO_PAIR_HASH H.
  Proof.
    intros E. pose proof (word_parts w cr_word) as [P1 P2].
    assert (X : (fz (w / 2 ^ 128), fz (w mod 2 ^ 128), fdom DPair) = zero_input).
    { apply (proj1 CF); [|left; reflexivity|exact E]. unfold cr_inputs. right. right. apply in_or_app. right. apply in_or_app. left. unfold state_inputs. cbn [tree_inputs]. right. unfold account_inputs. apply in_or_app. right. apply in_or_app. right. cbn [tree_inputs storage]. right. left. reflexivity. }
    pose proof (f_equal (fun y : triple => fst (fst y)) X) as X1. pose proof (f_equal (fun y : triple => snd (fst y)) X) as X2. cbn [fst snd zero_input] in X1, X2. change f0 with (fz 0) in X1, X2.
    apply fz_inj in X1; [|apply small_lt_modulus; lia|apply small_lt_modulus; lia]. apply fz_inj in X2; [|apply small_lt_modulus; lia|apply small_lt_modulus; lia].
    apply Hw. pose proof (Z_div_mod_eq_full w (2 ^ 128)). lia.
  Qed.
  Notation skr := (word_rlc r slot).
  Notation x1 := (H (fz (nonce + code_size * 2 ^ 64)) (fz balance) (fdom AccountFields)). Notation x2 := (H (storage_root H st) (word_hash H keccak) (fdom AccountFields)).
  Definition cr_row (sg : SegmentType) (b : bool) (sib new : Fr) : rowf := in_f H StorageChanged a skr f0 nv kA f0 sg b sib new.
  Definition cr_leaf3 : rowf :=
    RowF StorageChanged AccountLeaf3 ExtensionNew skr f0 nv kS kS f0 (word_hash H keccak) f0 (storage_root H st) (fdom AccountFields) f0 (fz (slot / 2 ^ 128)) (fz (slot mod 2 ^ 128)) f0 f0 f0
      (rlc (be_bytes 16 (slot / 2 ^ 128)) r) (rlc (be_bytes 16 (slot mod 2 ^ 128)) r) f0 f0 f0 f0 f0 f0.
  Definition cr_slot : rowf :=
    RowF StorageChanged StorageLeaf0 ExtensionNew skr f0 nv kS kS f1 kS f0 (word_hash H w) (fdom DLeaf) f0 f0 f0 f0 f0 f0 f0 f0 f0 f0 (f0 - ZERO_PAIR_HASH H)%fr (word_hash H w - ZERO_PAIR_HASH H)%fr (kS - kS)%fr f0.
  Definition cr_rest : list rowf :=
    [leaf0_f H StorageChanged a skr f0 nv kA f0 (account_hash H v) f0; cr_row AccountLeaf1 false poseidon (H x1 x2 (fdom AccountFields)); cr_row AccountLeaf2 true x1 x2; cr_leaf3; cr_slot].
  Definition cr_rows : list rowf := start_f H r StorageChanged a skr f0 nv kA f0 (state_root H t') f0 f0 f0 :: cr_rest.
  Definition cr_plan : plan := plan_for H a [] [slot / 2 ^ 128; slot mod 2 ^ 128] [state_root H t'] [] (word_inputs slot ++ state_inputs H t') cr_rows.
  Lemma cr_ok : plan_ok H n cr_plan.
  Proof. apply plan_for_ok; [exact Hn|apply Nat.leb_le; reflexivity..|constructor]. Qed.
  Lemma cr_hit x y d h : In (x, y, fdom d) (word_inputs slot ++ state_inputs H t') -> H x y (fdom d) = h -> hit (forged H n r cr_plan) x y d h.
  Proof. intros I <-. apply (case_hit H n r a [] _ _ _ _ _ cr_ok). right. right. exact I. Qed.
  Lemma cr_list : word_inputs slot ++ state_inputs H t' = [(fz (slot / 2 ^ 128), fz (slot mod 2 ^ 128), fdom DPair); (kA, account_hash H v, fdom DLeaf); (fz (nonce + code_size * 2 ^ 64), fz balance, fdom AccountFields);
    (storage_root H st, word_hash H keccak, fdom AccountFields); (x1, x2, fdom AccountFields); (H x1 x2 (fdom AccountFields), poseidon, fdom AccountFields); (fz (keccak / 2 ^ 128), fz (keccak mod 2 ^ 128), fdom DPair);
    (kS, word_hash H w, fdom DLeaf); (fz (w / 2 ^ 128), fz (w mod 2 ^ 128), fdom DPair)].
  Proof. reflexivity. Qed.
  Theorem created : exists e, circuit_ok H e n /\ echal e = r /\ let s := Statement a (word_rlc r slot) StorageChanged (state_root H t') f0 nv f0 in
    exposes e (encode r s) /\ tries_of H e n s Empty t'.
  Proof.
    exists (forged H n r cr_plan). pose proof cr_ok as OK. pose proof (case_start H n r a [] _ _ _ _ _ OK Ha) as (C1 & C2 & C3). pose proof (word_parts slot Hs) as [W1 W2]. split; [|split; [reflexivity|]; split].
    - apply fg_ok; [exact OK|]. apply start_good; try assumption.
      + apply (ext_leaf H _ _ _ _ true DLeaf);
        [|reflexivity|discriminate|reflexivity|split; [reflexivity|]; split; [reflexivity|]; split; reflexivity|intros _; split; reflexivity|reflexivity|reflexivity|left; reflexivity|reflexivity|right; right; left; reflexivity|reflexivity|reflexivity
         |unfold nodeh; cbn [children fst snd]; apply cr_hit; [rewrite cr_list; right; left; reflexivity|reflexivity]|right; reflexivity|intros _; split; [reflexivity|]; split; [left; split; reflexivity|]; split; reflexivity|left; reflexivity|eexists; split; [reflexivity|cbn [In]; auto]|reflexivity].
        apply (ext_leaf H _ _ _ _ false AccountFields);
        [|reflexivity|discriminate|reflexivity|split; [reflexivity|]; split; [reflexivity|]; split; reflexivity|intros _; split; reflexivity|reflexivity|reflexivity|left; reflexivity|reflexivity|right; right; left; reflexivity|reflexivity|reflexivity
         |unfold nodeh; cbn [children fst snd]; apply cr_hit; [rewrite cr_list; do 5 right; left; reflexivity|reflexivity]|left; reflexivity|discriminate|left; reflexivity|eexists; split; [reflexivity|cbn [In]; auto]|reflexivity].
        apply (ext_leaf H _ _ _ _ true AccountFields);
        [|reflexivity|discriminate|reflexivity|split; [reflexivity|]; split; [reflexivity|]; split; reflexivity|intros _; split; reflexivity|reflexivity|reflexivity|left; reflexivity|reflexivity|right; right; left; reflexivity|reflexivity|reflexivity
         |unfold nodeh; cbn [children fst snd]; apply cr_hit; [rewrite cr_list; do 4 right; left; reflexivity|reflexivity]|left; reflexivity|discriminate|left; reflexivity|eexists; split; [reflexivity|cbn [In]; auto]|reflexivity].
        apply (ext_leaf H _ _ _ _ false AccountFields);
        [|reflexivity|discriminate|reflexivity|split; [reflexivity|]; split; [reflexivity|]; split; reflexivity|intros E; contradiction E; reflexivity|reflexivity|reflexivity|left; reflexivity|reflexivity|right; right; left; reflexivity|reflexivity|reflexivity
         |unfold nodeh; cbn [children fst snd]; apply cr_hit; [rewrite cr_list; do 3 right; left; reflexivity|reflexivity]|left; reflexivity|discriminate|left; reflexivity|eexists; split; [reflexivity|cbn [In]; auto]|].
        2:{ split; [reflexivity|]. pose proof (case_128 H n r a [] _ _ _ _ _ OK (slot / 2 ^ 128) (or_introl eq_refl) W1) as [X1 X2]. pose proof (case_128 H n r a [] _ _ _ _ _ OK (slot mod 2 ^ 128) (or_intror (or_introl eq_refl)) W2) as [X3 X4].
            split; [exact X1|]. split; [exact X3|]. split; [apply cr_hit; [rewrite cr_list; left; reflexivity|reflexivity]|]. split; [exact X2|]. split; [exact X4|]. apply rlc_halves. }
        apply (ext_leaf H _ _ _ _ true DLeaf);
        [exact Logic.I|reflexivity|discriminate|reflexivity|split; [reflexivity|]; split; [reflexivity|]; split; reflexivity|intros _; split; reflexivity|reflexivity|reflexivity|left; reflexivity|reflexivity|right; right; left; reflexivity|reflexivity|reflexivity
         |unfold nodeh; cbn [children fst snd]; apply cr_hit; [rewrite cr_list; do 7 right; left; reflexivity|reflexivity]|left; reflexivity|intros _; split; [reflexivity|]; split; [left; split; reflexivity|]; split; reflexivity|right; reflexivity|eexists; split; [reflexivity|cbn [In]; auto]|].
        split; [reflexivity|]. split; [discriminate|]. split; [reflexivity|]. split; [exact cr_zero|]. split; [reflexivity|exact cr_nonzero].
      + apply (case_root H n r a [] _ _ _ _ _ OK). left. reflexivity.
      + apply (case_root H n r a [] _ _ _ _ _ OK). right. left. reflexivity.
      + eexists. split; [reflexivity|]. cbn [In next_sg cr_rest leaf0_f new_f f_sg]. auto.
      + exact Logic.I.
    - apply (case_exposes H n r a [] _ _ _ _ _ OK StorageChanged (word_rlc r slot) f0 nv kA _ _ f0 f0 f0 cr_rest). reflexivity.
    - constructor; try reflexivity.
      + exact Hv.
      + exact Hb.
      + exact Hb.
      + exact Hb.
      + apply (case_free H n r a [] _ _ _ _ _ OK _ Empty t' CF); unfold cr_inputs.
        * left. reflexivity.
        * right. left. reflexivity.
        * intros y I. do 2 right. apply in_app_or in I. apply in_or_app. destruct I as [I|I]; [left; exact I|right; apply in_or_app; left; exact I].
        * intros y [].
        * intros y I. do 2 right. apply in_or_app. right. apply in_or_app. left. exact I.
        * intros y I. do 2 right. apply in_or_app. right. apply in_or_app. right. exact I.
  Qed.
End Created.
