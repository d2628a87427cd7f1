(* Properties C01-C14: the gadgets.  Only statements; the proofs are in GadgetMain*.v.
   Vocabulary (GadgetMain.v, GadgetMain2.v, GadgetMain3.v):
   - satisfied e c     the assignment e satisfies every gate and lookup of the circuit built by the configure calls c
   - part_of g c       the configure call g was made, outside any condition, while building c
   - occurs g bs c     the same inside the conditions bs
   - enabled e i       row i is usable and the selector is 1 there
   - accepts e t vs    a lookup of the tuple vs in the table expressions t, made on an enabled row, succeeds
   - fixed_ok e n      the fixed columns are those that MptCircuitConfig::assign writes for n_rows = n (C27)
   - holds e cols ws   the advice columns cols contain exactly the assignments ws (0 elsewhere)
   - encodes o e j v   row j of the one-hot gadget o shows variant v through every query
   [f0], [f1] are the field's 0 and 1, [fz] embeds integers, [val] is the canonical representative,
   [be_bytes k x] are the k big-endian bytes of x and [rlc bs r] their random linear combination. *)
From Coq Require Import ZArith String List Bool Lia.
From Verif Require Import Pocklington Fr Query Builder BuilderProofs Bytes Gadgets MptUpdate GadgetProofs Fixed Assign AssignProofs AssignOk AssignRegion LagrangeProofs GadgetMain GadgetMain2 GadgetMain3 GadgetDemo.
Import ListNotations.
Open Scope Z_scope.

(** * C01 *)
Theorem C01_zero_test_exact : forall e c g, satisfied e c -> part_of (is_zero_configure g) c ->
  (forall i, enabled e i -> eval e i (iz_current g) = if Fr_eq_dec (eadv e (iz_value g) i) f0 then f1 else f0) /\
  (forall i, 1 <= i < eN e -> enabled e (i - 1) ->
     eval e i (iz_previous g) = if Fr_eq_dec (eadv e (iz_value g) (i - 1)) f0 then f1 else f0).
Proof. exact is_zero_exact. Qed.
Theorem C01_zero_test_assignment : forall e i g v b, 0 <= i < eN e -> written e i (iz_assign_value_and_inverse g v) ->
  Forall (eq f0) (gates_at e i (is_zero_configure g) b) /\ lookups (run (is_zero_configure g) b) = lookups b.
Proof. exact is_zero_complete. Qed.
Example C01_met : satisfied (demo 2049) tables /\ part_of (is_zero_configure BR_index_is_zero) tables /\ enabled (demo 2049) 5.
Proof.
  split; [apply demo_sat; lia|]. split; [do 2 apply part_left; apply part_here|].
  apply (fix_enabled _ 2049); [apply demo_fixed; lia|lia].
Qed.

(** * C02 *)
Theorem C02_one_hot_exact : forall T (o : OneHot T) e c, oh_wf o -> oh_variants o <> [] -> satisfied e c -> part_of (one_hot_configure o) c ->
  forall i, enabled e i -> exists! v, encodes o e i v.
Proof. exact @one_hot_exact. Qed.
Theorem C02_one_hot_assignment : forall T (o : OneHot T) e i v b, oh_wf o -> NoDup (map (oh_col o) (oh_nonfirst o)) -> 0 <= i < eN e ->
  (forall w, In w (oh_nonfirst o) -> eadv e (oh_col o w) i = rcell (oh_assign o v) (A (oh_col o w))) ->
  encodes o e i v /\ Forall (eq f0) (gates_at e i (one_hot_configure o) b).
Proof. exact @one_hot_assign. Qed.
(* the hypotheses on [o] hold for the circuit's three enums *)
Example C02_enums : oh_wf oh_segment /\ oh_wf oh_path /\ oh_wf oh_proof.
Proof. exact (conj seg_wf (conj path_wf ptype_wf)). Qed.

(** * C03 *)
Theorem C03_condition_gates_constraint : forall e bs nm q, exists g,
  constraints (circuit_of (nest bs (AssertZero nm q))) = [(nm, g)] /\
  lookups (circuit_of (nest bs (AssertZero nm q))) = [] /\
  forall i, 0 <= i < eN e ->
    (efix e SEL i = f1 -> all_one e i bs -> eval e i g = eval e i q) /\
    (efix e SEL i = f0 \/ some_zero e i bs -> eval e i g = f0).
Proof. exact nested_assert. Qed.
Theorem C03_condition_gates_lookup : forall e bs nm left right, wf_env e -> List.length left = List.length right ->
  exists l, lookups (circuit_of (nest bs (AddLookup nm left right))) = [(nm, l)] /\
  constraints (circuit_of (nest bs (AddLookup nm left right))) = [] /\
  forall i, 0 <= i < eusable e ->
    (efix e SEL i = f1 -> all_one e i bs ->
       (row_demand e i l <-> exists t, enabled e t /\ Forall2 (fun a b => eval e i a = eval e t b) left right)) /\
    (efix e SEL i = f0 \/ some_zero e i bs ->
       (row_demand e i l <-> exists t, 0 <= t < eusable e /\ efix e SEL t = f0 /\ Forall (fun b => eval e t b = f0) right)).
Proof. exact nested_lookup. Qed.
Theorem C03_condition_gates_poseidon_lookup : forall e bs nm l r d h, wf_env e ->
  exists lk, lookups (circuit_of (nest bs (PoseidonLookup nm l r d h))) = [(nm, lk)] /\
  constraints (circuit_of (nest bs (PoseidonLookup nm l r d h))) = [] /\
  forall i, 0 <= i < eusable e ->
    (all_one e i bs ->
       (row_demand e i lk <-> exists t, 0 <= t < eusable e /\ efix e P_q_enable t = f1 /\ eadv e P_hash t = eval e i h /\
          eadv e P_left t = eval e i l /\ eadv e P_right t = eval e i r /\ eadv e P_control t = f0 /\
          eadv e P_domain t = eval e i d /\ eadv e P_head t = f1)) /\
    (some_zero e i bs ->
       (row_demand e i lk <-> exists t, 0 <= t < eusable e /\ Forall (fun b => eval e t b = f0) poseidon_table)).
Proof. exact nested_poseidon. Qed.
Theorem C03_boolean_operations : forall e i a b (x y : bool) t f, eval e i a = fb x -> eval e i b = fb y ->
  eval e i (band a b) = fb (x && y) /\ eval e i (bor a b) = fb (x || y) /\ eval e i (bnot a) = fb (negb x) /\
  eval e i (bselect a t f) = (if x then eval e i t else eval e i f) /\
  eval e i (bcondition a t) = (if x then eval e i t else f0).
Proof. exact boolean_ops. Qed.
Theorem C03_sequence : forall e a b, sat e (circuit_of (a ;; b)) <-> sat e (circuit_of a) /\ sat e (circuit_of b).
Proof. exact sat_seq. Qed.

(** * C04 *)
Theorem C04_constant_embeds : forall e i x, eval e i (q_of_fr x) = x.
Proof. exact eval_q_of_fr. Qed.
Theorem C04_interpolation : forall e i q points k x y, NoDup (map fst points) -> nth_error points k = Some (x, y) -> eval e i q = x ->
  eval e i (lagrange_polynomial q points) = eval e i y.
Proof. exact lagrange_interpolates. Qed.
Example C04_met : NoDup (map fst [(fz 6, qz 1); (fz 7, qz 2); (fz 8, qz 3)]).
Proof.
  repeat constructor; cbn [In map fst]; intros X; repeat destruct X as [X|X]; try (apply fz_inj_mod in X; vm_compute in X; discriminate X); destruct X.
Qed.

(** * C05 *)
Theorem C05_byte_bit_table_exact : forall e n, fixed_ok e n -> forall x y z,
  accepts e byte_bit_lookup [x; y; z] <->
  exists b k, 0 <= b < 256 /\ 0 <= k < 8 /\ x = fz b /\ y = fz k /\ z = fb (Z.testbit b k).
Proof. exact byte_bit_exact. Qed.
Theorem C05_range_8_exact : forall e n, fixed_ok e n -> forall x,
  accepts e range_check_8_lookup [x] <-> exists k, 0 <= k < 8 /\ x = fz k.
Proof. exact range_8_exact. Qed.
Theorem C05_range_256_exact : forall e n, fixed_ok e n -> forall x,
  accepts e range_check_256_lookup [x] <-> exists b, 0 <= b < 256 /\ x = fz b.
Proof. exact range_256_exact. Qed.
Example C05_met : fixed_ok (demo 2049) 2049. Proof. apply demo_fixed. lia. Qed.

(** * C06: proved when the first enabled row starts a byte string (what assign writes, but not enforced) *)
Theorem C06_bytes_lookup_sound_partial : forall e n, fixed_ok e n -> forall c, satisfied e c -> part_of byte_representation_configure c ->
  eadv e BR_index 1 = f0 ->
  forall v m, 0 <= m <= 30 -> accepts e bytes_lookup [v; fz m] -> val v < 256 ^ (m + 1).
Proof. exact bytes_sound. Qed.
Theorem C06_rlc_lookup_sound_partial : forall e n, fixed_ok e n -> forall c, satisfied e c -> part_of byte_representation_configure c ->
  eadv e BR_index 1 = f0 ->
  forall v m y, 0 <= m <= 30 -> accepts e rlc_lookup [v; fz m; y] ->
  val v < 256 ^ (m + 1) /\ y = rlc (be_bytes (Z.to_nat (m + 1)) (val v)) (echal e).
Proof. exact rlc_sound. Qed.
Example C06_met : satisfied (demo 2049) tables /\ part_of byte_representation_configure tables /\ eadv (demo 2049) BR_index 1 = f0 /\
  accepts (demo 2049) rlc_lookup [fz 7; fz 3; rlc [0; 0; 0; 7] (echal (demo 2049))].
Proof.
  split; [apply demo_sat; lia|]. split; [apply part_left, part_here|]. split; [apply demo_anchor; lia|apply demo_lookup_7; lia].
Qed.

(** * C07 *)
Theorem C07_byte_representation_assignment_satisfies : forall e n, fixed_ok e n -> forall u32s u64s u128s frs ws,
  byte_repr_assign (echal e) u32s u64s u128s frs = Some ws -> holds e BR_cols ws ->
  sat e (circuit_of byte_representation_configure).
Proof. exact byte_repr_satisfied. Qed.
(* [listed len x]: x is in the list of len-byte values (4: u32, 8: u64, 16: u128, 31: field elements) *)
Theorem C07_byte_representation_assignment_covers : forall e n, fixed_ok e n -> forall u32s u64s u128s frs ws,
  byte_repr_assign (echal e) u32s u64s u128s frs = Some ws ->
  Forall (fun x => 0 <= x < 2 ^ 32) u32s -> Forall (fun x => 0 <= x < 2 ^ 64) u64s -> Forall (fun x => 0 <= x < 2 ^ 128) u128s ->
  holds e BR_cols ws -> byte_repr_n_rows u32s u64s u128s frs <= n ->
  forall len x, listed u32s u64s u128s frs len x ->
  accepts e bytes_lookup [fz x; fz (Z.of_nat len - 1)] /\
  accepts e rlc_lookup [fz x; fz (Z.of_nat len - 1); rlc (be_bytes len x) (echal e)].
Proof. exact byte_repr_listed. Qed.
Theorem C07_byte_representation_assignment_panics : forall r u32s u64s u128s frs,
  byte_repr_assign r u32s u64s u128s frs = None <-> Exists (fun x => 256 ^ 31 <= val x) frs.
Proof. exact byte_repr_panics. Qed.
(* the assignment starts a byte string in the first enabled row, as C06 needs *)
Theorem C07_assignment_meets_C06_anchor : forall e n, fixed_ok e n -> forall u32s u64s u128s frs ws,
  byte_repr_assign (echal e) u32s u64s u128s frs = Some ws -> holds e BR_cols ws -> eadv e BR_index 1 = f0.
Proof. exact byte_repr_anchor. Qed.
Example C07_met : byte_repr_assign (echal (demo 2049)) [7] [9] [0; 2 ^ 100] demo_frs = Some demo_br /\ holds (demo 2049) BR_cols demo_br.
Proof. exact (conj demo_br_some (demo_BR 2049)). Qed.

(** * C08: for n_rows = 1 mod 32 in full; for other n_rows not divisible by 32, for all bytes but the most significant one *)
Theorem C08_canonical_lookup_sound_partial : forall e n, fixed_ok e n -> forall c, satisfied e c -> part_of canonical_representation_configure c ->
  forall v i b, n mod 32 <> 0 -> accepts e canonical_lookup [v; i; b] ->
  exists k, (k < 32)%nat /\ i = fz (Z.of_nat k) /\ (n mod 32 = 1 \/ k <> 0%nat -> b = fz (nth k (be_bytes 32 (val v)) 0)).
Proof. exact canonical_sound. Qed.
Example C08_met : satisfied (demo 2049) tables /\ part_of canonical_representation_configure tables /\ 2049 mod 32 = 1.
Proof. split; [apply demo_sat; lia|]. split; [apply part_right, part_left, part_here|reflexivity]. Qed.

(** * C09 *)
Theorem C09_root_rlc_lookup_sound : forall e n, fixed_ok e n -> forall c, satisfied e c -> part_of canonical_representation_configure c ->
  forall v y, accepts e fr_rlc_lookup [v; y] -> y = rlc (be_bytes 32 (val v)) (echal e).
Proof. exact root_rlc_sound. Qed.

(** * C10 *)
(* [cr_cell r vs n] is the content of the columns after canonical_assign or canonical_assign_par (C26) *)
Theorem C10_canonical_assignment_satisfies : forall e n, fixed_ok e n -> forall vs,
  Z.of_nat (List.length vs) < n / 32 -> n < eN e ->
  (forall c i, In c CR_cols -> 0 <= i < eN e -> eadv e c i = AssignProofs.cr_cell (echal e) vs n (A c) i) ->
  sat e (circuit_of canonical_representation_configure).
Proof. exact canonical_satisfied. Qed.
Theorem C10_canonical_assignment_covers : forall e n, fixed_ok e n -> forall vs,
  Z.of_nat (List.length vs) < n / 32 -> n < eN e ->
  (forall c i, In c CR_cols -> 0 <= i < eN e -> eadv e c i = AssignProofs.cr_cell (echal e) vs n (A c) i) ->
  forall v k, In v vs -> (k < 32)%nat -> accepts e canonical_lookup [v; fz (Z.of_nat k); fz (nth k (be_bytes 32 (val v)) 0)].
Proof. exact canonical_listed. Qed.
Theorem C10_root_rlc_covered : forall e n, fixed_ok e n -> forall vs,
  Z.of_nat (List.length vs) < n / 32 -> n < eN e ->
  (forall c i, In c CR_cols -> 0 <= i < eN e -> eadv e c i = AssignProofs.cr_cell (echal e) vs n (A c) i) ->
  forall v, In v vs -> accepts e fr_rlc_lookup [v; rlc (be_bytes 32 (val v)) (echal e)].
Proof. exact root_listed. Qed.
Theorem C10_assignment_content : forall r vs n ws, 0 <= n -> canonical_assign r vs n = Some ws ->
  forall c i, cell ws c i = AssignProofs.cr_cell r vs n c i.
Proof. exact AssignProofs.canonical_cells. Qed.

(** * C11 *)
Theorem C11_key_bit_lookup_sound_partial : forall e n, fixed_ok e n -> forall c, satisfied e c -> part_of canonical_representation_configure c ->
  forall v i b, n mod 32 <> 0 -> part_of key_bit_configure c -> accepts e key_bit_lookup [v; i; b] ->
  exists j, 0 <= j < 256 /\ i = fz j /\ (n mod 32 = 1 \/ j < 248 -> b = fb (Z.testbit (val v) j)).
Proof. exact key_bit_sound. Qed.
Example C11_met : satisfied (demo 2049) tables /\ part_of canonical_representation_configure tables /\ part_of key_bit_configure tables.
Proof. split; [apply demo_sat; lia|]. split; [apply part_right, part_left, part_here|apply part_right, part_right, part_here]. Qed.

(** * C12 *)
Theorem C12_key_bit_assignment_satisfies : forall e n, fixed_ok e n -> forall ls ws,
  kb_cells ls ws -> holds e KB_cols ws -> Forall (fun l => 0 <= snd (fst l)) ls ->
  (forall v k, (v = f0 \/ In v (map (fun l => fst (fst l)) ls)) -> (k < 32)%nat ->
     accepts e canonical_lookup [v; fz (Z.of_nat k); fz (nth k (be_bytes 32 (val v)) 0)]) ->
  eadv e CR_value 0 = f0 /\ eadv e CR_byte 0 = f0 ->
  sat e (circuit_of key_bit_configure).
Proof. exact key_bit_satisfied. Qed.
Theorem C12_key_bit_assignment_covers : forall e n, fixed_ok e n -> forall ls ws,
  kb_cells ls ws -> holds e KB_cols ws -> Forall (fun l => 0 <= snd (fst l)) ls -> Z.of_nat (List.length ls) < n ->
  forall v x b, In (v, x, b) ls -> accepts e key_bit_lookup [v; fz x; fb b].
Proof. exact key_bit_listed. Qed.
Theorem C12_key_bit_assignment_content : forall ls ws, key_bit_assign ls = Some ws -> kb_cells ls ws.
Proof. exact kb_seq_cells. Qed.
(* assignment succeeds exactly on correct triples *)
Theorem C12_key_bit_assignment_total : forall v x b, 0 <= x -> ((exists rw, kb_row (v, x, b) = Some rw) <-> x < 256 /\ b = Z.testbit (val v) x).
Proof. exact kb_row_none. Qed.

(** * C13 *)
Theorem C13_word_gadget_sound_partial : forall H e n c, fixed_ok e n -> satisfied e c ->
  (forall l r d h, poseidon_hit e l r d h -> H l r d = h) ->
  forall bs word_hash high low rlc_word rlc_high rlc_low i,
  part_of byte_representation_configure c -> eadv e BR_index 1 = f0 ->
  occurs (word_rlc_configure word_hash high low rlc_word rlc_high rlc_low) bs c -> enabled e i -> all_one e i bs ->
  exists w, 0 <= w < 2 ^ 256 /\
    eadv e word_hash i = H (fz (w / 2 ^ 128)) (fz (w mod 2 ^ 128)) (fz 512) /\
    eadv e rlc_word i = rlc (be_bytes 32 w) (echal e).
Proof. exact word_gadget_sound. Qed.

(** * C14 *)
Theorem C14_nonexistence_gadget_sound : forall H e c, satisfied e c ->
  (forall l r d h, poseidon_hit e l r d h -> H l r d = h) ->
  forall bs value key other_key kg hash hg data i,
  occurs (is_zero_configure kg) [] c -> occurs (is_zero_configure hg) [] c ->
  occurs (nonexistence_configure value key other_key kg hash hg data) bs c -> enabled e i -> all_one e i bs ->
  eadv e value i = f0 /\
  ((eadv e hash i = f0 /\ eadv e other_key i = eadv e key i) \/
   (eadv e hash i <> f0 /\ eadv e other_key i <> eadv e key i /\
    eadv e hash i = H (eadv e other_key i) (eadv e data i) (fz 4))).
Proof. exact nonexistence_sound. Qed.

Print Assumptions C01_zero_test_exact. Print Assumptions C01_zero_test_assignment.
Print Assumptions C02_one_hot_exact. Print Assumptions C02_one_hot_assignment.
Print Assumptions C03_condition_gates_constraint. Print Assumptions C03_condition_gates_lookup. Print Assumptions C03_condition_gates_poseidon_lookup.
Print Assumptions C03_boolean_operations. Print Assumptions C03_sequence.
Print Assumptions C04_constant_embeds. Print Assumptions C04_interpolation.
Print Assumptions C05_byte_bit_table_exact. Print Assumptions C05_range_8_exact. Print Assumptions C05_range_256_exact.
Print Assumptions C06_bytes_lookup_sound_partial. Print Assumptions C06_rlc_lookup_sound_partial.
Print Assumptions C07_byte_representation_assignment_satisfies. Print Assumptions C07_byte_representation_assignment_covers.
Print Assumptions C07_byte_representation_assignment_panics. Print Assumptions C07_assignment_meets_C06_anchor.
Print Assumptions C08_canonical_lookup_sound_partial. Print Assumptions C09_root_rlc_lookup_sound.
Print Assumptions C10_canonical_assignment_satisfies. Print Assumptions C10_canonical_assignment_covers. Print Assumptions C10_root_rlc_covered. Print Assumptions C10_assignment_content.
Print Assumptions C11_key_bit_lookup_sound_partial.
Print Assumptions C12_key_bit_assignment_satisfies. Print Assumptions C12_key_bit_assignment_covers. Print Assumptions C12_key_bit_assignment_content. Print Assumptions C12_key_bit_assignment_total.
Print Assumptions C13_word_gadget_sound_partial. Print Assumptions C14_nonexistence_gadget_sound.
