(* The lists of assignments of each kind of update row, read as values. *)
From Coq Require Import ZArith List Bool Lia.
From Verif Require Import Pocklington Fr Query Builder BuilderProofs Gadgets MptUpdate Bytes GadgetProofs UpdateRows Util Serde Trie Storage Types Lookups
  Assign AssignProofs UpdateAssign MptAssign RowView BlockView RowsOk.
Import ListNotations.
Open Scope Z_scope.

(* claim columns *)
Definition cl (T : MPTProofType) (a b c : Fr) : row := oh_assign oh_proof T ++ [(A MU_storage_key_rlc, a); (A MU_old_value, b); (A MU_new_value, c)].
(* what is added to the last row of an update that ends in a trie *)
Inductive tail := T0 | T1 (z2 : Fr) | T2 (z2 z3 i3 : Fr).
Definition tcells (t : tail) : row :=
  match t with T0 => [] | T1 a => iz_assign_value_and_inverse (izg 2) a | T2 a b c => iz_assign_value_and_inverse (izg 2) a ++ iz_assign_value_and_inverse (izg 3) b ++ [(A (iv 3), c)] end.
Definition tz2 t := match t with T0 => f0 | T1 a => a | T2 a _ _ => a end.
Definition tz3 t := match t with T2 _ b _ => b | _ => f0 end.
Definition ti3 t := match t with T2 _ _ c => c | _ => f0 end.

Ltac types_tac := constructor; [intros v Hv; destruct v; try contradiction; reflexivity|intros v Hv; destruct v; try contradiction; reflexivity|intros v Hv; destruct v; try contradiction; reflexivity|
  let k := fresh in intros k; destruct k as [|[|[|[|k]]]]; reflexivity].
Definition reads_as (T : MPTProofType) (s : SegmentType) (q : PathType) (r : row) (f : rowf) : Prop := row_types T s q r /\ rowf_of T s q r = f.
Ltac both := split; [types_tac|reflexivity].

Lemma start_as T a b c o n key other hi lo s0 s1 t :
  reads_as T SegStart PathStart (cl T a b c ++ (oh_assign oh_segment SegStart ++ oh_assign oh_path PathStart
    ++ [(A MU_old_hash, o); (A MU_new_hash, n); (A MU_key, key); (A MU_other_key, other); (A MU_domain, fdom DPair); (A (iv 0), hi); (A (iv 1), lo); (A (sp 0), s0); (A (sp 1), s1)]) ++ tcells t)
    (RowF T SegStart PathStart a b c key other f0 f0 o n (fdom DPair) f0 hi lo f0 (ti3 t) f0 s0 s1 f0 f0 f0 f0 (tz2 t) (tz3 t)).
Proof. destruct t, T; both. Qed.
Lemma trie_as T a b c seg q dp i2 sib o n dir dm key other t : is_trie_seg seg = true -> let ex := match i2 with Some x => [(A (iv 2), x)] | None => [] end in
  let cells := [(A MU_depth, dp)] ++ oh_assign oh_path q ++ ex ++ [(A MU_sibling, sib); (A MU_old_hash, o); (A MU_new_hash, n); (A MU_direction, dir); (A MU_domain, dm)] in
  let f := RowF T seg q a b c key other dir sib o n dm dp f0 f0 (or_else i2 f0) (ti3 t) f0 f0 f0 f0 f0 f0 f0 (tz2 t) (tz3 t) in
  reads_as T seg q (cl T a b c ++ cells ++ oh_assign oh_segment seg ++ skeys key other ++ tcells t) f /\
  reads_as T seg q (cl T a b c ++ cells ++ oh_assign oh_segment seg ++ tcells t ++ skeys key other) f.
Proof. intros S. cbv zeta. destruct seg; try discriminate S; destruct i2 as [x|], t, q, T; (split; both). Qed.
(* the rows of an account leaf *)
Definition leaf_as_cells (seg : SegmentType) (q : PathType) (sib o n dir key other : Fr) (ex : row) : row :=
  oh_assign oh_segment seg ++ oh_assign oh_path q ++ [(A MU_sibling, sib); (A MU_old_hash, o); (A MU_new_hash, n); (A MU_direction, dir); (A MU_key, key); (A MU_other_key, other)] ++ ex.
Lemma leaf0_as T a b c q sib o n dir key other data z2 :
  reads_as T AccountLeaf0 q (cl T a b c ++ (((iz_assign_value_and_inverse (izg 3) o ++ [(A MU_domain, fdom DLeaf)])
      ++ leaf_as_cells AccountLeaf0 q sib o n dir key other [(A (iv 8), other); (A (iv 9), data)])
      ++ (skeys key other ++ iz_assign_value_and_inverse (izg 2) z2) ++ [] ++ []))
    (RowF T AccountLeaf0 q a b c key other dir sib o n (fdom DLeaf) f0 f0 f0 f0 f0 data f0 f0 f0 f0 f0 f0 z2 o).
Proof. destruct q, T; both. Qed.
Lemma leaf12_as T a b c seg q sib o n dir key other : seg = AccountLeaf1 \/ seg = AccountLeaf2 ->
  reads_as T seg q (cl T a b c ++ (([(A MU_domain, fdom AccountFields)] ++ leaf_as_cells seg q sib o n dir key other []) ++ [] ++ [] ++ []))
    (RowF T seg q a b c key other dir sib o n (fdom AccountFields) f0 f0 f0 f0 f0 f0 f0 f0 f0 f0 f0 f0 f0 f0).
Proof. intros [-> | ->]; destruct q, T; both. Qed.
Definition word_cells (h l rh rl : acol) (x : option (Fr * Fr * Fr * Fr)) : row := match x with Some (a, b, c, d) => [(A h, a); (A l, b); (A rh, c); (A rl, d)] | None => [] end.
Definition w1 (x : option (Fr * Fr * Fr * Fr)) : Fr := match x with Some (a, _, _, _) => a | None => f0 end.
Definition w2 (x : option (Fr * Fr * Fr * Fr)) : Fr := match x with Some (_, a, _, _) => a | None => f0 end.
Definition w3 (x : option (Fr * Fr * Fr * Fr)) : Fr := match x with Some (_, _, a, _) => a | None => f0 end.
Definition w4 (x : option (Fr * Fr * Fr * Fr)) : Fr := match x with Some (_, _, _, a) => a | None => f0 end.
(* the last account row: without storage (x, y: the code hashes) *)
Lemma leaf3_as T a b c q sib o n dir key other x y : 
  reads_as T AccountLeaf3 q (cl T a b c ++ (([(A MU_domain, fdom AccountFields)] ++ leaf_as_cells AccountLeaf3 q sib o n dir key other [])
      ++ [] ++ (word_cells (iv 0) (iv 1) (sp 0) (sp 1) x ++ word_cells (iv 2) (iv 3) (sp 2) (sp 3) y) ++ []))
    (RowF T AccountLeaf3 q a b c key other dir sib o n (fdom AccountFields) f0 (w1 x) (w2 x) (w1 y) (w2 y) f0 (w3 x) (w4 x) (w3 y) (w4 y) f0 f0 f0 f0).
Proof. destruct x as [[[[? ?] ?] ?]|], y as [[[[? ?] ?] ?]|], q, T; both. Qed.
(* with storage: sk, so the storage keys, x the slot *)
Lemma leaf3s_as T a b c q sib o n dir key other sk so x t : 
  reads_as T AccountLeaf3 q (cl T a b c ++ (([(A MU_domain, fdom AccountFields)] ++ leaf_as_cells AccountLeaf3 q sib o n dir key other
      ([(A MU_key, sk)] ++ word_cells (iv 0) (iv 1) (sp 0) (sp 1) (Some x) ++ [(A MU_other_key, so); (A (iv 2), fdom AccountFields)]))
      ++ [] ++ [] ++ tcells t))
    (RowF T AccountLeaf3 q a b c sk so dir sib o n (fdom AccountFields) f0 (w1 (Some x)) (w2 (Some x)) (fdom AccountFields) (ti3 t) f0 (w3 (Some x)) (w4 (Some x)) f0 f0 f0 f0 (tz2 t) (tz3 t)).
Proof. destruct x as [[[? ?] ?] ?], t, q, T; both. Qed.
(* the row of a storage leaf; l: what is added in an insertion or deletion *)
Definition lcells (l : option (Fr * Fr * option Fr)) : row :=
  match l with None => [] | Some (z2, z3, d) => iz_assign_value_and_inverse (izg 2) z2 ++ iz_assign_value_and_inverse (izg 3) z3 ++ match d with Some v => [(A (iv 9), v)] | None => [] end end.
Definition lz2 (l : option (Fr * Fr * option Fr)) := match l with Some (a, _, _) => a | None => f0 end.
Definition lz3 (l : option (Fr * Fr * option Fr)) := match l with Some (_, a, _) => a | None => f0 end.
Definition l9 (l : option (Fr * Fr * option Fr)) := match l with Some (_, _, Some a) => a | _ => f0 end.
Lemma sleaf_as a b c q sib o n x y z0 z1 l key other :
  reads_as StorageChanged StorageLeaf0 q (cl StorageChanged a b c ++ ((oh_assign oh_path q ++ oh_assign oh_segment StorageLeaf0
      ++ [(A MU_direction, f1); (A MU_domain, fdom DLeaf); (A MU_sibling, sib); (A MU_old_hash, o); (A MU_new_hash, n)]
      ++ word_cells (iv 0) (iv 1) (sp 0) (sp 1) x ++ word_cells (iv 2) (iv 3) (sp 2) (sp 3) y
      ++ iz_assign_value_and_inverse (izg 0) z0 ++ iz_assign_value_and_inverse (izg 1) z1 ++ lcells l) ++ skeys key other))
    (RowF StorageChanged StorageLeaf0 q a b c key other f1 sib o n (fdom DLeaf) f0 (w1 x) (w2 x) (w1 y) (w2 y) (l9 l) (w3 x) (w4 x) (w3 y) (w4 y) z0 z1 (lz2 l) (lz3 l)).
Proof. destruct x as [[[[? ?] ?] ?]|], y as [[[[? ?] ?] ?]|], q, l as [[[? ?] [?|]]|]; both. Qed.
