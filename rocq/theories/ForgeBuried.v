(* A new account is hung up deeper than where the path ends, below nodes that hold nothing else (finding S16). *)
From Coq Require Import ZArith String List Bool Lia.
From Verif Require Import Pocklington Fr Query Builder BuilderProofs Gadgets MptUpdate Bytes Fixed GadgetProofs UpdateRows UpdateWalk UpdateSound TableSpec UpdateComplete Util UtilProofs Serde Trie Storage Types Lookups LookupProofs LookupMain TrieSpec ChangeSpec
  Assign AssignProofs AssignOk AssignRegion UpdateAssign MptAssign MptModes MptRows MptCases GadgetMain GadgetMain2 CircuitOk RowView BlockView TablesOk BlocksOk PaddingOk RowsOk LeafOk UpdateProps NewAccount NewProps Forge Forgeries WrittenSpec.
Import ListNotations.
Open Scope Z_scope.

Lemma buried_hash H b k a : state_root H (beside b Empty (Leaf k a)) = H (fst (children b f0 (state_root H (Leaf k a)))) (snd (children b f0 (state_root H (Leaf k a)))) (fdom Branch0).
Proof. destruct b; reflexivity. Qed.
Lemma buried_input_in H b k a : In (beside_input H b f0 (state_root H (Leaf k a))) (state_inputs H (beside b Empty (Leaf k a))).
Proof. destruct b; left; reflexivity. Qed.
Section Buried.
  Variables (H : Fr -> Fr -> Fr -> Fr) (n : Z) (r : Fr) (a x : Z).
  Notation kA := (addr_key H a). Notation v := (set_nonce x new_account). Notation side := (kbit kA 0).
  Notation t := (@Empty account). Notation u := (Leaf kA v). Notation t' := (beside side t u).
  Hypothesis Hn : 2052 <= n < 2 ^ 62.
  Hypothesis Ha : 0 <= a < 2 ^ 160.
  Hypothesis Hx : 0 <= x < 2 ^ 64.
  Hypothesis HS : bits_ok n 1.
  Hypothesis CF : collision_free H (fun y => In y (all_inputs H a a t t')).
  Definition bu_trie : rowf := new_f H NonceChanged a f0 f0 (fz x) kA f0 AccountTrie side f0 (state_root H u) Branch0 f1 f0 f0 f0 f0.
  Definition bu_rows : list rowf := start_f H r NonceChanged a f0 f0 (fz x) kA f0 (state_root H t') f0 f0 f0 :: bu_trie :: nonce_rows H a x kA f0 f0.
  Definition bu_keys_used : list Fr := [f0; state_root H t'; kA].
  Definition bu_plan : plan := plan_for H a [x] [] bu_keys_used [(kA, 0, side)] (beside_input H side f0 (state_root H u) :: state_inputs H u) bu_rows.
  Lemma bu_ok : plan_ok H n bu_plan.
  Proof.
    apply plan_for_ok; [exact Hn|apply Nat.leb_le; reflexivity..|]. constructor; [|constructor]. cbn [fst snd]. split; [lia|]. split; [reflexivity|]. right. right. left. reflexivity.
  Qed.
  Theorem buried : exists e, circuit_ok H e n /\ echal e = r /\ let s := Statement a f0 NonceChanged (state_root H t') (state_root H t) (fz x) f0 in
    exposes e (encode r s) /\ tries_of H e n s t t'.
  Proof.
    exists (forged H n r bu_plan). pose proof bu_ok as OK. pose proof (case_start H n r a [x] [] _ _ _ _ OK Ha) as (C1 & C2 & C3). split; [|split; [reflexivity|]; split].
    - apply fg_ok; [exact OK|]. apply start_good; try assumption.
      + apply (ext_trie H _ _ _ _ 0 side Branch0); [|reflexivity|reflexivity|split; [reflexivity|]; split; [reflexivity|]; split; reflexivity|split; reflexivity|reflexivity|reflexivity|reflexivity| |reflexivity|left; reflexivity|left; reflexivity|reflexivity|reflexivity| |reflexivity|left; reflexivity| | ].
        * apply nonce_good; try reflexivity.
          -- exact Hx.
          -- intros y Hy. apply (proj2 (fg_hits H n r bu_plan OK _ _ _ _)). unfold bu_plan, plan_for. cbn [pl_traces]. apply traced_in. destruct y as [[y1 y2] y3]. do 3 right. exact Hy.
          -- apply (case_64 H n r a [x] [] _ _ _ _ OK); [left; reflexivity|exact Hx].
          -- left. split; reflexivity.
        * apply (case_bit H n r a [x] [] _ _ _ _ OK kA 0 side). left. reflexivity.
        * unfold nodeh. cbn [start_f bu_trie new_f f_new f_sib]. rewrite buried_hash. apply (case_hit H n r a [x] [] _ _ _ _ OK _ _ Branch0). right. right. left. reflexivity.
        * eexists. split; [reflexivity|]. cbn [In next_sg nonce_rows leaf0_f new_f f_sg]. auto.
        * split; [discriminate|]. intros _ E. discriminate E.
      + apply (case_root H n r a [x] [] _ _ _ _ OK). right. left. reflexivity.
      + apply (case_root H n r a [x] [] _ _ _ _ OK). right. right. left. reflexivity.
      + eexists. split; [reflexivity|]. cbn [In next_sg bu_trie new_f f_sg]. auto.
      + split; [discriminate|]. intros _ E. discriminate E.
    - apply (case_exposes H n r a [x] [] _ _ _ _ OK NonceChanged f0 f0 (fz x) kA _ _ f0 f0 f0 (bu_trie :: nonce_rows H a x kA f0 f0)). reflexivity.
    - assert (Q : forall P : tree account -> Prop, P (Node t u) -> P (Node u t) -> P t') by (intros P P1 P2; unfold beside; destruct side; assumption).
      constructor; try reflexivity.
      + apply Q; split; try exact Logic.I; exact (nonce_account_ok x Hx).
      + exact (bits_zero n _ HS).
      + apply (Q (fun w => bits_ok n (height w))); exact HS.
      + apply Q; split; try exact Logic.I; exact (bits_zero n _ HS).
      + apply (case_free H n r a [x] [] _ _ _ _ OK _ t t' CF); unfold all_inputs.
        * left. reflexivity.
        * right. left. reflexivity.
        * intros y [<-|I]; do 3 right; apply in_or_app; right; apply in_or_app; left; [apply buried_input_in|apply beside_inputs; exact I].
        * intros y [].
        * intros y I. do 3 right. apply in_or_app. right. apply in_or_app. left. exact I.
        * intros y I. do 3 right. apply in_or_app. right. apply in_or_app. right. exact I.
  Qed.
  Lemma buried_shape : placed t' [] /\ get t' 0 kA = Some v /\ (forall k, k <> kA -> get t' 0 k = None) /\ ~ compact t' /\ state_root H t' <> state_root H u.
  Proof.
    split; [|split; [|split; [|split]]].
    - unfold beside. destruct side eqn:E; split; try exact Logic.I; intros i c Q; destruct i as [|[|i]]; cbn in Q; congruence.
    - unfold beside. destruct side eqn:E; cbn [get]; rewrite E; cbn [get]; rewrite (proj2 (feqb_eq kA kA) eq_refl); reflexivity.
    - intros k N. unfold beside. destruct side; cbn [get]; destruct (kbit k 0); cbn [get]; try reflexivity; rewrite (proj2 (feqb_neq k kA)) by exact N; reflexivity.
    - unfold beside. destruct side; intros (L & _); cbn in L; lia.
    - rewrite buried_hash. intros E.
      assert (M : forall y, In y (state_inputs H t') -> In y (all_inputs H a a t t')) by (intros y I; unfold all_inputs; do 3 right; apply in_or_app; right; apply in_or_app; left; exact I).
      pose proof (proj1 CF (beside_input H side f0 (state_root H u)) (leaf_input H kA v) (M _ (buried_input_in H side kA v)) (M _ (beside_inputs H side t u _ (leaf_input_in H kA v))) E) as Q.
      apply (f_equal snd) in Q. discriminate Q.
  Qed.
End Buried.
