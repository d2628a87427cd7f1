(* A concrete satisfied circuit made of the three table gadgets, used to show that hypotheses can be met. *)
From Coq Require Import ZArith String List Bool Lia.
From Verif Require Import Pocklington Fr Query Builder BuilderProofs Bytes Gadgets MptUpdate GadgetProofs Fixed CanonProofs Assign AssignProofs AssignOk AssignRegion GadgetMain GadgetMain2 GadgetMain3.
Import ListNotations.
Open Scope Z_scope.
Open Scope cmd_scope.

Definition demo_keys : list Fr := [f0; fz 5; fz (2 ^ 253 + 9)].
Definition demo_lookups : list (Fr * Z * bool) := [(f0, 0, false); (fz 5, 0, true); (fz 5, 1, false); (fz (2 ^ 253 + 9), 253, true)].
Definition demo_frs : list Fr := [fz (2 ^ 240 + 3)].
Definition demo_ch : Fr := fz 1234567.
Definition demo_br : list write := match byte_repr_assign demo_ch [7] [9] [0; 2 ^ 100] demo_frs with Some ws => ws | None => [] end.
Definition demo_kb : list write := match key_bit_assign demo_lookups with Some ws => ws | None => [] end.
Definition demo_adv (n : Z) (c : acol) (i : Z) : Fr :=
  if in_dec acol_eq_dec c BR_cols then cell demo_br (A c) i
  else if in_dec acol_eq_dec c CR_cols then cr_cell demo_ch demo_keys n (A c) i
  else if in_dec acol_eq_dec c KB_cols then cell demo_kb (A c) i else f0.
Definition demo (n : Z) : env := mkEnv 4096 4000 (demo_adv n) (fixed_cell n) demo_ch.
Definition tables : cmd := byte_representation_configure ;; canonical_representation_configure ;; key_bit_configure.

Lemma demo_fixed n : 2049 <= n <= 4000 -> fixed_ok (demo n) n.
Proof. intros Hn. split; cbn; [reflexivity|lia|lia|lia]. Qed.
Lemma demo_br_some : byte_repr_assign demo_ch [7] [9] [0; 2 ^ 100] demo_frs = Some demo_br.
Proof.
  unfold demo_br. destruct (byte_repr_assign demo_ch [7] [9] [0; 2 ^ 100] demo_frs) eqn:Q; [reflexivity|].
  apply byte_repr_panics in Q. exfalso. inversion Q as [? ? X|? ? X]; subst; [|inversion X]. vm_compute in X. apply X. reflexivity.
Qed.
Lemma demo_kb_some : key_bit_assign demo_lookups = Some demo_kb.
Proof.
  unfold demo_kb. destruct (key_bit_assign demo_lookups) eqn:Q; [reflexivity|]. exfalso. revert Q. vm_compute. discriminate.
Qed.
Lemma demo_sat n : 2049 <= n <= 4000 -> satisfied (demo n) tables.
Proof.
  intros Hn. pose proof (demo_fixed n Hn) as F. split; [apply (fixed_wf _ n F)|].
  assert (HnN : n < eN (demo n)) by (cbn; lia).
  assert (Hq : 64 <= n / 32) by (apply Z.div_le_lower_bound; lia).
  assert (BR : holds (demo n) BR_cols demo_br).
  { intros c i Hc Hi. cbn [demo eadv]. unfold demo_adv. destruct (in_dec acol_eq_dec c BR_cols); [reflexivity|contradiction]. }
  assert (CR : forall c i, In c CR_cols -> 0 <= i < eN (demo n) -> eadv (demo n) c i = cr_cell (echal (demo n)) demo_keys n (A c) i).
  { intros c i Hc Hi. cbn [demo eadv echal]. unfold demo_adv. destruct (in_dec acol_eq_dec c BR_cols) as [X|_].
    - exfalso. revert Hc X. clear. unfold CR_cols, BR_cols. cbn [In]. intros H1 H2. repeat (destruct H1 as [<-|H1]; [repeat destruct H2 as [H2|H2]; try discriminate; exact H2|]). exact H1.
    - destruct (in_dec acol_eq_dec c CR_cols); [reflexivity|contradiction]. }
  assert (KB : holds (demo n) KB_cols demo_kb).
  { intros c i Hc Hi. cbn [demo eadv]. unfold demo_adv. destruct (in_dec acol_eq_dec c BR_cols) as [X|_].
    - exfalso. revert Hc X. clear. unfold KB_cols, BR_cols. cbn [In]. intros H1 H2. repeat (destruct H1 as [<-|H1]; [repeat destruct H2 as [H2|H2]; try discriminate; exact H2|]). exact H1.
    - destruct (in_dec acol_eq_dec c CR_cols) as [X|_].
      + exfalso. revert Hc X. clear. unfold KB_cols, CR_cols. cbn [In]. intros H1 H2. repeat (destruct H1 as [<-|H1]; [repeat destruct H2 as [H2|H2]; try discriminate; exact H2|]). exact H1.
      + destruct (in_dec acol_eq_dec c KB_cols); [reflexivity|contradiction]. }
  unfold tables. change (run (byte_representation_configure ;; canonical_representation_configure ;; key_bit_configure) (builder_new SEL))
    with (circuit_of (byte_representation_configure ;; canonical_representation_configure ;; key_bit_configure)).
  apply sat_seq. split; [|apply sat_seq; split].
  - apply (byte_repr_satisfied (demo n) n F [7] [9] [0; 2 ^ 100] demo_frs demo_br demo_br_some BR).
  - apply (canonical_satisfied (demo n) n F demo_keys); [cbn [demo_keys List.length]; lia|exact HnN|exact CR].
  - apply (key_bit_satisfied (demo n) n F demo_lookups demo_kb (kb_seq_cells _ _ demo_kb_some) KB).
    + unfold demo_lookups. repeat constructor; cbn; lia.
    + intros v k Hv Hk. apply (canonical_listed (demo n) n F demo_keys); try assumption; [cbn [demo_keys List.length]; lia|].
      destruct Hv as [->|[<-|[<-|[<-|[<-|[]]]]]]; [left|left|right; left|right; left|right; right; left]; reflexivity.
    + rewrite !CR by (cbn; tauto || lia). split; reflexivity.
Qed.
Lemma demo_BR n : holds (demo n) BR_cols demo_br.
Proof. intros c i Hc Hi. cbn [demo eadv]. unfold demo_adv. destruct (in_dec acol_eq_dec c BR_cols); [reflexivity|contradiction]. Qed.
Lemma demo_anchor n : 2049 <= n <= 4000 -> eadv (demo n) BR_index 1 = f0.
Proof.
  intros Hn. apply (byte_repr_anchor (demo n) n (demo_fixed n Hn) [7] [9] [0; 2 ^ 100] demo_frs demo_br demo_br_some (demo_BR n)).
Qed.
Lemma demo_lookup_7 n : 2049 <= n <= 4000 -> accepts (demo n) rlc_lookup [fz 7; fz 3; rlc [0; 0; 0; 7] demo_ch].
Proof.
  intros Hn. pose proof (demo_fixed n Hn) as F.
  assert (BR : holds (demo n) BR_cols demo_br).
  { intros c i Hc Hi. cbn [demo eadv]. unfold demo_adv. destruct (in_dec acol_eq_dec c BR_cols); [reflexivity|contradiction]. }
  apply (byte_repr_listed (demo n) n F [7] [9] [0; 2 ^ 100] demo_frs demo_br demo_br_some) with (len := 4%nat) (x := 7).
  - repeat constructor; lia.
  - repeat constructor; lia.
  - repeat constructor; lia.
  - exact BR.
  - cbn. lia.
  - left. split; [reflexivity|left; reflexivity].
Qed.
