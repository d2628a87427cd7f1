(* What the helper tables of a filled table offer to the update rows. *)
From Coq Require Import ZArith List Bool Lia.
From Verif Require Import Pocklington Fr Query Builder BuilderProofs Gadgets MptUpdate Bytes Fixed GadgetProofs Util UtilProofs Serde Trie Storage Types Lookups LookupProofs
  Assign AssignProofs AssignOk AssignRegion GadgetMain GadgetMain2 LookupMain UpdateAssign MptAssign MptModes.
Import ListNotations.
Open Scope Z_scope.

Record tables (e : env) (traces : list Trace) (lookups : list (Fr * Z * bool)) (u32s u64s u128s : list Z) (frs keys : list Fr) : Prop := {
  tb_hash : forall l r d h, In ((l, r), d, h) traces -> poseidon_hit e l r d h;
  tb_bit : forall v x b, In (v, x, b) lookups -> accepts e key_bit_lookup [v; fz x; fb b];
  tb_root : forall v, In v keys -> accepts e fr_rlc_lookup [v; rlc_fr v (echal e)];
  tb_32 : forall x, In x u32s -> 0 <= x < 2 ^ 32 -> accepts e bytes_lookup [fz x; fz 3];
  tb_64 : forall x, In x u64s -> 0 <= x < 2 ^ 64 -> accepts e bytes_lookup [fz x; fz 7];
  tb_128 : forall x, In x u128s -> 0 <= x < 2 ^ 128 -> accepts e bytes_lookup [fz x; fz 15] /\ accepts e rlc_lookup [fz x; fz 15; rlc (be_bytes 16 x) (echal e)];
  tb_fr : forall v, In v frs -> accepts e rlc_lookup [v; fz 30; rlc (be_bytes 31 (val v)) (echal e)];
  tb_zero : In 0 u128s -> accepts e bytes_lookup [f0; fz 3] }.

Section One.
  Variable e : env.
  Variable n : Z.
  Hypothesis F : fixed_ok e n.
  Variables (u32s u64s u128s : list Z) (frs : list Fr) (ws : list write).
  Hypothesis E : byte_repr_assign (echal e) u32s u64s u128s frs = Some ws.
  Hypothesis HB : holds e BR_cols ws.
  Hypothesis Hfit : byte_repr_n_rows u32s u64s u128s frs <= n.
  Lemma string_one ss len x : br_strings u32s u64s u128s frs = Some ss -> listed u32s u64s u128s frs len x -> In (be_bytes len x) ss /\ (0 < len)%nat.
  Proof.
    unfold br_strings. destruct (all_some fr_to_big_endian frs) as [fs|] eqn:Q; [|discriminate]. intros X. apply some_eq in X. subst ss.
    intros [[-> Hx]|[[-> Hx]|[[-> Hx]|[-> (v & Hv & ->)]]]].
    - split; [|lia]. rewrite !in_app_iff. left. apply in_map_iff. exists x. split; [reflexivity|exact Hx].
    - split; [|lia]. rewrite !in_app_iff. right. left. apply in_map_iff. exists x. split; [reflexivity|exact Hx].
    - split; [|lia]. rewrite !in_app_iff. right. right. left. apply in_map_iff. exists x. split; [reflexivity|exact Hx].
    - apply all_some_spec in Q.
      assert (X : exists bs, In bs fs /\ fr_to_big_endian v = Some bs).
      { clear - Q Hv. induction Q as [|a b l l' H1 H2 IH]; [destruct Hv|]. destruct Hv as [<-|Hv]; [exists b; split; [left; reflexivity|exact H1]|].
        destruct (IH Hv) as (bs & I1 & I2). exists bs. split; [right; exact I1|exact I2]. }
      destruct X as (bs & I1 & I2). apply fr_be in I2. destruct I2 as (_ & _ & V & Eb). rewrite <- Eb. split; [|lia].
      rewrite !in_app_iff. auto.
  Qed.
  Lemma byte_repr_one len x : listed u32s u64s u128s frs len x -> 0 <= x < 256 ^ Z.of_nat len ->
    accepts e bytes_lookup [fz x; fz (Z.of_nat len - 1)] /\
    accepts e rlc_lookup [fz x; fz (Z.of_nat len - 1); rlc (be_bytes len x) (echal e)].
  Proof.
    intros L R. destruct (br_ss e _ _ _ _ _ E) as (ss & Q & Ew). destruct (string_one ss len x Q L) as (Hin & Hl).
    pose proof (be_val_be_bytes len x R) as V.
    assert (Ne : be_bytes len x <> []) by (intros X; apply (f_equal (@List.length Z)) in X; rewrite be_bytes_length in X; cbn in X; lia).
    pose proof (rows_count e _ _ _ _ ss Q) as C.
    split; apply (accepts_hit e 0); cbn [map].
    - apply (br_hit2 e n F (echal e) ss eq_refl (br_holds e _ HB ss Ew) (be_bytes len x)); try assumption; [lia|cbn [eval]; rewrite V; reflexivity|cbn [eval]; rewrite be_bytes_length; reflexivity].
    - apply (br_hit e n F (echal e) ss (br_holds e _ HB ss Ew) (be_bytes len x)); try assumption; [lia|cbn [eval]; rewrite V; reflexivity|cbn [eval]; rewrite be_bytes_length; reflexivity|reflexivity].
  Qed.
  Lemma zero_prefix : In 0 u128s -> accepts e bytes_lookup [f0; fz 3].
  Proof.
    intros L. destruct (br_ss e _ _ _ _ _ E) as (ss & Q & Ew). destruct (string_one ss 16 0 Q) as (Hin & _); [unfold listed; tauto|].
    pose proof (rows_count e _ _ _ _ ss Q) as C. pose proof (fo_rows e n F) as Hr. pose proof (fo_usable e n F) as Hus.
    apply in_split in Hin. destruct Hin as (a & b & Es).
    set (la := length (flat_map (fun bs => br_bytes_rows (echal e) bs 0 f0 f0) a)).
    assert (Lr : Z.of_nat la + 16 <= Z.of_nat (length (flat_map (fun bs => br_bytes_rows (echal e) bs 0 f0 f0) ss))).
    { rewrite Es, flat_map_app. cbn [flat_map]. rewrite !app_length, br_bytes_length, be_bytes_length. fold la. lia. }
    assert (Hk : (3 < length (be_bytes 16 0))%nat) by (rewrite be_bytes_length; lia).
    pose proof (br_at_pos e n F (echal e) ss (br_holds e _ HB ss Ew) a _ b 3 Es Hk) as B. fold la in B.
    specialize (B ltac:(lia)). destruct B as (_ & _ & Bv & _ & Bx & _).
    exists (1 + Z.of_nat la + Z.of_nat 3). split.
    - split; [lia|]. apply (sel_on e n F). lia.
    - unfold bytes_lookup. cbn [map]. rewrite !eval_cur by lia. rewrite Bv, Bx. reflexivity.
  Qed.
End One.

(* what a filled table needs from the outside: a Poseidon table listing the recorded hashes, with a blank row *)
Definition poseidon_listed (e : env) (traces : list Trace) : Prop :=
  (forall l r d h, In ((l, r), d, h) traces -> poseidon_hit e l r d h) /\
  exists t, 0 <= t < eusable e /\ Forall (fun q => eval e t q = f0) poseidon_table.

Section Tables.
  Context {H par proofs n r ws reprs lookups upd cr kb br} (P : assigned H par proofs n r ws reprs lookups upd cr kb br).
  Variable e : env.
  Hypothesis FL : filled e r ws.
  Hypothesis Hn : 2049 <= n <= eusable e.
  Hypothesis Hu : eusable e <= eN e.
  Hypothesis Hs : eN e < 2 ^ 64.
  Hypothesis HnN : n < eN e.
  Hypothesis Hlk : Z.of_nat (length lookups) < n.
  Hypothesis Hbr : byte_repr_n_rows (re_u32s reprs) (re_u64s reprs) (re_u128s reprs) (re_frs reprs) <= n.
  Variable traces : list Trace.
  Hypothesis PL : poseidon_listed e traces.
  Theorem filled_tables : tables e traces lookups (re_u32s reprs) (re_u64s reprs) (re_u128s reprs) (re_frs reprs) (mpt_update_keys H proofs).
  Proof.
    pose proof (filled_fixed P e FL Hn Hu Hs) as F.
    assert (E : byte_repr_assign (echal e) (re_u32s reprs) (re_u64s reprs) (re_u128s reprs) (re_frs reprs) = Some br).
    { rewrite (fl_chal _ _ _ FL). apply (as_br _ _ _ _ _ _ _ _ _ _ _ _ P). }
    assert (HB : holds e BR_cols br) by (intros c i Hc Hi; apply (filled_br P e FL); assumption).
    pose proof (byte_repr_one e n F _ _ _ _ _ E HB Hbr) as B.
    constructor.
    - apply PL.
    - intros v x b. apply (filled_bits P e FL Hn Hu Hs Hlk).
    - intros v Hv. apply (filled_roots P e FL Hn Hu Hs HnN). exact Hv.
    - intros x Hx Rx. apply (B 4%nat x); [unfold listed; tauto|exact Rx].
    - intros x Hx Rx. apply (B 8%nat x); [unfold listed; tauto|exact Rx].
    - intros x Hx Rx. apply (B 16%nat x); [unfold listed; tauto|exact Rx].
    - intros v Hv. destruct (B 31%nat (val v)) as [_ B2].
      + unfold listed. do 3 right. split; [reflexivity|]. eauto.
      + pose proof (val_range v). split; [lia|]. apply fr_be_some. destruct (br_ss e _ _ _ _ _ E) as (ss & Q & _). unfold br_strings in Q.
        destruct (all_some fr_to_big_endian (re_frs reprs)) as [fs|] eqn:A; [|discriminate Q]. clear - A Hv. apply all_some_spec in A.
        induction A as [|a b l l' H1 H2 IH]; [destruct Hv|]. destruct Hv as [<-|Hv]; [eauto|exact (IH Hv)].
      + rewrite fz_val in B2. exact B2.
    - apply (zero_prefix e n F _ _ _ _ _ E HB Hbr).
  Qed.
End Tables.
