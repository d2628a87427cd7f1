(* A challenge under which a prover is lucky: an example for the theorem about lucky challenges. *)
From Coq Require Import ZArith List Bool Lia.
From Verif Require Import Pocklington Fr Query Builder BuilderProofs Gadgets MptUpdate Fixed Bytes GadgetProofs UpdateRows UpdateSound TrieSpec Util UtilProofs Types GadgetMain HonestTrace UpdateProps TableSpec HonestSpec HonestMain HonestCase SoundCase RefuteCase ChangeSpec NewAccount NewProps NewCase HistorySpec History HistoryCase PhaseSpec Challenge.
Import ListNotations.
Open Scope Z_scope.

(* the balance 3 of account 11, claimed as 3 plus the modulus *)
Definition false_balance : request := Request (ad 11) 0 BalanceChanged (state_root mix S1) (state_root mix S1) (3 + modulus) (3 + modulus).
Lemma false_balance_ok : request_ok false_balance.
Proof.
  assert (W : word_ok (3 + modulus)) by (unfold word_ok; split; [discriminate|reflexivity]). assert (A : 0 <= ad 11 < 2 ^ 160) by (split; [discriminate|reflexivity]).
  split; cbn [rq_address rq_slot rq_kind rq_new rq_old false_balance value_ok]; [exact A|unfold word_ok; lia|exact W|exact W].
Qed.
Lemma word_wraps : word_rlc (fz 256) (3 + modulus) = word_rlc (fz 256) 3.
Proof.
  rewrite !word_256 by (unfold word_ok; split; [discriminate|reflexivity]). apply fz_eq_mod. rewrite <- (Z.mul_1_l modulus) at 1. rewrite Z.mod_add; [reflexivity|discriminate].
Qed.
Theorem lucky_case : exists e, fooled mix e 2081 false_balance S1 S1 (fz 256).
Proof.
  destruct (sound_case2 (fz 256)) as (e & OK & Ch & _ & CF & Cl).
  assert (I1 : In (Update (ad 11) S1 S1 BalanceChanged (account_trace_of mix S1 S1 (ad 11))) us) by (do 9 right; left; reflexivity).
  destruct (Cl _ I1) as (s1 & Y1 & X1). assert (Is : In S1 states) by (right; left; reflexivity).
  assert (A : step mix (fun _ : env => regular mix) e s1 S1 S1).
  { refine (case_step e us states _ s1 OK Ch CF us_ok I1 _ Is Is Y1 X1 (fun _ : env => regular mix) _); [reflexivity|]. left. rewrite (key_eq _ s1 _ Y1). apply present_11. right; left. reflexivity. }
  assert (E : s1 = requested (fz 256) false_balance).
  { destruct Y1 as (Q1 & Q2 & Q3 & Q4 & Q5 & Q6 & Q7). cbn [u_address u_kind u_old u_new] in *. destruct s1 as [y0 y1 y2 y3 y4 y5 y6]. cbn [st_address st_slot_rlc st_kind st_new_root st_old_root st_new_value st_old_value] in *.
    assert (V : field_value (fz 256) BalanceChanged (get S1 0 (addr_key mix (ad 11))) = word_rlc (fz 256) 3).
    { assert (G : get S1 0 (addr_key mix (ad 11)) = Some (set_nonce 8 A1)) by (vm_compute; reflexivity). rewrite G. reflexivity. }
    rewrite V in Q6, Q7. unfold requested, false_balance, value_column. cbn [rq_address rq_slot rq_kind rq_new_root rq_old_root rq_new rq_old].
    rewrite word_wraps, word_rlc_0, Q1, Q2, Q3, Q4, Q5, Q6, Q7. reflexivity. }
  subst s1. destruct A as (n' & i & _ & I2 & I3 & [_ _ _ _ _] & [T1 T2 T3 T4 _ _ _ _ T9] & _).
  exists e, e. split; [split; intros; reflexivity|]. split; [exact Ch|]. split; [exact OK|]. split; [exact X1|].
  assert (Nz : fz (ad 11) <> f0).
  { intros Q. change f0 with (fz 0) in Q. apply fz_inj in Q; [discriminate Q|apply small_lt_modulus; split; [discriminate|reflexivity]|apply small_lt_modulus; lia]. }
  split; [intros Q; apply Nz; exact (f_equal (fun l => nth 0 l f0) Q)|]. split; [intros Q; apply Nz; exact (f_equal (fun l => nth 0 l f0) Q)|].
  split.
  - split; [exact T1|exact T2|exact T3|exact T4|left; reflexivity|left; reflexivity|apply bits_all|apply bits_all|exact T9].
  - intros Tr. assert (G : get S1 0 (addr_key mix (ad 11)) = Some (set_nonce 8 A1)) by (vm_compute; reflexivity).
    destruct (tc_field _ _ _ _ Tr _ G ltac:(right; left; reflexivity)) as [Q _]. discriminate Q.
Qed.
(* for any list of challenges that contain this one: the hypotheses of the theorem hold for one challenge *)
Theorem lucky_example : exists e, Forall (fun x => request_ok (fst x)) [(false_balance, (S1, S1))] /\ NoDup [fz 256] /\
  (forall c, In c [fz 256] -> exists q t t', In (q, (t, t')) [(false_balance, (S1, S1))] /\ fooled mix e 2081 q t t' c).
Proof.
  destruct lucky_case as (e & L). exists e. split; [apply Forall_cons; [exact false_balance_ok|apply Forall_nil]|]. split; [apply NoDup_cons; [intros []|apply NoDup_nil]|].
  intros c [<-|[]]. exists false_balance, S1, S1. split; [left; reflexivity|exact L].
Qed.
