(* Two different byte strings of the same length have the same RLC for at most length - 1 challenges. *)
From Coq Require Import ZArith List Bool Lia.
From Verif Require Import Pocklington Fr Bytes.
Import ListNotations.
Open Scope Z_scope.

Definition horner (r : Fr) (l : list Fr) (acc : Fr) : Fr := fold_left (fun acc c => (r * acc + c)%fr) l acc.
Fixpoint synth (a acc : Fr) (l : list Fr) : list Fr :=
  match l with [] => [] | c :: r => acc :: synth a (a * acc + c)%fr r end.
Lemma synth_length a acc l : length (synth a acc l) = length l.
Proof. revert acc. induction l as [|c l IH]; intros acc; cbn; auto. Qed.
Lemma synth_spec a r l : forall acc t, horner r l (acc + (r - a) * t)%fr = (horner a l acc + (r - a) * horner r (synth a acc l) t)%fr.
Proof.
  induction l as [|c l IH]; intros acc t; [cbn; ring|]. cbn [horner fold_left synth]. fold (horner r) (horner a).
  change (fold_left (fun acc0 c0 => (r * acc0 + c0)%fr) l ?x) with (horner r l x).
  change (fold_left (fun acc0 c0 => (a * acc0 + c0)%fr) l ?x) with (horner a l x).
  change (fold_left (fun acc0 c0 => (r * acc0 + c0)%fr) ?m ?x) with (horner r m x).
  rewrite <- IH. f_equal. ring.
Qed.
Lemma synth_zero a l : forall acc, Forall (fun c => c = f0) (synth a acc l) -> horner a l acc = f0 -> acc = f0 /\ Forall (fun c => c = f0) l.
Proof.
  induction l as [|c l IH]; intros acc F Z; [cbn in Z; split; [exact Z|constructor]|]. cbn [synth] in F. inversion F as [|? ? F0 F']; subst.
  destruct (IH (a * f0 + c)%fr F' Z) as [Q R]. split; [reflexivity|]. constructor; [|exact R]. rewrite <- Q. ring.
Qed.
Lemma all_zero_dec (l : list Fr) : Forall (fun c => c = f0) l \/ Exists (fun c => c <> f0) l.
Proof.
  induction l as [|c l [IH|IH]]; [left; constructor| |right; constructor 2; exact IH].
  destruct (Fr_eq_dec c f0); [left; constructor; assumption|right; constructor 1; assumption].
Qed.
Theorem roots_bound l : Exists (fun c => c <> f0) l -> forall roots, NoDup roots -> Forall (fun r => horner r l f0 = f0) roots ->
  (length roots < length l)%nat.
Proof.
  remember (length l) as n eqn:L. revert l L. induction n as [|n IH]; intros l L E roots N Z.
  - destruct l; [inversion E|discriminate L].
  - destruct roots as [|a rs]; [cbn; lia|]. destruct l as [|c l]; [discriminate L|].
    inversion N as [|? ? Na N']; subst. inversion Z as [|? ? Za Z']; subst. cbn [length]. apply le_n_S.
    assert (S0 : forall r, horner r (c :: l) f0 = horner r l c).
    { intros r. cbn [horner fold_left]. change (horner r l (r * 0 + c)%fr = horner r l c). f_equal. ring. }
    rewrite S0 in Za. destruct (all_zero_dec (synth a c l)) as [A|A].
    + destruct (synth_zero a l c A Za) as [C F]. exfalso. apply Exists_exists in E. destruct E as (x & Hx & Nx).
      destruct Hx as [->|Hx]; [contradiction|]. rewrite Forall_forall in F. apply Nx, F, Hx.
    + apply (IH (synth a c l)); [rewrite synth_length; injection L; auto|exact A|exact N'|].
      rewrite Forall_forall in *. intros r Hr. specialize (Z' r Hr). rewrite S0 in Z'.
      pose proof (synth_spec a r l c f0) as S. replace (c + (r - a) * 0)%fr with c in S by ring. rewrite Z', Za in S.
      assert (M : ((r - a) * horner r (synth a c l) f0 = 0)%fr) by (transitivity (f0 + (r - a) * horner r (synth a c l) f0)%fr; [ring|symmetry; exact S]).
      apply fmul_eq0 in M. destruct M as [M|M]; [|exact M]. apply (proj1 (fsub_eq0 _ _)) in M. subst r. contradiction.
Qed.
Lemma rlc_horner l r : rlc l r = horner r (map fz l) f0.
Proof. unfold rlc, horner. generalize f0. induction l as [|b l IH]; intros a; [reflexivity|]. cbn. apply IH. Qed.
Lemma horner_sub r a b : length a = length b -> forall x y, (horner r a x - horner r b y = horner r (map (fun p => (fst p - snd p)%fr) (combine a b)) (x - y)%fr)%fr.
Proof.
  revert b. induction a as [|c a IH]; intros [|d b] L x y; try discriminate L; [reflexivity|]. cbn [horner fold_left combine map fst snd].
  change (horner r a (r * x + c) - horner r b (r * y + d) = horner r (map (fun p => (fst p - snd p)%fr) (combine a b)) (r * (x - y) + (c - d)))%fr.
  rewrite IH by (injection L; auto). f_equal. ring.
Qed.
Theorem rlc_agree l l' : bytes_ok l -> bytes_ok l' -> length l = length l' -> l <> l' ->
  forall challenges, NoDup challenges -> Forall (fun r => rlc l r = rlc l' r) challenges -> (length challenges < length l)%nat.
Proof.
  intros B B' L Ne cs N F. set (d := map (fun p => (fst p - snd p)%fr) (combine (map fz l) (map fz l'))).
  assert (Ld : length d = length l) by (unfold d; rewrite map_length, combine_length, !map_length; lia).
  rewrite <- Ld. apply roots_bound; [|exact N|].
  - destruct (all_zero_dec d) as [A|A]; [exfalso|exact A]. apply Ne. clear - B B' L A. unfold d in A. clear d.
    revert l' B' L A. induction l as [|b l IH]; intros [|b' l'] B' L A; try discriminate L; [reflexivity|].
    inversion B as [|? ? Hb B2]; subst. inversion B' as [|? ? Hb' B2']; subst. cbn [map combine] in A. inversion A as [|? ? A0 A']; subst.
    cbn [fst snd] in A0. apply (proj1 (fsub_eq0 _ _)) in A0. unfold is_byte in *.
    assert (K : 256 < modulus) by reflexivity.
    apply fz_inj in A0; [|lia|lia]. f_equal; [exact A0|]. apply IH; auto.
  - rewrite Forall_forall in *. intros r Hr. unfold d. specialize (F r Hr). rewrite !rlc_horner in F.
    assert (S : (f0 - f0 = 0)%fr) by ring. rewrite <- S at 1. rewrite <- horner_sub by (rewrite !map_length; exact L). rewrite F. ring.
Qed.
(* the closed form *)
Lemma rlc_sum l r : rlc l r = fold_right (fun p acc => (fz (snd p) * fpow r (length l - 1 - fst p) + acc)%fr) f0 (combine (seq 0 (length l)) l).
Proof.
  assert (G : forall m k, rlc m r = fold_right (fun p acc => (fz (snd p) * fpow r (k + length m - 1 - fst p) + acc)%fr) f0 (combine (seq k (length m)) m)).
  { induction m as [|b m IH]; intros k; [reflexivity|]. change (b :: m) with ([b] ++ m) at 1. rewrite rlc_app.
    cbn [length seq combine fold_right fst snd]. rewrite (IH (S k)). f_equal.
    - cbn [rlc fold_left]. replace (k + S (length m) - 1 - k)%nat with (length m) by lia. unfold rlc. cbn [fold_left]. ring.
    - replace (k + S (length m) - 1)%nat with (S k + length m - 1)%nat by lia. reflexivity. }
  exact (G l 0%nat).
Qed.
