From Coq Require Import ZArith List Bool Lia.
From Verif Require Import Pocklington Fr Bytes Util UtilProofs Serde.
Import ListNotations.
Open Scope Z_scope.

Lemma hex_val_digit d : 0 <= d < 16 -> hex_val (hex_digit d) = Some d.
Proof.
  intros Hd. assert (C : In d (map Z.of_nat (seq 0 16))).
  { apply in_map_iff. exists (Z.to_nat d). split; [lia|]. apply in_seq. lia. }
  cbn in C. repeat (destruct C as [<-|C]; [reflexivity|]). contradiction.
Qed.
Lemma hex_encode_length l : length (hex_encode l) = (2 * length l)%nat.
Proof. induction l as [|b l IH]; [reflexivity|]. cbn [hex_encode flat_map app length]. fold (hex_encode l). lia. Qed.
Lemma hex_pairs_encode l : bytes_ok l -> hex_pairs (hex_encode l) = Some l.
Proof.
  induction l as [|b l IH]; intros B; [reflexivity|]. inversion B as [|? ? Hb B']; subst. unfold is_byte in Hb.
  cbn [hex_encode flat_map app hex_pairs]. fold (hex_encode l).
  rewrite !hex_val_digit, (IH B').
  - do 2 f_equal. pose proof (Z_div_mod_eq_full b 16). lia.
  - apply Z.mod_pos_bound. lia.
  - split; [apply Z.div_pos; lia|apply Z.div_lt_upper_bound; lia].
Qed.
Lemma decode_encode LEN l : length l = LEN -> bytes_ok l -> hex_decode_to_slice LEN (hex_encode l) = Some l.
Proof.
  intros L B. unfold hex_decode_to_slice. rewrite hex_encode_length. replace (Nat.odd (2 * length l)) with false.
  - rewrite Nat.div2_double, L, Nat.eqb_refl. apply hex_pairs_encode, B.
  - symmetry. rewrite Nat.odd_mul. reflexivity.
Qed.
Theorem hb_roundtrip LEN l : length l = LEN -> bytes_ok l -> hb_parse LEN (hb_serialize LEN l) = Some l.
Proof.
  intros L B. unfold hb_serialize, hb_parse, pad0, hb_hex. rewrite hex_encode_length, L. replace (LEN * 2 - 2 * LEN)%nat with 0%nat by lia.
  cbn [repeat app c0x starts_with_0x Z.eqb andb skipn]. apply decode_encode; assumption.
Qed.
Lemma hex_pairs_some s l : hex_pairs s = Some l -> length s = (2 * length l)%nat /\ Forall (fun c => hex_val c <> None) s /\ bytes_ok l.
Proof.
  assert (R : forall c x, hex_val c = Some x -> 0 <= x < 16).
  { intros c x. unfold hex_val. destruct ((65 <=? c) && (c <=? 70)) eqn:A; [|destruct ((97 <=? c) && (c <=? 102)) eqn:B; [|destruct ((48 <=? c) && (c <=? 57)) eqn:C]];
      intros E; try discriminate E; injection E as <-; lia. }
  revert l. assert (G : forall n s l, (length s <= n)%nat -> hex_pairs s = Some l -> length s = (2 * length l)%nat /\ Forall (fun c => hex_val c <> None) s /\ bytes_ok l).
  { induction n as [|n IH]; intros u l Hl E.
    - destruct u; [|cbn in Hl; lia]. injection E as <-. repeat split; constructor.
    - destruct u as [|a [|b r]]; [injection E as <-; repeat split; constructor|discriminate E|].
      cbn [hex_pairs] in E. destruct (hex_val a) as [x|] eqn:X; [|discriminate]. destruct (hex_val b) as [y|] eqn:Y; [|discriminate].
      destruct (hex_pairs r) as [l'|] eqn:Z; [|discriminate]. assert (E' : l = 16 * x + y :: l') by congruence. subst l. destruct (IH r l' ltac:(cbn in Hl; lia) Z) as (A & B & C).
      split; [cbn [length]; lia|]. split; [constructor; [congruence|constructor; [congruence|assumption]]|].
      constructor; [|assumption]. pose proof (R _ _ X). pose proof (R _ _ Y).
      unfold is_byte. lia. }
  intros l. apply (G (length s)). lia.
Qed.
Lemma hex_pairs_none s : Nat.odd (length s) = false -> Forall (fun c => hex_val c <> None) s -> exists l, hex_pairs s = Some l.
Proof.
  assert (G : forall n s, (length s <= n)%nat -> Nat.odd (length s) = false -> Forall (fun c => hex_val c <> None) s -> exists l, hex_pairs s = Some l).
  { induction n as [|n IH]; intros u Hl O F.
    - destruct u; [|cbn in Hl; lia]. eexists. reflexivity.
    - destruct u as [|a [|b r]]; [eexists; reflexivity|discriminate O|]. inversion F as [|? ? Fa F']; subst. inversion F' as [|? ? Fb Fr]; subst.
      destruct (IH r ltac:(cbn in Hl; lia) O Fr) as [l E]. cbn [hex_pairs]. rewrite E.
      destruct (hex_val a); [|congruence]. destruct (hex_val b); [|congruence]. eexists. reflexivity. }
  intros. apply (G (length s)); auto.
Qed.
Lemma decode_iff LEN s : (exists l, hex_decode_to_slice LEN s = Some l) <-> length s = (2 * LEN)%nat /\ Forall (fun c => hex_val c <> None) s.
Proof.
  unfold hex_decode_to_slice. split.
  - intros [l E]. destruct (Nat.odd (length s)); [discriminate|]. destruct (Nat.div2 (length s) =? LEN)%nat eqn:Q; [|discriminate].
    apply Nat.eqb_eq in Q. destruct (hex_pairs_some s l E) as (A & B & _). split; [|exact B]. rewrite A, Nat.div2_double in Q. lia.
  - intros [L F]. assert (O : Nat.odd (length s) = false) by (rewrite L, Nat.odd_mul; reflexivity). rewrite O.
    rewrite L, Nat.div2_double, Nat.eqb_refl. apply hex_pairs_none; assumption.
Qed.
(* the '0','x' of the prefix: 'x' is not a hex digit *)
Lemma not_prefix s : Forall (fun c => hex_val c <> None) s -> starts_with_0x s = false.
Proof.
  intros F. destruct s as [|a [|b r]]; try reflexivity. cbn [starts_with_0x]. destruct (b =? 120) eqn:Q; [|apply andb_false_r].
  apply Z.eqb_eq in Q. subst b. inversion F as [|? ? _ F']; subst. inversion F' as [|? ? C _]; subst. contradiction C. reflexivity.
Qed.
Theorem hb_parse_prefix LEN s : starts_with_0x s = false -> hb_parse LEN (c0x ++ s) = hb_parse LEN s.
Proof. intros E. unfold hb_parse. rewrite E. reflexivity. Qed.
Definition hex_string (n : nat) (s : str) : Prop := length s = n /\ Forall (fun c => hex_val c <> None) s.
Theorem hb_parse_iff LEN s : (exists l, hb_parse LEN s = Some l) <->
  hex_string (2 * LEN) s \/ exists s', s = c0x ++ s' /\ hex_string (2 * LEN) s'.
Proof.
  unfold hb_parse, hex_string. destruct (starts_with_0x s) eqn:Q.
  - rewrite decode_iff. destruct s as [|a [|b r]]; try discriminate Q. cbn in Q. apply andb_prop in Q as [Qa Qb].
    apply Z.eqb_eq in Qa. apply Z.eqb_eq in Qb. subst a b. cbn [skipn]. split.
    + intros X. right. exists r. split; [reflexivity|exact X].
    + intros [[_ X]|(s' & E & X)]; [exfalso|].
      * inversion X as [|? ? _ X']; subst. inversion X' as [|? ? C _]; subst. apply C. reflexivity.
      * injection E as <-. exact X.
  - rewrite decode_iff. split; [intros X; left; exact X|]. intros [X|(s' & -> & X)]; [exact X|]. discriminate Q.
Qed.
Theorem hb_parse_bytes LEN s l : hb_parse LEN s = Some l -> length l = LEN /\ bytes_ok l.
Proof.
  assert (D : forall u, hex_decode_to_slice LEN u = Some l -> length l = LEN /\ bytes_ok l).
  { intros u. unfold hex_decode_to_slice. destruct (Nat.odd (length u)); [discriminate|]. destruct (Nat.div2 (length u) =? LEN)%nat eqn:Q; [|discriminate].
    intros E. apply Nat.eqb_eq in Q. destruct (hex_pairs_some u l E) as (A & _ & B). rewrite A, Nat.div2_double in Q. auto. }
  unfold hb_parse. destruct (starts_with_0x s); apply D.
Qed.
Lemma overwrite_length out src : length (hb_overwrite out src) = length out.
Proof. revert src. induction out as [|o out IH]; intros [|s src]; cbn; auto. Qed.
Lemma overwrite_nth out src i : (i < length out)%nat -> nth i (hb_overwrite out src) 0 = if (i <? length src)%nat then nth i src 0 else nth i out 0.
Proof.
  revert src i. induction out as [|o out IH]; intros [|s src] i Hi; cbn [length] in *; try lia; [reflexivity|].
  destruct i as [|i]; [reflexivity|]. cbn [hb_overwrite nth]. rewrite IH by lia. reflexivity.
Qed.
Theorem hb_cast_spec M l : length (hb_cast M l) = M /\ forall i, (i < M)%nat -> nth i (hb_cast M l) 0 = if (i <? length l)%nat then nth i l 0 else 0.
Proof.
  unfold hb_cast. split; [rewrite overwrite_length; apply repeat_length|]. intros i Hi.
  rewrite overwrite_nth by (rewrite repeat_length; exact Hi). destruct (i <? length l)%nat; [reflexivity|]. apply nth_repeat.
Qed.

(** ** big integers *)
(* the number a string of hexadecimal digits denotes *)
Definition hex_number (s : str) : Z := fold_left (fun acc c => 16 * acc + match hex_val c with Some d => d | None => 0 end) s 0.
Lemma radix_hex c : hex_val c <> None -> radix_val 16 c = hex_val c /\ c <> 95 /\ c <> 43.
Proof.
  unfold hex_val, radix_val. destruct ((65 <=? c) && (c <=? 70)) eqn:A; [|destruct ((97 <=? c) && (c <=? 102)) eqn:B; [|destruct ((48 <=? c) && (c <=? 57)) eqn:C]].
  - intros _. split; [|lia]. replace ((48 <=? c) && (c <=? 57)) with false by lia. replace ((97 <=? c) && (c <=? 122)) with false by lia.
    replace ((65 <=? c) && (c <=? 90)) with true by lia. replace (c - 65 + 10 <? 16) with true by lia. f_equal. lia.
  - intros _. split; [|lia]. replace ((48 <=? c) && (c <=? 57)) with false by lia. replace ((97 <=? c) && (c <=? 122)) with true by lia.
    replace (c - 97 + 10 <? 16) with true by lia. f_equal. lia.
  - intros _. split; [|lia]. rewrite ?C. replace (c - 48 <? 16) with true by lia. reflexivity.
  - congruence.
Qed.
Lemma radix_digits_hex s acc : Forall (fun c => hex_val c <> None) s ->
  radix_digits 16 s acc = Some (fold_left (fun acc c => 16 * acc + match hex_val c with Some d => d | None => 0 end) s acc).
Proof.
  revert acc. induction s as [|c s IH]; intros acc F; [reflexivity|]. inversion F as [|? ? Fc F']; subst.
  destruct (radix_hex c Fc) as (E & N & _). cbn [radix_digits fold_left]. replace (c =? 95) with false by lia. rewrite E.
  destruct (hex_val c) as [d|]; [|congruence]. apply IH, F'.
Qed.
Lemma parse_hex s : s <> [] -> Forall (fun c => hex_val c <> None) s -> parse_bytes s 16 = Some (hex_number s).
Proof.
  intros Ne F. destruct s as [|c r]; [congruence|]. inversion F as [|? ? Fc F']; subst. destruct (radix_hex c Fc) as (_ & N1 & N2).
  unfold parse_bytes. cbn [strip_plus]. replace (c =? 43) with false by lia. cbn [andb]. replace (c =? 95) with false by lia. apply radix_digits_hex, F.
Qed.
Theorem de_hex s : s <> [] -> Forall (fun c => hex_val c <> None) s ->
  de_uint_hex s = Some (hex_number s) /\ de_uint_hex (c0x ++ s) = Some (hex_number s).
Proof.
  intros Ne F. unfold de_uint_hex. rewrite (not_prefix s F). split; [apply parse_hex; assumption|].
  cbn [c0x app starts_with_0x Z.eqb andb skipn length]. destruct s as [|c r]; [congruence|]. cbn [length Nat.eqb]. apply parse_hex; assumption.
Qed.
Lemma hex_number_acc s a : fold_left (fun acc c => 16 * acc + match hex_val c with Some d => d | None => 0 end) s a = a * 16 ^ Z.of_nat (length s) + hex_number s.
Proof.
  unfold hex_number. revert a. induction s as [|c s IH]; intros a; [cbn; lia|]. cbn [fold_left length]. rewrite IH, (IH (16 * 0 + _)).
  rewrite Nat2Z.inj_succ, Z.pow_succ_r by lia. ring.
Qed.
Lemma hex_number_app a b : hex_number (a ++ b) = hex_number a * 16 ^ Z.of_nat (length b) + hex_number b.
Proof. unfold hex_number at 1. rewrite fold_left_app. apply hex_number_acc. Qed.
Lemma hex_number_zeros k s : hex_number (repeat 48 k ++ s) = hex_number s.
Proof. rewrite hex_number_app. replace (hex_number (repeat 48 k)) with 0; [lia|]. induction k as [|k IH]; [reflexivity|]. cbn [repeat]. change (48 :: repeat 48 k) with ([48] ++ repeat 48 k). rewrite hex_number_app, <- IH. cbn. lia. Qed.
Lemma to_hex_digits z : 0 <= z -> Forall (fun c => hex_val c <> None) (to_hex z) /\ to_hex z <> [] /\ hex_number (to_hex z) = z.
Proof.
  intros Hz. unfold to_hex. pose proof (digits_fuel_spec 16 (zsize z) z ltac:(lia) Hz (le_n _)) as S.
  pose proof (digits_range 16 (zsize z) z ltac:(lia)) as R. destruct (digits_fuel (zsize z) 16 z) as [|d l] eqn:Q.
  - cbn in S. subst z. split; [repeat constructor; discriminate|]. split; [discriminate|reflexivity].
  - assert (R' : Forall (fun d => 0 <= d < 16) (rev (d :: l))) by (rewrite Forall_forall in *; intros x Hx; apply R, in_rev, Hx).
    assert (N : forall m, Forall (fun d => 0 <= d < 16) m -> hex_number (map hex_digit (rev m)) = of_digits 16 m).
    { induction m as [|x m IH]; intros F; [reflexivity|]. inversion F as [|? ? Fx F']; subst. cbn [rev of_digits]. rewrite map_app, hex_number_app, (IH F').
      cbn [map length]. unfold hex_number. cbn [fold_left]. rewrite hex_val_digit by exact Fx. lia. }
    split; [|split].
    + rewrite Forall_map. eapply Forall_impl; [|exact R']. intros x Hx. cbv beta in Hx. rewrite hex_val_digit by exact Hx. discriminate.
    + destruct (rev (d :: l)) eqn:T; [|discriminate]. apply (f_equal (@length Z)) in T. rewrite rev_length in T. discriminate.
    + rewrite <- S. rewrite <- N by exact R. reflexivity.
Qed.
Theorem uint_roundtrip z : 0 <= z -> de_uint_hex (se_uint_hex z) = Some z /\ de_uint_hex (se_uint_hex_fixed32 z) = Some z.
Proof.
  intros Hz. destruct (to_hex_digits z Hz) as (F & Ne & E). unfold se_uint_hex, se_uint_hex_fixed32, pad0. split.
  - rewrite (proj2 (de_hex _ Ne F)), E. reflexivity.
  - rewrite (proj2 (de_hex (repeat 48 (64 - length (to_hex z)) ++ to_hex z) ltac:(destruct (repeat _ _); cbn; congruence) ltac:(apply Forall_app; split; [rewrite Forall_forall; intros x Hx; apply repeat_spec in Hx; subst x; discriminate|exact F]))).
    rewrite hex_number_zeros, E. reflexivity.
Qed.
Theorem fixed32_length z : 0 <= z < 2 ^ 256 -> length (se_uint_hex_fixed32 z) = 66%nat.
Proof.
  intros Hz. unfold se_uint_hex_fixed32, pad0. assert (L : (length (to_hex z) <= 64)%nat).
  { unfold to_hex. pose proof (digits_len 16 (zsize z) z 64 ltac:(lia) ltac:(exact Hz)). destruct (digits_fuel (zsize z) 16 z); [cbn; lia|].
    rewrite map_length, rev_length. assumption. }
  rewrite !app_length, repeat_length. cbn [c0x length]. lia.
Qed.

(** ** grouping *)
Section Fold.
  Context {R : Type} (is_first : R -> bool).
  Definition group_ok (g : list R) : Prop := match g with [] => False | _ :: r => Forall (fun x => is_first x = false) r end.
  Definition starts_first (g : list R) : Prop := match g with [] => False | x :: _ => is_first x = true end.
  Definition grouped (rows : list R) (gs : list (list R)) : Prop :=
    concat gs = rows /\ Forall group_ok gs /\ Forall starts_first (tl gs).
  Lemma fold_inv rows out current : (current = [] -> out = []) -> Forall group_ok out -> Forall starts_first (tl (out ++ match current with [] => [] | _ => [current] end)) ->
    (current = [] \/ group_ok current) ->
    let '(out', current') := fold_left (fold_step is_first) rows (out, current) in
    concat (out' ++ match current' with [] => [] | _ => [current'] end) = concat (out ++ match current with [] => [] | _ => [current] end) ++ rows /\
    Forall group_ok (out' ++ match current' with [] => [] | _ => [current'] end) /\
    Forall starts_first (tl (out' ++ match current' with [] => [] | _ => [current'] end)).
  Proof.
    revert out current. induction rows as [|r rows IH]; intros out current C G S K.
    - cbn [fold_left]. rewrite app_nil_r. split; [reflexivity|]. split; [|exact S]. apply Forall_app. split; [exact G|].
      destruct current; [constructor|]. constructor; [|constructor]. destruct K as [K|K]; [discriminate K|exact K].
    - cbn [fold_left fold_step]. destruct current as [|c cs].
      + rewrite (C eq_refl) in *. specialize (IH [] [r]). cbn [app] in IH. cbn [app concat]. destruct (fold_left (fold_step is_first) rows ([], [r])) as [o' c'].
        cbn [app concat] in IH. apply IH; try discriminate; [constructor|constructor|]. right. cbn. constructor.
      + destruct (is_first r) eqn:Q.
        * specialize (IH (out ++ [c :: cs]) [r]). destruct (fold_left (fold_step is_first) rows (out ++ [c :: cs], [r])) as [o' c'].
          destruct IH as (A & B & D).
          -- discriminate.
          -- apply Forall_app. split; [exact G|]. constructor; [|constructor]. destruct K as [K|K]; [discriminate K|exact K].
          -- destruct out as [|o out]; cbn [app tl] in *; [constructor; [exact Q|constructor]|]. apply Forall_app. split; [exact S|]. constructor; [exact Q|constructor].
          -- right. cbn. constructor.
          -- split; [|split; assumption]. rewrite A. rewrite !concat_app. cbn [concat app]. rewrite app_nil_r, <- !app_assoc. reflexivity.
        * specialize (IH out ((c :: cs) ++ [r])). destruct (fold_left (fold_step is_first) rows (out, (c :: cs) ++ [r])) as [o' c'].
          destruct IH as (A & B & D).
          -- discriminate.
          -- exact G.
          -- destruct out as [|o out]; cbn [app tl] in *; [exact S|]. apply Forall_app in S. destruct S as [S1 S2]. apply Forall_app. split; [exact S1|].
             inversion S2; subst. constructor; [assumption|constructor].
          -- right. cbn. destruct K as [K|K]; [discriminate K|]. cbn in K. apply Forall_app. split; [exact K|]. constructor; [exact Q|constructor].
          -- split; [|split; assumption]. rewrite A. cbn [app]. rewrite !concat_app. cbn [concat app]. rewrite !app_nil_r, <- !app_assoc. cbn [app]. rewrite <- app_assoc. reflexivity.
  Qed.
  Theorem fold_grouped rows : grouped rows (fold_flattern_rows is_first rows).
  Proof.
    unfold fold_flattern_rows, grouped. pose proof (fold_inv rows [] [] (fun _ => eq_refl) (Forall_nil _) (Forall_nil _) (or_introl eq_refl)) as I.
    destruct (fold_left (fold_step is_first) rows ([], [])) as [o c]. cbn [app concat] in I. destruct c; [rewrite app_nil_r in I|]; exact I.
  Qed.
End Fold.
