(* Exactly which strings the deserializers of src/serde.rs accept and the value each denotes.  Lemmas for PropsSerde.v. *)
From Coq Require Import ZArith List Bool Lia.
From Verif Require Import Bytes Util UtilProofs Serde SerdeProofs SerdeSpec.
Import ListNotations.
Open Scope Z_scope.

(** * Proofs *)
Lemma radix_val_hex c : (hex_digit_char c -> radix_val 16 c = Some (digit_value c)) /\ (forall v, radix_val 16 c = Some v -> hex_digit_char c).
Proof.
  unfold radix_val, hex_digit_char, digit_value.
  destruct ((48 <=? c) && (c <=? 57)) eqn:A; [|destruct ((97 <=? c) && (c <=? 122)) eqn:B; [|destruct ((65 <=? c) && (c <=? 90)) eqn:D]]; split; intros;
    repeat match goal with |- context [?a <? ?b] => destruct (Z.ltb_spec a b) | H : context [?a <? ?b] |- _ => destruct (Z.ltb_spec a b) | |- context [?a <=? ?b] => destruct (Z.leb_spec a b) end;
    try (f_equal; lia); try discriminate; lia.
Qed.
Lemma radix_val_bin c : (bin_digit_char c -> radix_val 2 c = Some (digit_value c)) /\ (forall v, radix_val 2 c = Some v -> bin_digit_char c).
Proof.
  unfold bin_digit_char. split; [intros [-> | ->]; reflexivity|]. intros v. unfold radix_val.
  destruct ((48 <=? c) && (c <=? 57)) eqn:A; [|destruct ((97 <=? c) && (c <=? 122)) eqn:B; [|destruct ((65 <=? c) && (c <=? 90)) eqn:D]];
    repeat match goal with |- context [?a <? ?b] => destruct (Z.ltb_spec a b) end; intros; try discriminate; lia.
Qed.
Lemma some_inj_z (x y : Z) : Some x = Some y -> x = y.
Proof. congruence. Qed.
Section Radix.
  Variable (radix : Z) (digit : Z -> Prop).
  Hypothesis R : forall c, (digit c -> radix_val radix c = Some (digit_value c)) /\ (forall v, radix_val radix c = Some v -> digit c).
  Hypothesis N : forall c, digit c -> c <> 95 /\ c <> 43.
  Let width (r : list Z) : Z := radix ^ Z.of_nat (length (filter (fun c => negb (c =? underscore)) r)).
  Lemma width_cons c r : c <> 95 -> width (c :: r) = radix * width r.
  Proof. intros H. unfold width. cbn [filter]. unfold underscore. destruct (Z.eqb_spec c 95); [contradiction|]. cbn [negb length]. rewrite Nat2Z.inj_succ, Z.pow_succ_r by lia. reflexivity. Qed.
  Lemma width_under r : width (95 :: r) = width r.
  Proof. reflexivity. Qed.
  Lemma digits_some s acc : Forall (fun c => digit c \/ c = underscore) s -> radix_digits radix s acc = Some (acc * width s + denotes radix s).
  Proof.
    revert acc. induction s as [|c r IH]; intros acc F; [cbn; f_equal; lia|]. inversion F as [|? ? Fc F']; subst. cbn [radix_digits denotes]. unfold underscore at 1.
    destruct (Z.eqb_spec c 95) as [->|E]; [rewrite (IH _ F'), width_under; reflexivity|]. destruct Fc as [D|D]; [|destruct (E D)].
    rewrite (proj1 (R c) D), (IH _ F'), (width_cons c r E). f_equal. unfold width. ring.
  Qed.
  Lemma digits_inv s acc v : radix_digits radix s acc = Some v -> Forall (fun c => digit c \/ c = underscore) s.
  Proof.
    revert acc. induction s as [|c r IH]; intros acc E; [constructor|]. cbn [radix_digits] in E. destruct (Z.eqb_spec c 95) as [->|E1]; [constructor; [right; reflexivity|exact (IH _ E)]|].
    destruct (radix_val radix c) as [d|] eqn:V; [|discriminate]. constructor; [left; exact (proj2 (R c) d V)|exact (IH _ E)].
  Qed.
  Lemma numeral_all s : numeral digit s -> Forall (fun c => digit c \/ c = underscore) s.
  Proof. destruct s as [|c r]; [intros []|]. intros (D & F). constructor; [left; exact D|exact F]. Qed.
  Lemma strip_numeral t : numeral digit t -> strip_plus t = t /\ strip_plus (43 :: t) = t.
  Proof.
    destruct t as [|c r]; [intros []|]. intros (D & _). destruct (N c D) as (_ & P). split; unfold strip_plus; destruct (Z.eqb_spec c 43); try contradiction; reflexivity.
  Qed.
  Theorem parse_iff s v : parse_bytes s radix = Some v <-> exists t, signed digit s t /\ v = denotes radix t.
  Proof.
    split.
    - intros E. unfold parse_bytes in E. exists (strip_plus s). destruct (strip_plus s) as [|c r] eqn:S; [discriminate|]. destruct (Z.eqb_spec c 95) as [|Ne]; [discriminate|].
      pose proof (digits_inv _ _ _ E) as F. assert (M : numeral digit (c :: r)).
      { inversion F as [|? ? Fc F']; subst. split; [|exact F']. destruct Fc as [D|D]; [exact D|destruct (Ne D)]. }
      split; [split; [|exact M]|].
      + clear - S. unfold strip_plus in S. destruct s as [|a tl]; [discriminate|]. destruct (Z.eqb_spec a 43) as [->|].
        * destruct (negb _); cbn [andb] in S; [right; congruence|left; congruence].
        * left. exact S.
      + rewrite (digits_some _ 0 F) in E. apply some_inj_z in E. rewrite <- E. ring.
    - intros (t & (St & M) & ->). destruct (strip_numeral t M) as (S1 & S2). assert (S : strip_plus s = t) by (destruct St as [-> | ->]; assumption).
      unfold parse_bytes. rewrite S. pose proof (numeral_all t M) as F. destruct t as [|c r]; [destruct M|]. destruct M as (D & _). destruct (N c D) as (U & _).
      destruct (Z.eqb_spec c 95); [contradiction|]. rewrite (digits_some _ 0 F). f_equal; lia.
  Qed.
End Radix.
Lemma hex_not c : hex_digit_char c -> c <> 95 /\ c <> 43.
Proof. unfold hex_digit_char. lia. Qed.
Lemma bin_not c : bin_digit_char c -> c <> 95 /\ c <> 43.
Proof. unfold bin_digit_char. lia. Qed.
Theorem bin_iff s v : de_uint_bin s = Some v <-> exists t, signed bin_digit_char s t /\ v = denotes 2 t.
Proof. exact (parse_iff 2 bin_digit_char radix_val_bin bin_not s v). Qed.
Theorem hex_iff s v : de_uint_hex s = Some v <->
  s = [48; 120] /\ v = 0 \/ exists b t, (s = b \/ s = [48; 120] ++ b) /\ signed hex_digit_char b t /\ v = denotes 16 t.
Proof.
  pose proof (parse_iff 16 hex_digit_char radix_val_hex hex_not) as P.
  assert (X : forall b, starts_with_0x b = true -> (exists t, signed hex_digit_char b t) -> False).
  { intros b E (t & [-> | ->] & M); [|destruct t; discriminate]. destruct t as [|c r]; [destruct M|]. destruct M as (_ & F). cbn [starts_with_0x] in E. destruct r as [|d r]; [discriminate|].
    inversion F as [|? ? Fd _]; subst. unfold hex_digit_char, underscore in Fd. lia. }
  unfold de_uint_hex. destruct (starts_with_0x s) eqn:S0.
  - assert (Es : s = [48; 120] ++ skipn 2 s).
    { destruct s as [|a [|b r]]; try discriminate. cbn [starts_with_0x] in S0. cbn [skipn app]. f_equal; [lia|f_equal; lia]. }
    destruct (Nat.eqb_spec (length s) 2) as [L|L].
    + assert (Z0 : s = [48; 120]) by (destruct s as [|a [|b [|]]]; try discriminate; exact Es). split.
      * intros E. left. split; [exact Z0|congruence].
      * intros [(_ & ->)|(b & t & [<-|E] & M & _)]; [reflexivity| |]; exfalso; [apply (X s S0); eauto|].
        rewrite Z0 in E. destruct b; [|discriminate]. destruct M as ([<-|] & M); [destruct M|discriminate].
    + rewrite P. split.
      * intros (t & M & ->). right. exists (skipn 2 s), t. auto.
      * intros [(-> & _)|(b & t & [<-|E] & M & ->)]; [destruct (L eq_refl)|exfalso; apply (X s S0); eauto|]. exists t. subst s. split; [exact M|reflexivity].
  - rewrite P. split.
    + intros (t & M & ->). right. exists s, t. auto.
    + intros [(-> & _)|(b & t & [<- | ->] & M & ->)]; [discriminate|eauto|discriminate].
Qed.

(** * Fixed-length byte strings *)
Lemma hex_val_spec c v : hex_val c = Some v -> hex_digit_char c /\ v = digit_value c.
Proof.
  unfold hex_val, hex_digit_char, digit_value. destruct ((65 <=? c) && (c <=? 70)) eqn:A; [|destruct ((97 <=? c) && (c <=? 102)) eqn:B; [|destruct ((48 <=? c) && (c <=? 57)) eqn:D]]; intros E; try discriminate; injection E as <-;
    repeat match goal with |- context [?a <=? ?b] => destruct (Z.leb_spec a b) end; lia.
Qed.
Lemma pairs_nth n : forall s l i, (length s <= n)%nat -> hex_pairs s = Some l -> (i < length l)%nat ->
  nth i l 0 = 16 * digit_value (nth (2 * i) s 0) + digit_value (nth (2 * i + 1) s 0).
Proof.
  induction n as [|n IH]; intros s l i Hn E Hi.
  - destruct s; [|cbn in Hn; lia]. injection E as <-. cbn in Hi. lia.
  - destruct s as [|a [|b r]]; [injection E as <-; cbn in Hi; lia|discriminate|]. cbn [hex_pairs] in E.
    destruct (hex_val a) as [x|] eqn:X; [|discriminate]. destruct (hex_val b) as [y|] eqn:Y; [|discriminate]. destruct (hex_pairs r) as [l'|] eqn:P; [|discriminate].
    assert (E' : l = 16 * x + y :: l') by congruence. subst l. apply hex_val_spec in X, Y. destruct i as [|i].
    + cbn [nth Nat.mul Nat.add]. destruct X as (_ & ->), Y as (_ & ->). lia.
    + replace (2 * Datatypes.S i)%nat with (Datatypes.S (Datatypes.S (2 * i))) by lia. replace (Datatypes.S (Datatypes.S (2 * i)) + 1)%nat with (Datatypes.S (Datatypes.S (2 * i + 1))) by lia.
      cbn [nth]. apply IH; [cbn in Hn; lia|exact P|cbn in Hi; lia].
Qed.
Theorem parsed_digits LEN s l : hb_parse LEN s = Some l -> exists d, (s = d \/ s = [48; 120] ++ d) /\ length d = (2 * LEN)%nat /\
  forall i, (i < LEN)%nat -> nth i l 0 = 16 * digit_value (nth (2 * i) d 0) + digit_value (nth (2 * i + 1) d 0).
Proof.
  intros E. pose proof (hb_parse_bytes LEN s l E) as (L & _). unfold hb_parse in E. set (d := if starts_with_0x s then skipn 2 s else s).
  assert (D : hex_decode_to_slice LEN d = Some l) by (unfold d; destruct (starts_with_0x s); exact E). exists d. split; [|split].
  - unfold d. destruct (starts_with_0x s) eqn:S0; [right|left; reflexivity]. destruct s as [|a [|b r]]; try discriminate. cbn [starts_with_0x] in S0. cbn [skipn app]. f_equal; [lia|f_equal; lia].
  - exact (proj1 (proj1 (decode_iff LEN d) (ex_intro _ l D))).
  - intros i Hi. rewrite <- L in Hi. unfold hex_decode_to_slice in D. apply (pairs_nth (length d)); [lia| |exact Hi].
    destruct (Nat.odd (length d)); [discriminate|]. destruct (_ =? _)%nat in D; [exact D|discriminate].
Qed.
