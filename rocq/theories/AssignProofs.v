(* Which cells the helper gadgets' assignments set, and that those rows satisfy the gadgets. *)
From Coq Require Import ZArith List Bool Lia.
From Verif Require Import Pocklington Fr Query Builder BuilderProofs Bytes Gadgets GadgetProofs Fixed CanonProofs Assign.
Import ListNotations.
Open Scope Z_scope.

Lemma some_inj {X} (a b : X) : Some a = Some b -> a = b. Proof. congruence. Qed.
Fixpoint rfind (r : row) (c : col) : option Fr :=
  match r with
  | [] => None
  | (c', v) :: rest => match rfind rest c with Some x => Some x | None => if col_eq_dec c c' then Some v else None end
  end.
Definition rcell (r : row) (c : col) : Fr := match rfind r c with Some v => v | None => f0 end.

Lemma wfind_app a b c i : wfind (a ++ b) c i = match wfind b c i with Some x => Some x | None => wfind a c i end.
Proof.
  induction a as [|[[c' i'] v] a IH]; cbn.
  - destruct (wfind b c i); reflexivity.
  - rewrite IH. destruct (wfind b c i); reflexivity.
Qed.
Lemma wfind_at r c s i : wfind (map (fun p => (fst p, s, snd p)) r) c i = if i =? s then rfind r c else None.
Proof.
  induction r as [|[c' v] r IH]; cbn; [destruct (i =? s); reflexivity|].
  rewrite IH. destruct (i =? s); [reflexivity|]. destruct (col_eq_dec c c'); reflexivity.
Qed.
Lemma wfind_emit rows : forall s c i, wfind (emit s rows) c i =
  if in_range s i (s + Z.of_nat (length rows)) then rfind (nth (Z.to_nat (i - s)) rows []) c else None.
Proof.
  induction rows as [|r rows IH]; intros s c i; cbn [emit length].
  - replace (in_range s i (s + Z.of_nat 0)) with false; [reflexivity|]. symmetry. apply in_range_false. lia.
  - rewrite wfind_app, IH, wfind_at.
    destruct (Z.eqb_spec i s) as [->|Hne].
    + replace (in_range (s + 1) s (s + 1 + Z.of_nat (length rows))) with false by (symmetry; apply in_range_false; lia).
      replace (in_range s s (s + Z.of_nat (S (length rows)))) with true by (symmetry; apply in_range_true; lia).
      rewrite Z.sub_diag. reflexivity.
    + destruct (in_range (s + 1) i (s + 1 + Z.of_nat (length rows))) eqn:E.
      * apply in_range_true in E.
        replace (in_range s i (s + Z.of_nat (S (length rows)))) with true by (symmetry; apply in_range_true; lia).
        replace (Z.to_nat (i - s)) with (S (Z.to_nat (i - (s + 1)))) by lia. cbn [nth].
        destruct (rfind _ c); reflexivity.
      * apply in_range_false in E.
        replace (in_range s i (s + Z.of_nat (S (length rows)))) with false by (symmetry; apply in_range_false; lia).
        reflexivity.
Qed.
Lemma emit_app a : forall s b, emit s (a ++ b) = emit s a ++ emit (s + Z.of_nat (length a)) b.
Proof.
  induction a as [|r a IH]; intros s b; cbn [app emit length].
  - rewrite Z.add_0_r. reflexivity.
  - rewrite IH, <- app_assoc. do 2 f_equal. f_equal. lia.
Qed.
Lemma wfind_emit_none rows : forall s c i, Forall (fun r => rfind r c = None) rows -> wfind (emit s rows) c i = None.
Proof.
  intros s c i H. rewrite wfind_emit. destruct (in_range _ _ _) eqn:E; [|reflexivity]. apply in_range_true in E.
  rewrite Forall_forall in H. apply H. apply nth_In. lia.
Qed.

(* rows of the concatenation of equally long pieces *)
Lemma flat_map_length_const {X Y} (f : X -> list Y) m l : (forall x, In x l -> length (f x) = m) ->
  length (flat_map f l) = (length l * m)%nat.
Proof.
  induction l as [|x l IH]; intros H; [reflexivity|]. cbn. rewrite app_length, IH, (H x) by (cbn; auto; intros; apply H; cbn; auto).
  reflexivity.
Qed.
Lemma nth_flat_map_const {X Y} (f : X -> list Y) m dx dy l : (forall x, In x l -> length (f x) = m) ->
  forall q r, (r < m)%nat -> (q < length l)%nat -> nth (q * m + r) (flat_map f l) dy = nth r (f (nth q l dx)) dy.
Proof.
  induction l as [|x l IH]; intros H q r Hr Hq; [cbn in Hq; lia|].
  cbn [flat_map]. destruct q as [|q].
  - cbn [nth Nat.mul Nat.add]. rewrite app_nth1 by (rewrite (H x) by (cbn; auto); exact Hr). reflexivity.
  - rewrite app_nth2; rewrite (H x) by (cbn; auto); [|cbn; lia].
    replace (S q * m + r - m)%nat with (q * m + r)%nat by (cbn; lia). cbn [nth].
    apply IH; [intros; apply H; cbn; auto|exact Hr|cbn in Hq; lia].
Qed.

(** * Fixed columns *)
Lemma bb_rows_length : length bb_rows = 2048%nat.
Proof. unfold bb_rows. rewrite (flat_map_length_const _ 8); [rewrite seq_length; reflexivity|]. intros. rewrite map_length, seq_length. reflexivity. Qed.
Lemma bb_rows_nth j : (j < 2048)%nat -> nth j bb_rows [] = bb_row (Z.of_nat j / 8) (Z.of_nat j mod 8).
Proof.
  intros H. unfold bb_rows.
  pose proof (Nat.div_mod j 8 ltac:(lia)) as E. pose proof (Nat.mod_upper_bound j 8 ltac:(lia)) as M.
  assert (Hq : (j / 8 < 256)%nat) by (apply Nat.div_lt_upper_bound; lia).
  set (f := fun byte => map (fun index => bb_row (Z.of_nat byte) (Z.of_nat index)) (seq 0 8)).
  assert (Lf : forall x, In x (seq 0 256) -> length (f x) = 8%nat) by (intros; unfold f; rewrite map_length, seq_length; reflexivity).
  pose proof (nth_flat_map_const f 8 0%nat [] (seq 0 256) Lf (j / 8) (j mod 8) M ltac:(rewrite seq_length; exact Hq)) as G.
  replace (j / 8 * 8 + j mod 8)%nat with j in G by lia. rewrite G. unfold f. clear G.
  rewrite seq_nth by exact Hq. cbn [Nat.add].
  rewrite nth_indep with (d' := bb_row (Z.of_nat (j / 8)) (Z.of_nat 0)) by (rewrite map_length, seq_length; exact M).
  rewrite (map_nth (fun index => bb_row (Z.of_nat (j / 8)) (Z.of_nat index))). rewrite seq_nth by exact M. cbn [Nat.add].
  rewrite Nat2Z.inj_div, Nat2Z.inj_mod. reflexivity.
Qed.

Lemma wfind_bb c i : wfind byte_bit_assign c i =
  if in_range 1 i 2049 then rfind (bb_row ((i - 1) / 8) ((i - 1) mod 8)) c else None.
Proof.
  unfold byte_bit_assign. rewrite wfind_emit, bb_rows_length.
  change (1 + Z.of_nat 2048) with 2049.
  destruct (in_range 1 i 2049) eqn:E; [|reflexivity]. apply in_range_true in E.
  rewrite bb_rows_nth by lia. rewrite Z2Nat.id by lia. reflexivity.
Qed.

Lemma wfind_sel n c i : wfind (selector_writes n) c i =
  if col_eq_dec c (Fx SEL) then if in_range 1 i n then Some f1 else None else None.
Proof.
  unfold selector_writes.
  assert (G : forall k s, wfind (map (fun i => (Fx SEL, Z.of_nat i, f1)) (seq s k)) c i =
     if col_eq_dec c (Fx SEL) then if in_range (Z.of_nat s) i (Z.of_nat s + Z.of_nat k) then Some f1 else None else None).
  { induction k as [|k IH]; intros s; cbn [seq map wfind].
    - replace (in_range _ i _) with false by (symmetry; apply in_range_false; lia). destruct (col_eq_dec c (Fx SEL)); reflexivity.
    - rewrite IH. destruct (col_eq_dec c (Fx SEL)); [|reflexivity].
      destruct (in_range (Z.of_nat (S s)) i _) eqn:E.
      + apply in_range_true in E. replace (in_range _ i _) with true by (symmetry; apply in_range_true; lia). reflexivity.
      + apply in_range_false in E. destruct (Z.eqb_spec i (Z.of_nat s)) as [->|Hne].
        * replace (in_range _ _ _) with true by (symmetry; apply in_range_true; lia). reflexivity.
        * replace (in_range (Z.of_nat s) i _) with false by (symmetry; apply in_range_false; lia). reflexivity. }
  rewrite G. destruct (col_eq_dec c (Fx SEL)); [|reflexivity].
  replace (in_range (Z.of_nat 1) i _) with (in_range 1 i n); [reflexivity|].
  destruct (in_range 1 i n) eqn:E; [apply in_range_true in E|apply in_range_false in E]; symmetry;
    [apply in_range_true|apply in_range_false]; lia.
Qed.

(** * Byte representation *)
Lemma br_bytes_length r bs : forall k v rl, length (br_bytes_rows r bs k v rl) = length bs.
Proof. induction bs as [|b bs IH]; intros; cbn; [reflexivity|]. rewrite IH. reflexivity. Qed.
Definition br_row_of (r : Fr) (bs : list Z) (k : nat) : row :=
  [(A BR_byte, fz (nth k bs 0)); (A BR_value, fz (be_val (firstn (S k) bs))); (A BR_rlc, rlc (firstn (S k) bs) r);
   (A BR_index, fz (Z.of_nat k)); (A BR_index_inv, finv (fz (Z.of_nat k)))].
Lemma br_bytes_nth r bs : forall pre k, (k < length bs)%nat ->
  nth k (br_bytes_rows r bs (Z.of_nat (length pre)) (fz (be_val pre)) (rlc pre r)) [] = br_row_of r (pre ++ bs) (length pre + k).
Proof.
  induction bs as [|b bs IH]; intros pre k H; [cbn in H; lia|].
  assert (E : (fz (be_val pre) * fz 256 + fz b)%fr = fz (be_val (pre ++ [b]))).
  { rewrite be_val_snoc, fz_add, fz_mul. ring. }
  assert (E2 : (rlc pre r * r + fz b)%fr = rlc (pre ++ [b]) r) by (rewrite rlc_snoc; ring).
  destruct k as [|k].
  - cbn [br_bytes_rows nth]. unfold br_row_of. rewrite Nat.add_0_r.
    rewrite app_nth2, Nat.sub_diag by lia. cbn [nth].
    replace (firstn (S (length pre)) (pre ++ b :: bs)) with (pre ++ [b]).
    2:{ replace (pre ++ b :: bs) with ((pre ++ [b]) ++ bs) by (rewrite <- app_assoc; reflexivity).
        replace (S (length pre)) with (length (pre ++ [b]) + 0)%nat by (rewrite app_length; cbn; lia).
        rewrite firstn_app_2. cbn. rewrite app_nil_r. reflexivity. }
    rewrite E, E2. reflexivity.
  - cbn [br_bytes_rows nth]. rewrite E, E2.
    replace (Z.of_nat (length pre) + 1) with (Z.of_nat (length (pre ++ [b]))) by (rewrite app_length; cbn; lia).
    rewrite IH by (cbn in H; lia). rewrite <- app_assoc, app_length. cbn [app length].
    replace (length pre + 1 + k)%nat with (length pre + S k)%nat by lia. reflexivity.
Qed.
Lemma br_string_nth r bs k : (k < length bs)%nat -> nth k (br_bytes_rows r bs 0 f0 f0) [] = br_row_of r bs k.
Proof. intros H. exact (br_bytes_nth r bs [] k H). Qed.

(* every row position inside the concatenated strings belongs to exactly one string *)
Lemma nth_flat_map {X Y} (f : X -> list Y) d l : forall j, (j < length (flat_map f l))%nat ->
  exists a x b k, l = a ++ x :: b /\ (k < length (f x))%nat /\ j = (length (flat_map f a) + k)%nat /\
    nth j (flat_map f l) d = nth k (f x) d.
Proof.
  induction l as [|x l IH]; intros j H; [cbn in H; lia|]. cbn [flat_map] in H |- *. rewrite app_length in H.
  destruct (Nat.lt_ge_cases j (length (f x))) as [Hlt|Hge].
  - exists [], x, l, j. repeat split; auto. rewrite app_nth1 by exact Hlt. reflexivity.
  - destruct (IH (j - length (f x))%nat ltac:(lia)) as (a & y & b & k & -> & Hk & Hj & Hn).
    exists (x :: a), y, b, k. cbn [flat_map app]. rewrite app_length. repeat split; auto; [lia|].
    rewrite app_nth2 by exact Hge. exact Hn.
Qed.

(** * Canonical representation *)
Definition cr_row_of (r v : Fr) (k : nat) : row :=
  let b := nth k (be_bytes 32 (val v)) 0 in
  let m := nth k cr_modulus_bytes 0 in
  [(A CR_byte, fz b); (Fx CR_modulus_byte, fz m); (Fx CR_index, fz (Z.of_nat k))]
   ++ cr_index_flags (Z.of_nat k)
   ++ [(A CR_difference, (fz m - fz b)%fr); (A CR_difference_inv, finv (fz m - fz b)%fr);
       (A CR_zero_so_far, fb (if list_eq_dec Z.eq_dec (firstn k (be_bytes 32 (val v))) (firstn k cr_modulus_bytes) then true else false));
       (A CR_value, v); (A CR_rlc, rlc (firstn (S k) (be_bytes 32 (val v))) r)].
Lemma cr_value_rows_length r v bs : forall ms k sf rl, length bs = length ms -> length (cr_value_rows r v bs ms k sf rl) = length bs.
Proof. induction bs as [|b bs IH]; intros [|m ms] k sf rl H; cbn in *; try discriminate; [reflexivity|]. rewrite IH by lia. reflexivity. Qed.
Lemma cr_rows_length r v : length (cr_rows_of r v) = 32%nat.
Proof. unfold cr_rows_of. rewrite cr_value_rows_length; unfold cr_modulus_bytes; rewrite !be_bytes_length; reflexivity. Qed.
Lemma firstn_snoc {X} (pre : list X) x rest : firstn (S (length pre)) (pre ++ x :: rest) = pre ++ [x].
Proof.
  replace (pre ++ x :: rest) with ((pre ++ [x]) ++ rest) by (rewrite <- app_assoc; reflexivity).
  replace (S (length pre)) with (length (pre ++ [x]) + 0)%nat by (rewrite app_length; cbn; lia).
  rewrite firstn_app_2. cbn. rewrite app_nil_r. reflexivity.
Qed.
Lemma firstn_len {X} (pre rest : list X) : firstn (length pre) (pre ++ rest) = pre.
Proof. rewrite firstn_app, Nat.sub_diag, firstn_all. cbn. apply app_nil_r. Qed.
Lemma nth_len {X} (pre : list X) x rest d : nth (length pre) (pre ++ x :: rest) d = x.
Proof. rewrite app_nth2, Nat.sub_diag by lia. reflexivity. Qed.
Lemma byte_diff_zero b m : is_byte b -> is_byte m -> feqb (fz m - fz b)%fr f0 = (m =? b).
Proof.
  unfold is_byte. intros Hb Hm. pose proof (small_lt_modulus b ltac:(lia)) as Sb. pose proof (small_lt_modulus m ltac:(lia)) as Sm.
  destruct (Z.eqb_spec m b) as [->|Hne].
  - apply feqb_eq. ring.
  - apply feqb_neq. intros E. apply (proj1 (fsub_eq0 _ _)) in E. apply Hne. exact (fz_inj m b Sm Sb E).
Qed.
Lemma cr_value_rows_nth r v bs : forall pb pm ms k, length pb = length pm -> length bs = length ms -> bytes_ok bs -> bytes_ok ms ->
  be_bytes 32 (val v) = pb ++ bs -> cr_modulus_bytes = pm ++ ms -> (k < length bs)%nat ->
  nth k (cr_value_rows r v bs ms (Z.of_nat (length pb)) (if list_eq_dec Z.eq_dec pb pm then true else false) (rlc pb r)) []
  = cr_row_of r v (length pb + k).
Proof.
  induction bs as [|b bs IH]; intros pb pm [|m ms] k Hp Hl Ob Om Eb Em Hk; try (cbn in Hl, Hk; lia).
  inversion Ob as [|? ? Ob1 Ob2]; subst. inversion Om as [|? ? Om1 Om2]; subst.
  assert (E2 : (rlc pb r * r + fz b)%fr = rlc (pb ++ [b]) r) by (rewrite rlc_snoc; ring).
  destruct k as [|k].
  - cbn [cr_value_rows nth]. unfold cr_row_of. rewrite Nat.add_0_r, Eb, Em.
    assert (F1 : firstn (length pb) (pm ++ m :: ms) = pm) by (rewrite Hp; apply firstn_len).
    assert (F2 : nth (length pb) (pm ++ m :: ms) 0 = m) by (rewrite Hp; apply nth_len).
    rewrite F1, F2, firstn_len, firstn_snoc, nth_len, E2. reflexivity.
  - cbn [cr_value_rows nth]. rewrite E2.
    replace (Z.of_nat (length pb) + 1) with (Z.of_nat (length (pb ++ [b]))) by (rewrite app_length; cbn; lia).
    rewrite byte_diff_zero by assumption.
    replace ((if list_eq_dec Z.eq_dec pb pm then true else false) && (m =? b))
      with (if list_eq_dec Z.eq_dec (pb ++ [b]) (pm ++ [m]) then true else false).
    2:{ destruct (list_eq_dec Z.eq_dec pb pm) as [->|Hne].
        - destruct (Z.eqb_spec m b) as [->|Hm]; destruct (list_eq_dec Z.eq_dec _ _) as [E|N]; try reflexivity.
          + congruence.
          + apply app_inv_head in E. congruence.
        - destruct (list_eq_dec Z.eq_dec (pb ++ [b]) (pm ++ [m])) as [E|N]; [|reflexivity].
          apply app_inj_tail in E. destruct E as [E _]. congruence. }
    rewrite (IH (pb ++ [b]) (pm ++ [m]) ms k).
    + f_equal. rewrite app_length. cbn. lia.
    + rewrite !app_length, Hp. reflexivity.
    + cbn in Hl. lia.
    + assumption.
    + assumption.
    + rewrite <- app_assoc. exact Eb.
    + rewrite <- app_assoc. exact Em.
    + cbn in Hk. lia.
Qed.
Lemma cr_rows_nth r v k : (k < 32)%nat -> nth k (cr_rows_of r v) [] = cr_row_of r v k.
Proof.
  intros H. apply (cr_value_rows_nth r v (be_bytes 32 (val v)) [] [] cr_modulus_bytes k); try apply be_bytes_ok; try reflexivity.
  rewrite be_bytes_length. exact H.
Qed.
Lemma cr_padding_length ms : forall k, length (cr_padding_rows ms k) = length ms.
Proof. induction ms as [|m ms IH]; intros k; cbn; [reflexivity|]. rewrite IH. reflexivity. Qed.
Lemma cr_padding_nth ms : forall s k, (k < length ms)%nat -> nth k (cr_padding_rows ms s) [] =
  [(Fx CR_modulus_byte, fz (nth k ms 0)); (Fx CR_index, fz (s + Z.of_nat k))] ++ cr_index_flags (s + Z.of_nat k)
        ++ [(A CR_difference, fz (nth k ms 0)); (A CR_difference_inv, finv (fz (nth k ms 0))); (A CR_zero_so_far, fb (s + Z.of_nat k =? 0))].
Proof.
  induction ms as [|m ms IH]; intros s k H; [cbn in H; lia|]. destruct k as [|k].
  - cbn [cr_padding_rows nth]. rewrite Z.add_0_r. reflexivity.
  - cbn [cr_padding_rows nth]. rewrite IH by (cbn in H; lia). replace (s + 1 + Z.of_nat k) with (s + Z.of_nat (S k)) by lia. reflexivity.
Qed.
Lemma be_bytes_0 n : be_bytes n 0 = repeat 0 n.
Proof.
  induction n; cbn [be_bytes repeat]; [reflexivity|]. rewrite Z.div_0_l, IHn by lia.
  change (0 mod 256) with 0. rewrite <- repeat_cons. reflexivity.
Qed.
Lemma rlc_zeros n r : rlc (repeat 0 n) r = f0.
Proof. induction n; [reflexivity|]. cbn [repeat]. rewrite repeat_cons, rlc_snoc, IHn. change (fz 0) with f0. ring. Qed.
Lemma modulus_byte0 : hd 0 cr_modulus_bytes = 48. Proof. vm_compute. reflexivity. Qed.
(* a padding value sets the cells to what they are for the value 0 *)
Lemma cr_padding_cells r c k : (k < 32)%nat ->
  rcell (nth k (cr_padding_rows cr_modulus_bytes 0) []) c = rcell (nth k (cr_rows_of r f0) []) c.
Proof.
  intros H. rewrite cr_rows_nth by exact H. rewrite cr_padding_nth by (unfold cr_modulus_bytes; rewrite be_bytes_length; exact H).
  rewrite Z.add_0_l. unfold cr_row_of. change (val f0) with 0. rewrite be_bytes_0, nth_repeat.
  replace (firstn (S k) (repeat 0 32)) with (repeat 0 (S k)).
  2:{ replace 32%nat with (S k + (32 - S k))%nat by lia. rewrite repeat_app.
      rewrite <- (repeat_length 0 (S k)) at 2. rewrite firstn_len. reflexivity. }
  rewrite rlc_zeros. change (fz 0) with f0.
  replace (fz (nth k cr_modulus_bytes 0%Z) - f0)%fr with (fz (nth k cr_modulus_bytes 0)) by ring.
  replace (if list_eq_dec Z.eq_dec (firstn k (repeat 0 32)) (firstn k cr_modulus_bytes) then true else false) with (Z.of_nat k =? 0).
  2:{ destruct k as [|k]; [reflexivity|]. destruct (list_eq_dec _ _ _) as [E|N]; [|reflexivity]. exfalso.
      apply (f_equal (hd 0)) in E. pose proof modulus_byte0 as M. destruct cr_modulus_bytes as [|x l] eqn:Q; [discriminate Q|].
      cbn in E, M. congruence. }
  assert (FL : forall z, z = 0 \/ z = 31 \/ cr_index_flags z = []).
  { intros z. unfold cr_index_flags. destruct (Z.eqb_spec z 0); [auto|]. destruct (Z.eqb_spec z 31); auto. }
  assert (T : forall (fl : row) x1 x2 x3 x4 x5,
     (fl = [(Fx CR_index_is_zero, f1)] \/ fl = [(Fx CR_index_is_31, f1)] \/ fl = []) ->
     rcell ([(Fx CR_modulus_byte, x1); (Fx CR_index, x2)] ++ fl ++ [(A CR_difference, x3); (A CR_difference_inv, x4); (A CR_zero_so_far, x5)]) c
     = rcell ([(A CR_byte, f0); (Fx CR_modulus_byte, x1); (Fx CR_index, x2)] ++ fl ++
         [(A CR_difference, x3); (A CR_difference_inv, x4); (A CR_zero_so_far, x5); (A CR_value, f0); (A CR_rlc, f0)]) c).
  { intros fl x1 x2 x3 x4 x5 Hfl. unfold rcell.
    destruct c as [c|c]; destruct c; destruct Hfl as [->|[->| ->]]; reflexivity. }
  apply T. unfold cr_index_flags. destruct (Z.of_nat k =? 0); [auto|]. destruct (Z.of_nat k =? 31); auto.
Qed.

(* cell of the canonical columns at row i when the values are [vs], padded with zeros to n/32 groups *)
Definition cr_cell (r : Fr) (vs : list Fr) (n : Z) (c : col) (i : Z) : Fr :=
  if in_range 1 i (1 + 32 * (n / 32))
  then rcell (cr_row_of r (nth (Z.to_nat ((i - 1) / 32)) vs f0) (Z.to_nat ((i - 1) mod 32))) c
  else f0.
Lemma cell_emit s rows c i : cell (emit s rows) c i =
  if in_range s i (s + Z.of_nat (length rows)) then rcell (nth (Z.to_nat (i - s)) rows []) c else f0.
Proof. unfold cell, rcell. rewrite wfind_emit. destruct (in_range _ _ _); reflexivity. Qed.
Lemma div_mod_nat z m : 0 <= z -> 0 < m -> Z.to_nat z = (Z.to_nat (z / m) * Z.to_nat m + Z.to_nat (z mod m))%nat.
Proof.
  intros Hz Hm. pose proof (Z_div_mod_eq_full z m). pose proof (Z.mod_pos_bound z m Hm). pose proof (Z.div_pos z m Hz Hm). nia.
Qed.
Lemma canonical_cells r vs n ws : 0 <= n -> canonical_assign r vs n = Some ws ->
  forall c i, cell ws c i = cr_cell r vs n c i.
Proof.
  unfold canonical_assign. intros Hn E c i. destruct (Z.leb_spec (Z.of_nat (length vs)) (n / 32)) as [Hle|]; [|discriminate]. apply some_inj in E; subst ws.
  pose proof (Z.div_pos n 32 Hn ltac:(lia)) as Hq.
  set (pad := repeat tt (Z.to_nat (n / 32) - length vs)).
  assert (Lp : length (flat_map (fun _ : unit => cr_padding_rows cr_modulus_bytes 0) pad) = ((Z.to_nat (n / 32) - length vs) * 32)%nat).
  { unfold pad. rewrite (flat_map_length_const _ 32); [rewrite repeat_length; reflexivity|]. intros. rewrite cr_padding_length. unfold cr_modulus_bytes. apply be_bytes_length. }
  assert (Lv : length (flat_map (cr_rows_of r) vs) = (length vs * 32)%nat).
  { apply flat_map_length_const. intros. apply cr_rows_length. }
  rewrite cell_emit, app_length. rewrite Lp, Lv. unfold cr_cell.
  replace (1 + Z.of_nat (length vs * 32 + (Z.to_nat (n / 32) - length vs) * 32)) with (1 + 32 * (n / 32)) by nia.
  destruct (in_range 1 i (1 + 32 * (n / 32))) eqn:R; [|reflexivity]. apply in_range_true in R.
  pose proof (Z.div_pos (i - 1) 32 ltac:(lia) ltac:(lia)) as Hg. pose proof (Z.mod_pos_bound (i - 1) 32 ltac:(lia)) as Hm.
  assert (Hg2 : (i - 1) / 32 < n / 32) by (apply Z.div_lt_upper_bound; lia).
  rewrite (div_mod_nat (i - 1) 32) by lia. change (Z.to_nat 32) with 32%nat.
  destruct (Nat.lt_ge_cases (Z.to_nat ((i - 1) / 32)) (length vs)) as [Hlt|Hge].
  - rewrite app_nth1 by nia. rewrite (nth_flat_map_const _ 32 f0) by (auto using cr_rows_length; lia).
    rewrite cr_rows_nth by lia. reflexivity.
  - rewrite app_nth2 by nia. rewrite Lv.
    replace (Z.to_nat ((i - 1) / 32) * 32 + Z.to_nat ((i - 1) mod 32) - length vs * 32)%nat
      with ((Z.to_nat ((i - 1) / 32) - length vs) * 32 + Z.to_nat ((i - 1) mod 32))%nat by nia.
    rewrite (nth_flat_map_const _ 32 tt).
    + rewrite (nth_overflow vs) by exact Hge. rewrite (cr_padding_cells r) by lia. rewrite cr_rows_nth by lia. reflexivity.
    + intros. rewrite cr_padding_length. unfold cr_modulus_bytes. apply be_bytes_length.
    + lia.
    + unfold pad. rewrite repeat_length. lia.
Qed.

(** ** chunks *)
Lemma chunks_of_concat {X} k : (0 < k)%nat -> forall fuel (l : list X), (length l <= fuel)%nat -> concat (chunks_of fuel k l) = l.
Proof.
  intros Hk. induction fuel as [|f IH]; intros l Hl; [destruct l; [reflexivity|cbn in Hl; lia]|].
  destruct l as [|x l]; [reflexivity|]. cbn [chunks_of concat]. rewrite IH; [apply firstn_skipn|].
  rewrite skipn_length. cbn [length] in *. lia.
Qed.
Lemma chunks_of_count {X} k : (0 < k)%nat -> forall fuel (l : list X), (length l <= fuel)%nat ->
  (length (chunks_of fuel k l) * k < length l + k)%nat.
Proof.
  intros Hk. induction fuel as [|f IH]; intros l Hl; [destruct l; [cbn; lia|cbn in Hl; lia]|].
  destruct l as [|x l]; [cbn; lia|]. cbn [chunks_of length].
  specialize (IH (skipn k (x :: l))). rewrite skipn_length in IH. cbn [length] in IH, Hl |- *.
  destruct (Nat.le_gt_cases (S (length l)) k) as [H|H].
  - replace (S (length l) - k)%nat with 0%nat in IH by lia.
    assert (length (chunks_of f k (skipn k (x :: l))) = 0%nat) as ->; [|lia].
    destruct (length (chunks_of f k (skipn k (x :: l)))); [reflexivity|]. cbn in IH. nia.
  - assert (L := IH ltac:(lia)). lia.
Qed.
Lemma chunks_concat {X} k (l : list X) : (0 < k)%nat -> concat (chunks k l) = l.
Proof. intros. apply chunks_of_concat; auto. Qed.
Lemma chunk_size_le len threads : (0 < threads)%nat -> (len <= chunk_size len threads * threads)%nat.
Proof.
  intros H. unfold chunk_size. pose proof (Nat.div_mod (len + threads - 1) threads ltac:(lia)) as E.
  pose proof (Nat.mod_upper_bound (len + threads - 1) threads ltac:(lia)). nia.
Qed.
Lemma chunk_size_pos len threads : (0 < threads)%nat -> (0 < len)%nat -> (0 < chunk_size len threads)%nat.
Proof. intros H1 H2. unfold chunk_size. apply Nat.div_str_pos. lia. Qed.
Lemma chunks_fit {X} (l : list X) threads : (0 < threads)%nat -> (0 < length l)%nat ->
  firstn threads (chunks (chunk_size (length l) threads) l) = chunks (chunk_size (length l) threads) l.
Proof.
  intros Ht Hl. apply firstn_all2. set (k := chunk_size (length l) threads).
  pose proof (chunk_size_pos _ _ Ht Hl) as Hk. fold k in Hk. pose proof (chunk_size_le (length l) threads Ht) as Hc. fold k in Hc.
  pose proof (chunks_of_count k Hk (length l) l (le_n _)) as C. unfold chunks. nia.
Qed.

Lemma place_emit {X} (f : X -> list row) (h : nat) (Hf : forall x, length (f x) = h) rest : forall start,
  place start (map (fun c => (Z.of_nat (length c) * Z.of_nat h, fun s => emit s (flat_map f c))) rest) = emit start (flat_map f (concat rest)).
Proof.
  induction rest as [|c rest IH]; intros start; [reflexivity|].
  cbn [map place concat]. rewrite flat_map_app, emit_app, IH. f_equal. f_equal.
  rewrite (flat_map_length_const f h) by auto. lia.
Qed.
Theorem canonical_par_cells threads r vs n ws : (0 < threads)%nat -> 32 <= n -> Z.of_nat (length vs) <= n / 32 ->
  canonical_assign_par threads r vs n = Some ws -> forall c i, cell ws c i = cr_cell r vs n c i.
Proof.
  intros Ht Hn Hle E c i. unfold canonical_assign_par in E.
  set (m := Z.to_nat (n / 32)) in *. set (padded := firstn m (vs ++ repeat f0 m)) in *.
  pose proof (Z.div_le_lower_bound n 32 1 ltac:(lia) ltac:(lia)) as H1.
  assert (Lp : length padded = m). { unfold padded. rewrite firstn_length, app_length, repeat_length. lia. }
  destruct (Nat.eqb_spec (chunk_size m threads) 0) as [|Hk]; [discriminate|]. apply some_inj in E; subst ws.
  rewrite <- Lp. rewrite chunks_fit by (rewrite ?Lp; unfold m; lia). rewrite Lp.
  assert (P : concat (chunks (chunk_size m threads) padded) = padded) by (apply chunks_concat; lia).
  set (cs := chunks (chunk_size m threads) padded) in *. clearbody cs.
  assert (Q : place 0 (canonical_regions r cs) = emit 1 (flat_map (cr_rows_of r) padded)).
  { rewrite <- P. destruct cs as [|c0 cs]; [reflexivity|]. cbn [canonical_regions place concat].
    rewrite flat_map_app, emit_app. f_equal.
    pose proof (place_emit (cr_rows_of r) 32 (cr_rows_length r) cs) as G. change (Z.of_nat 32) with 32 in G. rewrite G.
    f_equal. rewrite (flat_map_length_const _ 32) by (intros; apply cr_rows_length). lia. }
  rewrite Q, cell_emit. unfold cr_cell. rewrite (flat_map_length_const _ 32) by (intros; apply cr_rows_length). rewrite Lp.
  replace (1 + Z.of_nat (m * 32)) with (1 + 32 * (n / 32)) by lia.
  destruct (in_range 1 i (1 + 32 * (n / 32))) eqn:R; [|reflexivity]. apply in_range_true in R.
  pose proof (Z.div_pos (i - 1) 32 ltac:(lia) ltac:(lia)) as Hg. pose proof (Z.mod_pos_bound (i - 1) 32 ltac:(lia)) as Hm.
  assert (Hg2 : (i - 1) / 32 < n / 32) by (apply Z.div_lt_upper_bound; lia).
  rewrite (div_mod_nat (i - 1) 32) by lia. change (Z.to_nat 32) with 32%nat.
  rewrite (nth_flat_map_const _ 32 f0) by (auto using cr_rows_length; lia). rewrite cr_rows_nth by lia. do 2 f_equal.
  unfold padded. set (q := Z.to_nat ((i - 1) / 32)). assert (q < m)%nat by (unfold q, m; lia).
  transitivity (nth q (vs ++ repeat f0 m) f0).
  - rewrite <- (firstn_skipn m (vs ++ repeat f0 m)) at 2. rewrite app_nth1; [reflexivity|]. fold padded. lia.
  - destruct (Nat.lt_ge_cases q (length vs)).
    + rewrite app_nth1 by assumption. reflexivity.
    + rewrite app_nth2 by assumption. rewrite nth_repeat, nth_overflow by assumption. reflexivity.
Qed.
