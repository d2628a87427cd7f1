(* The gadget theorems in the form in which PropsGadgets states them, part 2: byte/bit table, byte, canonical and key-bit
   representation. *)
From Coq Require Import ZArith String List Bool Lia.
From Verif Require Import Pocklington Fr Query Builder BuilderProofs Bytes Gadgets GadgetProofs Fixed CanonProofs Assign AssignProofs AssignOk AssignRegion GadgetMain.
Import ListNotations.
Open Scope Z_scope.

(* a lookup of [tuple] made in an enabled row succeeds: some enabled row's table expressions have these values *)
Definition accepts (e : env) (table : list query) (tuple : list Fr) : Prop :=
  exists t, enabled e t /\ map (eval e t) table = tuple.

Lemma accepts_hit e i table tuple : accepts e table tuple <-> lookup_hit e i (map QConst tuple) table.
Proof.
  unfold accepts, lookup_hit, enabled, tuple_match. split.
  - intros (t & [Ht S] & E). exists t. split; [exact Ht|]. split; [exact S|]. subst tuple.
    induction table as [|q l IH]; cbn [map]; constructor; [reflexivity|exact IH].
  - intros (t & Ht & S & M). exists t. split; [split; assumption|].
    remember (map QConst tuple) as qs eqn:Q. revert tuple Q. induction M as [|a b l l' H1 H2 IH]; intros tuple Q.
    + destruct tuple; [reflexivity|discriminate].
    + destruct tuple as [|x tuple]; [discriminate|]. cbn [map] in Q. injection Q as -> ->. cbn [map]. f_equal; [symmetry; exact H1|apply IH; reflexivity].
Qed.
(* the lookup added by a satisfied circuit, where all enclosing conditions are 1 *)
Lemma lookup_accepts e c i nm left right : satisfied e c -> part_of (AddLookup nm left right) c -> enabled e i ->
  List.length left = List.length right -> accepts e right (map (eval e i) left).
Proof.
  intros S P En L. destruct (part_den e c _ i S P En L) as (t & Ht & St & M). exists t. split; [split; assumption|].
  clear L P. induction M as [|a b l l' H1 H2 IH]; [reflexivity|]. cbn [map]. f_equal; [symmetry; exact H1|exact IH].
Qed.

Section Fixed.
  Variables (e : env) (n : Z).
  Hypothesis F : fixed_ok e n.

  (** * C05 *)
  Lemma byte_bit_exact x y z : accepts e byte_bit_lookup [x; y; z] <->
    exists b k, 0 <= b < 256 /\ 0 <= k < 8 /\ x = fz b /\ y = fz k /\ z = fb (Z.testbit b k).
  Proof. rewrite (accepts_hit e 0). cbn [map]. apply (byte_bit_hit e n F). Qed.
  Lemma range_8_exact x : accepts e range_check_8_lookup [x] <-> exists k, 0 <= k < 8 /\ x = fz k.
  Proof. rewrite (accepts_hit e 0). cbn [map]. apply (idx8_hit e n F). Qed.
  Lemma range_256_exact x : accepts e range_check_256_lookup [x] <-> exists b, 0 <= b < 256 /\ x = fz b.
  Proof. rewrite (accepts_hit e 0). cbn [map]. apply (byte_hit e n F). Qed.

  Lemma dens c g : satisfied e c -> part_of g c -> forall i, 1 <= i < n -> den e i g.
  Proof. intros S P i Hi. apply (part_den e c); [exact S|exact P|]. apply (fix_enabled e n i F). exact Hi. Qed.

  (** * C06 *)
  Section C06.
    Variable (c : cmd).
    Hypothesis S : satisfied e c.
    Hypothesis P : part_of byte_representation_configure c.
    Hypothesis A1 : eadv e BR_index 1 = f0.
    Lemma bytes_sound v m : 0 <= m <= 30 -> accepts e bytes_lookup [v; fz m] -> val v < 256 ^ (m + 1).
    Proof.
      intros Hm H. apply (accepts_hit e 0) in H. cbn [map] in H.
      destruct (br_bytes_hit e n F 0 (QConst v) (QConst (fz m)) m (br_rows e n F (dens c _ S P) A1) Hm eq_refl H) as (w & Hw & E).
      cbn [eval] in E. subst v. apply Z.le_lt_trans with w; [|lia]. rewrite val_fz. apply Z.mod_le; [lia|reflexivity].
    Qed.
    Lemma pow_lt_modulus m : 0 <= m <= 30 -> 256 ^ (m + 1) < modulus.
    Proof.
      intros Hm. apply Z.le_lt_trans with (256 ^ 31); [apply Z.pow_le_mono_r; lia|reflexivity].
    Qed.
    Lemma rlc_sound v m y : 0 <= m <= 30 -> accepts e rlc_lookup [v; fz m; y] ->
      val v < 256 ^ (m + 1) /\ y = rlc (be_bytes (Z.to_nat (m + 1)) (val v)) (echal e).
    Proof.
      intros Hm H. apply (accepts_hit e 0) in H. cbn [map] in H.
      destruct (br_rlc_hit e n F 0 (QConst v) (QConst (fz m)) (QConst y) m (br_rows e n F (dens c _ S P) A1) Hm eq_refl H) as (w & Hw & E & E2).
      cbn [eval] in E, E2. subst v y. pose proof (pow_lt_modulus m Hm). rewrite val_fz, Z.mod_small by lia. split; [lia|reflexivity].
    Qed.
  End C06.

  (** * C08, C09, C11 *)
  Section Canon.
    Variable (c : cmd).
    Hypothesis S : satisfied e c.
    Hypothesis P : part_of canonical_representation_configure c.
    Lemma canonical_sound v i b : n mod 32 <> 0 -> accepts e canonical_lookup [v; i; b] ->
      exists k, (k < 32)%nat /\ i = fz (Z.of_nat k) /\ (n mod 32 = 1 \/ k <> 0%nat -> b = fz (nth k (be_bytes 32 (val v)) 0)).
    Proof.
      intros Hn H. apply (accepts_hit e 0) in H. cbn [map] in H.
      destruct (canonical_hit_gen e n F (dens c _ S P) 0 _ _ _ Hn H) as (k & Hk & E & B). cbn [eval] in E, B.
      exists k. split; [exact Hk|]. split; [exact E|]. intros D. rewrite nth_be_bytes by exact Hk. apply B. exact D.
    Qed.
    Lemma root_rlc_sound v y : accepts e fr_rlc_lookup [v; y] -> y = rlc (be_bytes 32 (val v)) (echal e).
    Proof. intros H. apply (accepts_hit e 0) in H. cbn [map] in H. apply (fr_rlc_hit e n F (dens c _ S P) 0 _ _ H). Qed.
    Lemma key_bit_sound v i b : n mod 32 <> 0 -> part_of key_bit_configure c -> accepts e key_bit_lookup [v; i; b] ->
      exists j, 0 <= j < 256 /\ i = fz j /\ (n mod 32 = 1 \/ j < 248 -> b = fb (Z.testbit (val v) j)).
    Proof.
      intros Hn Pk H. apply (accepts_hit e 0) in H. cbn [map] in H.
      destruct (key_bit_hit_gen e n F (dens c _ S P) 0 _ _ _ Hn (dens c _ S Pk) H) as (j & Hj & E & B). cbn [eval] in E, B.
      exists j. auto.
    Qed.
  End Canon.

  (** * completeness *)
  Lemma zero_sel_off i : 0 <= i < eN e -> ~ 1 <= i < n -> efix e SEL i = f0.
  Proof.
    intros Hi N. rewrite (fo_cells e n F) by (try discriminate; lia). cbn [fixed_cell].
    replace (in_range 1 i n) with false by (symmetry; apply in_range_false; exact N). reflexivity.
  Qed.
  Lemma sat_of_okc g : dummies e g -> (forall i, 1 <= i < n -> okc e i g) -> (forall i, okpos e i g) -> sat e (circuit_of g).
  Proof.
    intros D O Op. pose proof (fixed_wf e n F) as W. pose proof (fo_rows e n F). pose proof (fo_usable e n F).
    apply sat_complete; auto.
    - intros i Hi. destruct (Z_le_dec 1 i); [|left; apply zero_sel_off; lia]. destruct (Z_lt_dec i n); [right; apply (sel_on e n F); lia|left; apply zero_sel_off; lia].
    - intros i Hi. apply zero_sel_off; lia.
    - intros i Hi Si. apply O. apply (sel_inv e n F); [lia|exact Si].
  Qed.
  Lemma row0_fixed : efix e BB_byte 0 = f0 /\ efix e BB_index 0 = f0 /\ efix e BB_bit 0 = f0 /\ efix e CR_index 0 = f0 /\ efix e SEL 0 = f0.
  Proof.
    pose proof (fo_rows e n F). pose proof (fo_usable e n F).
    repeat split; rewrite (fo_cells e n F) by (try discriminate; lia); cbn [fixed_cell];
      try (replace (in_range 1 0 _) with false by (symmetry; apply in_range_false; lia)); try reflexivity.
  Qed.
  Lemma dummy_row0 table : Forall (fun q => eval e 0 q = f0) table -> exists t, 0 <= t < eusable e /\ efix e SEL t = f0 /\ Forall (fun q => eval e t q = f0) table.
  Proof.
    intros H. pose proof (fo_rows e n F). exists 0. split; [lia|]. split; [apply row0_fixed|exact H].
  Qed.
  Lemma dummy_256 : exists t, 0 <= t < eusable e /\ efix e SEL t = f0 /\ Forall (fun q => eval e t q = f0) range_check_256_lookup.
  Proof.
    apply dummy_row0. pose proof (fo_rows e n F). pose proof (fo_usable e n F). constructor; [|constructor]. rewrite eval_fcur by lia. apply row0_fixed.
  Qed.

  (** * C07 *)
  Section C07.
    Variables (u32s u64s u128s : list Z) (frs : list Fr) (ws : list write).
    Hypothesis E : byte_repr_assign (echal e) u32s u64s u128s frs = Some ws.
    Hypothesis R32 : Forall (fun x => 0 <= x < 2 ^ 32) u32s.
    Hypothesis R64 : Forall (fun x => 0 <= x < 2 ^ 64) u64s.
    Hypothesis R128 : Forall (fun x => 0 <= x < 2 ^ 128) u128s.
    Hypothesis HB : holds e BR_cols ws.

    Lemma br_ss : exists ss, br_strings u32s u64s u128s frs = Some ss /\
      ws = (Fx BR_is_first, 0, f1) :: emit 1 (flat_map (fun bs => br_bytes_rows (echal e) bs 0 f0 f0) ss).
    Proof.
      unfold byte_repr_assign in E. destruct (br_strings u32s u64s u128s frs) as [ss|]; [|discriminate].
      apply some_inj in E. exists ss. split; [reflexivity|]. symmetry. exact E.
    Qed.
    Lemma fr_be x bs : fr_to_big_endian x = Some bs -> bytes_ok bs /\ List.length bs = 31%nat /\ be_val bs = val x /\ bs = be_bytes 31 (val x).
    Proof.
      unfold fr_to_big_endian. destruct (be_bytes 32 (val x)) as [|b l] eqn:Q; [discriminate|].
      intros H. assert (b = 0 /\ l = bs) as [-> ->] by (destruct b; [apply some_inj in H; auto|discriminate|discriminate]).
      assert (L : List.length (0 :: bs) = 32%nat) by (rewrite <- Q; apply be_bytes_length).
      pose proof (be_bytes_ok 32 (val x)) as O. rewrite Q in O. inversion O as [|? ? O1 O2]; subst.
      assert (V : be_val bs = val x).
      { transitivity (be_val (0 :: bs)); [rewrite be_val_cons; lia|]. rewrite <- Q. apply be_val_be_bytes.
        pose proof (val_range x). pose proof modulus_lt. lia. }
      cbn in L. injection L as L. split; [exact O2|]. split; [exact L|]. split; [exact V|].
      rewrite <- V, <- L, be_bytes_be_val by exact O2. reflexivity.
    Qed.
    Lemma fr_be_some x : val x < 256 ^ 31 <-> exists bs, fr_to_big_endian x = Some bs.
    Proof.
      split.
      - intros H. unfold fr_to_big_endian. change 32%nat with (1 + 31)%nat. rewrite be_bytes_app.
        change (Z.of_nat 31) with 31. rewrite Z.div_small by (pose proof (val_range x); lia). cbn [be_bytes app]. eexists. reflexivity.
      - intros [bs H]. apply fr_be in H. destruct H as (O & L & V & _). rewrite <- V. pose proof (be_val_range bs O) as R. rewrite L in R. apply R.
    Qed.
    Lemma strings_ok ss : br_strings u32s u64s u128s frs = Some ss -> Forall bytes_ok ss.
    Proof.
      unfold br_strings. destruct (all_some fr_to_big_endian frs) as [fs|] eqn:Q; [|discriminate]. intros H. apply some_inj in H. subst ss.
      rewrite !Forall_app. repeat split; try (apply Forall_map, Forall_forall; intros; apply be_bytes_ok).
      apply all_some_spec in Q. clear E. clear - Q. induction Q as [|x y l l' H1 H2 IH]; constructor; [apply (fr_be x); exact H1|exact IH].
    Qed.
    Lemma br_holds ss : ws = (Fx BR_is_first, 0, f1) :: emit 1 (flat_map (fun bs => br_bytes_rows (echal e) bs 0 f0 f0) ss) ->
      holds e BR_cols (emit 1 (flat_map (fun bs => br_bytes_rows (echal e) bs 0 f0 f0) ss)).
    Proof.
      intros Ew c i Hc Hi. rewrite (HB c i Hc Hi), Ew. unfold cell. cbn [wfind]. destruct (wfind (emit _ _) (A c) i); [reflexivity|].
      destruct (col_eq_dec (A c) (Fx BR_is_first)) as [X|]; [discriminate X|reflexivity].
    Qed.
    Lemma byte_repr_satisfied : sat e (circuit_of byte_representation_configure).
    Proof.
      destruct br_ss as (ss & Q & Ew). apply sat_of_okc.
      - cbn [dummies byte_representation_configure is_zero_configure assert_equal]. repeat split; auto. apply dummy_256.
      - apply (br_ok e n F (echal e) ss eq_refl (strings_ok ss Q) (br_holds ss Ew)).
      - intros i. cbn [okpos byte_representation_configure is_zero_configure assert_equal]. repeat split; auto.
        destruct (Z.eq_dec ((i + 0) mod eN e) 0) as [Z0|Z0].
        + right. split; [|exact I]. unfold fcur. cbn [eval]. pose proof (fo_rows e n F). pose proof (fo_usable e n F).
          rewrite (fo_cells e n F) by (try discriminate; lia). rewrite Z0. reflexivity.
        + left. unfold fcur. cbn [eval]. pose proof (fo_rows e n F). pose proof (fo_usable e n F).
          rewrite (fo_cells e n F) by (try discriminate; apply Z.mod_pos_bound; lia). cbn [fixed_cell].
          destruct (Z.eqb_spec ((i + 0) mod eN e) 0); [contradiction|reflexivity].
    Qed.
    (* the first enabled row starts a byte string *)
    Lemma byte_repr_anchor : eadv e BR_index 1 = f0.
    Proof.
      destruct br_ss as (ss & Q & Ew). pose proof (fo_rows e n F). pose proof (fo_usable e n F).
      destruct (br_cases e n F (echal e) ss (br_holds ss Ew) 1 ltac:(lia)) as [Z0|(bs & k & _ & Hk & (_ & _ & _ & _ & X & _) & _)].
      - apply Z0. cbn. tauto.
      - rewrite X. replace k with 0%nat by lia. reflexivity.
    Qed.
    Lemma all_some_len {X Y} (f : X -> option Y) l ys : all_some f l = Some ys -> List.length l = List.length ys.
    Proof. intros H. apply all_some_spec in H. apply (Forall2_len _ _ _ H). Qed.
    Lemma rows_count ss : br_strings u32s u64s u128s frs = Some ss ->
      1 + Z.of_nat (List.length (flat_map (fun bs => br_bytes_rows (echal e) bs 0 f0 f0) ss)) = byte_repr_n_rows u32s u64s u128s frs.
    Proof.
      unfold br_strings, byte_repr_n_rows. destruct (all_some fr_to_big_endian frs) as [fs|] eqn:Q; [|discriminate]. intros H. apply some_inj in H. subst ss.
      rewrite !flat_map_app, !app_length.
      assert (G : forall l m, (forall x : list Z, In x l -> List.length x = m) -> List.length (flat_map (fun bs => br_bytes_rows (echal e) bs 0 f0 f0) l) = (List.length l * m)%nat).
      { intros l m Hl. apply flat_map_length_const. intros x Hx. rewrite br_bytes_length. apply Hl. exact Hx. }
      rewrite (G _ 4%nat), (G _ 8%nat), (G _ 16%nat), (G _ 31%nat), !map_length, (all_some_len _ _ _ Q); [lia| | | | ].
      - intros x Hx. apply all_some_spec in Q. clear - Q Hx. induction Q as [|a b l l' H1 H2 IH]; [destruct Hx|].
        destruct Hx as [<-|Hx]; [apply (fr_be a); exact H1|apply IH; exact Hx].
      - intros x Hx. apply in_map_iff in Hx. destruct Hx as (y & <- & _). apply be_bytes_length.
      - intros x Hx. apply in_map_iff in Hx. destruct Hx as (y & <- & _). apply be_bytes_length.
      - intros x Hx. apply in_map_iff in Hx. destruct Hx as (y & <- & _). apply be_bytes_length.
    Qed.
    Hypothesis Hfit : byte_repr_n_rows u32s u64s u128s frs <= n.
    (* [len] big-endian bytes of a listed number can be looked up *)
    Definition listed (len : nat) (x : Z) : Prop :=
      len = 4%nat /\ In x u32s \/ len = 8%nat /\ In x u64s \/ len = 16%nat /\ In x u128s \/ len = 31%nat /\ exists v, In v frs /\ x = val v.
    Lemma listed_string ss len x : br_strings u32s u64s u128s frs = Some ss -> listed len x -> In (be_bytes len x) ss /\ be_val (be_bytes len x) = x /\ (0 < len)%nat.
    Proof.
      unfold br_strings. destruct (all_some fr_to_big_endian frs) as [fs|] eqn:Q; [|discriminate]. intros H. apply some_inj in H. subst ss.
      rewrite Forall_forall in R32, R64, R128.
      intros [[-> Hx]|[[-> Hx]|[[-> Hx]|[-> (v & Hv & ->)]]]].
      - split; [|split; [|lia]]; [|apply be_val_be_bytes; apply (R32 x Hx)]. rewrite !in_app_iff. left. apply in_map_iff. exists x. split; [reflexivity|exact Hx].
      - split; [|split; [|lia]]; [|apply be_val_be_bytes; apply (R64 x Hx)]. rewrite !in_app_iff. right. left. apply in_map_iff. exists x. split; [reflexivity|exact Hx].
      - split; [|split; [|lia]]; [|apply be_val_be_bytes; apply (R128 x Hx)]. rewrite !in_app_iff. right. right. left. apply in_map_iff. exists x. split; [reflexivity|exact Hx].
      - apply all_some_spec in Q.
        assert (X : exists bs, In bs fs /\ fr_to_big_endian v = Some bs).
        { clear - Q Hv. induction Q as [|a b l l' H1 H2 IH]; [destruct Hv|]. destruct Hv as [<-|Hv]; [exists b; split; [left; reflexivity|exact H1]|].
          destruct (IH Hv) as (bs & I1 & I2). exists bs. split; [right; exact I1|exact I2]. }
        destruct X as (bs & I1 & I2). apply fr_be in I2. destruct I2 as (_ & _ & V & Eb). rewrite <- Eb. split; [|split; [exact V|lia]].
        rewrite !in_app_iff. auto.
    Qed.
    Lemma byte_repr_listed len x : listed len x ->
      accepts e bytes_lookup [fz x; fz (Z.of_nat len - 1)] /\
      accepts e rlc_lookup [fz x; fz (Z.of_nat len - 1); rlc (be_bytes len x) (echal e)].
    Proof.
      intros L. destruct br_ss as (ss & Q & Ew). destruct (listed_string ss len x Q L) as (Hin & V & Hl).
      assert (Ne : be_bytes len x <> []) by (intros X; apply (f_equal (@List.length Z)) in X; rewrite be_bytes_length in X; cbn in X; lia).
      pose proof (rows_count ss Q) as C.
      split; apply (accepts_hit e 0); cbn [map].
      - apply (br_hit2 e n F (echal e) ss eq_refl (br_holds ss Ew) (be_bytes len x)); try assumption; [lia|cbn [eval]; rewrite V; reflexivity|cbn [eval]; rewrite be_bytes_length; reflexivity].
      - apply (br_hit e n F (echal e) ss (br_holds ss Ew) (be_bytes len x)); try assumption; [lia|cbn [eval]; rewrite V; reflexivity|cbn [eval]; rewrite be_bytes_length; reflexivity|reflexivity].
    Qed.
  End C07.
  Lemma byte_repr_panics r u32s u64s u128s frs : byte_repr_assign r u32s u64s u128s frs = None <-> Exists (fun x => 256 ^ 31 <= val x) frs.
  Proof.
    unfold byte_repr_assign, br_strings.
    assert (G : all_some fr_to_big_endian frs = None <-> Exists (fun x => 256 ^ 31 <= val x) frs).
    { induction frs as [|x l IH]; cbn [all_some].
      - split; [discriminate|]. intros X. inversion X.
      - pose proof (fr_be_some x) as B. destruct (fr_to_big_endian x) as [bs|].
        + destruct (all_some fr_to_big_endian l) as [bl|].
          * split; [discriminate|]. intros X. inversion X as [? ? H|? ? H]; subst; [|apply IH in H; discriminate].
            exfalso. assert (val x < 256 ^ 31) by (apply B; exists bs; reflexivity). lia.
          * split; [intros _; apply Exists_cons_tl, IH; reflexivity|reflexivity].
        + split; [intros _|reflexivity]. apply Exists_cons_hd. destruct (Z_lt_dec (val x) (256 ^ 31)) as [H|H]; [|lia].
          apply B in H. destruct H; discriminate. }
    destruct (all_some fr_to_big_endian frs) as [fs|]; [|tauto]. split; [discriminate|]. intros X. apply G in X. discriminate.
  Qed.

  (** * C10 *)
  Section C10.
    Variables (vs : list Fr).
    Hypothesis Hfit : Z.of_nat (List.length vs) < n / 32.
    Hypothesis HnN : n < eN e.
    Hypothesis HC : forall c i, In c CR_cols -> 0 <= i < eN e -> eadv e c i = cr_cell (echal e) vs n (A c) i.
    Lemma HC1 c i : In c CR_cols -> 1 <= i <= 32 * (n / 32) -> eadv e c i = cr_cell (echal e) vs n (A c) i.
    Proof. intros Hc Hi. pose proof (Z.mul_div_le n 32 ltac:(lia)). apply HC; [exact Hc|lia]. Qed.
    Lemma HC2 c i : In c CR_cols -> 32 * (n / 32) < i < n -> eadv e c i = f0.
    Proof.
      intros Hc Hi. pose proof (Z.div_pos n 32). pose proof (fo_rows e n F). rewrite HC by (first [exact Hc|lia]). unfold cr_cell.
      replace (in_range 1 i _) with false by (symmetry; apply in_range_false; lia). reflexivity.
    Qed.
    Lemma canonical_satisfied : sat e (circuit_of canonical_representation_configure).
    Proof.
      apply sat_of_okc.
      - cbn [dummies canonical_representation_configure binary_columns for_each fold_right binary_column assert_ is_zero_configure assert_equal].
        repeat split; auto; apply dummy_256.
      - apply (cr_ok e n F (echal e) vs eq_refl Hfit HnN HC1 HC2).
      - intros i. cbn [okpos canonical_representation_configure binary_columns for_each fold_right binary_column assert_ is_zero_configure assert_equal].
        assert (FB : forall r, eval e i (frot CR_index_is_zero r) = f0 \/ eval e i (frot CR_index_is_zero r) = f1).
        { intros r. unfold frot. cbn [eval]. pose proof (fo_rows e n F). pose proof (fo_usable e n F).
          rewrite (fo_cells e n F) by (try discriminate; apply Z.mod_pos_bound; lia). cbn [fixed_cell]. destruct (_ && _); auto. }
        assert (FB0 : eval e i (fcur CR_index_is_zero) = f0 \/ eval e i (fcur CR_index_is_zero) = f1) by apply (FB 0).
        repeat split; auto.
        + destruct FB0 as [H|H]; [left; exact H|right; auto].
        + rewrite eval_bnot. destruct FB0 as [H|H]; rewrite H; [right; split; [ring|auto]|left; ring].
        + destruct (Z_le_dec 1 ((i + 0) mod eN e)) as [L1|L1].
          * destruct (Z_lt_dec ((i + 0) mod eN e) n) as [L2|L2].
            -- (* the condition is 0 or 1 on enabled rows *)
               set (t := (i + 0) mod eN e) in *.
               assert (EV : forall q, (forall j, (j + 0) mod eN e = t -> eval e j q = eval e t q) -> eval e i q = eval e t q) by (intros q Hq; apply Hq; reflexivity).
               pose proof (cr_ok e n F (echal e) vs eq_refl Hfit HnN HC1 HC2 t ltac:(lia)) as O.
               unfold canonical_representation_configure in O. cbn [okc] in O. destruct O as (_ & _ & _ & _ & _ & _ & O & _).
               assert (Ec : eval e i (band (cur CR_zero_so_far) (bnot (iz_current CR_difference_is_zero))) = eval e t (band (cur CR_zero_so_far) (bnot (iz_current CR_difference_is_zero)))).
               { pose proof (fo_rows e n F). pose proof (fo_usable e n F). rewrite !eval_band, !eval_bnot. unfold iz_current. rewrite !eval_sub. cbn [eval cur].
                 unfold t. rewrite !Z.add_0_r, !Z.mod_mod by lia. reflexivity. }
               rewrite Ec. destruct O as [O|[O _]]; [left; exact O|right; auto].
            -- left. set (t := (i + 0) mod eN e) in *. rewrite eval_band.
               assert (Z0 : eval e i (cur CR_zero_so_far) = f0).
               { unfold cur. cbn [eval]. fold t. pose proof (fo_rows e n F). pose proof (fo_usable e n F). pose proof (Z.mul_div_le n 32 ltac:(lia)).
                 pose proof (Z.mod_pos_bound (i + 0) (eN e) ltac:(lia)). fold t in H2.
                 rewrite HC by (first [cbn; tauto|lia]). unfold cr_cell.
                 destruct (in_range 1 t (1 + 32 * (n / 32))) eqn:Q; [|reflexivity].
                 apply in_range_true in Q. assert (Et : t = 32 * (n / 32)) by lia.
                 (* n mod 32 = 0: the last row of the last padding group *)
                 destruct (cr_last e n F (echal e) vs Hfit HC1) as (_ & _ & Z1). rewrite <- Et in Z1.
                 rewrite HC in Z1 by (first [cbn; tauto|lia]). unfold cr_cell in Z1.
                 replace (in_range 1 t (1 + 32 * (n / 32))) with true in Z1 by (symmetry; apply in_range_true; lia). exact Z1. }
               rewrite Z0. ring.
          * left. rewrite eval_band. assert (Z0 : eval e i (cur CR_zero_so_far) = f0).
            { unfold cur. cbn [eval]. pose proof (fo_rows e n F). pose proof (fo_usable e n F). pose proof (Z.mod_pos_bound (i + 0) (eN e) ltac:(lia)).
              rewrite HC by (first [cbn; tauto|lia]). unfold cr_cell. replace (in_range 1 _ _) with false by (symmetry; apply in_range_false; lia). reflexivity. }
            rewrite Z0. ring.
        + destruct (FB (-31)) as [H|H]; [left; exact H|right; auto].
    Qed.
    Lemma canonical_listed v k : In v vs -> (k < 32)%nat -> accepts e canonical_lookup [v; fz (Z.of_nat k); fz (nth k (be_bytes 32 (val v)) 0)].
    Proof.
      intros Hv Hk. apply (accepts_hit e 0). cbn [map]. apply (cr_hit e n F (echal e) vs Hfit HnN HC1 v k); auto.
      cbn [eval]. rewrite nth_be_bytes by exact Hk. reflexivity.
    Qed.
    Lemma root_listed v : In v vs -> accepts e fr_rlc_lookup [v; rlc (be_bytes 32 (val v)) (echal e)].
    Proof. intros Hv. apply (accepts_hit e 0). cbn [map]. apply (fr_hit e n F (echal e) vs Hfit HnN HC1 v); auto. Qed.
  End C10.

  (** * C12 *)
  Section C12.
    Variables (ls : list (Fr * Z * bool)) (ws : list write).
    Hypothesis KC : kb_cells ls ws.
    Hypothesis HK : holds e KB_cols ws.
    Hypothesis Hnn : Forall (fun l => 0 <= snd (fst l)) ls.
    Hypothesis Hn0 : Z.of_nat (List.length ls) < n.
    (* the canonical table has the bytes of the listed keys and of 0, and a blank row 0 *)
    Hypothesis HT : forall v k, (v = f0 \/ In v (map (fun l => fst (fst l)) ls)) -> (k < 32)%nat ->
      accepts e canonical_lookup [v; fz (Z.of_nat k); fz (nth k (be_bytes 32 (val v)) 0)].
    Hypothesis H0 : eadv e CR_value 0 = f0 /\ eadv e CR_byte 0 = f0.
    Lemma KB_in c : In c KB_cols -> In (A c) KB_S.
    Proof.
      unfold KB_S. apply in_map.
    Qed.
    Lemma kb_at_of i l rw : In l (kb_zero :: ls) -> 0 <= i < eN e -> kb_row l = Some rw -> (forall c, In c KB_S -> cell ws c i = rcell rw c) -> kb_at e i l.
    Proof.
      intros Hl Hi R C. exists rw. split; [exact R|]. split.
      - destruct Hl as [<-|Hl]; [cbn; lia|]. rewrite Forall_forall in Hnn. apply Hnn. exact Hl.
      - intros c Hc. rewrite (HK c i Hc Hi). apply C. apply KB_in. exact Hc.
    Qed.
    Lemma key_bit_satisfied : sat e (circuit_of key_bit_configure).
    Proof.
      pose proof (fo_rows e n F) as Hr. pose proof (fo_usable e n F) as Hu. apply sat_of_okc.
      - cbn [dummies key_bit_configure assert_equal]. pose proof row0_fixed as (Z1 & Z2 & Z3 & Z4 & Z5).
        repeat split; auto; apply dummy_row0; repeat constructor; rewrite ?eval_fcur, ?eval_cur by lia; tauto.
      - intros i Hi. destruct (kbc_rows ls ws KC i) as (l & rw & Hl & R & C).
        apply (kb_ok e n F (f0 :: map (fun l => fst (fst l)) ls)) with (l := l).
        + intros v k j q1 q2 q3 Hv Hk E1 E2 E3. assert (A : accepts e canonical_lookup [v; fz (Z.of_nat k); fz (nth k (be_bytes 32 (val v)) 0)]).
          { apply HT; [|exact Hk]. destruct Hv as [<-|Hv]; auto. }
          rewrite nth_be_bytes in A by exact Hk. apply (accepts_hit e j) in A. cbn [map] in A. destruct A as (t & Ht & St & M). exists t. split; [exact Ht|]. split; [exact St|].
          inversion M as [|? ? ? ? M1 R1]; subst. inversion R1 as [|? ? ? ? M2 R2]; subst. inversion R2 as [|? ? ? ? M3 R3]; subst.
          unfold tuple_match. change (eval e j (QConst (eval e j q1))) with (eval e j q1) in *. constructor; [exact M1|]. constructor; [rewrite E2; exact M2|]. constructor; [rewrite E3; exact M3|constructor].
        + exact Hi.
        + apply (kb_at_of i l rw); [exact Hl|lia|exact R|exact C].
        + destruct Hl as [<-|Hl]; [left; reflexivity|right]. apply in_map_iff. exists l. auto.
      - intros i. cbn [okpos key_bit_configure assert_equal]. auto 10.
    Qed.
    Lemma key_bit_listed v x b : In (v, x, b) ls -> accepts e key_bit_lookup [v; fz x; fb b].
    Proof.
      intros Hl. pose proof (fo_rows e n F) as Hr. pose proof (fo_usable e n F) as Hu. destruct (kbc_all ls ws KC _ Hl) as (i & rw & Hi & R & C).
      apply (accepts_hit e 0). cbn [map]. apply (kb_hit e n F i 0 v x b); auto; [lia|].
      apply (kb_at_of i (v, x, b) rw); [right; exact Hl|lia|exact R|exact C].
    Qed.
    Lemma key_bit_only v x b : accepts e key_bit_lookup [v; x; b] -> exists l, In l (kb_zero :: ls) /\ v = fst (fst l) /\ x = fz (snd (fst l)) /\ b = fb (snd l).
    Proof.
      intros (t & [Ht St] & E). pose proof (fo_rows e n F) as Hr. pose proof (fo_usable e n F) as Hu.
      destruct (kbc_rows ls ws KC t) as (l & rw & Hl & R & C). exists l. split; [exact Hl|].
      unfold key_bit_lookup in E. cbn [map] in E. rewrite !eval_cur in E by lia. injection E as E1 E2 E3. subst v x b.
      destruct l as [[v x] b]. cbn [fst snd]. unfold kb_row in R. destruct (x / 8 <? 32); [|discriminate].
      destruct (Bool.eqb b _); [|discriminate]. apply some_inj in R.
      rewrite !HK by (first [cbn; tauto|lia]). rewrite !C by (apply KB_in; cbn; tauto). rewrite <- R. auto.
    Qed.
  End C12.
  Lemma kb_row_some v x b : 0 <= x < 256 -> b = Z.testbit (val v) x -> exists rw, kb_row (v, x, b) = Some rw.
  Proof.
    intros Hx Eb. unfold kb_row. assert (x / 8 < 32) by (apply Z.div_lt_upper_bound; lia). pose proof (Z.div_pos x 8). pose proof (Z.mod_pos_bound x 8).
    destruct (Z.ltb_spec (x / 8) 32); [|lia]. rewrite land_shift_testbit by lia.
    assert (T : Z.testbit (be_byte 32 (val v) (31 - Z.to_nat (x / 8))) (x mod 8) = Z.testbit (val v) x).
    { rewrite (testbit_byte (val v) x) by lia. unfold be_byte. do 4 f_equal. lia. }
    rewrite T, Eb, Bool.eqb_reflx. eexists. reflexivity.
  Qed.
  Lemma kb_row_none v x b : 0 <= x -> ((exists rw, kb_row (v, x, b) = Some rw) <-> x < 256 /\ b = Z.testbit (val v) x).
  Proof.
    intros Hx. split.
    - intros [rw R]. unfold kb_row in R. destruct (Z.ltb_spec (x / 8) 32) as [L|]; [|discriminate].
      pose proof (Z_div_mod_eq_full x 8). pose proof (Z.mod_pos_bound x 8 ltac:(lia)). split; [lia|].
      destruct (Bool.eqb b _) eqn:Q; [|discriminate]. apply eqb_prop in Q. rewrite Q, land_shift_testbit by lia.
      pose proof (Z.div_pos x 8). rewrite (testbit_byte (val v) x) by lia. unfold be_byte. do 4 f_equal. lia.
    - intros [L E]. apply kb_row_some; [lia|exact E].
  Qed.
End Fixed.
