(* What the incomplete last group of the canonical representation table makes possible when n_rows is a multiple of 32: one bit
   of a key (not among the lowest 8) can be claimed to be 0, and an account below a branch at that depth to be absent. *)
From Coq Require Import ZArith String List Bool Lia.
From Verif Require Import Pocklington Fr Query Builder BuilderProofs Gadgets MptUpdate Bytes Fixed GadgetProofs UpdateRows UpdateWalk UpdateSound TableSpec UpdateComplete Util UtilProofs Serde Trie Storage Types Lookups LookupProofs LookupMain TrieSpec ChangeSpec
  Assign AssignProofs AssignOk AssignRegion UpdateAssign MptAssign MptModes MptRows MptCases GadgetMain GadgetMain2 CircuitOk RowView BlockView TablesOk BlocksOk PaddingOk RowsOk LeafOk UpdateProps NewAccount NewProps Splice Retable ByteFree CanonFree Forge Forgeries ForgeByte.
Import ListNotations.
Open Scope Z_scope.

(** * A forged bit in the key bit table *)
Section Put.
  Variables (H : Fr -> Fr -> Fr -> Fr) (n : Z) (r : Fr) (p : plan) (v : Fr) (j : Z).
  Hypothesis OK : plan_ok H n p.
  Hypothesis N32 : n mod 32 = 0.
  Hypothesis Hj : 8 <= j < 256.
  Hypothesis Rows : pl_rows p = [].
  Hypothesis Keys : Z.of_nat (List.length (pl_keys p)) < n / 32 - 1.
  Hypothesis Bits : Z.of_nat (List.length (pl_bits p)) + 3 <= n.
  Notation e0 := (forged H n r p).
  Definition bit_env : env := zero_put e0 n v j.
  Lemma be_ok : circuit_ok H e0 n.
  Proof. apply fg_ok; [exact OK|]. rewrite Rows. exact Logic.I. Qed.
  Lemma be_blank c t : In c KB_cols -> t = 0 \/ n - 2 <= t -> eadv e0 c t = f0.
  Proof.
    intros Hc Ht. pose proof (fg_kb_some H n p OK) as Ks. pose proof (po_n _ _ _ OK) as Hn.
    transitivity (cell (fg_kb p) (A c) t); [cbn [forged eadv]; cbn [KB_cols In] in Hc; unfold fg_adv; repeat (destruct Hc as [<-|Hc]; [reflexivity|]); destruct Hc|].
    unfold key_bit_assign in Ks. destruct (all_some kb_row (pl_bits p)) as [rows|] eqn:Q; [|discriminate Ks]. apply some_eq in Ks. rewrite <- Ks. apply all_some_len in Q.
    rewrite cell_emit. replace (in_range 1 t (1 + Z.of_nat (List.length rows))) with false by (symmetry; apply in_range_false; lia). reflexivity.
  Qed.
  Lemma be_spare : spare_row e0 n KB_cols.
  Proof. split; [cbn [forged eusable]; lia|]. intros c Hc. rewrite !be_blank by (first [exact Hc|lia]). auto. Qed.
  Lemma be_two : two_blank e0 n (pl_keys p).
  Proof. split; [apply fg_CR|exact Keys|cbn [forged eusable]; lia]. Qed.
  Theorem be_put : fixed_ok bit_env n /\ sat bit_env (circuit_of (circuit H)) /\ (forall a b d h, poseidon_hit bit_env a b d h <-> In ((a, b), d, h) (pl_traces p)) /\
    accepts bit_env key_bit_lookup [v; fz j; fb false] /\
    (forall table tuple, In table [bytes_lookup; rlc_lookup; fr_rlc_lookup; key_bit_lookup] -> accepts e0 table tuple -> accepts bit_env table tuple).
  Proof.
    pose proof (fg_fixed H n r p OK) as F0. pose proof (co_sat H e0 n be_ok) as S0. pose proof (po_n _ _ _ OK) as Hn.
    destruct (zero_ok H e0 n (pl_keys p) v j F0 S0 be_two be_spare N32 Hj) as (A1 & A2 & _ & A4 & _ & _ & A7). split; [exact A1|]. split; [exact A2|]. split; [|split; [exact A7|]].
    - intros a b d h. rewrite <- (fg_hits H n r p OK). apply A4.
    - intros table tuple Ht (t & [Et Es] & Em).
      assert (T : tables_included e0 bit_env).
      { apply (cm_tables e0 bit_env n F0 (zp_sizes e0 n v j)).
        - apply (zp_other e0 n v j).
        - apply (zp_kb e0 n v j F0 Hj).
        - exact be_spare.
        - unfold bit_env, zero_put. cbn [eadv]. rewrite (proj2 (in_range_false (n - 31) 0 (n + 1))) by lia. destruct (acol_eq_dec CR_value CR_value) as [_|X]; [|contradiction]. destruct (acol_eq_dec CR_byte CR_value) as [X|_]; [discriminate X|]. destruct (acol_eq_dec CR_byte CR_byte) as [_|X]; [|contradiction].
          destruct (Z.eqb_spec 0 n); [lia|]. rewrite !(fg_CR H n r p) by (first [cbn; tauto|cbn [forged eN]; lia]). unfold cr_cell. rewrite (proj2 (in_range_false 1 0 _)) by lia. auto.
        - apply (zp_rlc e0 n (pl_keys p) v j F0 be_two N32). }
      destruct (T (table ++ [fcur SEL]) t) as (t' & Ht' & E').
      + unfold table_columns. cbn [In] in Ht |- *. destruct Ht as [<-|[<-|[<-|[<-|[]]]]]; auto 10.
      + exact Et.
      + rewrite !map_app in E'. apply app_inj_tail in E'. destruct E' as [E1 E2]. exists t'. split; [|rewrite <- Em; exact E1]. split; [exact Ht'|]. cbn [forged eusable] in Et. change (0 <= t' < n + 5) in Ht'.
        rewrite (eval_fcur e0 t SEL) in E2 by (change (eN e0) with (n + 10); lia). rewrite (eval_fcur bit_env t' SEL) in E2 by (change (eN bit_env) with (n + 10); lia). rewrite <- Es. exact E2.
  Qed.
  Theorem be_rows rows : Z.of_nat (List.length rows) + 2 <= n -> chain_ok H (with_rows H n bit_env rows) off_f rows -> circuit_ok H (with_rows H n bit_env rows) n.
  Proof.
    intros Hm C. destruct be_put as (A1 & A2 & A3 & _ & A6). pose proof (fg_tables H n r p OK) as T. pose proof (po_n _ _ _ OK) as Hn. split.
    - apply wr_fixed, A1.
    - revert C. apply (wr_ok H bit_env n rows A1 A2).
      + change (eN bit_env) with (n + 10). lia.
      + exact Hm.
      + apply A3. exact (po_zero_hash _ _ _ OK).
      + apply A6; [cbn [In]; auto|]. apply (tb_128 _ _ _ _ _ _ _ _ T 0 (po_zero _ _ _ OK)). lia.
      + apply A6; [cbn [In]; auto|]. apply (tb_zero _ _ _ _ _ _ _ _ T (po_zero _ _ _ OK)).
      + apply A6; [cbn [In]; auto|]. rewrite <- (rlc_fr_zero (echal e0)) at 2. apply (tb_root _ _ _ _ _ _ _ _ T). apply (po_zero_key _ _ _ OK).
      + exists (n + 1). split; [change (eusable bit_env) with (n + 5); lia|]. split; [apply (zero_sel_off bit_env n A1); change (eN bit_env) with (n + 10); lia|]. intros c Hc. rewrite <- (fg_zero_row H n r p OK (n + 1) ltac:(lia) c Hc).
        unfold bit_env, zero_put. cbn [eadv]. destruct (acol_eq_dec c CR_value) as [->|_]; [rewrite (proj2 (in_range_false (n - 31) (n + 1) (n + 1))) by lia; reflexivity|].
        destruct (acol_eq_dec c CR_byte) as [->|_]; [destruct (Z.eqb_spec (n + 1) n); [lia|reflexivity]|]. destruct (Z.eqb_spec (n + 1) (n - 1)); [lia|]. rewrite andb_false_r. reflexivity.
      + destruct (fg_dummy H n r p OK) as (t & T1 & T2). exists t. split; [exact T1|]. rewrite Forall_forall in T2 |- *. intros q Hq. rewrite <- (T2 q Hq).
        apply (cm_eval e0 bit_env n (fg_fixed H n r p OK) (zp_sizes e0 n v j) (zp_other e0 n v j)). revert q Hq. apply forallb_forall. reflexivity.
    - intros l rr d h Hh. apply wr_hit, A3 in Hh. pose proof (po_true _ _ _ OK) as X. rewrite Forall_forall in X. specialize (X _ Hh). cbn [fst snd] in X. symmetry. exact X.
    - exact (co_anchor H e0 n be_ok).
  Qed.
End Put.

(** * A path whose siblings are empty, down to a branch at depth j *)
Fixpoint spine (k : Fr) (d m : nat) (u : tree account) : tree account :=
  match m with O => u | Datatypes.S m => let s := spine k (Datatypes.S d) m u in if kbit k d then Node Empty s else Node s Empty end.
Definition fork (k : Fr) (B : account) : tree account := Node Empty (Leaf k B).
Lemma spine_node k B d m : is_node (spine k d m (fork k B)) = true.
Proof. destruct m; [reflexivity|]. cbn [spine]. destruct (kbit k d); reflexivity. Qed.
Lemma spine_get k B m : forall d, (kbit k (d + m) = true) -> get (spine k d m (fork k B)) d k = Some B.
Proof.
  induction m as [|m IH]; intros d Hb; cbn [spine].
  - rewrite Nat.add_0_r in Hb. unfold fork. cbn [get]. rewrite Hb. cbn [get]. rewrite (proj2 (feqb_eq k k) eq_refl). reflexivity.
  - replace (d + Datatypes.S m)%nat with (Datatypes.S d + m)%nat in Hb by lia. specialize (IH _ Hb). destruct (kbit k d) eqn:E; cbn [get]; rewrite E; exact IH.
Qed.
Lemma spine_placed k B m : forall d pre, List.length pre = d -> (forall i b, nth_error pre i = Some b -> kbit k i = b) -> kbit k (d + m) = true -> placed (spine k d m (fork k B)) pre.
Proof.
  assert (Ext : forall pre b d, List.length pre = d -> (forall i b, nth_error pre i = Some b -> kbit k i = b) -> kbit k d = b -> forall i c, nth_error (pre ++ [b]) i = Some c -> kbit k i = c).
  { intros pre b d L P E i c Q. destruct (Nat.lt_ge_cases i d) as [X|X].
    - rewrite nth_error_app1 in Q by lia. apply P, Q.
    - rewrite nth_error_app2 in Q by lia. destruct (i - List.length pre)%nat as [|[|x]] eqn:Y; try discriminate Q. injection Q as <-. replace i with d by lia. exact E. }
  induction m as [|m IH]; intros d pre L P Hb; cbn [spine].
  - rewrite Nat.add_0_r in Hb. split; [exact Logic.I|]. exact (Ext pre true d L P Hb).
  - replace (d + Datatypes.S m)%nat with (Datatypes.S d + m)%nat in Hb by lia.
    assert (X : forall b, kbit k d = b -> placed (spine k (Datatypes.S d) m (fork k B)) (pre ++ [b])).
    { intros b E. apply IH; [rewrite app_length; cbn [List.length]; lia|exact (Ext pre b d L P E)|exact Hb]. }
    destruct (kbit k d) eqn:E; split; try exact Logic.I; apply X; reflexivity.
Qed.
Lemma spine_all (P : account -> Prop) k B m : forall d, P B -> tree_all P (spine k d m (fork k B)).
Proof. induction m as [|m IH]; intros d HB; cbn [spine]; [split; [exact Logic.I|exact HB]|]. destruct (kbit k d); split; try exact Logic.I; apply IH, HB. Qed.
Section Path.
  Variables (H : Fr -> Fr -> Fr -> Fr) (e : env) (k : Fr) (B : account).
  Notation root := (state_root H).
  Notation sub d m := (spine k d m (fork k B)).
  Definition pt_row (b : bool) (sib h : Fr) (dom : HashDomain) (depth : Z) : rowf :=
    RowF AccountDoesNotExist AccountTrie Common f0 f0 f0 k k (fb b) sib h h (fdom dom) (fz depth) f0 f0 f0 f0 f0 f0 f0 f0 f0 f0 f0 f0 f0.
  Fixpoint pt_rows (d m : nat) : list rowf :=
    match m with
    | O => [pt_row false (root (Leaf k B)) f0 Branch0 (Z.of_nat d + 1)]
    | Datatypes.S m => pt_row (kbit k d) f0 (root (sub (Datatypes.S d) m)) (if kbit k d then Branch1 else Branch2) (Z.of_nat d + 1) :: pt_rows (Datatypes.S d) m
    end.
  Lemma pt_hash d m : root (sub d (Datatypes.S m)) = H (fst (children (kbit k d) f0 (root (sub (Datatypes.S d) m)))) (snd (children (kbit k d) f0 (root (sub (Datatypes.S d) m)))) (fdom (if kbit k d then Branch1 else Branch2)).
  Proof. cbn [spine]. unfold state_root. pose proof (spine_node k B (Datatypes.S d) m) as Nd. destruct (kbit k d); cbn [thash children fst snd]; unfold branch_domain; rewrite Nd; reflexivity. Qed.
  Definition good_bit (d : nat) (b : bool) : Prop := accepts e key_bit_lookup [k; fz (Z.of_nat d); fb b].
  Lemma pt_good m : forall d f', (forall i, (d <= i < d + m)%nat -> good_bit i (kbit k i)) -> good_bit (d + m) false ->
    (forall x, In x (tree_inputs H (account_hash H) (fun _ => []) (sub d m)) -> poseidon_hit e (fst (fst x)) (snd (fst x)) (snd x) (h3 H x)) ->
    f_pt f' = AccountDoesNotExist -> f_skr f' = f0 -> f_ov f' = f0 -> f_nv f' = f0 -> f_key f' = k -> f_other f' = k -> f_depth f' = fz (Z.of_nat d) -> f_old f' = root (sub d m) -> f_new f' = root (sub d m) ->
    chain_ok H e f' (pt_rows d m).
  Proof.
    induction m as [|m IH]; intros d f' Gb Gf Hits P1 P2 P3 P4 P5 P6 P7 P8 P9; cbn [pt_rows chain_ok].
    - split; [|exact Logic.I]. intros i Q' Q Es Eq. cbn [next_sg next_pa] in Es, Eq. rewrite Nat.add_0_r in Gf.
      assert (Nh : nodeh e false (root (Leaf k B)) f0 Branch0 (root (sub d 0))) by (apply (Hits (f0, root (Leaf k B), fdom Branch0)); left; reflexivity).
      apply (trie_row H e i f' _ _ _ Q' Q Es Eq d false Branch0); try reflexivity; try (cbn [pt_row f_pa]; discriminate).
      + unfold same_claim. cbn [pt_row f_pt f_skr f_ov f_nv]. rewrite P1, P2, P3, P4. auto.
      + split; cbn [pt_row f_key f_other]; congruence.
      + exact P7.
      + exact Gf.
      + intros _. exact Gf.
      + left. reflexivity.
      + apply (ps_common _ _ _ _ _ false Branch0); try reflexivity; [right; reflexivity|rewrite P8; exact Nh|rewrite P9; exact Nh].
      + cbn; tauto.
      + eexists. split; [reflexivity|]. cbn [In]. auto.
      + split; [reflexivity|]. split; [reflexivity|]. split; [reflexivity|]. intros _ _. split; [reflexivity|]. split; [reflexivity|]. split; [reflexivity|]. split; [left; split; reflexivity|]. split; [cbn [pt_row f_z2 f_key f_other]; ring|reflexivity].
    - assert (Gd : good_bit d (kbit k d)) by (apply Gb; lia).
      assert (Nh : nodeh e (kbit k d) f0 (root (sub (Datatypes.S d) m)) (if kbit k d then Branch1 else Branch2) (root (sub d (Datatypes.S m)))).
      { rewrite pt_hash. apply (Hits (fst (children (kbit k d) f0 (root (sub (Datatypes.S d) m))), snd (children (kbit k d) f0 (root (sub (Datatypes.S d) m))), fdom (if kbit k d then Branch1 else Branch2))).
        cbn [spine]. pose proof (spine_node k B (Datatypes.S d) m) as Nd. destruct (kbit k d); cbn [tree_inputs children fst snd]; unfold branch_domain; rewrite Nd; left; reflexivity. }
      assert (Nx : next_sg (pt_rows (Datatypes.S d) m) = AccountTrie /\ next_pa (pt_rows (Datatypes.S d) m) = Common) by (destruct m; split; reflexivity).
      split.
      + intros i Q' Q Es Eq. destruct Nx as [N1 N2]. rewrite N1 in Es. rewrite N2 in Eq.
        apply (trie_row H e i f' _ _ _ Q' Q Es Eq d (kbit k d) (if kbit k d then Branch1 else Branch2)); try reflexivity; try (cbn [pt_row f_pa]; discriminate).
        * unfold same_claim. cbn [pt_row f_pt f_skr f_ov f_nv]. rewrite P1, P2, P3, P4. auto.
        * split; cbn [pt_row f_key f_other]; congruence.
        * exact P7.
        * exact Gd.
        * intros _. exact Gd.
        * destruct (kbit k d); cbn [In]; auto.
        * apply (ps_common _ _ _ _ _ (kbit k d) (if kbit k d then Branch1 else Branch2)); try reflexivity; [left; reflexivity|rewrite P8; exact Nh|rewrite P9; exact Nh].
        * cbn; tauto.
        * eexists. split; [reflexivity|]. cbn [In]. auto.
        * split; [reflexivity|]. split; [reflexivity|]. split; [reflexivity|]. intros _ X. discriminate X.
      + apply IH; try reflexivity.
        * intros i Hi. apply Gb. lia.
        * replace (Datatypes.S d + m)%nat with (d + Datatypes.S m)%nat by lia. exact Gf.
        * intros x Hx. apply Hits. cbn [spine]. destruct (kbit k d); cbn [tree_inputs]; right; [exact Hx|apply in_or_app; left; exact Hx].
        * cbn [pt_row f_depth]. f_equal. lia.
  Qed.
  Lemma pt_length m : forall d, List.length (pt_rows d m) = Datatypes.S m.
  Proof. induction m as [|m IH]; intros d; cbn [pt_rows List.length]; [reflexivity|]. rewrite IH. reflexivity. Qed.
  Lemma pt_inputs m : forall d, List.length (tree_inputs H (account_hash H) (fun _ => []) (sub d m)) = (m + 2)%nat.
  Proof. induction m as [|m IH]; intros d; cbn [spine]; [reflexivity|]. destruct (kbit k d); cbn [tree_inputs List.length app]; rewrite ?app_length, IH; cbn [List.length]; lia. Qed.
  Lemma pt_state x m : forall d, In x (tree_inputs H (account_hash H) (fun _ => []) (sub d m)) -> In x (state_inputs H (sub d m)).
  Proof.
    induction m as [|m IH]; intros d; cbn [spine].
    - intros [<-|[<-|[]]]; [left; reflexivity|right; left; reflexivity].
    - unfold state_inputs in *. destruct (kbit k d); cbn [tree_inputs app]; intros [<-|I]; try (left; reflexivity); right; [apply IH, I|]. rewrite app_nil_r in *. apply IH, I.
  Qed.
End Path.

(** * An existing account is claimed not to exist *)
Section Hidden.
  Variables (H : Fr -> Fr -> Fr -> Fr) (n : Z) (r : Fr) (a : Z) (B : account) (j : nat).
  Notation kA := (addr_key H a). Notation t := (spine kA 0 j (fork kA B)). Notation root := (state_root H t).
  Hypothesis Hn : 2052 <= n < 2 ^ 62.
  Hypothesis N32 : n mod 32 = 0.
  Hypothesis Ha : 0 <= a < 2 ^ 160.
  Hypothesis Hj : (8 <= j < 256)%nat.
  Hypothesis HB : account_ok B.
  Hypothesis Hbit : kbit kA j = true.
  Definition hd_inputs : list triple := zero_input :: address_input a :: state_inputs H t.
  Hypothesis CF : collision_free H (fun y => In y hd_inputs).
  Definition hd_used : list triple := tree_inputs H (account_hash H) (fun _ => []) t.
  Definition hd_bits : list (Fr * Z * bool) := map (fun i => (kA, Z.of_nat i, kbit kA i)) (seq 0 j).
  Definition hd_start : rowf := start_f H r AccountDoesNotExist a f0 f0 f0 kA root root f0 f0 f0.
  Definition hd_plan : plan := plan_for H a [] [] [root; kA] hd_bits hd_used [].
  Definition hd_rows : list rowf := hd_start :: pt_rows H kA B 0 j.
  Lemma hd_ok : plan_ok H n hd_plan.
  Proof.
    apply plan_for_ok; [exact Hn|apply Nat.leb_le; reflexivity|apply Nat.leb_le; reflexivity|apply Nat.leb_le; reflexivity| | |apply Nat.leb_le; reflexivity|].
    - unfold hd_bits. rewrite map_length, seq_length. lia.
    - unfold hd_used. rewrite pt_inputs. lia.
    - unfold hd_bits. apply Forall_map, Forall_forall. intros i Hi. apply in_seq in Hi. cbn [fst snd]. split; [lia|]. split; [reflexivity|]. right. left. reflexivity.
  Qed.
  Theorem hidden : exists e, circuit_ok H e n /\ echal e = r /\ exposes e (encode r (Statement a f0 AccountDoesNotExist root root f0 f0)) /\ collision_free H (UpdateSound.inputs H e t).
  Proof.
    pose proof hd_ok as OK. assert (N64 : 64 <= n / 32) by (apply Z.div_le_lower_bound; lia). assert (Hj' : 8 <= Z.of_nat j < 256) by lia.
    assert (Keys : Z.of_nat (List.length (pl_keys hd_plan)) < n / 32 - 1) by (unfold hd_plan, plan_for; cbn [pl_keys List.length]; lia).
    assert (Bits : Z.of_nat (List.length (pl_bits hd_plan)) + 3 <= n) by (unfold hd_plan, plan_for; cbn [pl_bits]; unfold hd_bits; rewrite map_length, seq_length; lia).
    assert (Hm : Z.of_nat (List.length hd_rows) + 2 <= n) by (unfold hd_rows; cbn [List.length]; rewrite pt_length; lia).
    destruct (be_put H n r hd_plan kA (Z.of_nat j) OK N32 Hj' eq_refl Keys Bits) as (A1 & A2 & A3 & A4 & A6).
    pose proof (be_rows H n r hd_plan kA (Z.of_nat j) OK N32 Hj' eq_refl Keys Bits hd_rows Hm) as S. set (e1 := bit_env H n r hd_plan kA (Z.of_nat j)) in *. set (e := with_rows H n e1 hd_rows) in *.
    assert (Acc : forall table tuple, In table [bytes_lookup; rlc_lookup; fr_rlc_lookup; key_bit_lookup] -> accepts (forged H n r hd_plan) table tuple -> accepts e table tuple).
    { intros table tuple Ht X. apply (wr_accepts H e1 n hd_rows A1); [|apply A6; assumption]. revert table Ht X. intros table Ht _. cbn [In] in Ht. destruct Ht as [<-|[<-|[<-|[<-|[]]]]]; reflexivity. }
    assert (Hit : forall l rr d h, poseidon_hit e l rr d h <-> In ((l, rr), d, h) (pl_traces hd_plan)) by (intros; rewrite <- A3; apply wr_hit).
    pose proof (case_start H n r a [] [] _ _ _ _ OK Ha) as (C1 & C2 & C3).
    assert (Rt : accepts e fr_rlc_lookup [root; root_rlc r root]) by (apply Acc; [cbn [In]; auto|]; apply (case_root H n r a [] [] _ _ _ _ OK root); right; left; reflexivity).
    exists e. split; [|split; [reflexivity|split]].
    - apply S. apply start_good.
      + apply pt_good; try reflexivity.
        * intros i Hi. apply Acc; [cbn [In]; auto|]. apply (case_bit H n r a [] [] _ _ _ _ OK). unfold hd_bits. apply in_map_iff. exists i. split; [reflexivity|apply in_seq; lia].
        * apply (wr_accepts H e1 n hd_rows A1); [reflexivity|exact A4].
        * intros [[x y] d] Hx. apply Hit. unfold hd_plan, plan_for. cbn [pl_traces]. apply traced_in. right. right. exact Hx.
      + apply Hit. unfold hd_plan, plan_for. cbn [pl_traces]. apply traced_in. right. left. reflexivity.
      + apply Acc; [cbn [In]; auto|exact C2].
      + apply Acc; [cbn [In]; auto|exact C3].
      + exact Rt.
      + exact Rt.
      + eexists. split; [reflexivity|]. destruct j; cbn [In next_sg pt_rows pt_row f_sg]; auto.
      + split; [reflexivity|]. split; [reflexivity|]. split; [reflexivity|]. intros _ X. destruct j; discriminate X.
    - destruct (fg_expose H e n hd_rows (wr_fixed H e1 n hd_rows A1) (more_rows n) (wr_MU H e1 n hd_rows) Hm 0 hd_start eq_refl eq_refl) as [X1 X2].
      rewrite X1 in X2. unfold encode. cbn [st_address st_slot_rlc st_kind st_new_root st_old_root st_new_value st_old_value]. cbn [hd_start start_f f_i0 f_i1 f_skr f_pt f_s0 f_s1 f_nv f_ov] in X2. rewrite (addr_split a). exact X2.
    - assert (Q : forall x, UpdateSound.inputs H e t x -> In x hd_inputs).
      { intros [[x y] d] [(h & Hh)|I]; [|do 2 right; exact I]. cbn [fst snd] in Hh. apply Hit in Hh. unfold hd_plan, plan_for in Hh. cbn [pl_traces] in Hh. apply traced_of in Hh. destruct Hh as [<-|[<-|I]]; [left; reflexivity|right; left; reflexivity|do 2 right; apply pt_state, I]. }
      destruct CF as [C4 C5]. split; [intros x y X Y; apply C4; auto|intros x X; apply C5; auto].
  Qed.
  Lemma hidden_there : get t 0 kA = Some B /\ placed t [] /\ tree_all account_ok t.
  Proof.
    split; [apply spine_get; exact Hbit|]. split; [|apply spine_all; exact HB]. apply spine_placed; [reflexivity| |exact Hbit]. intros i b E. destruct i; discriminate E.
  Qed.
End Hidden.
