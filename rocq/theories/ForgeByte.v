(* Chosen update rows on top of the lookup tables of any satisfied circuit, and what a forged entry in the byte representation
   table makes possible. *)
From Coq Require Import ZArith String List Bool Lia.
From Verif Require Import Pocklington Fr Query Builder BuilderProofs Gadgets MptUpdate Bytes Fixed GadgetProofs UpdateRows UpdateWalk UpdateSound TableSpec UpdateComplete Util UtilProofs Serde Trie Storage Types Lookups LookupProofs LookupMain TrieSpec ChangeSpec
  Assign AssignProofs AssignOk AssignRegion UpdateAssign MptAssign MptModes MptRows MptCases GadgetMain GadgetMain2 CircuitOk RowView BlockView TablesOk BlocksOk PaddingOk RowsOk LeafOk UpdateProps NewAccount NewProps Splice Retable ByteFree Forge Forgeries.
Import ListNotations.
Open Scope Z_scope.

(** * Other update rows for the same lookup tables *)
Definition with_rows (H : Fr -> Fr -> Fr -> Fr) (n : Z) (e : env) (rows : list rowf) : env :=
  mkEnv (eN e) (eusable e) (fun c i => if mu_col (A c) then rval (fg_row H n rows i) c else eadv e c i) (efix e) (echal e).
Definition not_mu (c : acol) : bool := negb (mu_col (A c)).
Section With.
  Variables (H : Fr -> Fr -> Fr -> Fr) (e : env) (n : Z) (rows : list rowf).
  Hypothesis F : fixed_ok e n.
  Notation e2 := (with_rows H n e rows).
  Let Hn := fo_rows e n F.
  Let Hu := fo_usable e n F.
  Lemma wr_sizes : same_sizes e e2. Proof. split; reflexivity. Qed.
  Lemma wr_fixed : fixed_ok e2 n. Proof. exact (fixed_same e e2 n F wr_sizes). Qed.
  Lemma wr_other c i : not_mu c = true -> eadv e2 c i = eadv e c i.
  Proof. intros N. unfold with_rows. cbn [eadv]. unfold not_mu in N. apply negb_true_iff in N. rewrite N. reflexivity. Qed.
  Lemma wr_MU c i : mu_col (A c) = true -> eadv e2 c i = rval (fg_row H n rows i) c.
  Proof. intros N. unfold with_rows. cbn [eadv]. rewrite N. reflexivity. Qed.
  Lemma wr_sat c : cmd_in_cols not_mu c = true -> sat e (circuit_of c) -> sat e2 (circuit_of c).
  Proof. apply (sat_cols e e2 not_mu wr_sizes); [|lia]. intros c0 i N _. apply wr_other, N. Qed.
  Lemma wr_eval q k : in_cols not_mu q = true -> eval e2 k q = eval e k q.
  Proof. apply (eval_cols e e2 not_mu wr_sizes); [|lia]. intros c0 i N _. apply wr_other, N. Qed.
  Lemma wr_map l k : forallb (in_cols not_mu) l = true -> map (eval e2 k) l = map (eval e k) l.
  Proof. intros N. apply map_ext_in. intros q Hq. apply wr_eval. rewrite forallb_forall in N. apply N, Hq. Qed.
  Lemma wr_accepts table tuple : forallb (in_cols not_mu) table = true -> accepts e2 table tuple <-> accepts e table tuple.
  Proof.
    intros N. unfold accepts. split; intros (t & E & M); exists t; rewrite wr_map in * by exact N; (split; [|exact M]); [apply (fix_enabled _ n t F); apply (fix_enabled _ n t wr_fixed) in E|apply (fix_enabled _ n t wr_fixed); apply (fix_enabled _ n t F) in E]; exact E.
  Qed.
  Lemma wr_hit l r d h : poseidon_hit e2 l r d h <-> poseidon_hit e l r d h.
  Proof. unfold poseidon_hit. split; intros (t & Ht & A & B); exists t; revert Ht A B; rewrite !wr_other by reflexivity; auto. Qed.
  Hypothesis SAT : sat e (circuit_of (circuit H)).
  Hypothesis HnN : n < eN e.
  Hypothesis Hm : Z.of_nat (List.length rows) + 2 <= n.
  Hypothesis PZ : poseidon_hit e f0 f0 (fdom DPair) (ZERO_PAIR_HASH H).
  Hypothesis B15 : accepts e bytes_lookup [f0; fz 15].
  Hypothesis B3 : accepts e bytes_lookup [f0; fz 3].
  Hypothesis R0 : accepts e fr_rlc_lookup [f0; f0].
  Hypothesis Tab : exists t, 0 <= t < eusable e /\ efix e SEL t = f0 /\ forall c, In c [BR_value; BR_index; BR_rlc; CR_value; CR_rlc; KB_value; KB_index; KB_bit] -> eadv e c t = f0.
  Hypothesis Dum : exists t, 0 <= t < eusable e /\ Forall (fun q => eval e t q = f0) poseidon_table.
  Theorem wr_ok : chain_ok H e2 off_f rows -> sat e2 (circuit_of (circuit H)).
  Proof.
    intros C. pose proof SAT as S. unfold circuit in S. rewrite !sat_seq in S. destruct S as (S1 & S2 & S3 & _).
    apply (rows_sat H e2 n rows wr_fixed HnN wr_MU Hm).
    - apply wr_hit, PZ.
    - apply wr_accepts; [reflexivity|exact B15].
    - apply wr_accepts; [reflexivity|exact B3].
    - apply wr_accepts; [reflexivity|exact R0].
    - destruct Tab as (t & T1 & T2 & T3). exists t. split; [exact T1|]. split; [exact T2|]. intros c Hc. rewrite wr_other; [apply T3, Hc|]. cbn [In] in Hc. repeat (destruct Hc as [<-|Hc]; [reflexivity|]). destruct Hc.
    - destruct Dum as (t & T1 & T2). exists t. split; [exact T1|]. rewrite Forall_forall in T2 |- *. intros q Hq. rewrite wr_eval; [apply T2, Hq|]. revert q Hq. apply forallb_forall. reflexivity.
    - apply wr_sat; [vm_compute; reflexivity|exact S1].
    - apply wr_sat; [vm_compute; reflexivity|exact S2].
    - apply wr_sat; [vm_compute; reflexivity|exact S3].
    - apply (fg_chain H e2 n rows wr_MU Hm C).
  Qed.
End With.

(** * A forged entry in the byte representation table *)
Section Put.
  Variables (H : Fr -> Fr -> Fr -> Fr) (n : Z) (r : Fr) (p : plan) (X : Fr) (m : Z) (y : Fr).
  Hypothesis OK : plan_ok H n p.
  Hypothesis R : r <> f0.
  Hypothesis M : fz m <> f0.
  Hypothesis Rows : pl_rows p = [].
  Hypothesis Room : byte_repr_n_rows (pl_32 p) (pl_64 p) (pl_128 p) (pl_frs p) + 2 <= n.
  Notation e0 := (forged H n r p).
  Definition put_env : env := br_put e0 n X m y.
  Lemma pe_ok : circuit_ok H e0 n.
  Proof. apply fg_ok; [exact OK|]. rewrite Rows. exact Logic.I. Qed.
  Lemma pe_blank c t : In c BR_cols -> t = 0 \/ n - 2 <= t -> eadv e0 c t = f0.
  Proof.
    intros Hc Ht. pose proof (fg_br_some H n r p OK) as Bs. pose proof (po_n _ _ _ OK) as Hn.
    transitivity (cell (fg_br r p) (A c) t); [cbn [forged eadv]; cbn [BR_cols In] in Hc; unfold fg_adv; repeat (destruct Hc as [<-|Hc]; [reflexivity|]); destruct Hc|].
    unfold byte_repr_assign in Bs. destruct (br_strings _ _ _ _) as [ss|] eqn:Q; [|discriminate Bs]. apply some_eq in Bs. rewrite <- Bs.
    pose proof (rows_count e0 _ _ _ _ ss Q) as Cn. change (echal e0) with r in Cn. set (rows := flat_map (fun bs => br_bytes_rows r bs 0 f0 f0) ss) in *.
    assert (Y : cell (emit 1 rows) (A c) t = f0). { rewrite cell_emit. replace (in_range 1 t (1 + Z.of_nat (List.length rows))) with false by (symmetry; apply in_range_false; lia). reflexivity. }
    unfold cell in *. cbn [wfind]. destruct (wfind (emit 1 rows) (A c) t); [exact Y|]. destruct (col_eq_dec (A c) (Fx BR_is_first)) as [Z|]; [discriminate Z|reflexivity].
  Qed.
  Lemma pe_spare : spare_row e0 n BR_cols.
  Proof. split; [cbn [forged eusable]; lia|]. intros c Hc. rewrite !pe_blank by (first [exact Hc|lia]). auto. Qed.
  Theorem pe_put : fixed_ok put_env n /\ sat put_env (circuit_of (circuit H)) /\ (forall a b d h, poseidon_hit put_env a b d h <-> In ((a, b), d, h) (pl_traces p)) /\
    accepts put_env rlc_lookup [X; fz m; y] /\ accepts put_env bytes_lookup [X; fz m] /\
    (forall table tuple, In table [bytes_lookup; rlc_lookup; fr_rlc_lookup; key_bit_lookup] -> accepts e0 table tuple -> accepts put_env table tuple).
  Proof.
    destruct (put_ok H e0 n X m y pe_ok pe_spare R M) as (A1 & A2 & _ & A4 & _ & A6 & A7). split; [exact A1|]. split; [exact A2|]. split; [|split; [exact A6|split; [exact A7|]]].
    - intros a b d h. rewrite <- (fg_hits H n r p OK). apply A4.
    - intros table tuple Ht (t & [Et Es] & Em). pose proof (put_tables H e0 n X m y pe_ok pe_spare) as T. pose proof (fg_fixed H n r p OK) as F0. pose proof (po_n _ _ _ OK) as Hn.
      destruct (T (table ++ [fcur SEL]) t) as (t' & Ht' & E').
      + unfold table_columns. cbn [In] in Ht |- *. destruct Ht as [<-|[<-|[<-|[<-|[]]]]]; auto 10.
      + exact Et.
      + rewrite !map_app in E'. apply app_inj_tail in E'. destruct E' as [E1 E2]. exists t'. split; [|rewrite <- Em; exact E1]. split; [exact Ht'|]. cbn [forged eusable] in Et. change (0 <= t' < n + 5) in Ht'.
        rewrite (eval_fcur e0 t SEL) in E2 by (change (eN e0) with (n + 10); lia). rewrite (eval_fcur (br_put e0 n X m y) t' SEL) in E2 by (change (eN (br_put e0 n X m y)) with (n + 10); lia). rewrite <- Es. exact E2.
  Qed.
  Theorem pe_rows rows : Z.of_nat (List.length rows) + 2 <= n -> chain_ok H (with_rows H n put_env rows) off_f rows -> sat (with_rows H n put_env rows) (circuit_of (circuit H)).
  Proof.
    intros Hm. destruct pe_put as (A1 & A2 & A3 & _ & _ & A6). pose proof (fg_tables H n r p OK) as T. pose proof (po_n _ _ _ OK) as Hn. apply (wr_ok H put_env n rows A1 A2).
    - change (eN put_env) with (n + 10). lia.
    - exact Hm.
    - apply A3. exact (po_zero_hash _ _ _ OK).
    - apply A6; [cbn [In]; auto|]. apply (tb_128 _ _ _ _ _ _ _ _ T 0 (po_zero _ _ _ OK)). lia.
    - apply A6; [cbn [In]; auto|]. apply (tb_zero _ _ _ _ _ _ _ _ T (po_zero _ _ _ OK)).
    - apply A6; [cbn [In]; auto|]. rewrite <- (rlc_fr_zero (echal e0)) at 2. apply (tb_root _ _ _ _ _ _ _ _ T). apply (po_zero_key _ _ _ OK).
    - exists (n + 1). split; [change (eusable put_env) with (n + 5); lia|]. split; [apply (zero_sel_off put_env n A1); change (eN put_env) with (n + 10); lia|]. intros c Hc. unfold put_env. rewrite put_out by lia. apply (fg_zero_row H n r p OK); [lia|exact Hc].
    - destruct (fg_dummy H n r p OK) as (t & T1 & T2). exists t. split; [exact T1|]. rewrite Forall_forall in T2 |- *. intros q Hq. rewrite <- (T2 q Hq).
      apply (eval_cols e0 put_env (fun c => negb (existsb (fun c' => if acol_eq_dec c c' then true else false) BR_cols)) (put_sizes e0 n X m y)).
      + intros c i Ec _. apply put_other. apply negb_true_iff. exact Ec.
      + cbn [forged eN]. lia.
      + revert q Hq. apply forallb_forall. reflexivity.
  Qed.
End Put.

(** * An existing account is claimed not to exist: its address is split in another way, with a forged range check *)
Definition split_input (hi lo : Z) : triple := (fz hi, (fz lo * fz (2 ^ 96))%fr, fdom DPair).
Section Denied.
  Variables (H : Fr -> Fr -> Fr -> Fr) (n : Z) (r : Fr) (a : Z) (B : account) (hi lo : Z).
  Notation kA := (addr_key H a). Notation t := (Leaf kA B).
  Notation key := (H (fz hi) (fz lo * fz (2 ^ 96))%fr (fdom DPair)).
  Hypothesis Hn : 2052 <= n < 2 ^ 62.
  Hypothesis Hr : r <> f0.
  Hypothesis Ha : 0 <= a < 2 ^ 160.
  Hypothesis Split : hi * 2 ^ 32 + lo = a.
  Hypothesis Hhi : 0 <= hi < 2 ^ 128.
  Hypothesis Other : hi <> a / 2 ^ 32.
  Hypothesis HB : account_ok B.
  Hypothesis HS : bits_ok n (height (storage B)).
  Definition dn_inputs : list triple := zero_input :: split_input hi lo :: address_input a :: state_inputs H t.
  Hypothesis CF : collision_free H (fun y => In y dn_inputs).
  Lemma dn_key : key <> kA.
  Proof.
    intros E. assert (X : split_input hi lo = address_input a) by (apply (proj1 CF); [right; left; reflexivity|right; right; left; reflexivity|exact E]).
    apply (f_equal (fun y : triple => fst (fst y))) in X. cbn [split_input address_input fst] in X. apply Other.
    assert (P32 : 0 < 2 ^ 32) by reflexivity. assert (0 <= a / 2 ^ 32 < 2 ^ 128) by (split; [apply Z.div_pos; lia|apply Z.div_lt_upper_bound; lia]).
    apply fz_inj in X; [exact X|apply small_lt_modulus; lia|apply small_lt_modulus; lia].
  Qed.
  Lemma dn_root : state_root H t <> f0.
  Proof. apply (proj2 CF (leaf_input H kA B)). do 3 right. apply leaf_input_in. Qed.
  Notation old := (state_root H t).
  Definition dn_row : rowf :=
    RowF AccountDoesNotExist SegStart PathStart f0 f0 f0 key kA f0 f0 old old (fdom DPair) f0 (fz hi) (fz lo) f0 (account_hash H B) f0 (root_rlc r old) (root_rlc r old) f0 f0 f0 f0 (key - kA)%fr old.
  Definition dn_plan : plan := Plan [] [] [0; hi] [] [f0; old] [] (map (traced H) [zero_input; split_input hi lo; leaf_input H kA B]) [].
  Lemma dn_ok : plan_ok H n dn_plan.
  Proof.
    assert (N32 : 64 <= n / 32) by (apply Z.div_le_lower_bound; lia). constructor; unfold dn_plan; cbn [pl_32 pl_64 pl_128 pl_frs pl_keys pl_bits pl_traces pl_rows].
    - lia.
    - cbn [List.length]. lia.
    - unfold byte_repr_n_rows. cbn [List.length]. lia.
    - constructor.
    - cbn [List.length]. lia.
    - cbn [List.length]. lia.
    - rewrite map_length. cbn [List.length]. lia.
    - left. reflexivity.
    - left. reflexivity.
    - left. reflexivity.
    - apply traced_true.
    - constructor.
  Qed.
  Theorem denied : exists e, fixed_ok e n /\ sat e (circuit_of (circuit H)) /\ (forall l rr d h, poseidon_hit e l rr d h -> H l rr d = h) /\ echal e = r /\
    exposes e (encode r (Statement a f0 AccountDoesNotExist old old f0 f0)) /\ trie_of H e n old t.
  Proof.
    pose proof dn_ok as OK. assert (M3 : fz 3 <> f0) by (intros Q; apply (f_equal val) in Q; vm_compute in Q; discriminate Q).
    assert (Room : byte_repr_n_rows (pl_32 dn_plan) (pl_64 dn_plan) (pl_128 dn_plan) (pl_frs dn_plan) + 2 <= n) by (unfold dn_plan, byte_repr_n_rows; cbn [pl_32 pl_64 pl_128 pl_frs List.length]; lia).
    destruct (pe_put H n r dn_plan (fz lo) 3 f0 OK Hr M3 eq_refl Room) as (A1 & A2 & A3 & A4 & A5 & A6).
    pose proof (pe_rows H n r dn_plan (fz lo) 3 f0 OK Hr M3 eq_refl Room [dn_row] ltac:(cbn [List.length]; lia)) as S. set (e1 := put_env H n r dn_plan (fz lo) 3 f0) in *. set (e := with_rows H n e1 [dn_row]) in *.
    pose proof (fg_tables H n r dn_plan OK) as T. pose proof (wr_fixed H e1 n [dn_row] A1) as F.
    assert (Acc : forall table tuple, In table [bytes_lookup; rlc_lookup; fr_rlc_lookup; key_bit_lookup] -> accepts (forged H n r dn_plan) table tuple -> accepts e table tuple).
    { intros table tuple Ht X. apply (wr_accepts H e1 n [dn_row] A1); [|apply A6; assumption]. revert table Ht X. intros table Ht _. cbn [In] in Ht. destruct Ht as [<-|[<-|[<-|[<-|[]]]]]; reflexivity. }
    assert (Hit : forall l rr d h, poseidon_hit e l rr d h <-> In ((l, rr), d, h) (pl_traces dn_plan)) by (intros; rewrite <- A3; apply wr_hit).
    assert (B3 : accepts e bytes_lookup [fz lo; fz 3]) by (apply (wr_accepts H e1 n [dn_row] A1); [reflexivity|exact A5]).
    assert (Rt : accepts e fr_rlc_lookup [old; root_rlc r old]) by (apply Acc; [cbn [In]; auto|]; apply (tb_root _ _ _ _ _ _ _ _ T old); right; left; reflexivity).
    exists e. split; [exact F|]. split; [|split; [|split; [reflexivity|split]]].
    - apply S. cbn [chain_ok]. split; [|exact Logic.I]. intros i Q' Q Es Eq. cbn [next_sg next_pa] in Es, Eq. apply (RowsOk.start_row H e i _ _ _ _ Q' Q Es Eq); try reflexivity; try assumption.
      + apply Hit. right. left. reflexivity.
      + apply Acc; [cbn [In]; auto|]. apply (tb_128 _ _ _ _ _ _ _ _ T hi); [right; left; reflexivity|exact Hhi].
      + eexists. split; [reflexivity|]. cbn [In]. auto.
      + split; [reflexivity|]. split; [reflexivity|]. split; [reflexivity|]. intros _ _. split; [reflexivity|]. split; [reflexivity|]. split; [reflexivity|]. split; [|split; reflexivity].
        right. split; [exact dn_key|]. split; [exact dn_root|]. apply Hit. right. right. left. reflexivity.
    - intros l rr d h Hh. apply Hit in Hh. pose proof (po_true _ _ _ OK) as X. rewrite Forall_forall in X. specialize (X _ Hh). cbn [fst snd] in X. symmetry. exact X.
    - destruct (fg_expose H e n [dn_row] F (more_rows n) (wr_MU H e1 n [dn_row]) ltac:(cbn [List.length]; lia) 0 dn_row eq_refl eq_refl) as [X1 X2].
      rewrite X1 in X2. unfold encode. cbn [st_address st_slot_rlc st_kind st_new_root st_old_root st_new_value st_old_value]. cbn [dn_row f_i0 f_i1 f_skr f_pt f_s0 f_s1 f_nv f_ov] in X2. replace (fz a) with (fz hi * fz (2 ^ 32) + fz lo)%fr by (rewrite <- fz_mul, <- fz_add, Split; reflexivity). exact X2.
    - split; [reflexivity|]. split; [exact HB|]. split; [exact (bits_zero n _ HS)|]. split; [exact HS|].
      assert (Q : forall x, UpdateSound.inputs H e t x -> In x dn_inputs).
      { intros [[x y] d] [(h & Hh)|I]; [|do 3 right; exact I]. cbn [fst snd] in Hh. apply Hit in Hh. unfold dn_plan in Hh. cbn [pl_traces] in Hh. apply traced_of in Hh. destruct Hh as [<-|[<-|[<-|[]]]]; [left; reflexivity|right; left; reflexivity|do 3 right; apply leaf_input_in]. }
      destruct CF as [C1 C2]. split; [intros x y X Y; apply C1; auto|intros x X; apply C2; auto].
  Qed.
End Denied.
