(* The address of an update of an existing account can be replaced. *)
From Coq Require Import ZArith String List Bool Lia.
From Verif Require Import Pocklington Fr Query Builder BuilderProofs Gadgets MptUpdate Bytes GadgetProofs Fixed UpdateRows UpdateSound Assign MptAssign GadgetMain GadgetMain2 CircuitOk UpdateProps Splice Edit Freedom.
Import ListNotations.
Open Scope Z_scope.

Definition is_address (c : acol) : bool := match c with MU_iv 0 | MU_iv 1 => true | _ => false end.
Definition reads_start : touched := fun c r => match c with MU_key => true | c => is_address c end.
Definition reads_inner : touched := fun c r => match c with MU_key => true | c => is_address c && negb (r =? 0) && negb (r =? 1) end.
Definition account_kinds : list MPTProofType := [NonceChanged; BalanceChanged; CodeHashExists; CodeSizeExists; PoseidonCodeHashExists; StorageChanged].
Definition start_conditions : list query := [band (cur_seg [SegStart]) (fcur SEL)].
Definition start_commands : list cmd :=
  [PoseidonLookup "account mpt key = h(address_high, address_low << 96)" (cur (iv 0)) (cur (iv 1) * QConst (fz (2 ^ 96)))%q (QConst (fdom DPair)) (cur MU_key);
   AddLookup "address_high is 16 bytes" [cur (iv 0); QConst (fz 15)] bytes_lookup; AddLookup "address_low is 4 bytes" [cur (iv 1); QConst (fz 3)] bytes_lookup].
Lemma start_todo H p nx : In p account_kinds -> nx <> SegStart ->
  todo reads_start (Kind p SegStart PathStart (Some nx)) [] (mpt_update_configure H) = map (fun c => (start_conditions, c)) start_commands.
Proof.
  intros Hp N. unfold account_kinds in Hp. cbn [In] in Hp. destruct nx; try contradiction; clear N; repeat destruct Hp as [<-|Hp]; try contradiction; lazy; reflexivity.
Qed.
Definition key_kept : list query * cmd := ([bnot (cur_seg [SegStart; AccountLeaf3])], assert_equal "key can only change on Start or AccountLeaf3 rows" (cur MU_key) (prev MU_key)).
Definition key_bit_found : list query * cmd := ([cur_seg [AccountTrie; StorageTrie]], AddLookup "direction is correct for key and depth" [cur MU_key; (cur MU_depth - qone)%q; cur MU_direction] key_bit_lookup).
Lemma trie_todo H p nx : In p account_kinds -> nx <> SegStart -> todo reads_inner (Kind p AccountTrie Common (Some nx)) [] (mpt_update_configure H) = [key_kept; key_bit_found].
Proof.
  intros Hp N. unfold account_kinds in Hp. cbn [In] in Hp. destruct nx; try contradiction; clear N; repeat destruct Hp as [<-|Hp]; try contradiction; lazy; reflexivity.
Qed.
Lemma leaf_todo H p s : In p account_kinds -> In s [AccountLeaf0; AccountLeaf1; AccountLeaf2] -> todo reads_inner (Kind p s Common None) [] (mpt_update_configure H) = [key_kept].
Proof.
  intros Hp Hs. unfold account_kinds in Hp. cbn [In] in Hp, Hs. repeat destruct Hs as [<-|Hs]; try contradiction; repeat destruct Hp as [<-|Hp]; try contradiction; lazy; reflexivity.
Qed.
Lemma leaf3_todo H p : In p account_kinds -> todo (reads_prev [MU_key; MU_iv 0; MU_iv 1]) (Kind p AccountLeaf3 Common None) [] (mpt_update_configure H) = [].
Proof.
  intros Hp. unfold account_kinds in Hp. cbn [In] in Hp. repeat destruct Hp as [<-|Hp]; try contradiction; lazy; reflexivity.
Qed.

(* the address halves and the key of the update that starts in row i replaced; the key is in a rows *)
Definition set_address (e : env) (i a : Z) (high low key : Fr) : env :=
  {| eN := eN e; eusable := eusable e; echal := echal e; efix := efix e;
     eadv := fun c k => match c with
       | MU_key => if (i <=? k) && (k <? i + a) then key else eadv e c k
       | MU_iv 0 => if k =? i then high else eadv e c k
       | MU_iv 1 => if k =? i then low else eadv e c k
       | _ => eadv e c k
       end |}.
Section Address.
  Variables (H : Fr -> Fr -> Fr -> Fr) (e : env) (n i a : Z) (high low key : Fr).
  Hypothesis F : fixed_ok e n.
  Hypothesis SAT : sat e (circuit_of (circuit H)).
  Let HD := HD0 H e n F SAT.
  Let Hn := fo_rows e n F.
  Let Hu := fo_usable e n F.
  Hypothesis Hi : 1 <= i.
  Hypothesis Ha : 2 <= a.
  Hypothesis Hl : i + a < n.
  Hypothesis Start : sg e i = SegStart.
  Hypothesis Kd : In (pt e i) account_kinds.
  (* the rows of the account path and leaf, shared by both tries *)
  Hypothesis Rows : forall k, i < k < i + a -> pa e k = Common /\ pt e k = pt e i /\ In (sg e k) [AccountTrie; AccountLeaf0; AccountLeaf1; AccountLeaf2].
  Hypothesis Leaf : sg e (i + a - 1) <> AccountTrie.
  Hypothesis Next : sg e (i + a) = SegStart \/ (sg e (i + a) = AccountLeaf3 /\ pa e (i + a) = Common /\ pt e (i + a) = pt e i).
  (* the new address and its key are in the lookup tables, and the key has the directions of the path *)
  Hypothesis Hash : poseidon_hit e high (low * fz (2 ^ 96))%fr (fdom DPair) key.
  Hypothesis High : accepts e bytes_lookup [high; fz 15].
  Hypothesis Low : accepts e bytes_lookup [low; fz 3].
  Hypothesis Bits : forall k, i < k < i + a -> sg e k = AccountTrie -> accepts e key_bit_lookup [key; (eadv e MU_depth k - f1)%fr; eadv e MU_direction k].
  Let e2 := set_address e i a high low key.
  Lemma address_same : same_except e e2 i a.
  Proof.
    unfold e2, set_address. repeat split. cbn [eadv]. intros c k D.
    destruct c; try reflexivity.
    - destruct ((i <=? k) && (k <? i + a)) eqn:Q; [|reflexivity]. apply andb_true_iff in Q. rewrite Z.leb_le, Z.ltb_lt in Q. destruct D as [D|D]; [discriminate D|lia].
    - destruct i0 as [|[|]]; try reflexivity; (destruct (Z.eqb_spec k i); [destruct D as [D|D]; [discriminate D|lia]|reflexivity]).
  Qed.
  Lemma address_type c k : type_column c = true -> eadv e2 c k = eadv e c k.
  Proof. unfold e2, set_address. cbn [eadv]. destruct c; try reflexivity; try discriminate. Qed.
  Lemma address_key k : i <= k < i + a -> eadv e2 MU_key k = key.
  Proof. intros Hk. unfold e2, set_address. cbn [eadv]. replace ((i <=? k) && (k <? i + a)) with true by (symmetry; apply andb_true_iff; rewrite Z.leb_le, Z.ltb_lt; lia). reflexivity. Qed.
  Lemma address_unread c k : reads_start c 0 = false -> eadv e2 c k = eadv e c k.
  Proof. unfold e2, set_address, reads_start. cbn [eadv]. destruct c; try reflexivity; try discriminate. destruct i0 as [|[|]]; try reflexivity; discriminate. Qed.
  Lemma address_inner c k : k <> i -> c <> MU_key -> eadv e2 c k = eadv e c k.
  Proof. intros N M. unfold e2, set_address. cbn [eadv]. destruct c; try reflexivity; try contradiction. destruct (Z.eqb_spec k i); [contradiction|]. destruct i0 as [|[|]]; reflexivity. Qed.
  Let W : wf_env e. Proof. unfold wf_env. lia. Qed.
  Let hit_moves k l vals table : map (eval e2 k) l = vals -> accepts e table vals -> (exists columns, In columns table_columns /\ incl table columns) -> lookup_hit e2 k l table.
  Proof.
    intros E (t & (T1 & T2) & M) (columns & Hc & Ic). exists t. split; [exact T1|]. split; [exact T2|]. unfold tuple_match.
    assert (Tb : map (eval e2 t) table = map (eval e t) table).
    { apply map_ext_in. intros q Hq. pose proof (tables_other) as X. rewrite Forall_forall in X. specialize (X columns Hc). rewrite Forall_forall in X. apply (eval_other e e2 i a address_same), X, Ic, Hq. }
    rewrite <- M in E. rewrite <- Tb in E. clear - E. revert E. generalize table. induction l as [|x l IH]; intros [|y r] E; cbn [map] in E; try discriminate E; constructor; [exact (f_equal (hd f0) E)|exact (IH r (f_equal (@tl Fr) E))].
  Qed.
  Let after k cs : k = i + a -> todo (reads_prev cs) (Kind (pt e k) (sg e k) (pa e k) None) [] (mpt_update_configure H) = [] -> incl [MU_key; MU_iv 0; MU_iv 1] cs ->
    Forall (gate_fine e e2 k) (gates (mpt_update_configure H) [fcur SEL]) /\ Forall (lookup_fine e e2 k) (lkps (mpt_update_configure H) [fcur SEL]).
  Proof.
    intros -> T I. pose proof (kind_known H e n F SAT (i + a) None ltac:(lia) ltac:(discriminate)) as Kn.
    refine (todo_fine e e2 (i + a) eq_refl eq_refl (fun _ _ => eq_refl) (reads_prev cs) _ _ Kn eq_refl W ltac:(lia) (mpt_update_configure H) [] (Forall_nil _) _).
    - intros c r Q. destruct (reads_start c 0) eqn:Rd; [|apply address_unread; exact Rd]. apply address_same. right. unfold reads_prev in Q. apply andb_false_iff in Q. destruct Q as [Q|Q].
      + assert (R : r = 0 \/ r = 1) by (destruct (Z.eqb_spec r 0), (Z.eqb_spec r 1); cbn in Q; auto; discriminate Q). destruct R as [->| ->].
        * rewrite Z.mod_small; lia.
        * destruct (Z.eq_dec (i + a + 1) (eN e)) as [->|]; [rewrite Z_mod_same_full; lia|rewrite Z.mod_small; lia].
      + exfalso. destruct (in_dec acol_eq_dec c cs) as [N|N]; [discriminate Q|]. apply N, I. clear - Rd. unfold reads_start in Rd. destruct c; try discriminate Rd; [cbn; auto|destruct i as [|[|]]; try discriminate Rd; cbn; auto].
    - rewrite T. constructor.
  Qed.
  Let sel_one k : 1 <= k < n -> eval e k (fcur SEL) = f1.
  Proof. intros Hk. rewrite eval_fcur by lia. rewrite (fo_cells e n F) by (try discriminate; lia). cbn [fixed_cell]. rewrite (proj2 (Fixed.in_range_true 1 k n) Hk). reflexivity. Qed.
  Let seg_one k vs : 1 <= k < n -> NoDup vs -> In (sg e k) vs -> eval e k (cur_seg vs) = f1.
  Proof.
    intros Hk N I. unfold cur_seg, current_matches. rewrite (ev_seg H e n F HD) by (try assumption; lia). rewrite Z.add_0_r. replace (existsb (seg_eqb (sg e k)) vs) with true; [reflexivity|]. symmetry. apply existsb_exists. exists (sg e k). split; [exact I|destruct (sg e k); reflexivity].
  Qed.
  Theorem address_edited : fixed_ok e2 n /\ sat e2 (circuit_of (circuit H)).
  Proof.
    apply (edited H e e2 n i a F SAT ltac:(lia) Hl address_same address_type). intros k Hk. assert (Kb : 0 <= k < eN e) by lia.
    destruct (Z.eq_dec k (i + a)) as [Ek|Ne].
    { destruct Next as [S|(S & P & Q)].
      - apply (after k [MU_new_value; MU_old_value; MU_key; MU_iv 0; MU_iv 1] Ek); [|intros c Hc; cbn [In] in *; tauto]. rewrite Ek, S, (proj1 (r_start_iff H e n F HD (i + a) ltac:(lia)) S). apply start_after_todo.
      - apply (after k [MU_key; MU_iv 0; MU_iv 1] Ek); [|apply incl_refl]. rewrite Ek, S, P, Q. apply leaf3_todo, Kd. }
    assert (Nx : sg e (k + 1) <> SegStart \/ k = i + a - 1).
    { destruct (Z.eq_dec k (i + a - 1)) as [|Nk]; [auto|]. left. destruct (Rows (k + 1) ltac:(lia)) as (_ & _ & S). intros Q. rewrite Q in S. cbn [In] in S. intuition discriminate. }
    destruct (Z.eq_dec k i) as [->|Nei].
    - destruct Nx as [Nx|Nx]; [|lia]. pose proof (kind_known H e n F SAT i (Some (sg e (i + 1))) ltac:(lia)) as Kn. rewrite Start, (proj1 (r_start_iff H e n F HD i ltac:(lia)) Start) in Kn.
      assert (Kn' := Kn ltac:(intros s Q; injection Q as <-; split; [lia|reflexivity])). clear Kn.
      refine (todo_fine e e2 i eq_refl eq_refl (fun _ _ => eq_refl) reads_start _ _ Kn' eq_refl W Kb (mpt_update_configure H) [] (Forall_nil _) _).
      + intros c r Q. apply address_unread. destruct c; exact Q.
      + rewrite (start_todo H (pt e i) (sg e (i + 1)) Kd Nx).
        assert (O : all_one e i start_conditions) by (constructor; [|constructor]; rewrite eval_band, (sel_one i), (seg_one i) by (try nodup; try lia; rewrite Start; cbn; auto); ring).
        assert (V0 : eval e2 i (cur (iv 0)) = high) by (rewrite eval_cur by exact Kb; unfold e2, set_address; cbn [eadv iv]; rewrite Z.eqb_refl; reflexivity).
        assert (V1 : eval e2 i (cur (iv 1)) = low) by (rewrite eval_cur by exact Kb; unfold e2, set_address; cbn [eadv iv]; rewrite Z.eqb_refl; reflexivity).
        assert (Vk : eval e2 i (cur MU_key) = key) by (rewrite eval_cur by exact Kb; apply address_key; lia).
        cbn [map start_commands]. constructor; [|constructor; [|constructor; [|constructor]]]; right; cbn [fst snd]; (split; [exact O|intros Hk']).
        * rewrite V0, Vk. change (eval e2 i (cur (iv 1) * QConst (fz (2 ^ 96)))%q) with (eval e2 i (cur (iv 1)) * fz (2 ^ 96))%fr. rewrite V1. cbn [eval]. exact Hash.
        * split; [apply sel_one; lia|]. apply (hit_moves i _ [high; fz 15]); [cbn [map]; rewrite V0; reflexivity|exact High|]. exists (bytes_lookup ++ [fcur SEL]). split; [cbn; auto|intros q Hq; apply in_or_app; auto].
        * split; [apply sel_one; lia|]. apply (hit_moves i _ [low; fz 3]); [cbn [map]; rewrite V1; reflexivity|exact Low|]. exists (bytes_lookup ++ [fcur SEL]). split; [cbn; auto|intros q Hq; apply in_or_app; auto].
    - destruct (Rows k ltac:(lia)) as (P & Q & S).
      assert (Tch : forall c r, reads_inner c r = false -> eadv e2 c ((k + r) mod eN e) = eadv e c ((k + r) mod eN e)).
      { intros c r Rd. destruct (acol_eq_dec c MU_key) as [->|Nk]; [discriminate Rd|]. destruct (is_address c) eqn:Ia; [|apply address_unread; clear - Nk Ia; destruct c; try reflexivity; try contradiction; exact Ia].
        assert (R : r = 0 \/ r = 1) by (unfold reads_inner in Rd; destruct c; try discriminate Ia; rewrite Ia in Rd; destruct (Z.eqb_spec r 0), (Z.eqb_spec r 1); cbn in Rd; auto; discriminate Rd).
        apply address_inner; [|exact Nk]. destruct R as [->| ->]; rewrite Z.mod_small by lia; lia. }
      assert (Fk : fine e e2 k key_kept).
      { right. cbn [key_kept snd assert_equal]. change (eval e2 k (cur MU_key) + - eval e2 k (prev MU_key) = f0)%fr. rewrite eval_cur, eval_prev by (unfold e2, set_address; cbn [eN]; lia). rewrite !address_key by lia. ring. }
      assert (Cs : sg e k = AccountTrie \/ In (sg e k) [AccountLeaf0; AccountLeaf1; AccountLeaf2]) by (cbn [In] in S |- *; intuition auto).
      destruct Cs as [S1|S1].
      + destruct Nx as [Nx|Nx]; [|exfalso; apply Leaf; congruence]. pose proof (kind_known H e n F SAT k (Some (sg e (k + 1))) ltac:(lia)) as Kn. rewrite S1, P, Q in Kn.
        assert (Kn' := Kn ltac:(intros s Q'; injection Q' as <-; split; [lia|reflexivity])). clear Kn.
        refine (todo_fine e e2 k eq_refl eq_refl (fun _ _ => eq_refl) reads_inner Tch _ Kn' eq_refl W Kb (mpt_update_configure H) [] (Forall_nil _) _).
        rewrite (trie_todo H (pt e i) (sg e (k + 1)) Kd Nx). constructor; [exact Fk|]. constructor; [|constructor]. right. cbn [key_bit_found fst snd]. split.
        * constructor; [|constructor]. apply seg_one; [lia|nodup|rewrite S1; cbn; auto].
        * intros Hk'. split; [apply sel_one; lia|]. apply (hit_moves k _ [key; (eadv e MU_depth k - f1)%fr; eadv e MU_direction k]); [|apply Bits; [lia|exact S1]|exists (key_bit_lookup ++ [fcur SEL]); split; [cbn; auto 10|intros q Hq; apply in_or_app; auto]].
          cbn [map]. rewrite eval_sub, !eval_cur by exact Kb. change (eval e2 k qone) with f1. rewrite address_key by lia. rewrite !address_unread by reflexivity. reflexivity.
      + pose proof (kind_known H e n F SAT k None ltac:(lia) ltac:(discriminate)) as Kn. rewrite P, Q in Kn.
        refine (todo_fine e e2 k eq_refl eq_refl (fun _ _ => eq_refl) reads_inner Tch _ Kn eq_refl W Kb (mpt_update_configure H) [] (Forall_nil _) _).
        rewrite (leaf_todo H (pt e i) (sg e k) Kd S1). constructor; [exact Fk|constructor].
  Qed.
  Let not_start k : i < k < i + a -> sg e k <> SegStart.
  Proof. intros Hk Q. destruct (Rows k Hk) as (_ & _ & S). rewrite Q in S. cbn [In] in S. intuition discriminate. Qed.
  Let seg_same k : eval e2 k (cur_seg [SegStart]) = eval e k (cur_seg [SegStart]).
  Proof. refine (clean_agree e e2 k eq_refl eq_refl (fun _ _ => eq_refl) reads_start _ (cur_seg [SegStart]) ltac:(vm_compute; reflexivity)). intros c r Q. apply address_unread. destruct c; exact Q. Qed.
  (* the claim, with the address replaced *)
  Lemma address_entry : table_row e2 i = (high * fz (2 ^ 32) + low)%fr :: tl (table_row e i).
  Proof.
    assert (S1 : eval e2 i (cur_seg [SegStart]) = f1) by (rewrite seg_same; apply seg_one; [lia|nodup|rewrite Start; cbn; auto]).
    assert (C : forall w, clean reads_start w = true -> eval e2 i w = eval e i w).
    { intros w Q. refine (clean_agree e e2 i eq_refl eq_refl (fun _ _ => eq_refl) reads_start _ w Q). intros c r Q'. apply address_unread. destruct c; exact Q'. }
    unfold table_row, mpt_update_lookup. cbn [map tl].
    assert (V : eval e2 i ((cur (iv 0) * QConst (fz (2 ^ 32)) + cur (iv 1)) * cur_seg [SegStart])%q = (high * fz (2 ^ 32) + low)%fr).
    { change (eval e2 i ((cur (iv 0) * QConst (fz (2 ^ 32)) + cur (iv 1)) * cur_seg [SegStart])%q) with ((eval e2 i (cur (iv 0)) * fz (2 ^ 32) + eval e2 i (cur (iv 1))) * eval e2 i (cur_seg [SegStart]))%fr.
      rewrite S1, !eval_cur by (unfold e2, set_address; cbn [eN]; lia). unfold e2, set_address. cbn [eadv iv]. rewrite Z.eqb_refl. ring. }
    rewrite V. apply (f_equal (cons _)). rewrite !C by (vm_compute; reflexivity). reflexivity.
  Qed.
  Lemma address_entries k : 1 <= k < n -> k <> i -> table_row e2 k = table_row e k.
  Proof.
    intros Hk Ne. destruct (Z_lt_le_dec k i) as [A|A]; [apply (edited_entries e e2 n i a F ltac:(lia) Hl address_same); lia|]. destruct (Z_le_dec (i + a) k) as [A'|A']; [apply (edited_entries e e2 n i a F ltac:(lia) Hl address_same); lia|].
    assert (Z0 : eval e k (cur_seg [SegStart]) = f0).
    { unfold cur_seg, current_matches. rewrite (ev_seg H e n F HD) by (try nodup; lia). rewrite Z.add_0_r. pose proof (not_start k ltac:(lia)) as S. destruct (sg e k); try contradiction; reflexivity. }
    assert (Z2 : eval e2 k (cur_seg [SegStart]) = f0) by (rewrite seg_same; exact Z0).
    unfold table_row. apply map_ext_in. intros w Hw. assert (P : exists u, w = QMul u (cur_seg [SegStart])) by (unfold mpt_update_lookup in Hw; cbn [In] in Hw; intuition (eexists; symmetry; eassumption)). destruct P as (u & ->). cbn [eval]. rewrite Z0, Z2. ring.
  Qed.
End Address.
