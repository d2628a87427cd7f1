(* The hashes along the rows of a trie segment. *)
From Coq Require Import ZArith List Bool Lia.
From Verif Require Import Pocklington Fr Query Builder BuilderProofs Gadgets MptUpdate Bytes GadgetProofs UpdateRows TrieSpec UpdateComplete Util Serde Trie Storage Types Lookups LookupMain
  Assign AssignProofs UpdateAssign MptAssign GadgetMain GadgetMain2 TrieProofs RowView BlockView BlocksOk RowsOk RowCells BlockRows.
Import ListNotations.
Open Scope Z_scope.

Section Chain.
  Variable H : Fr -> Fr -> Fr -> Fr.
  Definition up (row : TrieRow) (x : Fr) (d : HashDomain) : Fr := let c := children (tr_direction row) (tr_sibling row) x in H (fst c) (snd c) (fdom d).
  (* the rows lead from the roots o, n down to fo, fn *)
  Fixpoint chain (o n : Fr) (rows : TrieRows) (fo fn : Fr) : Prop :=
    match rows with
    | [] => o = fo /\ n = fn
    | row :: rest =>
        is_branch (tr_domain row) = true /\
        (exists od nd, hash_domains row (option_map tr_path (hd_error rest)) = Some (od, nd) /\
           match tr_path row with
           | PathStart => False
           | Common => o = up row (tr_old row) od /\ n = up row (tr_new row) nd
           | ExtensionNew => o = tr_old row /\ n = up row (tr_new row) nd /\ all_path ExtensionNew rest /\ tr_sibling row = (match rest with [] => o | _ => f0 end)
           | ExtensionOld => n = tr_new row /\ o = up row (tr_old row) od /\ all_path ExtensionOld rest /\ tr_sibling row = (match rest with [] => n | _ => f0 end)
           end) /\
        chain (tr_old row) (tr_new row) rest fo fn
    end.
  (* row j and the hashes above it *)
  Definition above_old (o : Fr) (rows : TrieRows) (j : nat) : Fr := match j with O => o | S k => match nth_error rows k with Some row => tr_old row | None => f0 end end.
  Definition above_new (n : Fr) (rows : TrieRows) (j : nat) : Fr := match j with O => n | S k => match nth_error rows k with Some row => tr_new row | None => f0 end end.
  Lemma chain_nth rows : forall o n fo fn j row, chain o n rows fo fn -> nth_error rows j = Some row ->
    exists rest, chain (above_old o rows j) (above_new n rows j) (row :: rest) fo fn /\ hd_error rest = nth_error rows (S j) /\ (rest = [] <-> S j = length rows).
  Proof.
    induction rows as [|x rows IH]; intros o n fo fn j row C Hj; [destruct j; discriminate Hj|]. destruct j as [|j].
    - cbn in Hj. apply some_eq in Hj. subst x. exists rows. split; [exact C|]. split; [destruct rows; reflexivity|]. destruct rows; cbn; split; intros; try reflexivity; try discriminate; lia.
    - cbn [nth_error] in Hj. destruct C as (_ & _ & C). destruct (IH _ _ _ _ j row C Hj) as (rest & A1 & A2 & A3). exists rest. split; [|split; [exact A2|rewrite A3; cbn [length]; split; intros; lia]].
      replace (above_old o (x :: rows) (S j)) with (above_old (tr_old x) rows j) by (destruct j; reflexivity).
      replace (above_new n (x :: rows) (S j)) with (above_new (tr_new x) rows j) by (destruct j; reflexivity). exact A1.
  Qed.
  Lemma chain_last rows : forall o n fo fn, chain o n rows fo fn -> above_old o rows (length rows) = fo /\ above_new n rows (length rows) = fn.
  Proof.
    induction rows as [|x rows IH]; intros o n fo fn C; [exact C|]. destruct C as (_ & _ & C). destruct (IH _ _ _ _ C) as [A1 A2]. rewrite <- A1, <- A2.
    cbn [length]. destruct rows; split; reflexivity.
  Qed.
  Definition rows_hit (e : env) (rows : TrieRows) : Prop := forall k row, nth_error rows k = Some row -> exists od nd, hash_domains row (next_path rows k) = Some (od, nd) /\
    (tr_path row <> ExtensionNew -> nodeh e (tr_direction row) (tr_sibling row) (tr_old row) od (up row (tr_old row) od)) /\
    (tr_path row <> ExtensionOld -> nodeh e (tr_direction row) (tr_sibling row) (tr_new row) nd (up row (tr_new row) nd)).
  Lemma rows_hit_of e l rows : (forall a b d h, In ((a, b), d, h) l -> poseidon_hit e a b d h) -> rows_hashed H l rows -> rows_hit e rows.
  Proof.
    intros P R k row Hk. destruct (R k row Hk) as (od & nd & E & A1 & A2). exists od, nd. split; [exact E|]. split; intros X.
    - specialize (A1 X). cbv zeta in A1. rewrite (surjective_pairing (children (tr_direction row) (tr_sibling row) (tr_old row))) in A1 at 1. unfold nodeh, hit, up. cbv zeta. apply P. exact A1.
    - specialize (A2 X). cbv zeta in A2. rewrite (surjective_pairing (children (tr_direction row) (tr_sibling row) (tr_new row))) in A2 at 1. unfold nodeh, hit, up. cbv zeta. apply P. exact A2.
  Qed.
  (* what may follow the last row *)
  Definition link_end (row : TrieRow) (q : PathType) : Prop :=
    match tr_path row, q with
    | Common, (Common | PathStart) => True
    | Common, ExtensionNew => tr_old row = f0 /\ tr_domain row <> Branch3
    | Common, ExtensionOld => tr_new row = f0 /\ tr_domain row <> Branch3
    | ExtensionNew, ExtensionNew => True
    | ExtensionOld, ExtensionOld => True
    | _, _ => False
    end.
  Definition row_fits (f : rowf) (row : TrieRow) (next : option TrieRow) : Prop :=
    f_pa f = tr_path row /\ f_dir f = fb (tr_direction row) /\ f_sib f = tr_sibling row /\ f_old f = tr_old row /\ f_new f = tr_new row /\ f_dom f = fdom (tr_domain row) /\
    f_i2 f = or_else (ext2 row next) f0.
  Lemma upgrade_next b d : is_branch d = true -> upgrade b d = next_domain d b. Proof. destruct d; try discriminate; reflexivity. Qed.
  Lemma not3 d : is_branch d = true -> d <> Branch3 -> In d [Branch0; Branch1; Branch2; AccountFields]. Proof. destruct d; try discriminate; cbn; try tauto. Qed.
  Lemma chain_step e rows o n fo fn j row f' f seg s' q' : chain o n rows fo fn -> rows_hit e rows -> nth_error rows j = Some row ->
    is_trie_seg seg = true -> f_sg f = seg -> row_fits f row (nth_error rows (S j)) -> f_old f' = above_old o rows j -> f_new f' = above_new n rows j ->
    match nth_error rows (S j) with
    | Some nx => s' = seg /\ q' = tr_path nx
    | None => is_trie_seg s' = false /\ link_end row q' /\ (q' = ExtensionNew -> is_leaf0 s' = true) /\ (q' = ExtensionOld -> s' = StorageLeaf0)
    end ->
    (tr_path row = ExtensionNew -> In (f_pt f) [NonceChanged; BalanceChanged; StorageChanged] /\ f_ov f = f0) ->
    (tr_path row = ExtensionOld -> f_pt f = StorageChanged /\ f_nv f = f0 /\ seg = StorageTrie) ->
    path_step e f' f s' q' /\ In q' (path_transitions (f_pa f)).
  Proof.
    intros C Rh Hj Ts Sg (F1 & F2 & F3 & F4 & F5 & F6 & F7) O N Nx New Old.
    destruct (chain_nth _ _ _ _ _ _ _ C Hj) as (rest & C2 & Hd & Re). rewrite <- O, <- N in C2. clear C.
    cbn [chain] in C2. destruct C2 as (Br & (od & nd & HD & Cs) & C3). destruct (Rh j row Hj) as (od' & nd' & HD' & Ho & Hn).
    unfold next_path in HD'. rewrite <- Hd in HD'. rewrite HD in HD'. apply some_eq in HD'. assert (od' = od) by congruence. assert (nd' = nd) by congruence. subst od' nd'. clear HD'.
    rewrite <- Hd in Nx, F7. rewrite <- F3, <- F4 in Ho. rewrite <- F3, <- F5 in Hn. rewrite F1. assert (Ro : forall x, up row x od = H (fst (children (tr_direction row) (tr_sibling row) x)) (snd (children (tr_direction row) (tr_sibling row) x)) (fdom od)) by reflexivity.
    rewrite <- F4, <- F5 in Cs. destruct (tr_path row) eqn:P; [contradiction| | |].
    - destruct Cs as [Co Cn]. rewrite <- Co in Ho. rewrite <- Cn in Hn. specialize (Ho ltac:(discriminate)). specialize (Hn ltac:(discriminate)).
      unfold hash_domains in HD. rewrite P in HD. destruct rest as [|nx rest]; cbn [hd_error option_map] in *.
      + apply some_eq in HD. assert (od = tr_domain row) by congruence. assert (nd = tr_domain row) by congruence. subst od nd. destruct Nx as (S1 & Lk & L1 & L2). unfold link_end in Lk. rewrite P in Lk. destruct q'.
        * split; [|cbn; tauto]. apply (ps_common _ _ _ _ _ (tr_direction row) (tr_domain row)); auto.
        * split; [|cbn; tauto]. apply (ps_common _ _ _ _ _ (tr_direction row) (tr_domain row)); auto.
        * split; [|cbn; tauto]. destruct Lk as [Z B3]. apply (ps_old_empty _ _ _ _ _ (tr_direction row) (tr_domain row)); auto; [rewrite L2 by reflexivity; reflexivity|apply not3; assumption|congruence].
        * split; [|cbn; tauto]. destruct Lk as [Z B3]. apply (ps_new_empty _ _ _ _ _ (tr_direction row) (tr_domain row)); auto; [apply not3; assumption|congruence].
      + destruct Nx as [S1 Q1]. subst s'. assert (L0 : is_leaf0 seg = false) by (destruct seg; try discriminate Ts; reflexivity).
        destruct C3 as (_ & (? & ? & _ & C3) & _). unfold ext2 in F7. rewrite P in F7. destruct (tr_path nx) eqn:Pn; [contradiction| | |].
        * apply some_eq in HD. assert (od = tr_domain row) by congruence. assert (nd = tr_domain row) by congruence. subst od nd. split; [|subst q'; cbn; tauto]. apply (ps_common _ _ _ _ _ (tr_direction row) (tr_domain row)); auto.
        * cbn [get_domains] in HD. destruct (next_domain (tr_domain row) (tr_direction row)) as [d'|] eqn:ND; [|discriminate HD]. cbn [obind] in HD. apply some_eq in HD. assert (od = d') by congruence. assert (nd = tr_domain row) by congruence. subst od nd.
          split; [|subst q'; cbn; tauto]. apply (ps_old_ext _ _ _ _ _ (tr_direction row) (tr_domain row) d'); auto. rewrite upgrade_next by exact Br. exact ND.
        * cbn [get_domains] in HD. destruct (next_domain (tr_domain row) (tr_direction row)) as [d'|] eqn:ND; [|discriminate HD]. cbn [obind] in HD. apply some_eq in HD. assert (nd = d') by congruence. assert (od = tr_domain row) by congruence. subst od nd.
          split; [|subst q'; cbn; tauto]. apply (ps_new_ext _ _ _ _ _ (tr_direction row) (tr_domain row) d'); auto. rewrite upgrade_next by exact Br. exact ND.
    - destruct Cs as (Cn & Co & All & Sb). specialize (Ho ltac:(discriminate)). destruct (Old eq_refl) as (T1 & V & Sg2). rewrite <- Co in Ho.
      unfold hash_domains in HD. rewrite P in HD. assert (HD2 : Some (tr_domain row, tr_domain row) = Some (od, nd)) by (rewrite <- HD; destruct (option_map tr_path (hd_error rest)); reflexivity). apply some_eq in HD2. assert (od = tr_domain row) by congruence. subst od.
      destruct rest as [|nx rest]; cbn [hd_error option_map] in *.
      + destruct Nx as (S1 & Lk & L1 & L2). unfold link_end in Lk. rewrite P in Lk. destruct q'; try contradiction. split; [|cbn; tauto].
        apply (ps_ext_old _ _ _ _ _ (tr_direction row) (tr_domain row)); auto; try congruence; try (left; congruence). intros _. rewrite L2 by reflexivity. cbn. congruence.
      + destruct Nx as [S1 Q1]. inversion All as [|? ? A1 A2]; subst. rewrite A1. split; [|cbn; tauto].
        apply (ps_ext_old _ _ _ _ _ (tr_direction row) (tr_domain row)); auto; try congruence. intros E. rewrite E. cbn. congruence.
    - destruct Cs as (Co & Cn & All & Sb). specialize (Hn ltac:(discriminate)). destruct (New eq_refl) as (T1 & V). rewrite <- Cn in Hn.
      unfold hash_domains in HD. rewrite P in HD. assert (HD2 : Some (tr_domain row, tr_domain row) = Some (od, nd)) by (rewrite <- HD; destruct (option_map tr_path (hd_error rest)); reflexivity). apply some_eq in HD2. assert (nd = tr_domain row) by congruence. subst nd.
      assert (L0 : is_leaf0 (f_sg f) = false) by (rewrite Sg; destruct seg; try discriminate Ts; reflexivity).
      destruct rest as [|nx rest]; cbn [hd_error option_map] in *.
      + destruct Nx as (S1 & Lk & L1 & L2). unfold link_end in Lk. rewrite P in Lk. destruct q'; try contradiction. split; [|cbn; tauto].
        apply (ps_ext_new _ _ _ _ _ (tr_direction row) (tr_domain row)); auto; try congruence; try (right; left; congruence); rewrite ?S1; congruence.
      + destruct Nx as [S1 Q1]. inversion All as [|? ? A1 A2]; subst. rewrite A1. split; [|cbn; tauto].
        apply (ps_ext_new _ _ _ _ _ (tr_direction row) (tr_domain row)); auto; try congruence. rewrite Ts. congruence.
  Qed.
End Chain.
