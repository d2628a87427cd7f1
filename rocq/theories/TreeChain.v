(* The rows made from the paths of a key in two tries that differ by one write. *)
From Coq Require Import ZArith List Bool Lia.
From Verif Require Import Pocklington Fr Query Builder BuilderProofs Gadgets MptUpdate Bytes GadgetProofs UpdateRows TrieSpec UpdateComplete Util UtilProofs Serde Trie Storage Types Lookups LookupMain
  TrieProofs HonestTrace HonestSpec Chain.
Import ListNotations.
Open Scope Z_scope.

Section TreeChain.
  Variable H : Fr -> Fr -> Fr -> Fr.
  Context {V : Type} (hv : V -> Fr).
  Variable k : Fr.
  Notation th := (thash H hv).
  Notation nodes t d := (tree_nodes H hv t d k).
  Notation send t d := (tree_end t d k).
  Definition path_between (ov nv : option V) : PathType :=
    match ov, nv with None, Some _ => ExtensionNew | Some _, None => ExtensionOld | _, _ => Common end.
  (* the two ends of the paths, below the common branches *)
  Inductive parted (ov nv : option V) (d : nat) : tree V -> tree V -> Prop :=
  | pa_same v v' : ov = Some v -> nv = Some v' -> parted ov nv d (Leaf k v) (Leaf k v')
  | pa_absent t : ov = None -> nv = None -> is_node t = false -> get t d k = None -> parted ov nv d t t
  | pa_fill v : ov = None -> nv = Some v -> parted ov nv d Empty (Leaf k v)
  | pa_fork v k' v' t : ov = None -> nv = Some v -> fork k v k' v' d t -> parted ov nv d (Leaf k' v') t
  | pa_clear v : ov = Some v -> nv = None -> parted ov nv d (Leaf k v) Empty
  | pa_merge v k' v' t : ov = Some v -> nv = None -> fork k v k' v' d t -> parted ov nv d t (Leaf k' v').
  Inductive along (ov nv : option V) : nat -> tree V -> tree V -> Prop :=
  | al_here d t t' : parted ov nv d t t' -> along ov nv d t t'
  | al_right d l r r' : kbit k d = true -> along ov nv (S d) r r' -> along ov nv d (Node l r) (Node l r')
  | al_left d l r l' : kbit k d = false -> along ov nv (S d) l l' -> along ov nv d (Node l r) (Node l' r).
  Lemma insertion_along v d t t' : insertion k v d t t' -> along None (Some v) d t t'.
  Proof.
    induction 1; [apply al_here, (pa_fill _ _ _ v); auto|apply al_here; eapply pa_fork; eauto|apply al_right; auto|apply al_left; auto].
  Qed.
  Lemma deletion_along v d t t' : insertion k v d t' t -> along (Some v) None d t t'.
  Proof.
    induction 1; [apply al_here, (pa_clear _ _ _ v); auto|apply al_here; eapply pa_merge; eauto|apply al_right; auto|apply al_left; auto].
  Qed.
  Lemma modify_along v v' t : forall d, get t d k = Some v -> along (Some v) (Some v') d t (modify (fun _ => v') t d k).
  Proof.
    induction t as [|k' x|l IHl r IHr]; intros d G; cbn [get modify] in *; [discriminate G| |].
    - destruct (feqb k k') eqn:E; [|discriminate G]. apply feqb_eq in E. subst k'. injection G as ->. apply al_here, (pa_same _ _ _ v v'); auto.
    - destruct (kbit k d) eqn:B; [apply al_right|apply al_left]; auto.
  Qed.
  Lemma same_along t : forall d, get t d k = None -> along None None d t t.
  Proof.
    induction t as [|k' x|l IHl r IHr]; intros d G; [apply al_here, pa_absent; auto|apply al_here, pa_absent; auto|].
    cbn [get] in G. destruct (kbit k d) eqn:B; [apply al_right|apply al_left]; auto.
  Qed.
  Lemma written_along ov nv t t' : written k ov nv t t' -> along ov nv 0 t t'.
  Proof.
    destruct ov as [v|], nv as [v'|]; cbn [written].
    - intros [G ->]. apply modify_along, G.
    - apply deletion_along.
    - apply insertion_along.
    - intros [G ->]. apply same_along, G.
  Qed.
  (* the rows of such a pair *)
  Record good (ov nv : option V) (d : nat) (t t' : tree V) (rows : TrieRows) : Prop := {
    gd_chain : chain H (th t) (th t') rows (th (send t d)) (th (send t' d));
    gd_len : length rows = Nat.max (length (nodes t d)) (length (nodes t' d));
    gd_head : match rows with
              | [] => True
              | row :: _ => tr_path row = if is_node t then if is_node t' then Common else ExtensionOld else ExtensionNew
              end;
    gd_some : rows = [] <-> is_node t || is_node t' = false;
    gd_last : forall row, nth_error rows (pred (length rows)) = Some row -> link_end row (path_between ov nv);
    gd_paths : forall row, In row rows -> tr_path row = Common \/ tr_path row = path_between ov nv;
    gd_same : t = t' -> forall row, In row rows -> tr_path row = Common /\ tr_old row = tr_new row;
    gd_bits : forall j row, nth_error rows j = Some row -> tr_direction row = kbit k (d + j) }.
  Lemma fork_end (v : V) k' v' d t : fork k v k' v' d t -> send t d = Leaf k v /\ is_node t = true /\ k <> k'.
  Proof.
    induction 1 as [d B|d t B F (IH1 & IH2 & IH3)].
    - destruct (kbit k d) eqn:E; cbn [tree_end is_node]; rewrite E; (split; [reflexivity|]; split; [reflexivity|]; congruence).
    - destruct (kbit k d) eqn:E; cbn [tree_end is_node]; rewrite E; auto.
  Qed.
  Lemma bit_eq d : fr_bit k d = kbit k d. Proof. apply fr_bit_testbit. Qed.
  Lemma ext_new_node o d (l r : tree V) : ext_new_rows k o d (nodes (Node l r) d) =
    (rest <- ext_new_rows k o (S d) (nodes (if kbit k d then r else l) (S d));
     Some (mkTrieRow (branch_domain l r) o (th (if kbit k d then r else l)) (th (if kbit k d then l else r)) (kbit k d) ExtensionNew :: rest)).
  Proof.
    cbn [tree_nodes ext_new_rows]. destruct (tree_decodes H hv l r (kbit k d)) as (-> & -> & -> & _). cbn [obind]. rewrite bit_eq. reflexivity.
  Qed.
  Lemma ext_old_node o n a b d (l r : tree V) : trie_rows_from k o n d a b (nodes (Node l r) d) [] =
    (rest <- trie_rows_from k o n (S d) a b (nodes (if kbit k d then r else l) (S d)) [];
     Some (mkTrieRow (branch_domain l r) (th (if kbit k d then r else l)) n (th (if kbit k d then l else r)) (kbit k d) ExtensionOld :: rest)).
  Proof.
    cbn [tree_nodes trie_rows_from]. destruct (tree_decodes H hv l r (kbit k d)) as (-> & -> & -> & _). cbn [obind]. rewrite bit_eq. reflexivity.
  Qed.
  Lemma domain_is_branch (l r : tree V) : is_branch (branch_domain l r) = true.
  Proof. unfold branch_domain. destruct (is_node l), (is_node r); reflexivity. Qed.
  Lemma fork_new (v : V) k' v' d t : fork k v k' v' d t -> forall rows, ext_new_rows k (th (Leaf k' v')) d (nodes t d) = Some rows ->
    chain H (th (Leaf k' v')) (th t) rows (th (Leaf k' v')) (th (Leaf k v)) /\ length rows = length (nodes t d) /\ rows <> [] /\ all_path ExtensionNew rows /\
    (forall j row, nth_error rows j = Some row -> tr_direction row = kbit k (d + j)).
  Proof.
    set (o := th (Leaf k' v')). induction 1 as [d B|d t B F IH]; intros rows E.
    - destruct (kbit k d) eqn:K; rewrite ext_new_node in E; rewrite K in E; cbn [tree_nodes ext_new_rows trie_rows_from obind] in E; apply some_eq in E; subst rows; cbn [chain length tree_nodes]; rewrite K;
        (split; [|split; [reflexivity|split; [discriminate|split; [constructor; [reflexivity|constructor]|intros [|[|j]] row Hj; try discriminate Hj; apply some_eq in Hj; subst row; rewrite Nat.add_0_r; symmetry; exact K]]]]);
        (split; [reflexivity|]; split; [|split; reflexivity]; exists Branch0, Branch0; split; [reflexivity|]; cbn [tr_path]; split; [reflexivity|]; split; [reflexivity|]; split; [constructor|reflexivity]).
    - destruct (fork_end _ _ _ _ _ F) as (FE & FN & _).
      assert (X : exists rest dm, ext_new_rows k o (S d) (nodes t (S d)) = Some rest /\ is_branch dm = true /\ rows = mkTrieRow dm o (th t) f0 (kbit k d) ExtensionNew :: rest /\
        nodes (if kbit k d then Node Empty t else Node t Empty) d = hd (mkNode [] [] 0) (nodes (if kbit k d then Node Empty t else Node t Empty) d) :: nodes t (S d) /\
        th (if kbit k d then Node Empty t else Node t Empty) = up H (mkTrieRow dm o (th t) f0 (kbit k d) ExtensionNew) (th t) dm).
      { destruct (kbit k d) eqn:K; rewrite ext_new_node in E; rewrite K in E; ob E; apply some_eq in E; subst rows;
          eexists _, _; (split; [eassumption|]); (split; [apply domain_is_branch|]); (split; [reflexivity|]); (split; [cbn [tree_nodes]; rewrite K; reflexivity|reflexivity]). }
      destruct X as (rest & dm & X1 & X2 & -> & X3 & X4). destruct (IH rest X1) as (C & L & N & A & Bt).
      split; [|split; [rewrite X3; cbn [length]; rewrite L; reflexivity|split; [discriminate|split; [constructor; [reflexivity|exact A]|]]]].
      + cbn [chain]. split; [exact X2|]. split; [|exact C]. exists dm, dm. cbn [hash_domains tr_path tr_domain]. split; [reflexivity|].
        split; [reflexivity|]. split; [exact X4|]. split; [exact A|]. destruct rest; [congruence|reflexivity].
      + intros [|j] row Hj; cbn [nth_error] in Hj; [apply some_eq in Hj; subst row; rewrite Nat.add_0_r; reflexivity|]. rewrite (Bt j row Hj). f_equal. lia.
  Qed.
  Lemma fork_old (v : V) k' v' a b o d t : fork k v k' v' d t -> forall rows, trie_rows_from k o (th (Leaf k' v')) d a b (nodes t d) [] = Some rows ->
    chain H (th t) (th (Leaf k' v')) rows (th (Leaf k v)) (th (Leaf k' v')) /\ length rows = length (nodes t d) /\ rows <> [] /\ all_path ExtensionOld rows /\
    (forall j row, nth_error rows j = Some row -> tr_direction row = kbit k (d + j)).
  Proof.
    set (n := th (Leaf k' v')). induction 1 as [d B|d t B F IH]; intros rows E.
    - destruct (kbit k d) eqn:K; rewrite ext_old_node in E; rewrite K in E; cbn [tree_nodes ext_new_rows trie_rows_from obind] in E; apply some_eq in E; subst rows; cbn [chain length tree_nodes]; rewrite K;
        (split; [|split; [reflexivity|split; [discriminate|split; [constructor; [reflexivity|constructor]|intros [|[|j]] row Hj; try discriminate Hj; apply some_eq in Hj; subst row; rewrite Nat.add_0_r; symmetry; exact K]]]]);
        (split; [reflexivity|]; split; [|split; reflexivity]; exists Branch0, Branch0; split; [reflexivity|]; cbn [tr_path]; split; [reflexivity|]; split; [reflexivity|]; split; [constructor|reflexivity]).
    - destruct (fork_end _ _ _ _ _ F) as (FE & FN & _).
      assert (X : exists rest dm, trie_rows_from k o n (S d) a b (nodes t (S d)) [] = Some rest /\ is_branch dm = true /\ rows = mkTrieRow dm (th t) n f0 (kbit k d) ExtensionOld :: rest /\
        nodes (if kbit k d then Node Empty t else Node t Empty) d = hd (mkNode [] [] 0) (nodes (if kbit k d then Node Empty t else Node t Empty) d) :: nodes t (S d) /\
        th (if kbit k d then Node Empty t else Node t Empty) = up H (mkTrieRow dm (th t) n f0 (kbit k d) ExtensionOld) (th t) dm).
      { destruct (kbit k d) eqn:K; rewrite ext_old_node in E; rewrite K in E; ob E; apply some_eq in E; subst rows;
          eexists _, _; (split; [eassumption|]); (split; [apply domain_is_branch|]); (split; [reflexivity|]); (split; [cbn [tree_nodes]; rewrite K; reflexivity|reflexivity]). }
      destruct X as (rest & dm & X1 & X2 & -> & X3 & X4). destruct (IH rest X1) as (C & L & N & A & Bt).
      split; [|split; [rewrite X3; cbn [length]; rewrite L; reflexivity|split; [discriminate|split; [constructor; [reflexivity|exact A]|]]]].
      + cbn [chain]. split; [exact X2|]. split; [|exact C]. exists dm, dm. cbn [hash_domains tr_path tr_domain]. split; [reflexivity|].
        split; [reflexivity|]. split; [exact X4|]. split; [exact A|]. destruct rest; [congruence|reflexivity].
      + intros [|j] row Hj; cbn [nth_error] in Hj; [apply some_eq in Hj; subst row; rewrite Nat.add_0_r; reflexivity|]. rewrite (Bt j row Hj). f_equal. lia.
  Qed.
  Lemma all_in p rows row : all_path p rows -> In row rows -> tr_path row = p.
  Proof. unfold all_path. rewrite Forall_forall. auto. Qed.
  Lemma good_nil ov nv d t t' : is_node t = false -> is_node t' = false -> send t d = t -> send t' d = t' -> nodes t d = [] -> nodes t' d = [] -> good ov nv d t t' [].
  Proof.
    intros A B C D E F. constructor; auto; try (rewrite E, F; reflexivity).
    - cbn [chain]. rewrite C, D. auto.
    - rewrite A, B. tauto.
    - intros row X. discriminate X.
    - intros row [].
    - intros _ row [].
    - intros [|j] row X; discriminate X.
  Qed.
  Lemma parted_good ov nv a b d t t' rows : parted ov nv d t t' -> trie_rows_from k (th (send t d)) (th (send t' d)) d a b (nodes t d) (nodes t' d) = Some rows -> good ov nv d t t' rows.
  Proof.
    intros P E. destruct P as [v v' -> ->|t -> -> Nn G|v -> ->|v k' v' t -> -> F|v -> ->|v k' v' t -> -> F].
    - apply some_eq in E. subst rows. apply good_nil; reflexivity.
    - assert (X : nodes t d = [] /\ send t d = t) by (destruct t; try discriminate Nn; split; reflexivity). destruct X as [X1 X2]. rewrite X1 in E. apply some_eq in E. subst rows. apply good_nil; auto.
    - apply some_eq in E. subst rows. apply good_nil; reflexivity.
    - destruct (fork_end _ _ _ _ _ F) as (FE & FN & Ne). cbn [tree_nodes tree_end] in E. rewrite rows_from_nil in E. destruct (fork_new _ _ _ _ _ F rows E) as (C & L & N & A & Bt).
      constructor; auto.
      + rewrite FE. exact C.
      + cbn [is_node]. destruct rows as [|row rows]; [contradiction|]. inversion A; assumption.
      + cbn [is_node]. rewrite FN. cbn [orb]. split; [contradiction|discriminate].
      + intros row Hr. unfold link_end. rewrite (all_in _ _ _ A (nth_error_In _ _ Hr)). exact Logic.I.
      + intros row Hr. right. exact (all_in _ _ _ A Hr).
      + intros X. rewrite <- X in FN. discriminate FN.
    - apply some_eq in E. subst rows. apply good_nil; reflexivity.
    - destruct (fork_end _ _ _ _ _ F) as (FE & FN & Ne). cbn [tree_nodes tree_end] in E. destruct (fork_old _ _ _ _ _ _ _ _ F rows E) as (C & L & N & A & Bt).
      constructor; auto.
      + rewrite FE. exact C.
      + rewrite L. cbn [tree_nodes length]. lia.
      + cbn [is_node]. rewrite FN. destruct rows as [|row rows]; [contradiction|]. inversion A; assumption.
      + cbn [is_node]. rewrite FN. cbn [orb]. split; [contradiction|discriminate].
      + intros row Hr. unfold link_end. rewrite (all_in _ _ _ A (nth_error_In _ _ Hr)). exact Logic.I.
      + intros row Hr. right. exact (all_in _ _ _ A Hr).
      + intros X. rewrite X in FN. discriminate FN.
  Qed.
  (* at the place itself *)
  Lemma along_end ov nv d t t' : along ov nv d t t' -> is_node t = false -> is_node t' = false ->
    (path_between ov nv = ExtensionNew -> t = Empty) /\ (path_between ov nv = ExtensionOld -> t' = Empty).
  Proof.
    intros A N1 N2. destruct A as [d t t' P|d l r r' B A|d l r l' B A]; try discriminate N1.
    destruct P as [v v' -> ->|t -> -> Nn G|v -> ->|v k' v' t -> -> F|v -> ->|v k' v' t -> -> F]; cbn [path_between]; split; intros X; try discriminate X; try reflexivity;
      destruct (fork_end _ _ _ _ _ F) as (_ & FN & _); congruence.
  Qed.
  Lemma branch3 (l r : tree V) (b : bool) : is_node (if b then r else l) = false -> branch_domain l r <> Branch3.
  Proof. unfold branch_domain. destruct b, (is_node l), (is_node r); cbn; congruence. Qed.
  Lemma domain_same (l r l' r' : tree V) (b : bool) : (if b then l = l' else r = r') -> is_node (if b then r else l) = is_node (if b then r' else l') -> branch_domain l r = branch_domain l' r'.
  Proof. unfold branch_domain. destruct b; intros -> ->; reflexivity. Qed.
  Lemma step_good ov nv a b d (l r l' r' : tree V) rows : (if kbit k d then l = l' else r = r') ->
    (forall rest, trie_rows_from k (th (send (if kbit k d then r else l) (S d))) (th (send (if kbit k d then r' else l') (S d))) (S d) a b (nodes (if kbit k d then r else l) (S d)) (nodes (if kbit k d then r' else l') (S d)) = Some rest ->
       good ov nv (S d) (if kbit k d then r else l) (if kbit k d then r' else l') rest) ->
    along ov nv (S d) (if kbit k d then r else l) (if kbit k d then r' else l') ->
    trie_rows_from k (th (send (Node l r) d)) (th (send (Node l' r') d)) d a b (nodes (Node l r) d) (nodes (Node l' r') d) = Some rows -> good ov nv d (Node l r) (Node l' r') rows.
  Proof.
    intros Eq IH Al E. cbn [tree_nodes trie_rows_from tree_end] in E. ob E. rename a0 into row. ob E. rename a0 into rest. apply some_eq in E. subst rows. specialize (IH rest E1).
    destruct (both_row_spec _ _ _ _ _ _ _ _ _ _ _ _ _ (tree_decodes H hv l r (kbit k d)) (tree_decodes H hv l' r' (kbit k d)) E0) as (S1 & S2 & S3 & S4 & S5 & S6 & S7). clear E0.
    pose proof (branch_child l r (kbit k d)) as C1. pose proof (branch_child l' r' (kbit k d)) as C2. pose proof (along_end _ _ _ _ _ Al) as AE. pose proof (branch3 l r (kbit k d)) as B3.
    set (x := if kbit k d then r else l) in *. set (x' := if kbit k d then r' else l') in *.
    assert (T1 : th (Node l r) = up H row (th x) (branch_domain l r)) by (unfold up, children; rewrite S5, S4; unfold x; destruct (kbit k d); reflexivity).
    assert (T2 : th (Node l' r') = up H row (th x') (branch_domain l' r')) by (unfold up, children; rewrite S5, S4; unfold x'; destruct (kbit k d); cbn [thash fst snd]; rewrite Eq; reflexivity).
    assert (Br : is_branch (branch_domain l r) = true) by (unfold branch_domain; destruct (is_node l), (is_node r); reflexivity).
    assert (Br' : is_branch (branch_domain l' r') = true) by (unfold branch_domain; destruct (is_node l'), (is_node r'); reflexivity).
    destruct IH as [G1 G2 G3 G4 G5 G6 G7 G8].
    assert (DM : is_branch (tr_domain row) = true /\ hash_domains row (option_map tr_path (hd_error rest)) = Some (branch_domain l r, branch_domain l' r') /\ (is_node x = is_node x' -> tr_domain row = branch_domain l r)).
    { unfold hash_domains. rewrite S6. destruct S7 as [[Q1 Q2]|(_ & _ & [(_ & Q1 & Q2)|(_ & Q1 & Q2)])].
      - rewrite Q2. split; [exact Br|]. split; [|auto]. assert (is_node x = is_node x') by congruence. destruct rest as [|nx rest]; cbn [hd_error option_map]; [congruence|]. rewrite G3.
        destruct (is_node x) eqn:N1, (is_node x') eqn:N2; try congruence. exfalso. cbn in G4. pose proof (proj2 G4 eq_refl). discriminate.
      - destruct (check_next _ _ _ Q2) as (Q3 & Q4 & Q5). rewrite Q1. split; [exact Br|]. rewrite Q4 in C1. rewrite Q5 in C2. rewrite <- C1, <- C2 in *. split; [|discriminate].
        destruct rest as [|nx rest]; [pose proof (proj1 G4 eq_refl); discriminate|]. cbn [hd_error option_map]. rewrite G3. cbn [get_domains]. rewrite S5, Q3. reflexivity.
      - destruct (check_next _ _ _ Q2) as (Q3 & Q4 & Q5). rewrite Q1. split; [exact Br'|]. rewrite Q4 in C2. rewrite Q5 in C1. rewrite <- C1, <- C2 in *. split; [|discriminate].
        destruct rest as [|nx rest]; [pose proof (proj1 G4 eq_refl); discriminate|]. cbn [hd_error option_map]. rewrite G3. cbn [get_domains]. rewrite S5, Q3. reflexivity. }
    destruct DM as (D1 & D2 & D3). constructor.
    - cbn [chain tree_end]. fold x x'. split; [exact D1|]. split; [|rewrite S2, S3; exact G1]. exists (branch_domain l r), (branch_domain l' r'). split; [exact D2|]. rewrite S6, S2, S3. auto.
    - cbn [length tree_nodes]. fold x x'. rewrite G2. lia.
    - exact S6.
    - cbn. split; discriminate.
    - intros rw Hr. cbn [length pred] in Hr. destruct rest as [|nx rest].
      + cbn in Hr. apply some_eq in Hr. subst rw. pose proof (proj1 G4 eq_refl) as N. apply orb_false_elim in N. destruct N as [N1 N2]. destruct (AE N1 N2) as [A1 A2]. unfold link_end. rewrite S6.
        destruct (path_between ov nv) eqn:Q; auto.
        * rewrite S3, A2 by reflexivity. split; [reflexivity|]. rewrite D3 by congruence. apply B3, N1.
        * rewrite S2, A1 by reflexivity. split; [reflexivity|]. rewrite D3 by congruence. apply B3, N1.
      + cbn [length nth_error] in Hr. apply G5. exact Hr.
    - intros rw [<-|Hr]; [left; exact S6|]. apply G6, Hr.
    - intros X rw Hr. assert (X' : x = x') by (unfold x, x'; destruct (kbit k d); congruence). destruct Hr as [<-|Hr]; [|apply (G7 X' rw Hr)]. split; [exact S6|]. rewrite S2, S3. congruence.
    - intros [|j] rw Hj; cbn [nth_error] in Hj.
      + apply some_eq in Hj. subst rw. rewrite S5. f_equal. lia.
      + rewrite (G8 j rw Hj). f_equal. lia.
  Qed.
  Theorem along_good ov nv a b d t t' : along ov nv d t t' -> forall rows, trie_rows_from k (th (send t d)) (th (send t' d)) d a b (nodes t d) (nodes t' d) = Some rows -> good ov nv d t t' rows.
  Proof.
    induction 1 as [d t t' P|d l r r' B A IH|d l r l' B A IH]; intros rows E.
    - eapply parted_good; eassumption.
    - apply (step_good _ _ a b d l r l r' rows); rewrite ?B; auto.
    - apply (step_good _ _ a b d l r l' r rows); rewrite ?B; auto.
  Qed.
  Lemma along_off_path ov nv d t t' : along ov nv d t t' -> off_path_equal k d t t'.
  Proof.
    induction 1 as [d t t' P|d l r r' B A IH|d l r l' B A IH]; [|apply ope_right; auto|apply ope_left; auto].
    apply ope_end. destruct P as [v v' -> ->|t -> -> Nn G|v -> ->|v k' v' t -> -> F|v -> ->|v k' v' t -> -> F]; try reflexivity; [rewrite Nn; reflexivity|apply andb_false_r].
  Qed.
  (* the ends of the two paths *)
  Definition end_with (v : option V) (t : tree V) : Prop :=
    match v with Some v => t = Leaf k v | None => t = Empty \/ exists k' v', t = Leaf k' v' /\ k' <> k end.
  Lemma along_ends ov nv d t t' : along ov nv d t t' -> end_with ov (send t d) /\ end_with nv (send t' d) /\
    (ov = None -> nv = None -> send t d = send t' d) /\ (path_between ov nv = ExtensionNew \/ path_between ov nv = ExtensionOld -> forall k' v', (send t d = Leaf k' v' -> k' <> k -> exists x, send t' d = Leaf k x) /\ (send t' d = Leaf k' v' -> k' <> k -> exists x, send t d = Leaf k x)).
  Proof.
    induction 1 as [d t t' P|d l r r' B A IH|d l r l' B A IH]; [|cbn [tree_end]; rewrite B; exact IH|cbn [tree_end]; rewrite B; exact IH].
    destruct P as [v v' -> ->|t -> -> Nn G|v -> ->|v k' v' t -> -> F|v -> ->|v k' v' t -> -> F]; cbn [end_with path_between tree_end].
    - split; [reflexivity|]. split; [reflexivity|]. split; [discriminate|]. intros [X|X]; discriminate X.
    - assert (E : tree_end t d k = t) by (destruct t; try discriminate Nn; reflexivity). rewrite E.
      assert (X : t = Empty \/ exists k' v', t = Leaf k' v' /\ k' <> k).
      { destruct t as [|k' v'|]; [left; reflexivity| |discriminate Nn]. right. exists k', v'. split; [reflexivity|]. cbn [get] in G. intros ->. rewrite feqb_refl in G. discriminate G. }
      split; [exact X|]. split; [exact X|]. split; [auto|]. intros [Y|Y]; discriminate Y.
    - split; [auto|]. split; [reflexivity|]. split; [discriminate|]. intros _ k' v'. split; [discriminate|]. intros X Y. congruence.
    - destruct (fork_end _ _ _ _ _ F) as (FE & FN & Ne). rewrite FE. split; [right; exists k', v'; auto|]. split; [reflexivity|]. split; [discriminate|]. intros _ k2 v2. split; [eauto|]. intros X Y. congruence.
    - split; [reflexivity|]. split; [auto|]. split; [discriminate|]. intros _ k' v'. split; [intros X Y; congruence|discriminate].
    - destruct (fork_end _ _ _ _ _ F) as (FE & FN & Ne). rewrite FE. split; [reflexivity|]. split; [right; exists k', v'; auto|]. split; [discriminate|]. intros _ k2 v2. split; [intros X Y; congruence|eauto].
  Qed.
  (* keys of leaves on the paths share the bits of the directions taken *)
End TreeChain.
