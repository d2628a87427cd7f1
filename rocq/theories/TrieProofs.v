(* Facts about types/trie.rs: the rows built from two consistent paths carry the two roots (C31), the branch domain
   functions agree (C45). *)
From Coq Require Import ZArith List Bool Lia.
From Verif Require Import Pocklington Fr Query Builder BuilderProofs Gadgets MptUpdate Fixed Bytes TrieSpec UpdateRows UpdateSound GadgetMain Util UtilProofs Serde Trie.
Import ListNotations.
Open Scope Z_scope.

(** * Specification: what a Merkle path is *)
(* the branch node type d says that the child on the given side is a branch *)
Definition child_is_branch (right : bool) (d : HashDomain) : bool :=
  match d with Branch1 => right | Branch2 => negb right | Branch3 => true | _ => false end.
Definition is_branch (d : HashDomain) : bool := match d with Branch0 | Branch1 | Branch2 | Branch3 => true | _ => false end.
(* nd is a branch of type d, v the hash of the child on the path, s the hash of the other child *)
Definition decodes (nd : SMTNode) (v s : Fr) (d : HashDomain) : Prop :=
  fr (n_value nd) = Some v /\ fr (n_sibling nd) = Some s /\ domain_of_u64 (n_type nd) = Some d /\ is_branch d = true.

Section Hash.
  Variable H : Fr -> Fr -> Fr -> Fr.
  Definition branch_hash (right : bool) (v s : Fr) (d : HashDomain) : Fr := if right then H s v (fdom d) else H v s (fdom d).
  (* [merkle key i nodes leaf root]: hashing upwards from the hash [leaf] at the end of the path, along the bits of the
     key from depth i on, gives [root]; every node records the hash of its child on the path, and its type says whether
     that child is a branch *)
  Inductive merkle (key : Fr) : nat -> list SMTNode -> Fr -> Fr -> Prop :=
  | merkle_end i leaf : merkle key i [] leaf leaf
  | merkle_step i nd nodes v s d leaf : decodes nd v s d ->
      child_is_branch (kbit key i) d = (match nodes with [] => false | _ => true end) ->
      merkle key (S i) nodes leaf v -> merkle key i (nd :: nodes) leaf (branch_hash (kbit key i) v s d).

  (* the bottom-up hash alone, with the recorded siblings and node types *)
  Fixpoint hash_up (key : Fr) (i : nat) (nodes : list SMTNode) (leaf : Fr) : option Fr :=
    match nodes with
    | [] => Some leaf
    | nd :: rest => match hash_up key (S i) rest leaf, fr (n_sibling nd), domain_of_u64 (n_type nd) with
                    | Some v, Some s, Some d => Some (branch_hash (kbit key i) v s d)
                    | _, _, _ => None
                    end
    end.

  (** * Proofs *)
  Lemma merkle_hash_up key i nodes leaf root : merkle key i nodes leaf root -> hash_up key i nodes leaf = Some root.
  Proof.
    revert i root. induction nodes as [|nd nodes IH]; intros i root M; [inversion M; reflexivity|].
    inversion M as [|? ? ? v s d ? (Dv & Ds & Dd & _) B M']; subst. cbn [hash_up]. rewrite (IH _ _ M'), Ds, Dd. reflexivity.
  Qed.
  Lemma dom_eqb_eq a b : dom_eqb a b = true <-> a = b.
  Proof. unfold dom_eqb. rewrite Z.eqb_eq. split; [destruct a, b; cbn; congruence|intros ->; reflexivity]. Qed.
  Lemma dom_eqb_refl a : dom_eqb a a = true. Proof. apply dom_eqb_eq. reflexivity. Qed.
  Lemma check_next before after right : check_domain_consistency before after right = true ->
    next_domain before right = Some after /\ child_is_branch right before = false /\ child_is_branch right after = true.
  Proof. destruct before, after, right; cbn; intros E; try discriminate E; auto. Qed.
  Lemma bytes_eqb_eq a b : bytes_eqb a b = true <-> a = b.
  Proof.
    revert b. induction a as [|x a IH]; intros [|y b]; cbn; try (split; [discriminate|discriminate]); [split; reflexivity|].
    rewrite andb_true_iff, Z.eqb_eq, IH. split; [intros [-> ->]; reflexivity|intros E; inversion E; auto].
  Qed.
  Lemma feqb_refl x : feqb x x = true. Proof. apply feqb_eq. reflexivity. Qed.

  (* rows after the shorter path *)
  Fixpoint ext_new_rows (key old_leaf : Fr) (i : nat) (news : list SMTNode) : option TrieRows :=
    match news with
    | [] => Some []
    | new :: news' =>
        d <- domain_of_u64 (n_type new); n <- fr (n_value new); s <- fr (n_sibling new);
        rows <- ext_new_rows key old_leaf (S i) news';
        Some (mkTrieRow d old_leaf n s (fr_bit key i) ExtensionNew :: rows)
    end.
  Lemma rows_from_nil key o n i a b news : trie_rows_from key o n i a b [] news = ext_new_rows key o i news.
  Proof. cbn [trie_rows_from]. revert i. induction news as [|x news IH]; intros i; [reflexivity|]. cbn [ext_new_rows]. rewrite <- IH. reflexivity. Qed.

  Definition all_path (p : PathType) (rows : TrieRows) : Prop := Forall (fun r => tr_path r = p) rows.
  (* expected hashes of the first row *)
  Lemma check_ext_new key i news o leaf root rows : merkle key i news leaf root -> ext_new_rows key o i news = Some rows ->
    trie_check_from H o root rows = Some true /\ (rows = [] <-> news = []) /\ all_path ExtensionNew rows.
  Proof.
    revert i root rows. induction news as [|nd news IH]; intros i root rows M E.
    - injection E as <-. repeat split; auto. constructor.
    - inversion M as [|? ? ? v s d ? (Dv & Ds & Dd & Db) B M']; subst. cbn [ext_new_rows] in E. rewrite Dd, Dv, Ds in E. cbn [obind] in E.
      destruct (ext_new_rows key o (S i) news) as [rest|] eqn:R; [|discriminate E]. cbn [obind] in E. injection E as <-.
      destruct (IH (S i) v rest M' R) as (C & N & P). split; [|split; [split; discriminate|constructor; [reflexivity|exact P]]].
      cbn [trie_check_from tr_path tr_direction tr_sibling tr_old tr_new tr_domain]. unfold branch_hash.
      rewrite fr_bit_testbit. unfold kbit. destruct (Z.testbit (val key) (Z.of_nat i)); cbn [order]; rewrite C; cbn [obind].
      all: replace (match rest with [] => true | next :: _ => path_eqb (tr_path next) ExtensionNew end) with true
        by (destruct rest; [reflexivity|inversion P; subst; match goal with Q : tr_path _ = _ |- _ => rewrite Q end; reflexivity]).
      all: unfold Util.domain_hash; rewrite feqb_refl; reflexivity.
  Qed.
  Lemma check_ext_old key i olds a b o n leaf root rows : merkle key i olds leaf root -> trie_rows_from key o n i a b olds [] = Some rows ->
    trie_check_from H root n rows = Some true /\ (rows = [] <-> olds = []) /\ all_path ExtensionOld rows.
  Proof.
    revert i root rows. induction olds as [|nd olds IH]; intros i root rows M E.
    - injection E as <-. repeat split; auto. constructor.
    - inversion M as [|? ? ? v s d ? (Dv & Ds & Dd & Db) B M']; subst. cbn [trie_rows_from] in E. rewrite Dd, Dv, Ds in E. cbn [obind] in E.
      destruct (trie_rows_from key o n (S i) a b olds []) as [rest|] eqn:R; [|discriminate E]. cbn [obind] in E. injection E as <-.
      destruct (IH (S i) v rest M' R) as (C & N & P). split; [|split; [split; discriminate|constructor; [reflexivity|exact P]]].
      cbn [trie_check_from tr_path tr_direction tr_sibling tr_old tr_new tr_domain]. unfold branch_hash.
      rewrite fr_bit_testbit. unfold kbit. destruct (Z.testbit (val key) (Z.of_nat i)); cbn [order]; rewrite C; cbn [obind].
      all: replace (match rest with [] => true | next :: _ => path_eqb (tr_path next) ExtensionOld end) with true
        by (destruct rest; [reflexivity|inversion P; subst; match goal with Q : tr_path _ = _ |- _ => rewrite Q end; reflexivity]).
      all: unfold Util.domain_hash; rewrite feqb_refl; reflexivity.
  Qed.
  Lemma both_row_spec key i a b old new vo so dk vn sn dn row : decodes old vo so dk -> decodes new vn sn dn ->
    both_row key i a b old new = Some row ->
    so = sn /\ tr_old row = vo /\ tr_new row = vn /\ tr_sibling row = so /\ tr_direction row = kbit key i /\ tr_path row = Common /\
    ((dk = dn /\ tr_domain row = dk) \/
     (a <> b /\ i = (Nat.min a b - 1)%nat /\
       ((i = (a - 1)%nat /\ tr_domain row = dk /\ check_domain_consistency dk dn (kbit key i) = true) \/
        (i <> (a - 1)%nat /\ tr_domain row = dn /\ check_domain_consistency dn dk (kbit key i) = true)))).
  Proof.
    intros (Dv & Ds & Dd & Db) (Dv' & Ds' & Dd' & Db') E. unfold both_row in E. rewrite Dd, Dd', Dv, Dv', Ds in E.
    destruct (bytes_eqb (n_sibling old) (n_sibling new)) eqn:Q; [|discriminate E]. apply bytes_eqb_eq in Q. cbn [oassert obind] in E.
    rewrite Q, Ds' in Ds. injection Ds as ->. rewrite fr_bit_testbit in E.
    destruct (dom_eqb dk dn) eqn:Q2.
    - apply dom_eqb_eq in Q2. subst dn. cbn [obind] in E. injection E as <-. cbn. auto 10.
    - destruct (a =? b)%nat eqn:Q3; [discriminate E|]. apply Nat.eqb_neq in Q3. cbn [negb oassert obind] in E.
      destruct (i =? Nat.min a b - 1)%nat eqn:Q4; [|discriminate E]. apply Nat.eqb_eq in Q4. cbn [oassert obind] in E.
      destruct (i =? a - 1)%nat eqn:Q5; [apply Nat.eqb_eq in Q5|apply Nat.eqb_neq in Q5].
      + destruct (check_domain_consistency dk dn (kbit key i)) eqn:Q6; [|discriminate E]. cbn [oassert obind] in E. injection E as <-. cbn.
        repeat (split; [reflexivity|]). right. split; [exact Q3|]. split; [exact Q4|]. left. auto.
      + destruct (check_domain_consistency dn dk (kbit key i)) eqn:Q6; [|discriminate E]. cbn [oassert obind] in E. injection E as <-. cbn.
        repeat (split; [reflexivity|]). right. split; [exact Q3|]. split; [exact Q4|]. right. auto.
  Qed.
  Definition ext_kind (rows : TrieRows) : PathType := match rows with r :: _ => tr_path r | [] => Common end.
  Lemma check_rows key a b i olds news leafo leafn roo ron rows : (i + length olds = a)%nat -> (i + length news = b)%nat ->
    merkle key i olds leafo roo -> merkle key i news leafn ron ->
    trie_rows_from key leafo leafn i a b olds news = Some rows -> trie_check_from H roo ron rows = Some true.
  Proof.
    revert i news roo ron rows. induction olds as [|old olds IH]; intros i news roo ron rows La Lb Mo Mn E.
    - inversion Mo; subst. rewrite rows_from_nil in E. apply (check_ext_new key i news roo leafn ron rows Mn E).
    - destruct news as [|new news].
      { inversion Mn; subst. apply (check_ext_old key i (old :: olds) _ _ leafo ron leafo roo rows Mo E). }
      inversion Mo as [|? ? ? vo so dk ? Do Bo Mo']; subst. inversion Mn as [|? ? ? vn sn dn ? Dn Bn Mn']; subst.
      cbn [trie_rows_from] in E. destruct (both_row key i _ _ old new) as [row|] eqn:R; [|discriminate E]. cbn [obind] in E.
      destruct (trie_rows_from key leafo leafn (S i) _ _ olds news) as [rest|] eqn:RR; [|discriminate E]. cbn [obind] in E. injection E as <-.
      pose proof (IH (S i) news vo vn rest ltac:(cbn [length]; lia) ltac:(cbn [length]; lia) Mo' Mn' RR) as C.
      destruct (both_row_spec _ _ _ _ _ _ _ _ _ _ _ _ _ Do Dn R) as (<- & Eo & En & Es & Ed & Ep & X).
      cbn [trie_check_from]. rewrite Eo, En, Es, Ed, Ep, C.
      assert (DD : (match rest with next :: _ => get_domains (tr_path next) (tr_domain row) (kbit key i) | [] => Some (tr_domain row, tr_domain row) end) = Some (dk, dn)).
      { cbn [length] in X. destruct olds as [|o2 olds].
        - rewrite rows_from_nil in RR. destruct (check_ext_new key (S i) news leafo leafn vn rest Mn' RR) as (_ & N & P).
          destruct news as [|n2 news].
          + rewrite (proj2 N eq_refl). destruct X as [[-> ->]|(X & _)]; [reflexivity|]. exfalso. apply X. cbn. reflexivity.
          + destruct rest as [|r2 rest]; [discriminate (proj1 N eq_refl)|]. inversion P; subst. match goal with Q : tr_path r2 = _ |- _ => rewrite Q end.
            destruct X as [[<- ->]|(X & Y & [(Z1 & Z2 & Z3)|(Z1 & Z2 & Z3)])].
            * rewrite Bo in Bn. discriminate Bn.
            * rewrite Z2. cbn [get_domains]. destruct (check_next _ _ _ Z3) as (-> & _). reflexivity.
            * exfalso. apply Z1. cbn. lia.
        - destruct news as [|n2 news].
          + destruct (check_ext_old key (S i) (o2 :: olds) _ _ leafo leafn leafo vo rest Mo' RR) as (_ & N & P).
            destruct rest as [|r2 rest]; [discriminate (proj1 N eq_refl)|]. inversion P; subst. match goal with Q : tr_path r2 = _ |- _ => rewrite Q end.
            destruct X as [[<- ->]|(X & Y & [(Z1 & Z2 & Z3)|(Z1 & Z2 & Z3)])].
            * rewrite Bo in Bn. discriminate Bn.
            * exfalso. cbn [length] in *. lia.
            * rewrite Z2. cbn [get_domains]. destruct (check_next _ _ _ Z3) as (-> & _). reflexivity.
          + cbn [trie_rows_from] in RR. destruct (both_row key (S i) _ _ o2 n2) as [row2|] eqn:R2; [|discriminate RR]. cbn [obind] in RR.
            destruct (trie_rows_from key leafo leafn (S (S i)) _ _ olds news) as [rest2|]; [|discriminate RR]. cbn [obind] in RR. injection RR as <-.
            inversion Mo' as [|? ? ? vo2 so2 dk2 ? Do2 Bo2 Mo2]; subst. inversion Mn' as [|? ? ? vn2 sn2 dn2 ? Dn2 Bn2 Mn2]; subst.
            destruct (both_row_spec _ _ _ _ _ _ _ _ _ _ _ _ _ Do2 Dn2 R2) as (_ & _ & _ & _ & _ & -> & _). cbn [get_domains].
            destruct X as [[<- ->]|(X & Y & _)]; [reflexivity|]. exfalso. cbn [length] in *. lia. }
      unfold branch_hash. destruct (kbit key i); cbn [order]; rewrite DD; cbn [obind fst snd]; unfold Util.domain_hash; rewrite !feqb_refl; reflexivity.
  Qed.
  (* the hash at the end of a path: of its leaf, or 0 *)
  Definition end_hash (leaf : option SMTNode) : option Fr := match leaf with Some l => node_leaf_hash H l | None => Some f0 end.
  Lemma end_merkle key i nodes leaf lh root : end_hash leaf = Some lh -> merkle key i nodes lh root -> path_end_hash H nodes leaf = Some lh.
  Proof.
    intros E M. unfold path_end_hash. assert (G : forall nodes i root, merkle key i nodes lh root -> forall nd rest, rev nodes = nd :: rest -> fr (n_value nd) = Some lh).
    { clear. induction nodes as [|x nodes IH]; intros i root M nd rest R; [discriminate R|]. inversion M as [|? ? ? v s d ? (Dv & _) _ M']; subst. cbn [rev] in R.
      destruct (rev nodes) as [|y ys] eqn:Q.
      - injection R as -> <-. destruct nodes as [|z zs]; [|apply (f_equal (@length SMTNode)) in Q; cbn in Q; rewrite app_length in Q; cbn in Q; lia]. inversion M'; subst. exact Dv.
      - injection R as -> _. apply (IH (S i) v M' nd ys eq_refl). }
    destruct (rev nodes) as [|nd rest] eqn:R; [exact E|]. apply (G nodes i root M nd rest R).
  Qed.
  Theorem rows_carry_roots key olds news old_leaf new_leaf lo ln ro rn rows :
    end_hash old_leaf = Some lo -> end_hash new_leaf = Some ln -> merkle key 0 olds lo ro -> merkle key 0 news ln rn ->
    trie_rows_new H key olds news old_leaf new_leaf = Some rows -> trie_check H rows ro rn = Some true.
  Proof.
    intros Eo En Mo Mn E. unfold trie_rows_new in E. rewrite (end_merkle _ _ _ _ _ _ Eo Mo), (end_merkle _ _ _ _ _ _ En Mn) in E. cbn [obind] in E.
    apply (check_rows key (length olds) (length news) 0 olds news lo ln ro rn rows eq_refl eq_refl Mo Mn E).
  Qed.
  Lemma first_row key a b i olds news leafo leafn roo ron rows : (i + length olds = a)%nat -> (i + length news = b)%nat ->
    merkle key i olds leafo roo -> merkle key i news leafn ron ->
    trie_rows_from key leafo leafn i a b olds news = Some rows ->
    trie_old_root H rows (Some leafo) = Some roo /\ trie_new_root H rows (Some leafn) = Some ron.
  Proof.
    intros La Lb Mo Mn E. pose proof (check_rows key a b i olds news leafo leafn roo ron rows La Lb Mo Mn E) as C.
    assert (G : forall (d : HashDomain) (x y : Fr) (dir : bool), (if dir then domain_hash H x y d else domain_hash H y x d) = domain_hash H (fst (order dir x y)) (snd (order dir x y)) d) by (intros d x y [|]; reflexivity).
    destruct olds as [|old olds].
    - inversion Mo; subst. rewrite rows_from_nil in E. destruct (check_ext_new key i news roo leafn ron rows Mn E) as (_ & N & P). destruct news as [|nw news].
      + inversion Mn; subst. rewrite (proj2 N eq_refl). auto.
      + destruct rows as [|row rest]; [discriminate (proj1 N eq_refl)|]. inversion P as [|? ? P1 P2]; subst.
        cbn [trie_check_from trie_old_root trie_new_root] in *. unfold old_hash, new_hash, hash_domains in *. rewrite P1 in *. cbn [obind fst snd] in *.
        cbn [ext_new_rows] in E. destruct (domain_of_u64 (n_type nw)) as [dd|]; [|discriminate E]. destruct (fr (n_value nw)) as [vv|]; [|discriminate E]. destruct (fr (n_sibling nw)) as [ss|]; [|discriminate E].
        cbn [obind] in E. destruct (ext_new_rows key roo (S i) news); [|discriminate E]. cbn [obind] in E. injection E as <- <-. cbn [tr_old tr_direction tr_sibling tr_new tr_domain] in *.
        split; [reflexivity|]. rewrite G. destruct (order (fr_bit key i) ss vv), (order (fr_bit key i) ss roo). cbn [fst snd].
        destruct (trie_check_from H roo vv t) as [[|]|]; cbn [obind] in C; try discriminate C; injection C as C; repeat (apply andb_prop in C; destruct C as [C ?]); try discriminate.
        f_equal. apply feqb_eq. assumption.
    - destruct news as [|nw news].
      + inversion Mn; subst. destruct (check_ext_old key i (old :: olds) _ _ leafo ron leafo roo rows Mo E) as (_ & N & P).
        destruct rows as [|row rest]; [discriminate (proj1 N eq_refl)|]. inversion P as [|? ? P1 P2]; subst.
        cbn [trie_check_from trie_old_root trie_new_root] in *. unfold old_hash, new_hash, hash_domains in *. rewrite P1 in *. cbn [obind fst snd] in *.
        cbn [trie_rows_from] in E. destruct (domain_of_u64 (n_type old)) as [dd|]; [|discriminate E]. destruct (fr (n_value old)) as [vv|]; [|discriminate E]. destruct (fr (n_sibling old)) as [ss|]; [|discriminate E].
        cbn [obind] in E. destruct (trie_rows_from key leafo ron (S i) _ _ olds []); [|discriminate E]. cbn [obind] in E. injection E as <- <-. cbn [tr_old tr_direction tr_sibling tr_new tr_domain] in *.
        split; [|reflexivity]. rewrite G. destruct (order (fr_bit key i) ss vv), (order (fr_bit key i) ss ron). cbn [fst snd].
        destruct (trie_check_from H vv ron t) as [[|]|]; cbn [obind] in C; try discriminate C; injection C as C; repeat (apply andb_prop in C; destruct C as [C ?]); try discriminate.
        f_equal. apply feqb_eq. assumption.
      + inversion Mo as [|? ? ? vo so dk ? Do Bo Mo']; subst. inversion Mn as [|? ? ? vn sn dn ? Dn Bn Mn']; subst.
        cbn [trie_rows_from] in E. destruct (both_row key i _ _ old nw) as [row|] eqn:R; [|discriminate E]. cbn [obind] in E.
        destruct (trie_rows_from key leafo leafn (S i) _ _ olds news) as [rest|] eqn:RR; [|discriminate E]. cbn [obind] in E. injection E as <-.
        destruct (both_row_spec _ _ _ _ _ _ _ _ _ _ _ _ _ Do Dn R) as (_ & _ & _ & _ & _ & Ep & _).
        cbn [trie_check_from trie_old_root trie_new_root] in *. unfold old_hash, new_hash, hash_domains in *. rewrite Ep in *.
        pose proof (fun d x => G d (tr_sibling row) x (tr_direction row)) as G'. clear G. destruct (order (tr_direction row) (tr_sibling row) (tr_old row)) as [a1 a2] eqn:O1, (order (tr_direction row) (tr_sibling row) (tr_new row)) as [b1 b2] eqn:O2.
        assert (GD : (match rest with next :: _ => get_domains (tr_path next) (tr_domain row) (tr_direction row) | [] => Some (tr_domain row, tr_domain row) end) =
          (match (match rest with next :: _ => Some (tr_path next) | [] => None end) with
           | Some ExtensionNew => get_domains ExtensionNew (tr_domain row) (tr_direction row)
           | Some ExtensionOld => get_domains ExtensionOld (tr_domain row) (tr_direction row)
           | _ => Some (tr_domain row, tr_domain row) end) \/ exists r, rest = r :: tl rest /\ tr_path r = PathStart).
        { destruct rest as [|r rest]; [left; reflexivity|]. destruct (tr_path r) eqn:Q; try (left; reflexivity). right. exists r. auto. }
        destruct GD as [GD|(r & Hr & Hp)]; [|exfalso; rewrite Hr in C; rewrite Hp in C; cbn in C; discriminate C].
        rewrite GD in C. destruct (match (match rest with next :: _ => Some (tr_path next) | [] => None end) with Some ExtensionNew => _ | Some ExtensionOld => _ | _ => _ end) as [ds|] eqn:DS;
          [|discriminate C]. cbn [obind] in C. destruct (trie_check_from H (tr_old row) (tr_new row) rest) as [[|]|]; cbn [obind] in C; try discriminate C; injection C as C;
          repeat (apply andb_prop in C; destruct C as [C ?]); try discriminate. apply feqb_eq in C. apply feqb_eq in H1.
        cbn [obind fst snd] in *; rewrite !G', O1, O2; split; f_equal; assumption.
  Qed.
  Theorem roots_recomputed key olds news old_leaf new_leaf lo ln ro rn rows :
    end_hash old_leaf = Some lo -> end_hash new_leaf = Some ln -> merkle key 0 olds lo ro -> merkle key 0 news ln rn ->
    trie_rows_new H key olds news old_leaf new_leaf = Some rows ->
    trie_old_root H rows (Some lo) = Some ro /\ trie_new_root H rows (Some ln) = Some rn.
  Proof.
    intros Eo En Mo Mn E. unfold trie_rows_new in E. rewrite (end_merkle _ _ _ _ _ _ Eo Mo), (end_merkle _ _ _ _ _ _ En Mn) in E. cbn [obind] in E.
    apply (first_row key (length olds) (length news) 0 olds news lo ln ro rn rows eq_refl eq_refl Mo Mn E).
  Qed.

  (** ** Paths in tries *)
  Section Tree.
    Context {V : Type} (hv : V -> Fr).
    Notation thash := (thash H hv).
    (* the proof of key k in the trie t hanging at depth d, as a tracer reports it *)
    Fixpoint tree_nodes (t : tree V) (d : nat) (k : Fr) : list SMTNode :=
      match t with
      | Node l r =>
          mkNode (fr_to_bytes (thash (if kbit k d then r else l))) (fr_to_bytes (thash (if kbit k d then l else r))) (domain_u64 (branch_domain l r))
          :: tree_nodes (if kbit k d then r else l) (S d) k
      | _ => []
      end.
    Fixpoint tree_end (t : tree V) (d : nat) (k : Fr) : tree V :=
      match t with Node l r => tree_end (if kbit k d then r else l) (S d) k | _ => t end.
    Definition tree_leaf (t : tree V) (d : nat) (k : Fr) : option SMTNode :=
      match tree_end t d k with Leaf k' v => Some (mkNode (fr_to_bytes (hv v)) (fr_to_bytes k') 4) | _ => None end.
    Lemma tree_end_not_node t d k : is_node (tree_end t d k) = false.
    Proof. revert d. induction t as [|k' v|l IHl r IHr]; intros d; try reflexivity. cbn [tree_end]. destruct (kbit k d); auto. Qed.
    Lemma tree_end_hash t d k : end_hash (tree_leaf t d k) = Some (thash (tree_end t d k)).
    Proof.
      unfold tree_leaf. pose proof (tree_end_not_node t d k). destruct (tree_end t d k) as [|k' v|]; [reflexivity| |discriminate].
      cbn [end_hash]. unfold node_leaf_hash, fr. cbn [n_sibling n_value]. rewrite !fr_from_to. reflexivity.
    Qed.
    Lemma tree_nodes_nil t d k : (match tree_nodes t d k with [] => false | _ => true end) = is_node t.
    Proof. destruct t; reflexivity. Qed.
    Lemma tree_decodes (l r : tree V) (b : bool) : decodes (mkNode (fr_to_bytes (thash (if b then r else l))) (fr_to_bytes (thash (if b then l else r))) (domain_u64 (branch_domain l r)))
      (thash (if b then r else l)) (thash (if b then l else r)) (branch_domain l r).
    Proof.
      unfold decodes, fr. cbn [n_value n_sibling n_type]. rewrite !fr_from_to. unfold branch_domain.
      destruct (is_node l), (is_node r); auto.
    Qed.
    Lemma branch_child (l r : tree V) (b : bool) : child_is_branch b (branch_domain l r) = is_node (if b then r else l).
    Proof. unfold branch_domain. destruct b, (is_node l), (is_node r); reflexivity. Qed.
    Theorem tree_merkle t d k : merkle k d (tree_nodes t d k) (thash (tree_end t d k)) (thash t).
    Proof.
      revert d. induction t as [|k' v|l IHl r IHr]; intros d; try constructor.
      cbn [tree_nodes tree_end].
      replace (thash (Node l r)) with (branch_hash (kbit k d) (thash (if kbit k d then r else l)) (thash (if kbit k d then l else r)) (branch_domain l r))
        by (unfold branch_hash; destruct (kbit k d); reflexivity).
      constructor.
      - apply tree_decodes.
      - rewrite tree_nodes_nil. apply branch_child.
      - destruct (kbit k d); auto.
    Qed.
    (* t' differs from t only below the last branch that the two have in common on the path of k *)
    Inductive off_path_equal (k : Fr) : nat -> tree V -> tree V -> Prop :=
    | ope_end d t t' : is_node t && is_node t' = false -> off_path_equal k d t t'
    | ope_right d l r r' : kbit k d = true -> off_path_equal k (S d) r r' -> off_path_equal k d (Node l r) (Node l r')
    | ope_left d l r l' : kbit k d = false -> off_path_equal k (S d) l l' -> off_path_equal k d (Node l r) (Node l' r).
    Lemma ope_step k d l r l' r' : off_path_equal k d (Node l r) (Node l' r') ->
      (if kbit k d then l = l' else r = r') /\ off_path_equal k (S d) (if kbit k d then r else l) (if kbit k d then r' else l').
    Proof. intros O. inversion O as [? ? ? D|? ? ? ? K O'|? ? ? ? K O']; subst; [discriminate D|rewrite K; auto|rewrite K; auto]. Qed.
    Lemma ext_new_some k d o t : exists rows, ext_new_rows k o d (tree_nodes t d k) = Some rows.
    Proof.
      revert d. induction t as [|k' v|l IHl r IHr]; intros d; try (exists []; reflexivity). cbn [tree_nodes ext_new_rows].
      destruct (tree_decodes l r (kbit k d)) as (-> & -> & -> & _). cbn [obind].
      destruct (kbit k d); [destruct (IHr (S d)) as [rows ->]|destruct (IHl (S d)) as [rows ->]]; eexists; reflexivity.
    Qed.
    Lemma ext_old_some k d o n a b t : exists rows, trie_rows_from k o n d a b (tree_nodes t d k) [] = Some rows.
    Proof.
      revert d. induction t as [|k' v|l IHl r IHr]; intros d; try (exists []; reflexivity). cbn [tree_nodes trie_rows_from].
      destruct (tree_decodes l r (kbit k d)) as (-> & -> & -> & _). cbn [obind].
      destruct (kbit k d); [destruct (IHr (S d)) as [rows ->]|destruct (IHl (S d)) as [rows ->]]; eexists; reflexivity.
    Qed.
    Lemma bytes_eqb_refl l : bytes_eqb l l = true. Proof. apply bytes_eqb_eq. reflexivity. Qed.
    Lemma rows_from_some k a b o n t : forall d t', off_path_equal k d t t' -> (d + length (tree_nodes t d k) = a)%nat -> (d + length (tree_nodes t' d k) = b)%nat ->
      exists rows, trie_rows_from k o n d a b (tree_nodes t d k) (tree_nodes t' d k) = Some rows.
    Proof.
      induction t as [|k' v|l IHl r IHr]; intros d t' O La Lb.
      - cbn [tree_nodes]. rewrite rows_from_nil. apply ext_new_some.
      - cbn [tree_nodes]. rewrite rows_from_nil. apply ext_new_some.
      - destruct t' as [|k' v|l' r']; [apply ext_old_some|apply ext_old_some|].
        apply ope_step in O. destruct O as [Eq O]. cbn [tree_nodes length] in La, Lb |- *. cbn [trie_rows_from].
        assert (R : exists row, both_row k d a b (mkNode (fr_to_bytes (thash (if kbit k d then r else l))) (fr_to_bytes (thash (if kbit k d then l else r))) (domain_u64 (branch_domain l r)))
             (mkNode (fr_to_bytes (thash (if kbit k d then r' else l'))) (fr_to_bytes (thash (if kbit k d then l' else r'))) (domain_u64 (branch_domain l' r'))) = Some row).
        { unfold both_row. destruct (tree_decodes l r (kbit k d)) as (-> & -> & -> & _). destruct (tree_decodes l' r' (kbit k d)) as (-> & _ & -> & _).
          cbn [n_sibling]. replace (bytes_eqb _ _) with true by (symmetry; apply bytes_eqb_eq; destruct (kbit k d); congruence). cbn [oassert obind].
          rewrite fr_bit_testbit. pose proof (branch_child l r (kbit k d)) as B1. pose proof (branch_child l' r' (kbit k d)) as B2.
          destruct (dom_eqb (branch_domain l r) (branch_domain l' r')) eqn:Q; [eexists; reflexivity|].
          pose proof (tree_nodes_nil (if kbit k d then r else l) (S d) k) as N1. pose proof (tree_nodes_nil (if kbit k d then r' else l') (S d) k) as N2.
          assert (X : is_node (if kbit k d then r else l) <> is_node (if kbit k d then r' else l')).
          { intros X. apply (proj2 (not_true_iff_false _) Q). apply dom_eqb_eq. unfold branch_domain. destruct (kbit k d); subst; rewrite X; reflexivity. }
          destruct (is_node (if kbit k d then r else l)) eqn:I1, (is_node (if kbit k d then r' else l')) eqn:I2; try congruence.
          - destruct (tree_nodes (if kbit k d then r' else l') (S d) k); [|discriminate N2]. destruct (tree_nodes (if kbit k d then r else l) (S d) k); [discriminate N1|].
            cbn [length] in *. replace (a =? b)%nat with false by (symmetry; apply Nat.eqb_neq; lia). replace (d =? Nat.min a b - 1)%nat with true by (symmetry; apply Nat.eqb_eq; lia).
            replace (d =? a - 1)%nat with false by (symmetry; apply Nat.eqb_neq; lia). cbn [negb oassert obind].
            replace (check_domain_consistency (branch_domain l' r') (branch_domain l r) (kbit k d)) with true; [eexists; reflexivity|].
            unfold branch_domain. destruct (kbit k d); subst; rewrite I1, I2; [destruct (is_node l')|destruct (is_node r')]; reflexivity.
          - destruct (tree_nodes (if kbit k d then r' else l') (S d) k); [discriminate N2|]. destruct (tree_nodes (if kbit k d then r else l) (S d) k); [|discriminate N1].
            cbn [length] in *. replace (a =? b)%nat with false by (symmetry; apply Nat.eqb_neq; lia). replace (d =? Nat.min a b - 1)%nat with true by (symmetry; apply Nat.eqb_eq; lia).
            replace (d =? a - 1)%nat with true by (symmetry; apply Nat.eqb_eq; lia). cbn [negb oassert obind].
            replace (check_domain_consistency (branch_domain l r) (branch_domain l' r') (kbit k d)) with true; [eexists; reflexivity|].
            unfold branch_domain. destruct (kbit k d); subst; rewrite I1, I2; [destruct (is_node l')|destruct (is_node r')]; reflexivity. }
        destruct R as [row ->]. cbn [obind]. destruct (kbit k d).
        + destruct (IHr (S d) r' O ltac:(lia) ltac:(lia)) as [rows ->]. eexists. reflexivity.
        + destruct (IHl (S d) l' O ltac:(lia) ltac:(lia)) as [rows ->]. eexists. reflexivity.
    Qed.
    Theorem tree_rows k t t' : off_path_equal k 0 t t' ->
      exists rows, trie_rows_new H k (tree_nodes t 0 k) (tree_nodes t' 0 k) (tree_leaf t 0 k) (tree_leaf t' 0 k) = Some rows /\
        trie_old_root H rows (Some (thash (tree_end t 0 k))) = Some (thash t) /\
        trie_new_root H rows (Some (thash (tree_end t' 0 k))) = Some (thash t') /\
        trie_check H rows (thash t) (thash t') = Some true.
    Proof.
      intros O. destruct (rows_from_some k (length (tree_nodes t 0 k)) (length (tree_nodes t' 0 k)) (thash (tree_end t 0 k)) (thash (tree_end t' 0 k)) t 0 t' O eq_refl eq_refl) as [rows E].
      assert (E' : trie_rows_new H k (tree_nodes t 0 k) (tree_nodes t' 0 k) (tree_leaf t 0 k) (tree_leaf t' 0 k) = Some rows).
      { unfold trie_rows_new. rewrite (end_merkle k 0 _ _ _ _ (tree_end_hash t 0 k) (tree_merkle t 0 k)), (end_merkle k 0 _ _ _ _ (tree_end_hash t' 0 k) (tree_merkle t' 0 k)). exact E. }
      exists rows. split; [exact E'|]. destruct (roots_recomputed k _ _ _ _ _ _ _ _ rows (tree_end_hash t 0 k) (tree_end_hash t' 0 k) (tree_merkle t 0 k) (tree_merkle t' 0 k) E') as [A B].
      split; [exact A|]. split; [exact B|].
      exact (rows_carry_roots k _ _ _ _ _ _ _ _ rows (tree_end_hash t 0 k) (tree_end_hash t' 0 k) (tree_merkle t 0 k) (tree_merkle t' 0 k) E').
    Qed.
  End Tree.
End Hash.

(** * Updates of tries *)
Lemma modify_off_path {V} (f : V -> V) k (t : tree V) d : off_path_equal k d t (modify f t d k).
Proof.
  revert d. induction t as [|k' v|l IHl r IHr]; intros d; cbn [modify]; [apply ope_end; reflexivity|apply ope_end; reflexivity|].
  destruct (kbit k d) eqn:K; [apply ope_right|apply ope_left]; auto.
Qed.

(** * C45 *)
(* put the branch c in place of the child on the given side *)
Definition with_child {V} (right : bool) (l r c : tree V) : HashDomain := if right then branch_domain l c else branch_domain c r.
Definition child {V} (right : bool) (l r : tree V) : tree V := if right then r else l.
Lemma domains_agree {V} (l r c : tree V) right : is_node (child right l r) = false -> is_node c = true ->
  next_domain (branch_domain l r) right = Some (with_child right l r c) /\
  get_domains ExtensionNew (branch_domain l r) right = Some (branch_domain l r, with_child right l r c) /\
  get_domains ExtensionOld (branch_domain l r) right = Some (with_child right l r c, branch_domain l r) /\
  check_domain_consistency (branch_domain l r) (with_child right l r c) right = true /\
  upgrade right (branch_domain l r) = Some (with_child right l r c).
Proof.
  unfold with_child, child, branch_domain. destruct right; intros A B; rewrite A, B; [destruct (is_node l)|destruct (is_node r)]; auto.
Qed.
Definition some_branch : tree unit := Node Empty Empty.
Lemma check_exact d d' right : check_domain_consistency d d' right = true <->
  exists (l r c : tree unit), is_node (child right l r) = false /\ is_node c = true /\ d = branch_domain l r /\ d' = with_child right l r c.
Proof.
  split.
  - intros E. destruct d, d', right; cbn in E; try discriminate E.
    + exists Empty, Empty, some_branch. auto.
    + exists Empty, Empty, some_branch. auto.
    + exists Empty, some_branch, some_branch. auto.
    + exists some_branch, Empty, some_branch. auto.
  - intros (l & r & c & A & B & -> & ->). apply domains_agree; assumption.
Qed.
Lemma circuit_insertion_domain H e n : fixed_ok e n -> sat e (circuit_of (circuit H)) ->
  forall i (l r c : tree unit) right, 1 <= i -> i + 1 < n ->
  pa e i = Common -> sg e (i + 1) <> AccountLeaf0 -> sg e (i + 1) <> StorageLeaf0 ->
  eadv e MU_domain i = fdom (branch_domain l r) -> eadv e MU_direction i = fb right ->
  is_node (child right l r) = false -> is_node c = true ->
  (pa e (i + 1) = ExtensionNew -> oldP e i (fdom (branch_domain l r)) /\ newP e i (fdom (with_child right l r c))) /\
  (pa e (i + 1) = ExtensionOld -> newP e i (fdom (branch_domain l r)) /\ oldP e i (fdom (with_child right l r c))).
Proof.
  intros F S i l r c right Hi Hi' P N1 N2 D R A B.
  pose proof (r_common H e n F (HD0 H e n F S) i Hi Hi' P) as C. unfold common_facts in C.
  replace (is_leaf0 (sg e (i + 1))) with false in C by (destruct (sg e (i + 1)); congruence || reflexivity).
  destruct (domains_agree l r c right A B) as (_ & _ & _ & _ & U).
  split; intros E; rewrite E in C; destruct C as (_ & C1 & C2 & C3); rewrite <- (C3 _ _ _ D R U), <- D; split; assumption.
Qed.
Lemma lax_next_domain : exists d d' right, next_domain d right = Some d' /\ upgrade right d = Some d' /\ check_domain_consistency d d' right = false.
Proof. exists Branch1, Branch3, true. auto. Qed.
Definition toy_sum (l r d : Fr) : Fr := (l + r + d)%fr.
Definition toy_node (v s t : Z) : SMTNode := mkNode (fr_to_bytes (fz v)) (fr_to_bytes (fz s)) t.
Lemma equal_types_refuted : exists H key olds news old_leaf new_leaf lo ln rows,
  end_hash H old_leaf = Some lo /\ end_hash H new_leaf = Some ln /\
  trie_rows_new H key olds news old_leaf new_leaf = Some rows /\
  hash_up H key 0 news ln <> None /\ trie_new_root H rows (Some ln) <> hash_up H key 0 news ln.
Proof.
  exists toy_sum, f0, [toy_node 0 3 6], [toy_node 6 3 6; toy_node 0 0 6], None, None, f0, f0. eexists.
  split; [reflexivity|]. split; [reflexivity|]. split; [vm_compute; reflexivity|]. split; [vm_compute; discriminate|].
  vm_compute. intros E. discriminate E.
Qed.
Lemma insertion_case :
  let k := fz 15 in let k' := fz 7 in let big := Node (Leaf (fz 4) 9) (Leaf (fz 2) 3) in
  let t := Node big (Leaf k' 5) in
  let t' := Node big (Node Empty (Node Empty (Node (Leaf k' 5) (Leaf k 6)))) in
  off_path_equal k 0 t t' /\ length (tree_nodes (fun l r d => (l + r + d)%fr) fz t' 0 k) = 4%nat.
Proof. cbv zeta. split; [|vm_compute; reflexivity]. apply ope_right; [reflexivity|]. apply ope_end. reflexivity. Qed.
