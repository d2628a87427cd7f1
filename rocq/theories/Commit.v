(* Proofs of C66. *)
From Coq Require Import ZArith List Bool Lia.
From Verif Require Import Pocklington Fr Query Gadgets MptUpdate Bytes TrieSpec UpdateRows UpdateWalk UpdateClaims LagrangeProofs GadgetProofs CanonProofs Util UtilProofs Serde Trie TrieProofs Storage Types LeafOk ChangeSpec TwoTries NewSide
  TraceSpec TraceChecks CheckSpec ProofCheck CheckProofs CommitSpec.
Import ListNotations.
Open Scope Z_scope.

Lemma triple_dec (x y : triple) : {x = y} + {x <> y}.
Proof.
  destruct x as [[a b] c], y as [[a' b'] c']. destruct (Fr_eq_dec a a'); [|right; congruence]. destruct (Fr_eq_dec b b'); [|right; congruence].
  destruct (Fr_eq_dec c c'); [left; congruence|right; congruence].
Qed.
Lemma cf_or_broken H l : collision_free H (fun x => In x l) \/ broken H l.
Proof.
  destruct (Exists_dec (fun x => hash_of H x = f0) l (fun x => Fr_eq_dec _ _)) as [E|E].
  { right. right. apply Exists_exists in E. exact E. }
  set (Q := fun p : triple * triple => fst p <> snd p /\ hash_of H (fst p) = hash_of H (snd p)).
  assert (D : forall p, {Q p} + {~ Q p}).
  { intros [x y]. unfold Q. cbn [fst snd]. destruct (triple_dec x y); [right; tauto|]. destruct (Fr_eq_dec (hash_of H x) (hash_of H y)); [left; tauto|right; tauto]. }
  destruct (Exists_dec Q (list_prod l l) D) as [X|X].
  - right. left. apply Exists_exists in X. destruct X as ([x y] & I0 & N & Eq). apply in_prod_iff in I0. exists x, y. cbn [fst snd] in *. tauto.
  - left. split.
    + intros x y Hx Hy Eq. destruct (triple_dec x y) as [|N]; [assumption|]. exfalso. apply X, Exists_exists. exists (x, y). split; [apply in_prod; assumption|]. split; assumption.
    + intros x Hx Eq. apply E, Exists_exists. exists x. auto.
Qed.

Lemma same_state H t t' : tree_all account_ok t -> tree_all account_ok t' -> state_root H t = state_root H t' ->
  t = t' \/ broken H (state_inputs H t ++ state_inputs H t').
Proof.
  intros A A' E. destruct (cf_or_broken H (state_inputs H t ++ state_inputs H t')) as [CF|B]; [left|right; exact B].
  apply (tree_inj H _ CF (account_hash H) (account_inputs H) account_ok); auto.
  - intros v v' O O' K K'. exact (account_inj H _ CF v v' O O' K K').
  - intros x Hx. apply in_or_app. left. exact Hx.
  - intros x Hx. apply in_or_app. right. exact Hx.
Qed.
Lemma same_storage H s s' : tree_all word_ok s -> tree_all word_ok s' -> storage_root H s = storage_root H s' ->
  s = s' \/ broken H (tree_inputs H (word_hash H) word_inputs s ++ tree_inputs H (word_hash H) word_inputs s').
Proof.
  intros A A' E. destruct (cf_or_broken H (tree_inputs H (word_hash H) word_inputs s ++ tree_inputs H (word_hash H) word_inputs s')) as [CF|B]; [left|right; exact B].
  apply (tree_inj H _ CF (word_hash H) word_inputs word_ok); auto.
  - intros v v' O O' K K'. exact (word_inj H _ CF v v' O O' K K').
  - intros x Hx. apply in_or_app. left. exact Hx.
  - intros x Hx. apply in_or_app. right. exact Hx.
Qed.

(** * Domains *)
Lemma numbers d : In (d, domain_u64 d) domain_numbers.
Proof. destruct d; cbn; tauto. Qed.
Lemma numbers_fr d : val (fdom d) = domain_u64 d.
Proof. unfold fdom. rewrite val_fz. apply Z.mod_small. destruct d; apply small_lt_modulus; cbn; lia. Qed.
Lemma domain_table d x : In (d, x) domain_numbers <-> domain_u64 d = x /\ val (fdom d) = x.
Proof.
  rewrite numbers_fr. split.
  - intros E. cbn in E. repeat (destruct E as [E|E]; [injection E as <- <-; split; reflexivity|]). contradiction.
  - intros [<- _]. apply numbers.
Qed.
Lemma domains_differ d d' : fdom d = fdom d' -> d = d'.
Proof. apply fdom_inj. Qed.
Lemma node_types x d : domain_of_u64 x = Some d <-> In (d, x) domain_numbers /\ d <> DPair /\ d <> AccountFields.
Proof.
  unfold domain_of_u64. split.
  - intros E. destruct (Z.eqb_spec x 4) as [->|]; [|destruct (Z.eqb_spec x 6) as [->|]; [|destruct (Z.eqb_spec x 7) as [->|]; [|destruct (Z.eqb_spec x 8) as [->|]; [|destruct (Z.eqb_spec x 9) as [->|]; [|discriminate E]]]]];
      injection E as <-; (split; [cbn; tauto|split; discriminate]).
  - intros (I0 & N1 & N2). cbn in I0. repeat (destruct I0 as [I0|I0]; [injection I0 as <- <-; first [reflexivity|congruence]|]). contradiction.
Qed.

(** * Walking down an opened path *)
Section Down.
  Variables (H : Fr -> Fr -> Fr -> Fr) (P0 : triple -> Prop).
  Hypothesis CF : collision_free H P0.
  Lemma cf_inj l r d l' r' d' : P0 (l, r, d) -> P0 (l', r', d') -> H l r d = H l' r' d' -> l = l' /\ r = r' /\ d = d'.
  Proof. intros A B E. assert (Q : (l, r, d) = (l', r', d')) by (apply (proj1 CF); assumption). injection Q. auto. Qed.
  Lemma cf_zero l r d : P0 (l, r, d) -> H l r d <> f0.
  Proof. intros A. exact (proj2 CF _ A). Qed.

  Context {V : Type} (hv : V -> Fr) (vin : V -> list triple).
  Notation known := (known H P0 hv vin).
  Notation th := (thash H hv).
  Definition is_branch (d : HashDomain) : Prop := In d [Branch0; Branch1; Branch2; Branch3].
  Lemma branch_of l r : is_branch (@branch_domain V l r).
  Proof. unfold branch_domain, is_branch. destruct (is_node l), (is_node r); cbn; tauto. Qed.
  Lemma own_branch nd d : n_type nd <> 4 -> own_domain nd d -> is_branch d.
  Proof. intros N O. apply node_types in O. destruct O as (I0 & N1 & N2). unfold is_branch. cbn in I0 |- *. repeat (destruct I0 as [I0|I0]; [injection I0 as <- E; first [tauto|congruence]|]). contradiction. Qed.
  Lemma type_branch g right own d : is_branch own -> type_at g right own d -> is_branch d.
  Proof.
    unfold type_at, is_branch. intros B [->|[_ [G|G]]]; [exact B| |]; destruct d, own; cbn in *; try tauto; destruct right; try congruence; try tauto; try discriminate G.
  Qed.
  Lemma node_in (right : bool) nd v s d : fr (n_value nd) = Some v -> fr (n_sibling nd) = Some s -> is_branch d ->
    In (if right then s else v, if right then v else s, fdom d) (node_inputs right nd).
  Proof. intros E1 E2 B. unfold node_inputs. rewrite E1, E2. apply (in_map (fun d => (if right then s else v, if right then v else s, fdom d))). exact B. Qed.

  Lemma climb_down g key : forall i nodes x root, climbs H g key i nodes x root -> Forall (fun nd => n_type nd <> 4) nodes ->
    (forall y, In y (path_inputs key i nodes) -> P0 y) -> forall t : tree V, known t -> th t = root ->
    forall k v, x = H k v (fdom DLeaf) -> P0 (k, v, fdom DLeaf) -> exists w, tree_end t i key = Leaf k w /\ hv w = v.
  Proof.
    induction 1 as [i x|i nd nodes own d h x root O T Hv C IH Hh]; intros Fo In0 t Kt Et k v Ex Pk.
    - rewrite Ex in Et. clear Ex. destruct t as [|k' w|l r]; cbn [thash tree_end] in *.
      + exfalso. apply (cf_zero _ _ _ Pk). congruence.
      + destruct (cf_inj k' (hv w) (fdom DLeaf) k v (fdom DLeaf)) as (-> & <- & _); [apply Kt; left; reflexivity|exact Pk|exact Et|]. exists w. auto.
      + exfalso. destruct (cf_inj (th l) (th r) (fdom (branch_domain l r)) k v (fdom DLeaf)) as (_ & _ & Q); [apply Kt; left; reflexivity|exact Pk|exact Et|].
        apply fdom_inj in Q. pose proof (branch_of l r) as B. rewrite Q in B. cbn in B. intuition discriminate.
    - destruct Hh as (v0 & s & Ev & Es & Eh). assert (h = v0) by congruence. subst v0. apply Forall_cons_iff in Fo. destruct Fo as [N Fo].
      assert (B : is_branch d) by (exact (type_branch _ _ _ _ (own_branch _ _ N O) T)).
      assert (Pn : P0 (if kbit key i then s else h, if kbit key i then h else s, fdom d)).
      { apply In0. cbn [path_inputs]. apply in_or_app. left. apply node_in; assumption. }
      assert (Er : root = H (if kbit key i then s else h) (if kbit key i then h else s) (fdom d)) by (destruct (kbit key i); exact Eh).
      rewrite Er in Et. destruct t as [|k' w|l r]; cbn [thash] in Et.
      + exfalso. apply (cf_zero _ _ _ Pn). congruence.
      + exfalso. destruct (cf_inj k' (hv w) (fdom DLeaf) _ _ _ ltac:(apply Kt; left; reflexivity) Pn Et) as (_ & _ & Q). apply fdom_inj in Q. rewrite <- Q in B. cbn in B. intuition discriminate.
      + destruct (cf_inj (th l) (th r) (fdom (branch_domain l r)) _ _ _ ltac:(apply Kt; left; reflexivity) Pn Et) as (Q1 & Q2 & _).
        cbn [tree_end]. apply (IH Fo) with (t := if kbit key i then r else l); auto.
        * intros y Hy. apply In0. cbn [path_inputs]. apply in_or_app. right. exact Hy.
        * intros y Hy. apply Kt. cbn [tree_inputs]. right. apply in_or_app. destruct (kbit key i); auto.
        * destruct (kbit key i); assumption.
  Qed.
End Down.

(** * Account data *)
Section Data.
  Variables (H : Fr -> Fr -> Fr -> Fr) (P0 : triple -> Prop).
  Hypothesis CF : collision_free H P0.
  Lemma data_determines d root a : data_fits d -> account_ok a -> (forall x, In x (data_inputs H d root) -> P0 x) -> (forall x, In x (account_inputs H a) -> P0 x) ->
    account_hash H a = data_hash H d root -> holds_data H d root a.
  Proof.
    intros (D1 & D2 & D3 & D4 & D5) OK Kd Ka E. pose proof OK as (A1 & A2 & A3 & A4 & _). unfold account_hash, data_hash in E.
    apply (cf_inj H P0 CF) in E; [|apply Ka; cbn; tauto|apply Kd; cbn; tauto]. destruct E as (E & Ep & _).
    apply (cf_inj H P0 CF) in E; [|apply Ka; cbn; tauto|apply Kd; cbn; tauto]. destruct E as (E1 & E2 & _).
    apply (cf_inj H P0 CF) in E1; [|apply Ka; cbn; tauto|apply Kd; cbn; tauto]. destruct E1 as (En & Eb & _).
    apply (cf_inj H P0 CF) in E2; [|apply Ka; cbn; tauto|apply Kd; cbn; tauto]. destruct E2 as (Es & Ek & _).
    apply pack_inj in En; [|assumption..]. destruct En as [En Ec]. apply fz_inj in Eb; [|assumption..].
    apply (word_inj H P0 CF) in Ek; [|exact A4|exact D4|intros x Hx; apply (kacc_word H P0 a x Ka Hx)|intros x Hx; apply Kd; unfold data_inputs; apply in_or_app; right; exact Hx].
    unfold holds_data. repeat split; auto. rewrite Ep, val_fz, Z.mod_small by exact D5. reflexivity.
  Qed.
End Data.

(** * Checked traces *)
Section Checked.
  Variable H : Fr -> Fr -> Fr -> Fr.
  Lemma end_is_get {V} (t : tree V) k w : forall d, tree_end t d k = Leaf k w -> get t d k = Some w.
  Proof. induction t as [|k' v|l IHl r IHr]; intros d E; cbn [tree_end get] in *; [discriminate E| |destruct (kbit k d); auto]. injection E as <- <-. rewrite feqb_refl. reflexivity. Qed.
  Lemma end_known (P0 : triple -> Prop) {V} (hv : V -> Fr) vin (t : tree V) k k' w : forall d, UpdateWalk.known H P0 hv vin t -> tree_end t d k = Leaf k' w ->
    forall x, In x (vin w) -> P0 x.
  Proof.
    induction t as [|k0 v|l IHl r IHr]; intros d K E x Hx; cbn [tree_end] in E; [discriminate E| |].
    - injection E as <- <-. apply K. right. exact Hx.
    - destruct (kbit k d); [apply (IHr (S d)) in Hx|apply (IHl (S d)) in Hx]; auto; intros y Hy; apply K; cbn [tree_inputs]; right; apply in_or_app; auto.
  Qed.
  Lemma end_sat {V} (P : V -> Prop) (t : tree V) k k' w : forall d, tree_all P t -> tree_end t d k = Leaf k' w -> P w.
  Proof. induction t as [|k0 v|l IHl r IHr]; intros d A E; cbn [tree_end tree_all] in *; [discriminate E|injection E as <- <-; exact A|]. destruct A as [A B]. destruct (kbit k d); eauto. Qed.
  Lemma leaf_same leaf h k v : leaf_hashes_to H leaf h -> leaf_hashes_to H leaf (H k v (fdom DLeaf)) -> h = H k v (fdom DLeaf).
  Proof.
    destruct leaf as [l|]; cbn [leaf_hashes_to]; [|congruence]. intros (k1 & v1 & E1 & E2 & E3) (k2 & v2 & F1 & F2 & F3). congruence.
  Qed.
  Lemma opened_shown g tr path data state : opened H g (addr_key H (be_val (t_address tr))) path -> branches path -> leaf_of_account H tr path data state ->
    account_shown H tr path data state.
  Proof.
    intros (h & root & L & R & C) B LA d t Ed Fit A Er. cbv zeta. pose proof Fit as (D1 & D2 & D3 & D4 & D5).
    destruct (LA d Ed ltac:(lia) ltac:(lia) ltac:(lia) ltac:(lia) ltac:(lia)) as (sr & Sr & L2). exists sr. split; [exact Sr|]. set (key := addr_key H (be_val (t_address tr))) in *.
    pose proof (leaf_same _ _ _ _ L L2) as Eh. set (l := state_inputs H t ++ path_inputs key 0 (p_path path) ++ (key, data_hash H d sr, fdom DLeaf) :: data_inputs H d sr).
    destruct (cf_or_broken H l) as [CF|Br]; [left|right; exact Br].
    assert (K : UpdateWalk.known H (fun x => In x l) (account_hash H) (account_inputs H) t) by (intros x Hx; unfold l; apply in_or_app; left; exact Hx).
    destruct (climb_down H _ CF (account_hash H) (account_inputs H) g key _ _ _ _ C B ltac:(intros y Hy; unfold l; apply in_or_app; right; apply in_or_app; left; exact Hy) t K ltac:(unfold state_root in Er; congruence)
      key (data_hash H d sr) Eh ltac:(unfold l; apply in_or_app; right; apply in_or_app; right; left; reflexivity)) as (a & Ea & Ev).
    exists a. split; [apply end_is_get; exact Ea|]. apply (data_determines H _ CF); auto.
    - exact (end_sat account_ok t _ _ _ _ A Ea).
    - intros x Hx. unfold l. apply in_or_app. right. apply in_or_app. right. right. exact Hx.
    - exact (end_known _ _ _ t _ _ _ _ K Ea).
  Qed.
  Theorem old_account_shown ty tr p : proof_from H ty tr = Some p -> proof_check H p = Some tt -> address_ok (t_address tr) ->
    length (p_path (fst (t_account_path tr))) = length (p_path (snd (t_account_path tr))) -> branches (fst (t_account_path tr)) ->
    account_shown H tr (fst (t_account_path tr)) (fst (t_account_update tr)) (fst (t_state_path tr)).
  Proof.
    intros E C A L B. destruct (accounts_opened H ty tr p E C A L) as [O _]. destruct (accounts_checked H ty tr p E A) as [Q _]. exact (opened_shown _ _ _ _ _ O B Q).
  Qed.
  Theorem new_account_shown ty tr p : proof_from H ty tr = Some p -> proof_check H p = Some tt -> address_ok (t_address tr) ->
    (length (p_path (fst (t_account_path tr))) <= length (p_path (snd (t_account_path tr))))%nat -> branches (snd (t_account_path tr)) ->
    account_shown H tr (snd (t_account_path tr)) (snd (t_account_update tr)) (snd (t_state_path tr)).
  Proof.
    intros E C A L B. destruct (accounts_checked H ty tr p E A) as [_ Q].
    destruct (Nat.eq_dec (length (p_path (fst (t_account_path tr)))) (length (p_path (snd (t_account_path tr))))) as [Eq|Ne].
    - destruct (accounts_opened H ty tr p E C A Eq) as [_ O]. exact (opened_shown _ _ _ _ _ O B Q).
    - assert (O := created_opened H ty tr p E C A ltac:(cbv zeta; lia)). exact (opened_shown _ _ _ _ _ O B Q).
  Qed.
  Lemma slot_opened_shown g key path entry : slot_opened H g key path entry -> word_ok (be_val (sd_value entry)) -> branches path -> slot_shown H path entry.
  Proof.
    intros (h & root & Eh & R & _ & C) W B s Nz A Er. cbv zeta. destruct Eh as [_ Eh]. destruct (Eh Nz) as [Lf Eh']. specialize (C Lf). set (k := slot_key H (be_val (sd_key entry))) in *. set (v := be_val (sd_value entry)) in *.
    set (l := tree_inputs H (word_hash H) word_inputs s ++ path_inputs k 0 (p_path path) ++ (k, word_hash H v, fdom DLeaf) :: word_inputs v).
    destruct (cf_or_broken H l) as [CF|Br]; [left|right; exact Br].
    assert (K : UpdateWalk.known H (fun x => In x l) (word_hash H) word_inputs s) by (intros x Hx; unfold l; apply in_or_app; left; exact Hx).
    destruct (climb_down H _ CF (word_hash H) word_inputs g k _ _ _ _ C B ltac:(intros y Hy; unfold l; apply in_or_app; right; apply in_or_app; left; exact Hy) s K ltac:(unfold storage_root in Er; congruence)
      k (word_hash H v) Eh' ltac:(unfold l; apply in_or_app; right; apply in_or_app; right; left; reflexivity)) as (w & Ew & Ev).
    rewrite (end_is_get _ _ _ _ Ew). f_equal. apply (word_inj H _ CF); auto.
    - exact (end_sat word_ok s _ _ _ _ A Ew).
    - exact (end_known _ _ _ s _ _ _ _ K Ew).
    - intros x Hx. unfold l. apply in_or_app. right. apply in_or_app. right. right. exact Hx.
  Qed.
  Theorem slots_shown ty tr p : proof_from H ty tr = Some p -> proof_check H p = Some tt -> t_common_state_root tr = None -> entries_ok tr ->
    exists pa pb eo en, t_state_path tr = (Some pa, Some pb) /\ t_state_update tr = Some (Some eo, Some en) /\
      (branches pa -> slot_shown H pa eo) /\ (branches pb -> slot_shown H pb en).
  Proof.
    intros E C TC W. destruct (slots_opened H ty tr p E C TC W) as (key & kb & pa & pb & eo & en & _ & _ & P & U & S1 & S2).
    exists pa, pb, eo, en. split; [exact P|]. split; [exact U|]. destruct (W _ _ U) as (W1 & W2 & W3 & W4).
    split; intros B; [apply (slot_opened_shown _ _ _ _ S1)|apply (slot_opened_shown _ _ _ _ S2)]; auto; [destruct W2 as [L O]|destruct W4 as [L O]]; exact (proj2 (u256_from_hex_spec _ L O)).
  Qed.
End Checked.
