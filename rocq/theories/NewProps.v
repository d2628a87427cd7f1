(* Theorems about pairs of tries, lifted to the rows of the exposed table. *)
From Coq Require Import ZArith String List Bool Lia.
From Verif Require Import Pocklington Fr Query Builder BuilderProofs Gadgets MptUpdate Bytes GadgetProofs LagrangeProofs Fixed CanonProofs UpdateRows TrieSpec UpdateWalk UpdateAccount UpdateSound UpdateClaims UpdateStorage GadgetMain TableSpec UpdateProps ChangeSpec TwoTries NewSide NewAccount NewClaims NewStorage NewSlots.
Import ListNotations.
Open Scope Z_scope.

(* t and t' are state tries with the old and the new root of the statement: values in range, paths not longer than the
   key-bit table is reliable for, no hash collision among the hashes of the two tries, of an empty account and of the circuit *)
Record tries_of (H : Fr -> Fr -> Fr -> Fr) (e : env) (n : Z) (s : statement) (t t' : tree account) : Prop := {
  to_old : state_root H t = st_old_root s;
  to_new : state_root H t' = st_new_root s;
  to_ok : tree_all account_ok t;
  to_ok' : tree_all account_ok t';
  to_bits : bits_ok n (height t);
  to_bits' : bits_ok n (height t');
  to_sbits : tree_all (fun a => bits_ok n (height (storage a))) t;
  to_sbits' : tree_all (fun a => bits_ok n (height (storage a))) t';
  to_free : collision_free H (inputs2 H e t t') }.

Section Props.
  Variables (H : Fr -> Fr -> Fr -> Fr) (e : env) (n : Z).
  Hypothesis OK : circuit_ok H e n.

  Section Row.
    Variables (i : Z) (s : statement) (t t' : tree account).
    Hypothesis Hi : 1 <= i /\ i + 1 < n.
    Hypothesis R : row_statement H e i s.
    Hypothesis T : tries_of H e n s t t'.
    Notation K := (addr_key H (st_address s)).
    Let r1 : state_root H t = adv e MU_old_hash i. Proof. rewrite (to_old _ _ _ _ _ _ T). apply R. Qed.
    Let r2 : state_root H t' = adv e MU_new_hash i. Proof. rewrite (to_new _ _ _ _ _ _ T). apply R. Qed.

    Lemma row_survives a : get t 0 K = Some a -> exists a', t' = modify (fun _ => a') t 0 K /\ get t' 0 K = Some a'.
    Proof.
      rewrite <- (rs_key _ _ _ _ R). intros G.
      destruct (account_two H e n OK t t' i Hi (rs_seg _ _ _ _ R) r1 r2 (to_bits _ _ _ _ _ _ T) (to_bits' _ _ _ _ _ _ T) (to_ok _ _ _ _ _ _ T) (to_ok' _ _ _ _ _ _ T) (to_free _ _ _ _ _ _ T))
        as (d & u & u' & A & A' & Rep & Df).
      rewrite (sub_get d t _ 0 u A) in G. cbn [Nat.add] in G.
      destruct Df as [E G0 V0 V1|j k b b' Uj S0 P0 -> -> Kb Kb' Ob Ob' Eb Eb'|m Su G0 V0 V1 _ E|m j k b' Su G0 V0 Hm Uj S0 P0 E Kb' Ob' Eb']; try congruence.
      cbn in G. destruct (feqb_spec (adv e MU_key i) k) as [<-|]; [|discriminate G].
      exists b'. split.
      - rewrite (sub_modify (fun _ => b') d t _ 0 _ A). cbn [modify]. rewrite feqb_refl. exact Rep.
      - rewrite (sub_get d t' _ 0 _ A'). cbn. rewrite feqb_refl. reflexivity.
    Qed.
    Lemma row_existing a : field_proof (st_kind s) = true -> get t 0 K = Some a ->
      exists a', t' = modify (fun _ => a') t 0 K /\ field_step (echal e) (st_kind s) a (st_old_value s) (st_new_value s) a'.
    Proof.
      rewrite <- (rs_key _ _ _ _ R), (rs_kind _ _ _ _ R), (rs_old _ _ _ _ R), (rs_new _ _ _ _ R). intros Fp G.
      destruct (existing_account H e n OK t t' i Hi (rs_seg _ _ _ _ R) r1 r2 (to_bits _ _ _ _ _ _ T) (to_bits' _ _ _ _ _ _ T) (to_ok _ _ _ _ _ _ T) (to_ok' _ _ _ _ _ _ T) (to_free _ _ _ _ _ _ T) a Fp G)
        as (a' & A & _ & B). exists a'. auto.
    Qed.
    Lemma row_created a' : st_kind s <> StorageChanged -> get t 0 K = None -> get t' 0 K = Some a' ->
      st_old_value s = f0 /\ account_created (echal e) (st_kind s) a' (st_new_value s).
    Proof.
      rewrite <- (rs_key _ _ _ _ R), (rs_kind _ _ _ _ R), (rs_old _ _ _ _ R), (rs_new _ _ _ _ R).
      exact (created_account H e n OK t t' i Hi (rs_seg _ _ _ _ R) r1 r2 (to_bits _ _ _ _ _ _ T) (to_bits' _ _ _ _ _ _ T) (to_ok _ _ _ _ _ _ T) (to_ok' _ _ _ _ _ _ T) (to_free _ _ _ _ _ _ T) a').
    Qed.
    Lemma row_absent : st_kind s <> StorageChanged -> get t' 0 K = None ->
      (get t 0 K = None /\ st_old_value s = f0 /\ st_new_value s = f0) \/ exists k', foreign_leaf t' K k'.
    Proof.
      rewrite <- (rs_key _ _ _ _ R), (rs_kind _ _ _ _ R), (rs_old _ _ _ _ R), (rs_new _ _ _ _ R). intros Nk G.
      destruct (still_absent H e n OK t t' i Hi (rs_seg _ _ _ _ R) r1 r2 (to_bits _ _ _ _ _ _ T) (to_bits' _ _ _ _ _ _ T) (to_ok _ _ _ _ _ _ T) (to_ok' _ _ _ _ _ _ T) (to_free _ _ _ _ _ _ T) Nk G)
        as [X|(k & b & X & Y)]; [left; exact X|]. right. exists k. split; [exact Y|]. exists b. exact X.
    Qed.
    Lemma row_others : placed t' [] -> (forall o b, t = Leaf o b -> o = K) ->
      forall k', k' <> K -> present t K \/ present t' K \/ ~ foreign_leaf t' K k' -> get t' 0 k' = get t 0 k'.
    Proof.
      rewrite <- (rs_key _ _ _ _ R). intros Pl Sl k' Nk Ex.
      apply (others_kept H e n OK t t' i Hi (rs_seg _ _ _ _ R) r1 r2 (to_bits _ _ _ _ _ _ T) (to_bits' _ _ _ _ _ _ T) (to_ok _ _ _ _ _ _ T) (to_ok' _ _ _ _ _ _ T) (to_free _ _ _ _ _ _ T) Pl Sl k' Nk).
      destruct Ex as [Ex|[Ex|Ex]]; [auto|auto|]. right; right. intros b Q. apply Ex. split; [exact Nk|]. exists b. exact Q.
    Qed.
    Lemma row_slot a : st_kind s = StorageChanged -> get t 0 K = Some a ->
      exists st' slot, t' = modify (set_storage st') t 0 K /\ word_ok slot /\ st_slot_rlc s = word_rlc (echal e) slot /\ slot_hashed H e slot /\
        slot_change (echal e) (slot_key H slot) (storage a) st' (st_old_value s) (st_new_value s).
    Proof.
      rewrite <- (rs_key _ _ _ _ R), (rs_kind _ _ _ _ R), (rs_old _ _ _ _ R), (rs_new _ _ _ _ R), (rs_slot _ _ _ _ R). intros P G.
      destruct (existing_storage H e n OK t t' i Hi (rs_seg _ _ _ _ R) r1 r2 (to_bits _ _ _ _ _ _ T) (to_bits' _ _ _ _ _ _ T) (to_sbits _ _ _ _ _ _ T) (to_sbits' _ _ _ _ _ _ T) (to_ok _ _ _ _ _ _ T) (to_ok' _ _ _ _ _ _ T) (to_free _ _ _ _ _ _ T) a P G)
        as (st' & slot & A & _ & B & C & D & E). exists st', slot. auto.
    Qed.
  End Row.

  (** ** per table row *)
  Definition of_row (row : list Fr) (P : statement -> tree account -> tree account -> Prop) : Prop :=
    exists s, row = encode (echal e) s /\ 0 <= st_address s < 2 ^ 160 /\ forall t t', tries_of H e n s t t' -> P s t t'.
  Lemma lift_row (P : statement -> tree account -> tree account -> Prop) :
    (forall i s t t', 1 <= i /\ i + 1 < n -> row_statement H e i s -> tries_of H e n s t t' -> P s t t') ->
    forall row, exposes e row -> row <> blank_row -> row <> final_row -> of_row row P.
  Proof.
    intros G row Ex N1 N2. destruct (exposes_statement H e n OK row Ex N1 N2) as (i & s & A & B & R & D).
    exists s. split; [exact D|]. split; [apply R|]. intros t t' T. exact (G i s t t' (conj A B) R T).
  Qed.
  Theorem survives : forall row, exposes e row -> row <> blank_row -> row <> final_row ->
    exists s, row = encode (echal e) s /\ 0 <= st_address s < 2 ^ 160 /\ forall t t', tries_of H e n s t t' ->
    let K := addr_key H (st_address s) in
    forall a, get t 0 K = Some a -> exists a', t' = modify (fun _ => a') t 0 K /\ get t' 0 K = Some a'.
  Proof. apply lift_row. cbv zeta. exact row_survives. Qed.
  Theorem field_changes : forall row, exposes e row -> row <> blank_row -> row <> final_row ->
    exists s, row = encode (echal e) s /\ 0 <= st_address s < 2 ^ 160 /\ forall t t', tries_of H e n s t t' ->
    let K := addr_key H (st_address s) in
    In (st_kind s) [NonceChanged; BalanceChanged; CodeSizeExists; CodeHashExists; PoseidonCodeHashExists] ->
    forall a, get t 0 K = Some a ->
    exists a', t' = modify (fun _ => a') t 0 K /\ field_step (echal e) (st_kind s) a (st_old_value s) (st_new_value s) a'.
  Proof.
    apply lift_row. cbv zeta. intros i s t t' Hi R T Hp a. apply (row_existing i s t t' Hi R T a).
    cbn [In] in Hp. destruct Hp as [<-|[<-|[<-|[<-|[<-|[]]]]]]; reflexivity.
  Qed.
  Theorem storage_changes : forall row, exposes e row -> row <> blank_row -> row <> final_row ->
    exists s, row = encode (echal e) s /\ 0 <= st_address s < 2 ^ 160 /\ forall t t', tries_of H e n s t t' ->
    let K := addr_key H (st_address s) in
    st_kind s = StorageChanged -> forall a, get t 0 K = Some a ->
    exists st' slot, t' = modify (set_storage st') t 0 K /\ word_ok slot /\ st_slot_rlc s = word_rlc (echal e) slot /\
      slot_change (echal e) (slot_key H slot) (storage a) st' (st_old_value s) (st_new_value s).
  Proof. apply lift_row. cbv zeta. intros i s t t' Hi R T P a G. destruct (row_slot i s t t' Hi R T a P G) as (st' & slot & A & B & C & _ & D). exists st', slot. auto. Qed.
  Theorem creates : forall row, exposes e row -> row <> blank_row -> row <> final_row ->
    exists s, row = encode (echal e) s /\ 0 <= st_address s < 2 ^ 160 /\ forall t t', tries_of H e n s t t' ->
    let K := addr_key H (st_address s) in
    st_kind s <> StorageChanged -> get t 0 K = None -> forall a', get t' 0 K = Some a' ->
    st_old_value s = f0 /\ account_created (echal e) (st_kind s) a' (st_new_value s).
  Proof. apply lift_row. cbv zeta. intros i s t t' Hi R T P G a'. exact (row_created i s t t' Hi R T a' P G). Qed.
  Theorem stays_absent : forall row, exposes e row -> row <> blank_row -> row <> final_row ->
    exists s, row = encode (echal e) s /\ 0 <= st_address s < 2 ^ 160 /\ forall t t', tries_of H e n s t t' ->
    let K := addr_key H (st_address s) in
    st_kind s <> StorageChanged -> get t' 0 K = None ->
    (get t 0 K = None /\ st_old_value s = f0 /\ st_new_value s = f0) \/ exists k', foreign_leaf t' K k'.
  Proof. apply lift_row. cbv zeta. exact row_absent. Qed.
  Theorem keeps_others : forall row, exposes e row -> row <> blank_row -> row <> final_row ->
    exists s, row = encode (echal e) s /\ 0 <= st_address s < 2 ^ 160 /\ forall t t', tries_of H e n s t t' ->
    let K := addr_key H (st_address s) in
    placed t' [] -> (forall o b, t = Leaf o b -> o = K) ->
    forall k', k' <> K -> present t K \/ present t' K \/ ~ foreign_leaf t' K k' -> get t' 0 k' = get t 0 k'.
  Proof. apply lift_row. cbv zeta. exact row_others. Qed.
End Props.
