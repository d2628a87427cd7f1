(* The model on the traces of /repo/src/traces, with the Poseidon hashes that occur there. *)
From Coq Require Import ZArith List Bool.
From Verif Require Import Pocklington Fr Query Gadgets MptUpdate Bytes Util Serde Trie Storage Types ProofCheck RealTraces Poseidon.
Import ListNotations.
Open Scope Z_scope.
(* a listed hash, or 0 *)
Fixpoint search (t : list (Z * Z * Z * Z)) (l r d : Z) : Z :=
  match t with
  | (a, b, c, h) :: t => if (a =? l) && (b =? r) && (c =? d) then h else search t l r d
  | [] => 0
  end.
Definition listed (l r d : Fr) : Fr := fz (search hashes (val l) (val r) (val d)).
Definition flip {X} (p : X * X) : X * X := (snd p, fst p).
(* tests.rs:44-54 reverse: the trace of the opposite update *)
Definition reverse (t : SMTTrace) : SMTTrace :=
  mkTrace (t_address t) (t_account_key t) (flip (t_account_path t)) (flip (t_account_update t)) (flip (t_state_path t)) (t_common_state_root t) (t_state_key t)
    (option_map flip (t_state_update t)).
(* the trace is converted, the claim has its roots, and the converted proof passes or fails the checks of the tests *)
Definition roots_match (t : SMTTrace) (c : Claim) : Prop := fr (p_root (fst (t_account_path t))) = Some (c_old_root c) /\ fr (p_root (snd (t_account_path t))) = Some (c_new_root c).
Definition same_fr (a : option Fr) (b : Fr) : bool := match a with Some a => feqb a b | None => false end.
Definition outcome (x : MPTProofType * SMTTrace) : option bool :=
  p <- proof_from listed (fst x) (snd x);
  _ <- oassert (same_fr (fr (p_root (fst (t_account_path (snd x))))) (c_old_root (pf_claim p)) && same_fr (fr (p_root (snd (t_account_path (snd x))))) (c_new_root (pf_claim p)));
  Some (match proof_check listed p with Some _ => true | None => false end).
Lemma outcome_is x b : outcome x = Some b -> exists p, proof_from listed (fst x) (snd x) = Some p /\ roots_match (snd x) (pf_claim p) /\ (if b then proof_check listed p = Some tt else proof_check listed p = None).
Proof.
  unfold outcome. destruct (proof_from listed (fst x) (snd x)) as [p|]; [|discriminate]. cbn [obind]. intros E. exists p. split; [reflexivity|].
  destruct (same_fr (fr (p_root (fst (t_account_path (snd x))))) _) eqn:A; [|discriminate E]. destruct (same_fr (fr (p_root (snd (t_account_path (snd x))))) _) eqn:B; [|discriminate E].
  split; [split; [destruct (fr (p_root (fst (t_account_path (snd x))))) as [y|]; [cbn [same_fr] in A; f_equal; apply feqb_eq, A|discriminate A]|destruct (fr (p_root (snd (t_account_path (snd x))))) as [y|]; [cbn [same_fr] in B; f_equal; apply feqb_eq, B|discriminate B]]|].
  cbn [andb oassert obind] in E. destruct (proof_check listed p) as [[]|]; destruct b; try discriminate E; reflexivity.
Qed.
Lemma all_outcomes b l : map outcome l = repeat (Some b) (length l) -> Forall (fun x => exists p, proof_from listed (fst x) (snd x) = Some p /\ roots_match (snd x) (pf_claim p) /\ (if b then proof_check listed p = Some tt else proof_check listed p = None)) l.
Proof. induction l as [|x l IH]; intros E; constructor; cbn [map length repeat] in E; injection E as E1 E2; [exact (outcome_is _ _ E1)|exact (IH E2)]. Qed.
(* one trace per proof type and way of not being there *)
Definition sample : list (MPTProofType * SMTTrace) :=
  [ (AccountDoesNotExist, real_empty_account_type_1); (BalanceChanged, real_empty_account_type_2_balance_update); (CodeHashExists, real_existing_account_keccak_codehash_update)
  ; (StorageChanged, real_empty_storage_type_1_update_b); (StorageChanged, reverse real_depth_1_type_1_storage) ].
Lemma outcomes1 : map outcome sample = repeat (Some true) 5. Proof. vm_cast_no_check (@eq_refl (list (option bool)) (repeat (Some true) 5)). Qed.
Lemma outcomes2 : map outcome (firstn 1 real_creates) = repeat (Some false) 1. Proof. vm_cast_no_check (@eq_refl (list (option bool)) (repeat (Some false) 1)). Qed.
Theorem real_converted : Forall (fun x => exists p, proof_from listed (fst x) (snd x) = Some p /\ roots_match (snd x) (pf_claim p) /\ proof_check listed p = Some tt) sample.
Proof. exact (all_outcomes true _ outcomes1). Qed.
Theorem real_unchecked : Forall (fun x => exists p, proof_from listed (fst x) (snd x) = Some p /\ roots_match (snd x) (pf_claim p) /\ proof_check listed p = None) (firstn 1 real_creates).
Proof. exact (all_outcomes false _ outcomes2). Qed.
Lemma hashes_ok (p : Z -> Z -> Z -> Z) t : forallb (fun x : Z * Z * Z * Z => let '(l, r, d, h) := x in p l r d =? h) t = true ->
  Forall (fun x : Z * Z * Z * Z => let '(l, r, d, h) := x in p l r d = h) t.
Proof. intros F. apply Forall_forall. intros [[[l r] d] h] I. pose proof (proj1 (forallb_forall _ _) F _ I) as E. apply Z.eqb_eq, E. Qed.
Lemma some_hashes : forallb (fun x : Z * Z * Z * Z => let '(l, r, d, h) := x in poseidon_z l r d =? h) (firstn 1 hashes) = true.
Proof. vm_cast_no_check (@eq_refl bool true). Qed.
Theorem real_hashes : Forall (fun x : Z * Z * Z * Z => let '(l, r, d, h) := x in poseidon_z l r d = h) (firstn 1 hashes).
Proof. exact (hashes_ok poseidon_z _ some_hashes). Qed.
