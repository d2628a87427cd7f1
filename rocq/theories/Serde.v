(* Model of /repo/src/serde.rs: hexadecimal encodings, HexBytes, big integers, fold_flattern_rows, and the trace
   data types.  A str is the list of its UTF-8 bytes.  An Err result is None.
   Not modelled: the derived serde implementations of the structs (field names, JSON syntax), HashType,
   Row::from_lines. *)
From Coq Require Import ZArith List Bool.
From Verif Require Import Pocklington Fr Bytes Util.
Import ListNotations.
Open Scope Z_scope.

Definition str := list Z.
Definition c0x : str := [48; 120].                                  (* "0x" *)
Definition starts_with_0x (s : str) : bool := match s with a :: b :: _ => (a =? 48) && (b =? 120) | _ => false end.
(* format!("{:0>w}", s): pad on the left with '0' to at least w characters *)
Definition pad0 (w : nat) (s : str) : str := repeat 48 (w - length s) ++ s.

(** * The hex crate *)
Definition hex_digit (d : Z) : Z := if d <? 10 then 48 + d else 87 + d.      (* lower case *)
Definition hex_encode (l : list Z) : str := flat_map (fun b => [hex_digit (b / 16); hex_digit (b mod 16)]) l.
Definition hex_val (c : Z) : option Z :=
  if (65 <=? c) && (c <=? 70) then Some (c - 55)
  else if (97 <=? c) && (c <=? 102) then Some (c - 87)
  else if (48 <=? c) && (c <=? 57) then Some (c - 48)
  else None.
Fixpoint hex_pairs (s : str) : option (list Z) :=
  match s with
  | [] => Some []
  | [_] => None
  | a :: b :: r =>
      match hex_val a, hex_val b, hex_pairs r with
      | Some x, Some y, Some l => Some (16 * x + y :: l)
      | _, _, _ => None
      end
  end.
(* hex::decode_to_slice into a slice of n bytes: odd length, wrong length and bad characters are errors *)
Definition hex_decode_to_slice (n : nat) (s : str) : option (list Z) :=
  if Nat.odd (length s) then None
  else if (Nat.div2 (length s) =? n)%nat then hex_pairs s else None.

(** * HexBytes<LEN> *)
(* serde.rs:187-190 *)
Definition hb_hex (l : list Z) : str := hex_encode l.
(* serde.rs:47-55 (and Debug / Display 214-224) *)
Definition hb_serialize (LEN : nat) (l : list Z) : str := c0x ++ pad0 (LEN * 2) (hb_hex l).
(* serde.rs:238-252 try_from(&str); 57-66 deserialize calls it *)
Definition hb_parse (LEN : nat) (s : str) : option (list Z) :=
  if starts_with_0x s then hex_decode_to_slice LEN (skipn 2 s) else hex_decode_to_slice LEN s.
(* serde.rs:197-205: for_each over the zip of the source with the zero-initialised target *)
Fixpoint hb_overwrite (out src : list Z) : list Z :=
  match out, src with
  | o :: out', s :: src' => s :: hb_overwrite out' src'
  | _, [] => out
  | [], _ => []
  end.
Definition hb_cast (LNEW : nat) (l : list Z) : list Z := hb_overwrite (repeat 0 LNEW) l.

(** * num-bigint *)
(* BigUint::to_str_radix(16): lower case, "0" for 0 *)
Definition to_hex (z : Z) : str := match digits_fuel (zsize z) 16 z with [] => [48] | l => map hex_digit (rev l) end.
(* BigUint::from_str_radix: the value of a character, underscores are skipped *)
Definition radix_val (radix c : Z) : option Z :=
  let d := if (48 <=? c) && (c <=? 57) then c - 48
           else if (97 <=? c) && (c <=? 122) then c - 97 + 10
           else if (65 <=? c) && (c <=? 90) then c - 65 + 10
           else 255 in
  if d <? radix then Some d else None.
Fixpoint radix_digits (radix : Z) (s : str) (acc : Z) : option Z :=
  match s with
  | [] => Some acc
  | c :: r =>
      if c =? 95 then radix_digits radix r acc
      else match radix_val radix c with Some d => radix_digits radix r (radix * acc + d) | None => None end
  end.
Definition strip_plus (s : str) : str :=
  match s with
  | c :: tail => if (c =? 43) && negb (match tail with d :: _ => d =? 43 | [] => false end) then tail else s
  | [] => s
  end.
(* BigUint::parse_bytes(s, radix) *)
Definition parse_bytes (s : str) (radix : Z) : option Z :=
  match strip_plus s with
  | [] => None
  | c :: r => if c =? 95 then None else radix_digits radix (c :: r) 0
  end.
(* serde.rs:76-82 *)
Definition se_uint_hex (z : Z) : str := c0x ++ to_hex z.
(* serde.rs:84-90 *)
Definition se_uint_hex_fixed32 (z : Z) : str := c0x ++ pad0 64 (to_hex z).
(* serde.rs:92-108 *)
Definition de_uint_hex (s : str) : option Z :=
  if starts_with_0x s then
    if (length s =? 2)%nat then Some 0 else parse_bytes (skipn 2 s) 16
  else parse_bytes s 16.
(* serde.rs:68-74 *)
Definition de_uint_bin (s : str) : option Z := parse_bytes s 2.

(** * 162-180 Row::fold_flattern_rows, for any row type with its is_first flag *)
Section Fold.
  Context {R : Type} (is_first : R -> bool).
  Definition fold_step (st : list (list R) * list R) (row : R) : list (list R) * list R :=
    let '(out, current) := st in
    match current with
    | [] => (out, [row])
    | _ => if is_first row then (out ++ [current], [row]) else (out, current ++ [row])
    end.
  Definition fold_flattern_rows (rows : list R) : list (list R) :=
    let '(out, current) := fold_left fold_step rows ([], []) in
    match current with [] => out | _ => out ++ [current] end.
End Fold.

(** * Trace data *)
(* serde.rs:262-270 SMTNode *)
Record SMTNode := mkNode { n_value : list Z; n_sibling : list Z; n_type : Z }.
(* serde.rs:275-287 SMTPath (path_part is never read by the crate) *)
Record SMTPath := mkPath { p_root : list Z; p_leaf : option SMTNode; p_path : list SMTNode }.
(* serde.rs:292-316 AccountData *)
Record AccountData := mkAccountData { ad_nonce : Z; ad_balance : Z; ad_code_hash : Z; ad_poseidon_code_hash : Z; ad_code_size : Z }.
(* serde.rs:320-325 StateData *)
Record StateData := mkStateData { sd_key : list Z; sd_value : list Z }.
(* serde.rs:330-350 SMTTrace; the two-element arrays are pairs *)
Record SMTTrace := mkTrace {
  t_address : list Z; t_account_key : list Z; t_account_path : SMTPath * SMTPath;
  t_account_update : option AccountData * option AccountData;
  t_state_path : option SMTPath * option SMTPath;
  t_common_state_root : option (list Z); t_state_key : option (list Z);
  t_state_update : option (option StateData * option StateData) }.
