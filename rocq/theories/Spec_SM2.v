(** * Spec_SM2: SM2 signatures (GB/T 32918.2), independently of the code *)
From Coq Require Import ZArith String List Bool.
From Verif Require Import Base Curves ECKey Spec_SM3 Spec_EC Spec_Group.
Import ListNotations.
Open Scope Z_scope.

(** number of bits of the ID in two bytes; the standard assumes less than 2^16 bits *)
Definition entl (id : bytes) : bytes :=
  let bits := Z.of_nat (length id) * 8 in [bits / 256 mod 256; bits mod 256].
(** the curve constants, 32 bytes each *)
Definition constants : bytes :=
  to_be 32 (c_P SM2P256V1 - 3) ++ to_be 32 (c_B SM2P256V1) ++ to_be 32 (c_Gx SM2P256V1) ++ to_be 32 (c_Gy SM2P256V1).
(** what is hashed to Z_A for the encodings xb, yb of the public key *)
Definition za_input (id xb yb : bytes) : bytes := entl id ++ id ++ constants ++ xb ++ yb.
(** the shortest encoding: no leading zero byte *)
Definition minimal (z : Z) (b : bytes) : Prop :=
  octets b /\ value b 0 = z /\ (forall t, b <> 0 :: t).
(** the integer e for the message, with the coordinates encoded as xb, yb *)
Definition sm2_e (id xb yb msg : bytes) : Z := value (sm3_hash (sm3_hash (za_input id xb yb) ++ msg)) 0.

(** the acceptance condition of the standard: public key P, message integer e *)
Definition sm2_accepts (E : ecgroup) (P : pt (eg E)) (e r s : Z) : Prop :=
  1 <= r <= eN E - 1 /\ 1 <= s <= eN E - 1 /\ (r + s) mod eN E <> 0 /\
  let Q := gadd (gmul s eG) (gmul (r + s) P) in
  Q <> gO /\ (e + fst (ecoords Q)) mod eN E = r.

(** The nonces of Sign: consecutive 40-byte pieces of the AES-CTR key stream (counter block
    "IV for <SM2> CTR"), reduced modulo N - 2, plus one. *)
Definition ctr_stream (B : bytes -> bytes) (iv : bytes) (n : nat) : bytes :=
  flat_map (fun j => B (to_be 16 (value iv 0 + Z.of_nat j))) (seq 0 n).
Definition nonce (N : Z) (B : bytes -> bytes) (i : nat) : Z :=
  value (firstn 40 (skipn (40 * i) (ctr_stream B (str_bytes "IV for <SM2> CTR") (3 * S i)))) 0 mod (N - 2) + 1.
(** one attempt of the standard's signing algorithm with nonce k; x maps k to the first
    coordinate of [k]G *)
Inductive attempt (x : Z -> Z) (N D e k : Z) : option (Z * Z) -> Prop :=
| at_ok : forall r s, r = (e + x k) mod N -> r <> 0 -> r + k <> N -> 0 < s < N ->
    (s * (1 + D)) mod N = (k - r * D) mod N -> attempt x N D e k (Some (r, s))
| at_retry : forall r, r = (e + x k) mod N -> (r = 0 \/ r + k = N \/ (k - r * D) mod N = 0) ->
    attempt x N D e k None.
