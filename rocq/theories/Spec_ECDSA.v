(** * Spec_ECDSA: ECDSA (FIPS 186-4, chapter 6; SEC 1, 4.1), independently of the code *)
From Coq Require Import ZArith List Bool.
From Verif Require Import Base Spec_EC Spec_Group Spec_SM2.
Import ListNotations.
Open Scope Z_scope.

(** the leftmost n bits of the digest, all of it when it is shorter *)
Definition digest_int (n : Z) (dg : bytes) : Z := value dg 0 / 2 ^ Z.max 0 (8 * Z.of_nat (length dg) - n).

(** [r, s] is a signature for the integer e under the public key P *)
Definition ecdsa_accepts (E : ecgroup) (P : pt (eg E)) (e r s : Z) : Prop :=
  1 <= r <= eN E - 1 /\ 1 <= s <= eN E - 1 /\
  exists w, (w * s) mod eN E = 1 /\
    let Q := gadd (gmul (e * w) eG) (gmul (r * w) P) in
    Q <> gO /\ fst (ecoords Q) mod eN E = r.

(** one attempt to sign with the nonce k; x maps k to the first coordinate of [k]G *)
Inductive dsa_attempt (x : Z -> Z) (N D e k : Z) : option (Z * Z) -> Prop :=
| dsa_ok : forall r s, r = x k mod N -> r <> 0 -> 0 < s < N -> (s * k) mod N = (e + r * D) mod N -> dsa_attempt x N D e k (Some (r, s))
| dsa_retry : forall r, r = x k mod N -> r = 0 \/ (e + r * D) mod N = 0 -> dsa_attempt x N D e k None.

(** the nonces: consecutive pieces of n bytes of the AES-CTR key stream that starts with the counter block iv, reduced
    modulo N - 1, plus one *)
Definition dsa_nonce (N : Z) (iv : bytes) (n : nat) (B : bytes -> bytes) (i : nat) : Z :=
  value (firstn n (skipn (n * i) (ctr_stream B iv (n * S i)))) 0 mod (N - 1) + 1.
