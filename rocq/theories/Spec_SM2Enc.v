(** * Spec_SM2Enc: SM2 public key encryption (GB/T 32918.4), independently of the code *)
From Coq Require Import ZArith String List Bool.
From Verif Require Import Base Spec_SM3 Spec_EC Spec_SM2.
Import ListNotations.
Open Scope Z_scope.

(** the key derivation function: hash of z and a 32-bit counter starting with 1 *)
Definition kdf_stream (z : bytes) (blocks : nat) : bytes :=
  flat_map (fun i => sm3_hash (z ++ to_be 4 (Z.of_nat i))) (seq 1 blocks).
Definition kdf (z : bytes) (klen : nat) : bytes := firstn klen (kdf_stream z klen).
Definition all_zero (l : bytes) : Prop := Forall (fun b => b = 0) l.

(** What the code hashes for C3: x2 in 32 bytes, the message, the shortest encoding of y2 and
    zeros up to 32 bytes (the standard: y2 in 32 bytes). *)
Definition left_aligned (y : Z) (b : bytes) : Prop :=
  exists yb, minimal y yb /\ b = yb ++ repeat 0 (32 - length yb).
Definition shared (x2 y2 : Z) : bytes := to_be 32 x2 ++ to_be 32 y2.

(** Writing the shortest encoding of f 0, then of f 1, ... f i, right-aligned into the same 32
    bytes, which are zero before. *)
Definition overlay (old b : bytes) : bytes := firstn (length old - length b) old ++ b.
Inductive written (f : nat -> Z) : nat -> bytes -> Prop :=
| wr_0 : forall b, minimal (f 0%nat) b -> written f 0 (overlay (repeat 0 32) b)
| wr_S : forall i old b, written f i old -> minimal (f (S i)) b -> written f (S i) (overlay old b).
