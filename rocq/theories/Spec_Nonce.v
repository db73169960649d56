(** * Spec_Nonce: RFC 6979, section 3.2, for a hash of 32 bytes and an order of 256 bits; RFC 2104 *)
From Coq Require Import ZArith List.
From Verif Require Import Spec_EC.
Import ListNotations.
Open Scope Z_scope.

Section RFC.
Variable Hash : list Z -> list Z.

(** RFC 2104, section 2, with B = 64 *)
Definition hmac_rel (K text out : list Z) : Prop :=
  exists K0 ik ok, K0 = (if (length K <=? 64)%nat then K else Hash K) ++ repeat 0 (64 - length (if (length K <=? 64)%nat then K else Hash K)) /\
    Forall2 (fun a b => b = Z.lxor a 0x36) K0 ik /\ Forall2 (fun a b => b = Z.lxor a 0x5C) K0 ok /\
    out = Hash (ok ++ Hash (ik ++ text)).

(** RFC 6979, 3.2: the state (K, V) at the beginning of the i-th round of step h, for the seed int2octets(x) || bits2octets(h1) *)
Inductive rfc_state (seed : list Z) : nat -> list Z -> list Z -> Prop :=
| rfc_start : forall K1 V1 K2 V2,
    hmac_rel (repeat 0x00 32) (repeat 0x01 32 ++ 0x00 :: seed) K1 -> hmac_rel K1 (repeat 0x01 32) V1 ->
    hmac_rel K1 (V1 ++ 0x01 :: seed) K2 -> hmac_rel K2 V1 V2 -> rfc_state seed 0 K2 V2
| rfc_next : forall i K V T K' V', rfc_state seed i K V -> hmac_rel K V T ->
    hmac_rel K (T ++ [0x00]) K' -> hmac_rel K' T V' -> rfc_state seed (S i) K' V'.
(** the bytes T of the i-th round *)
Definition rfc_round (seed : list Z) (i : nat) (T : list Z) : Prop := exists K V, rfc_state seed i K V /\ hmac_rel K V T.
(** the nonce: the first T that is in the range *)
Definition rfc_nonce (N : Z) (seed : list Z) (i : nat) (k : Z) : Prop :=
  (exists T, rfc_round seed i T /\ value T 0 = k) /\ 1 <= k < N /\
  forall j T, (j < i)%nat -> rfc_round seed j T -> ~ 1 <= value T 0 < N.
(** int2octets(x) || bits2octets(h1), where e is bits2int(h1) *)
Definition rfc_seed (N x e : Z) (seed : list Z) : Prop :=
  exists xb hb, seed = xb ++ hb /\ encodes 32 x xb /\ encodes 32 (e mod N) hb.
End RFC.
