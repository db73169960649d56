(** * Spec_EthSig: the signatures of Ethereum (yellow paper, appendix F; EIP-2), independently of the code *)
From Coq Require Import ZArith List Bool.
From Verif Require Import Base Spec_EC Spec_Group Spec_SM2 Spec_ECDSA Spec_Gen Spec_Btcec.
Import ListNotations.
Open Scope Z_scope.

(** an ECDSA signature with s at most half the order *)
Definition eth_accepts (E : ecgroup) (Q : pt (eg E)) (e r s : Z) : Prop := ecdsa_accepts E Q e r s /\ 2 * s <= eN E.
(** the 64 bytes of r and s *)
Definition rs_bytes (b : bytes) (r s : Z) : Prop := exists rb sb, b = rb ++ sb /\ encodes 32 r rb /\ encodes 32 s sb.
(** the 65 bytes of r, s and the number v of the point *)
Definition rsv_bytes (b : bytes) (r s v : Z) : Prop := exists rs, b = rs ++ [v] /\ rs_bytes rs r s.

(** ** The signer with the private key D and the number e of the digest *)
Section Signer.
Variable E : ecgroup.
Variable D e : Z.
Definition attempt (k : Z) : option (Z * Z) -> Prop := dsa_attempt (fun k => fst (ecoords (gmul k (eG (e := E))))) (eN E) D e k.
(** the nonce k is out of range or gives r = 0 or s = 0 *)
Definition no_use (k : Z) : Prop := ~ (1 <= k < eN E) \/ attempt k None.
(** b are the 65 bytes that ECDSA with the nonce k gives: r, the smaller of s and N - s, and the number with which
    the key D G is recovered *)
Definition eth_signature (k : Z) (b : bytes) : Prop :=
  exists r s v, attempt k (Some (r, s)) /\ rsv_bytes b r (Z.min s (eN E - s)) v /\ 0 <= v < 4 /\ recovers E e v r (Z.min s (eN E - s)) (gmul D eG).
End Signer.
