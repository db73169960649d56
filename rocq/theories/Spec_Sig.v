(** * Spec_Sig: signatures on the wire and scheme names, independently of the code *)
From Coq Require Import ZArith String List Bool.
From Verif Require Import Base Curves Signature Spec_EC.
Import ListNotations.
Open Scope Z_scope.

(** Signatures as the signers produce them: (R,S) with both numbers below the group order for
    ECDSA (schemes 0-8, any curve but secp256k1) and SM2 (scheme 9, SM2 curve, any user ID),
    65 bytes for secp256k1 and for Ethereum (scheme 11), 64 bytes for Ed25519 (scheme 10). *)
Inductive produced : signature -> Prop :=
| pr_dsa : forall sch c a r s, 0 <= sch <= 8 -> supported c a -> c <> S256 ->
    0 <= r < c_N c -> 0 <= s < c_N c ->
    produced {| sg_Scheme := sch; sg_Value := VDSA r s (Some c) |}
| pr_k1 : forall sch b, 0 <= sch <= 8 -> length b = 65%nat -> octets b ->
    produced {| sg_Scheme := sch; sg_Value := VBytes b |}
| pr_sm2 : forall r s id, octets id -> 0 <= r < c_N SM2P256V1 -> 0 <= s < c_N SM2P256V1 ->
    produced {| sg_Scheme := 9; sg_Value := VSM2 r s (Some SM2P256V1) id |}
| pr_ed : forall b, length b = 64%nat -> octets b ->
    produced {| sg_Scheme := 10; sg_Value := VBytes b |}
| pr_eth : forall b, length b = 65%nat -> octets b ->
    produced {| sg_Scheme := 11; sg_Value := VBytes b |}.

(** The documented wire format (signature.go:232-243): scheme byte and data; two numbers in
    field size; for SM2 preceded by the zero-terminated user ID; and the scheme byte of
    SHA256withECDSA is dropped when the data has 64 bytes. *)
Inductive wire : signature -> bytes -> Prop :=
| w_short : forall c r s rb sb, field_bytes c 32 -> encodes 32 r rb -> encodes 32 s sb ->
    wire {| sg_Scheme := 1; sg_Value := VDSA r s (Some c) |} (rb ++ sb)
| w_dsa : forall sch c n r s rb sb, 0 <= sch <= 8 -> field_bytes c n -> ~ (sch = 1 /\ n = 32) ->
    encodes n r rb -> encodes n s sb ->
    wire {| sg_Scheme := sch; sg_Value := VDSA r s (Some c) |} (sch :: rb ++ sb)
| w_sm2 : forall c n r s id rb sb, field_bytes c n -> encodes n r rb -> encodes n s sb ->
    wire {| sg_Scheme := 9; sg_Value := VSM2 r s (Some c) id |} (9 :: id ++ 0 :: rb ++ sb)
| w_bytes : forall sch b, ~ (sch = 1 /\ length b = 64%nat) ->
    wire {| sg_Scheme := sch; sg_Value := VBytes b |} (sch :: b).

(** Two signatures carry the same information apart from the curve, which is not sent. *)
Inductive same_content : signature -> signature -> Prop :=
| sc_dsa : forall sch r s c c', same_content
    {| sg_Scheme := sch; sg_Value := VDSA r s c |} {| sg_Scheme := sch; sg_Value := VDSA r s c' |}
| sc_sm2 : forall sch r s c c' id, same_content
    {| sg_Scheme := sch; sg_Value := VSM2 r s c id |} {| sg_Scheme := sch; sg_Value := VSM2 r s c' id |}
| sc_bytes : forall sch b, same_content
    {| sg_Scheme := sch; sg_Value := VBytes b |} {| sg_Scheme := sch; sg_Value := VBytes b |}.

(** The exception: a user ID with a zero byte. *)
Definition id_with_nul (sig : signature) : Prop :=
  match sg_Value sig with VSM2 _ _ _ id => In 0 id | _ => False end.

(** Spelling of scheme names: any letter in either case; the only other characters that
    Unicode simple case folding identifies with ASCII letters are the long s (UTF-8 c5 bf)
    and the Kelvin sign (UTF-8 e2 84 aa). *)
Inductive char_spelling : Z -> bytes -> Prop :=
| cs_same : forall a, 0 <= a < 128 -> char_spelling a [a]
| cs_upper : forall a, 97 <= a <= 122 -> char_spelling a [a - 32]
| cs_lower : forall a, 65 <= a <= 90 -> char_spelling a [a + 32]
| cs_long_s : forall a, a = 83 \/ a = 115 -> char_spelling a [0xC5; 0xBF]
| cs_kelvin : forall a, a = 75 \/ a = 107 -> char_spelling a [0xE2; 0x84; 0xAA].
Inductive spelling : bytes -> bytes -> Prop :=
| sp_nil : spelling [] []
| sp_cons : forall a v x y, char_spelling a x -> spelling v y -> spelling (a :: v) (x ++ y).

(** The names and numbers of the schemes, from the documentation *)
Inductive scheme_name : Z -> string -> Prop :=
| sn0 : scheme_name 0 "SHA224withECDSA"
| sn1 : scheme_name 1 "SHA256withECDSA"
| sn2 : scheme_name 2 "SHA384withECDSA"
| sn3 : scheme_name 3 "SHA512withECDSA"
| sn4 : scheme_name 4 "SHA3-224withECDSA"
| sn5 : scheme_name 5 "SHA3-256withECDSA"
| sn6 : scheme_name 6 "SHA3-384withECDSA"
| sn7 : scheme_name 7 "SHA3-512withECDSA"
| sn8 : scheme_name 8 "RIPEMD160withECDSA"
| sn9 : scheme_name 9 "SM3withSM2"
| sn10 : scheme_name 10 "SHA512withEdDSA"
| sn11 : scheme_name 11 "KECCAK256WithECDSA".
