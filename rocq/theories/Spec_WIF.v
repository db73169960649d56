(** * Spec_WIF: Base58 numerals and the WIF payload, independent of the model *)
From Coq Require Import ZArith String List.
From Verif Require Import Base Curves Spec_EC.
Import ListNotations.
Open Scope Z_scope.

(** The Bitcoin alphabet: digits and letters without 0, O, I, l. *)
Definition base58_chars : list Z :=
  [49;50;51;52;53;54;55;56;57;
   65;66;67;68;69;70;71;72;74;75;76;77;78;80;81;82;83;84;85;86;87;88;89;90;
   97;98;99;100;101;102;103;104;105;106;107;109;110;111;112;113;114;115;116;117;118;119;120;121;122].

(** [text] is a base-58 numeral of value n (leading zeros, i.e. '1's, allowed). *)
Inductive numeral58 : list Z -> Z -> Prop :=
| num_one : forall c d, nth_error base58_chars d = Some c -> numeral58 [c] (Z.of_nat d)
| num_more : forall t n c d, numeral58 t n -> nth_error base58_chars d = Some c ->
    numeral58 (t ++ [c]) (58 * n + Z.of_nat d).
(** without superfluous leading zeros *)
Definition canonical58 (text : list Z) : Prop := text = [49] \/ exists c t, text = c :: t /\ c <> 49.

(** The WIF payload: version byte, 32-byte key, flag byte, 4 bytes of checksum. *)
Definition wif_payload (H : list Z -> list Z) (v : Z) (kb : list Z) (flag : Z) : list Z :=
  (v :: kb ++ [flag]) ++ firstn 4 (H (H (v :: kb ++ [flag]))).
