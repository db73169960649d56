(** * Spec_Life: what a private key goes through between its generation and its use (C86)

    A key is written to a file and read again, exported to a WIF string and imported by one of the two importers, or
    encrypted, re-encrypted under new passwords, and decrypted; any number of times in any order. *)
From Coq Require Import ZArith String List Bool.
From Verif Require Import Base Curves Keypair AES Spec_GCM Encrypt.
Import ListNotations.
Open Scope Z_scope.

Section Life.
Variable sbm : curve -> bytes -> Z * Z.
Variable scrypt : bytes -> bytes -> Z -> Z -> Z -> Z -> res bytes.
Variable bc : block_cipher.
Variable sha256 : bytes -> bytes.

(** prot is k encrypted for addr, and now protected by pwd under param *)
Inductive protects (k : privkey) (addr : bytes) : ProtectedKey -> bytes -> ScryptParam -> Prop :=
| pr_new : forall rnd pwd param prot,
    EncryptWithCustomScrypt scrypt bc rnd k addr pwd param = Val (Ok prot) -> protects k addr prot pwd param
| pr_again : forall rnd prot pwd param pwd' param' prot', protects k addr prot pwd param ->
    ReencryptPrivateKey sbm scrypt bc sha256 rnd (Some prot) pwd pwd' param param' = Val (Ok prot') ->
    protects k addr prot' pwd' param'.
(** k was stored, and k' is what came back *)
Inductive stored (k k' : privkey) : Prop :=
| st_file : forall rng e, SerializePrivateKey k = Val e -> DeserializePrivateKey sbm rng e = Val (Ok (Some k')) -> stored k k'
| st_wif : forall w, Key2WIF sha256 k = Val (Ok w) -> WIF2Key sbm sha256 w = Val (Ok k') -> stored k k'
| st_wif_p256 : forall w, Key2WIF sha256 k = Val (Ok w) -> GetP256KeyPairFromWIF sbm sha256 w = Val (Ok k') -> stored k k'
| st_encrypted : forall addr prot pwd param, protects k addr prot pwd param ->
    DecryptWithCustomScrypt sbm scrypt bc sha256 (Some prot) pwd param = Val (Ok k') -> stored k k'.
Inductive lived : privkey -> privkey -> Prop :=
| li_new : forall k, lived k k
| li_more : forall k k' k'', lived k k' -> stored k' k'' -> lived k k''.
End Life.
