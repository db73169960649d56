(** * Prop_Wallet2: property C94 to the end: a key is generated, encrypted under a password with the default
    parameters, re-encrypted any number of times, opened, and signs
    (/repo/keypair/key.go, encrypt.go; /repo/signature/signature.go) *)
From Coq Require Import ZArith String List Bool Lia.
From Verif Require Import Base BaseFacts Curves ECKey Keypair AES Spec_GCM AESFacts Encrypt Spec_EC ECFacts ECFacts2 Spec_Keys KeyFacts Prop_Keys Spec_SHA2 Prop_Encrypt
  Spec_Gen Generate GenFacts Prop_Gen Spec_Group CurveZ Elliptic CurveWhole Prop_Whole Signature Spec_Sig SigFacts Prop_Sig Prop_Sig2 SigWhole Prop_SigWhole Spec_Life Prop_Life
  Scrypt Spec_Scrypt ScryptFacts Prop_Scrypt Wallet Prop_Wallet.
From Verif Require Ed25519 Prop_Ed25519 Prop_BtcecWhole Prop_ECDSA.
Import ListNotations.
Open Scope Z_scope.
Notation def := GetScryptParameters.
Notation Enc := (EncryptS SHA256 aes_cipher).
Notation Dec := (DecryptS SHA256 ScalarBaseMult aes_cipher).
(** the key k, encrypted for addr under pwd with the salt, then under the passwords and salts of l in turn, can be
    opened under the last password *)
Definition kept (k : privkey) (addr : bytes) (l : list (bytes * bytes)) (salt pwd : bytes) : Prop :=
  exists prot0 prot pwd', Enc (Ok salt) k addr pwd def = Val (Ok prot0) /\
    changes SHA256 ScalarBaseMult aes_cipher prot0 pwd def (map (fun c => (c, def)) l) = Val (Ok (prot, pwd', def)) /\
    snd (last ((salt, pwd) :: l) ([], [])) = pwd' /\ Dec (Some prot) pwd' def = Val (Ok k).

Section Use.
Variable sha512 : bytes -> bytes.
Variable aes : bytes -> bytes -> bytes.
Variable H : Z -> bytes -> bytes.
Hypothesis H_octets : forall sch m, octets (H sch m).
Variable k1SignCompact : Z -> ecpub -> bytes -> go (res bytes).
Variable k1RecoverCompact : bytes -> bytes -> go (res (Z * Z)).
Variable edSign : bytes -> bytes -> bytes.
Variable edVerify : bytes -> bytes -> bytes -> bool.
Variable ethSign : bytes -> Z -> ecpub -> go (res bytes).
Variable ethVerify : bytes -> bytes -> bytes -> bool.
Variable ed_new : bytes -> bytes.
Variable field_element : curve -> bytes -> option Z.
Theorem C94_life : forall t l c rand pri pub, t = 18 \/ t = 19 -> label_of c l -> prime_curve c -> octets rand ->
  GenerateKeyPair ScalarBaseMult ed_new field_element t (Some l) rand = Val (Keys pri pub) -> (forall alg p, pri <> SkEC alg 0 p) ->
  (forall addr ch salt pwd, Forall (fun c => snd c <> []) ((salt, pwd) :: ch) -> kept pri addr ch salt pwd) /\
  forall sch rn msg opt sig, octets msg -> msg <> [] -> zlen msg < 2 ^ 60 -> octets (opt_id opt) -> zlen (opt_id opt) < 2 ^ 60 -> ~ In 0 (opt_id opt) ->
  SigWhole.Sign sha512 aes H k1SignCompact edSign ethSign rn sch pri msg opt = Val (Ok sig) ->
  exists e buf, SerializePublicKey pub = Val e /\ Serialize (Some sig) = Val (Ok buf) /\
    forall rng, exists pub', DeserializePublicKey rng e = Val (Ok pub') /\ receive H k1RecoverCompact edVerify ethVerify pub' msg buf = Val true.
Proof.
  intros t l c rand pri pub Ht Hl Hp Ho G NZ. split.
  - intros addr ch salt pwd F. destruct (C86_generated ed_new field_element t l c rand pri pub Ht Hl Hp Ho G) as (d & p & E & _ & _ & _ & _ & VP & _).
    assert (D0 : d <> 0) by (intros ->; exact (NZ _ _ E)). specialize (VP D0).
    apply C94_wallet; [|exact F]. apply valid_whole; [exact C86_leading_zeros|exact VP|]. rewrite E. discriminate.
  - intros sch rn msg opt sig. apply (C86_life (scrypt_res SHA256) aes_cipher SHA256 aes_cipher_shape (res_shape SHA256 SHA256_length SHA256_octets) SHA256_length SHA256_octets
      sha512 aes H H_octets k1SignCompact k1RecoverCompact edSign edVerify ethSign ethVerify ed_new field_element t l c rand pri pub pri sch rn msg opt sig Ht Hl Hp Ho G NZ).
    constructor.
Qed.
End Use.
Print Assumptions C94_life.

Section EdUse.
Variable sha512 : bytes -> bytes.
Hypothesis sha512_len : forall m, length (sha512 m) = 64%nat.
Hypothesis sha512_oct : forall m, octets (sha512 m).
Variable H : Z -> bytes -> bytes.
Variable ev : ecpub -> bytes -> Z -> Z -> bool.
Variable kr : bytes -> bytes -> go (res (Z * Z)).
Variable ethv : bytes -> bytes -> bytes -> bool.
Variable sv : ecpub -> bytes -> bytes -> Z -> Z -> bool.
Variable rand : Type.
Variable es : Z -> ecpub -> bytes -> rand -> go (res (Z * Z)).
Variable k1s : Z -> ecpub -> bytes -> go (res bytes).
Variable eths : bytes -> Z -> ecpub -> go (res bytes).
Variable sm2s : rand -> Z -> ecpub -> bytes -> bytes -> go (res (Z * Z)).
Variable field_element : curve -> bytes -> option Z.
(** the same for an Ed25519 key, which always signs *)
Theorem C94_ed_life : forall seed more, length seed = 32%nat -> octets seed ->
  exists pri pub, GenerateKeyPair ScalarBaseMult (Ed25519.NewKeyFromSeed sha512) field_element 20 (Some 25) (seed ++ more) = Val (Keys pri pub) /\
  (forall addr ch salt pwd, Forall (fun c => snd c <> []) ((salt, pwd) :: ch) -> kept pri addr ch salt pwd) /\
  forall rn msg opt, exists e sig buf, SerializePublicKey pub = Val e /\
    Signature.Sign H rand es k1s (Ed25519.Sign sha512) eths sm2s rn 10 pri msg opt = Val (Ok sig) /\ Serialize (Some sig) = Val (Ok buf) /\
    forall rng, exists pub', DeserializePublicKey rng e = Val (Ok pub') /\
      (msg <> [] -> Prop_BtcecWhole.recv H ev kr (Ed25519.Verify sha512) ethv sv pub' msg buf = Val true).
Proof.
  intros seed more Ls Os.
  destruct (C86_ed_life ScalarBaseMult (scrypt_res SHA256) aes_cipher SHA256 sha512 C86_leading_zeros aes_cipher_shape (res_shape SHA256 SHA256_length SHA256_octets)
    SHA256_length SHA256_octets sha512_len sha512_oct H ev kr ethv sv rand es k1s eths sm2s field_element seed more Ls Os) as (pri & pub & G & ALL).
  exists pri, pub. split; [exact G|]. split.
  - intros addr ch salt pwd F. apply C94_wallet; [|exact F].
    destruct (Prop_Ed25519.C85_key sha512 sha512_len sha512_oct seed) as (pb & EK & PA & _). pose proof PA as (xa & ya & _ & Lp & _).
    assert (E : pri = SkEd (Ed25519.NewKeyFromSeed sha512 seed)).
    { unfold GenerateKeyPair in G. change ((20 =? PK_ECDSA) || (20 =? PK_SM2)) with false in G. change (20 =? PK_EDDSA) with true in G. change (25 =? L_ED25519) with true in G. cbv iota in G.
      unfold ed25519_gen in G. rewrite zlen_app in G. pose proof (zlen_nonneg _ more) as Z0. assert (Z32 : zlen seed = 32) by (unfold zlen; lia). rewrite Z32 in G.
      destruct (Z.ltb_spec (32 + zlen more) 32); [lia|]. rewrite SigFacts.slice_head in G by (symmetry; exact Z32). cbn [bind] in G. rewrite EK in G. rewrite slice_tail in G by (symmetry; exact Z32).
      cbn [bind] in G. injection G as <- _. rewrite EK. reflexivity. }
    rewrite E. apply wh_ed. rewrite EK, app_length. lia.
  - intros rn msg opt. exact (ALL pri rn msg opt (li_new _ _ _ _ pri)).
Qed.
End EdUse.
Print Assumptions C94_ed_life.

(** ** Examples: the key of Prop_Life, under the passwords [3], [4] and [5] in turn; and an Ed25519 key *)
Example C94_example_life : kept ex_key [65; 66] [([2], [4]); ([3], [5])] [1] [3] /\ exists e buf, SerializePublicKey (PkEC 0 Prop_ECDSA.ex_pub) = Val e /\
  forall rng, exists pub, DeserializePublicKey rng e = Val (Ok pub) /\
    receive ex_H (fun _ _ => Val (Err ""%string)) (fun _ _ _ => false) (fun _ _ _ => false) pub [104; 105] buf = Val true.
Proof.
  assert (OM : octets [104; 105]) by (repeat constructor; lia).
  destruct (C94_life (fun _ => repeat 7 64) (fun _ b => map (fun _ => 0) b) ex_H (fun _ _ => Prop_ECDSA.ex_octets)
    (fun _ _ _ => Val (Err ""%string)) (fun _ _ => Val (Err ""%string)) (fun _ _ => []) (fun _ _ _ => false) (fun _ _ _ => Val (Err ""%string)) (fun _ _ _ => false)
    (fun b => b) (fun _ _ => None) 18 2 P256 ex_rand ex_key (PkEC 0 Prop_ECDSA.ex_pub) (or_introl eq_refl) ltac:(right; left; split; reflexivity)
    (or_introl eq_refl) ltac:(apply to_be_wf) C86_example_drawn ltac:(discriminate)) as [K U].
  split; [apply K; repeat constructor; discriminate|].
  destruct (U 5 (1%nat, Ok (repeat 5 16)) [104; 105] OptOther _ OM ltac:(discriminate) eq_refl (Forall_nil _) eq_refl (fun F => F) ex_signature) as (e & buf & A & _ & R).
  exists e, buf. split; [exact A|exact R].
Qed.
Example C94_example_ed : exists pri pub, GenerateKeyPair ScalarBaseMult (Ed25519.NewKeyFromSeed (fun _ => repeat 7 64)) (fun _ _ => None) 20 (Some 25) (repeat 9 32) = Val (Keys pri pub) /\
  kept pri [65; 66] [([2], [4]); ([3], [5])] [1] [3].
Proof.
  destruct (C94_ed_life (fun _ => repeat 7 64) (fun _ => eq_refl) ltac:(intros m; repeat constructor; unfold is_byte; lia) ex_H (fun _ _ _ _ => false) (fun _ _ => Val (Err ""%string)) (fun _ _ _ => false)
    (fun _ _ _ _ _ => false) unit (fun _ _ _ _ => Val (Err ""%string)) (fun _ _ _ => Val (Err ""%string)) (fun _ _ _ => Val (Err ""%string)) (fun _ _ _ _ _ => Val (Err ""%string)) (fun _ _ => None)
    (repeat 9 32) [] eq_refl ltac:(repeat constructor; unfold is_byte; lia)) as (pri & pub & G & K & _).
  rewrite app_nil_r in G. exists pri, pub. split; [exact G|]. apply K. repeat constructor; discriminate.
Qed.
