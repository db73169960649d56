(** * Prop_Sig: properties C31 to C34, C40 and C41 (/repo/signature: codec, names, conversion) *)
From Coq Require Import ZArith String List Bool Lia.
From Verif Require Import Base BaseFacts Curves ECKey Keypair Signature Spec_EC ECFacts ECFacts2 Spec_Keys KeyFacts
  Prop_Keys Spec_Sig SigFacts.
Import ListNotations.
Open Scope Z_scope.

(** ** C31 *)
Lemma Ser_dsa : forall sch r s c d, 0 <= sch <= 8 -> serializeDSA r s (Some c) = Val d ->
  ~ (sch = 1 /\ length d = 64%nat) ->
  Serialize (Some {| sg_Scheme := sch; sg_Value := VDSA r s (Some c) |}) = Val (Ok (sch :: d)).
Proof.
  intros sch r s c d H E N. unfold Serialize. cbn [sg_Value sg_Scheme]. apply ecdsa_scheme_iff in H as ->.
  cbn [negb]. rewrite E. cbn [bind].
  destruct (Z.eqb_spec sch SHA256withECDSA) as [->|]; [|reflexivity].
  destruct (Z.eqb_spec (zlen (SHA256withECDSA :: d)) 65) as [C|]; [|reflexivity].
  exfalso. apply N. split; [reflexivity|]. rewrite zlen_cons in C. unfold zlen in C. lia.
Qed.
Lemma Ser_dsa_short : forall r s c d, serializeDSA r s (Some c) = Val d -> length d = 64%nat ->
  Serialize (Some {| sg_Scheme := 1; sg_Value := VDSA r s (Some c) |}) = Val (Ok d).
Proof.
  intros r s c d E L. unfold Serialize. cbn [sg_Value sg_Scheme].
  replace (ecdsa_scheme 1) with true by reflexivity. cbn [negb]. rewrite E. cbn [bind].
  destruct (Z.eqb_spec (zlen (1 :: d)) 65) as [C|C].
  - change (1 =? SHA256withECDSA) with true. cbn [andb]. rewrite slice_tail1. reflexivity.
  - exfalso. apply C. rewrite zlen_cons. unfold zlen. rewrite L. reflexivity.
Qed.
Lemma Ser_sm2 : forall r s c id d, serializeDSA r s (Some c) = Val d ->
  Serialize (Some {| sg_Scheme := 9; sg_Value := VSM2 r s (Some c) id |}) = Val (Ok (9 :: id ++ 0 :: d)).
Proof.
  intros r s c id d E. unfold Serialize. cbn [sg_Value sg_Scheme].
  change (9 =? SM3withSM2) with true. cbn [negb]. rewrite E. cbn [bind].
  change (9 =? SHA256withECDSA) with false. reflexivity.
Qed.
Lemma Ser_bytes : forall sch b, ~ (sch = 1 /\ length b = 64%nat) ->
  Serialize (Some {| sg_Scheme := sch; sg_Value := VBytes b |}) = Val (Ok (sch :: b)).
Proof.
  intros sch b N. unfold Serialize. cbn [sg_Value sg_Scheme].
  destruct (Z.eqb_spec sch SHA256withECDSA) as [->|]; [|reflexivity].
  destruct (Z.eqb_spec (zlen (SHA256withECDSA :: b)) 65) as [C|]; [|reflexivity].
  exfalso. apply N. split; [reflexivity|]. rewrite zlen_cons in C. unfold zlen in C. lia.
Qed.
Lemma dsa_parts : forall c a r s, supported c a -> 0 <= r < c_N c -> 0 <= s < c_N c -> exists L : nat,
  field_bytes c (Z.of_nat L) /\ serializeDSA r s (Some c) = Val (to_be L r ++ to_be L s) /\
  encodes (Z.of_nat L) r (to_be L r) /\ encodes (Z.of_nat L) s (to_be L s) /\
  (L = 28 /\ c = P224 \/ (L = 32 \/ L = 48 \/ L = 66) /\ c <> P224)%nat.
Proof.
  intros c a r s Hc Hr Hs. destruct (sizes c a Hc) as (L & H1 & H2 & H3 & H4). exists L.
  split; [exact H2|]. split; [apply serializeDSA_ok; [exact H1|lia|lia]|].
  split; [apply encodes_to_be; lia|]. split; [apply encodes_to_be; lia|exact H4].
Qed.

(** Serialize writes exactly the documented format. *)
Theorem C31_wire_format : forall sig, produced sig -> exists e, Serialize (Some sig) = Val (Ok e) /\ wire sig e.
Proof.
  intros sig P. destruct P as [sch c a r s Hsch Hc Hk Hr Hs|sch b Hsch L O|r s id Hid Hr Hs|b L O|b L O].
  - destruct (dsa_parts c a r s Hc Hr Hs) as (L & F & E & Er & Es & HL).
    destruct (Z.eq_dec sch 1) as [->|N1].
    + destruct (Nat.eq_dec L 32) as [->|N2].
      * eexists. split; [apply Ser_dsa_short; [exact E|rewrite app_length, !to_be_length; reflexivity]|].
        apply w_short; assumption.
      * eexists. split; [apply Ser_dsa; [lia|exact E|rewrite app_length, !to_be_length; lia]|].
        eapply w_dsa; try eassumption. lia.
    + eexists. split; [apply Ser_dsa; [lia|exact E|lia]|]. eapply w_dsa; try eassumption. lia.
  - eexists. split; [apply Ser_bytes; lia|apply w_bytes; lia].
  - destruct (dsa_parts _ _ r s sup_SM2 Hr Hs) as (L & F & E & Er & Es & HL).
    eexists. split; [apply Ser_sm2; exact E|]. eapply w_sm2; eassumption.
  - eexists. split; [apply Ser_bytes; lia|apply w_bytes; lia].
  - eexists. split; [apply Ser_bytes; lia|apply w_bytes; lia].
Qed.

Lemma to_be_nonnil : forall L z l, (0 < L)%nat -> to_be L z ++ l <> [].
Proof. intros L z l H E. apply (f_equal (@length Z)) in E. rewrite app_length, to_be_length in E. cbn in E. lia. Qed.

(** Round trip, for every signature that can be produced apart from the exception. *)
Theorem C31_roundtrip : forall sig, produced sig -> ~ id_with_nul sig ->
  exists e sig', Serialize (Some sig) = Val (Ok e) /\ Deserialize e = Val (Ok sig') /\ same_content sig sig'.
Proof.
  intros sig P. destruct P as [sch c a r s Hsch Hc Hk Hr Hs|sch b Hsch L O|r s id Hid Hr Hs|b L O|b L O];
    intros Nul.
  - destruct (dsa_parts c a r s Hc Hr Hs) as (L & F & E & (_ & _ & Er) & (_ & _ & Es) & HL).
    rewrite value_be2z in Er, Es.
    assert (LL : length (to_be L r) = length (to_be L s)) by (rewrite !to_be_length; reflexivity).
    assert (SC : same_content {| sg_Scheme := sch; sg_Value := VDSA r s (Some c) |}
      {| sg_Scheme := sch; sg_Value := VDSA (be2z (to_be L r)) (be2z (to_be L s)) None |}).
    { rewrite Er, Es. constructor. }
    destruct (Z.eq_dec sch 1) as [->|N1]; [destruct (Nat.eq_dec L 32) as [->|N2]|].
    + do 2 eexists. split; [apply Ser_dsa_short; [exact E|rewrite app_length, !to_be_length; reflexivity]|].
      split; [|exact SC]. rewrite Deserialize_64 by (rewrite app_length, !to_be_length; reflexivity).
      apply des_dsa; [lia|exact LL].
    + do 2 eexists. split; [apply Ser_dsa; [lia|exact E|rewrite app_length, !to_be_length; lia]|].
      split; [|exact SC]. rewrite Deserialize_cons by (apply to_be_nonnil || rewrite app_length, !to_be_length; lia).
      apply des_dsa; [lia|exact LL].
    + do 2 eexists. split; [apply Ser_dsa; [lia|exact E|lia]|].
      split; [|exact SC]. rewrite Deserialize_cons by (apply to_be_nonnil || rewrite app_length, !to_be_length; lia).
      apply des_dsa; [lia|exact LL].
  - do 2 eexists. split; [apply Ser_bytes; lia|]. split; [|constructor].
    rewrite Deserialize_cons by (lia || (intros ->; discriminate)). apply des_bytes; [lia|exact L].
  - destruct (dsa_parts _ _ r s sup_SM2 Hr Hs) as (L & F & E & (_ & _ & Er) & (_ & _ & Es) & HL).
    rewrite value_be2z in Er, Es.
    do 2 eexists. split; [apply Ser_sm2; exact E|]. cbn in Nul.
    assert (SC : same_content {| sg_Scheme := 9; sg_Value := VSM2 r s (Some SM2P256V1) id |}
      {| sg_Scheme := 9; sg_Value := VSM2 (be2z (to_be L r)) (be2z (to_be L s)) None id |}).
    { rewrite Er, Es. constructor. }
    split; [|exact SC]. rewrite Deserialize_cons.
    + apply des_sm2; [exact Nul|rewrite !to_be_length; reflexivity].
    + destruct id; discriminate.
    + rewrite app_length. cbn [length]. rewrite app_length, !to_be_length. intros C.
      destruct HL as [[_ ?]|[? _]]; [discriminate|lia].
  - do 2 eexists. split; [apply Ser_bytes; lia|]. split; [|constructor].
    rewrite Deserialize_cons by (lia || (intros ->; discriminate)). apply des_copy. lia.
  - do 2 eexists. split; [apply Ser_bytes; lia|]. split; [|constructor].
    rewrite Deserialize_cons by (lia || (intros ->; discriminate)). apply des_copy. lia.
Qed.

(** In the exceptional case the round trip never returns the signature. *)
Theorem C31_nul_in_id : forall sig e sig', produced sig -> id_with_nul sig ->
  Serialize (Some sig) = Val (Ok e) -> Deserialize e = Val (Ok sig') -> ~ same_content sig sig'.
Proof.
  intros sig e sig' P X Se De SC.
  destruct P as [| |r s id Hid Hr Hs| |]; try (cbn in X; tauto).
  inversion SC as [|? ? ? ? c' ? E1 E2|]; subst. cbn in X.
  destruct (Deserialize_cases e) as [[m C]|(sg & sch & data & C & _ & D)];
    rewrite C in De; [discriminate|]. apply val_inj in De.
  assert (Esg : sg = {| sg_Scheme := 9; sg_Value := VSM2 r s c' id |}) by congruence.
  rewrite Esg in D. inversion D; subst; contradiction.
Qed.
Print Assumptions C31_wire_format.
Print Assumptions C31_roundtrip.
Print Assumptions C31_nul_in_id.

(** a P-384 signature, and an SM2 signature with user ID "Bob" *)
Example C31_example1 : produced {| sg_Scheme := 6; sg_Value := VDSA 5 (2 ^ 300) (Some P384) |} /\
  ~ id_with_nul {| sg_Scheme := 6; sg_Value := VDSA 5 (2 ^ 300) (Some P384) |}.
Proof. split; [eapply pr_dsa; [lia|apply sup_P384|discriminate|vm_compute; split; congruence|vm_compute; split; congruence]|easy]. Qed.
Definition sm2_bob : signature := {| sg_Scheme := 9; sg_Value := VSM2 258 3 (Some SM2P256V1) [66; 111; 98] |}.
Example C31_example2 : produced sm2_bob /\ ~ id_with_nul sm2_bob /\
  Serialize (Some sm2_bob) = Val (Ok ([9; 66; 111; 98; 0] ++ repeat 0 30 ++ [1; 2] ++ repeat 0 31 ++ [3])).
Proof.
  split; [apply pr_sm2; [repeat constructor; lia|vm_compute; split; congruence|vm_compute; split; congruence]|].
  split; [cbn; lia|]. vm_compute. reflexivity.
Qed.
(** Sign makes no SM2 signatures on other curves (getZ, /repo/sm2/signature.go:97-102).  The
    codec itself would confuse one on P-224 with an ID of six bytes with an ECDSA signature,
    because its encoding has 64 bytes. *)
Definition sm2_p224 : signature := {| sg_Scheme := 9; sg_Value := VSM2 1 1 (Some P224) [97; 98; 99; 100; 101; 102] |}.
Example C31_clash_example : exists e r s, Serialize (Some sm2_p224) = Val (Ok e) /\
    Deserialize e = Val (Ok {| sg_Scheme := 1; sg_Value := VDSA r s None |}).
Proof. eexists. eexists. eexists. split; vm_compute; reflexivity. Qed.
Definition sm2_nul : signature := {| sg_Scheme := 9; sg_Value := VSM2 258 3 (Some SM2P256V1) [66; 0; 98] |}.
Example C31_nul_example : produced sm2_nul /\ id_with_nul sm2_nul.
Proof.
  split; [apply pr_sm2; [repeat constructor; lia|vm_compute; split; congruence|vm_compute; split; congruence]|].
  cbn. auto.
Qed.

(** ** C32 *)
Theorem C32_deserialize_total : forall buf, exists r, Deserialize buf = Val r.
Proof.
  intros buf. destruct (Deserialize_cases buf) as [[e E]|(sg & _ & _ & E & _)]; eexists; exact E.
Qed.
Print Assumptions C32_deserialize_total.
(** What is accepted: 64 bytes, or a known scheme followed by 65 bytes or an even number of
    bytes (ECDSA), a zero-terminated ID and an even number of bytes (SM2), anything (EdDSA,
    Ethereum), the whole not having 64 bytes. *)
Theorem C32_accepted : forall buf, (exists sig, Deserialize buf = Val (Ok sig)) <->
  length buf = 64%nat \/
  exists t data, buf = t :: data /\ data <> [] /\ length data <> 63%nat /\
    ((0 <= t <= 8 /\ (length data = 65%nat \/ Nat.Even (length data))) \/
     (t = 9 /\ exists id rest, data = id ++ 0 :: rest /\ ~ In 0 id /\ Nat.Even (length rest)) \/
     t = 10 \/ t = 11).
Proof.
  assert (EV : forall l : bytes, Nat.Even (length l) -> exists a b, l = a ++ b /\ length a = length b).
  { intros l [k K]. exists (firstn k l), (skipn k l). split; [symmetry; apply firstn_skipn|].
    rewrite firstn_length, skipn_length. lia. }
  intros buf. split.
  - intros [sig E]. destruct (Deserialize_cases buf) as [[e C]|(sg & sch & data & C & S & D)];
      [rewrite C in E; discriminate|].
    destruct S as [buf L|t data N L]; [left; exact L|right]. exists t, data.
    split; [reflexivity|]. split; [exact N|]. split; [exact L|].
    destruct D as [H1 H2|a b H1 H2 H3|id a b H1 H2 H3 H4|H1].
    + left. auto.
    + left. split; [exact H1|]. right. subst data. rewrite app_length, H3. exists (length b). lia.
    + right. left. split; [exact H1|]. exists id, (a ++ b). split; [exact H2|]. split; [exact H3|].
      rewrite app_length, H4. exists (length b). lia.
    + right. right. exact H1.
  - intros [L|(t & data & -> & N & L & H)].
    + rewrite Deserialize_64 by exact L. destruct (EV buf) as (a & b & -> & Lab); [exists 32%nat; lia|].
      eexists. apply des_dsa; [lia|exact Lab].
    + rewrite Deserialize_cons by assumption.
      destruct H as [[Ht [H|H]]|[[-> (id & rest & -> & Hn & H)]|H]].
      * eexists. apply des_bytes; assumption.
      * destruct (EV data H) as (a & b & -> & Lab). eexists. apply des_dsa; assumption.
      * destruct (EV rest H) as (a & b & -> & Lab). eexists. apply des_sm2; assumption.
      * eexists. apply des_copy. exact H.
Qed.
Print Assumptions C32_accepted.
(** 0b 01 is accepted, 02 01 02 03 has an odd number of data bytes *)
Example C32_example : (exists sig, Deserialize [11; 1] = Val (Ok sig)) /\
  (exists e, Deserialize [2; 1; 2; 3] = Val (Err e)) /\ (exists sig, Deserialize [2; 1; 2] = Val (Ok sig)).
Proof. repeat split; eexists; reflexivity. Qed.

(** ** C33 *)
Definition dsa_like (sig : signature) : Prop :=
  match sg_Value sig with VDSA _ _ _ | VSM2 _ _ _ _ => True | _ => False end.
Theorem C33_reserialize_panics : forall buf sig, Deserialize buf = Val (Ok sig) -> dsa_like sig ->
  exists why, Serialize (Some sig) = Panic why.
Proof.
  intros buf sig E H. destruct (Deserialize_cases buf) as [[e C]|(sg & sch & data & C & S & D)];
    rewrite C in E; [discriminate|]. injection E as <-.
  destruct D as [H1 H2|a b H1 H2 H3|id a b H1 H2 H3 H4|H1]; try (cbn in H; contradiction).
  - eexists. unfold Serialize. cbn [sg_Value sg_Scheme]. apply ecdsa_scheme_iff in H1 as ->. reflexivity.
  - subst sch. eexists. reflexivity.
Qed.
Print Assumptions C33_reserialize_panics.
(** the others re-serialize to the same bytes *)
Theorem C33_bytes_reserialize : forall buf sig, Deserialize buf = Val (Ok sig) -> ~ dsa_like sig ->
  Serialize (Some sig) = Val (Ok buf).
Proof.
  intros buf sig E H. destruct (Deserialize_cases buf) as [[e C]|(sg & sch & data & C & S & D)];
    rewrite C in E; [discriminate|]. injection E as <-.
  destruct D as [H1 H2|a b H1 H2 H3|id a b H1 H2 H3 H4|H1]; try (exfalso; apply H; exact I).
  - rewrite Ser_bytes by lia. destruct S as [buf L|t data N L]; [lia|reflexivity].
  - rewrite Ser_bytes by lia. destruct S as [buf L|t data N L]; [lia|reflexivity].
Qed.
Print Assumptions C33_bytes_reserialize.
Example C33_example : exists sig, Deserialize ([3] ++ repeat 7 96) = Val (Ok sig) /\ dsa_like sig.
Proof. eexists. split; [vm_compute; reflexivity|exact I]. Qed.
Example C33_example2 : exists sig, Deserialize ([3] ++ repeat 7 65) = Val (Ok sig) /\ ~ dsa_like sig.
Proof. eexists. split; [vm_compute; reflexivity|easy]. Qed.

(** ** C34 *)
(** Which schemes a value belongs to (package documentation): R,S with the ECDSA schemes,
    R,S,ID with SM2, bytes with any but SM2 (secp256k1, EdDSA, Ethereum). *)
Definition belongs (v : sigval) (sch : Z) : Prop :=
  match v with
  | VDSA _ _ _ => 0 <= sch <= 8
  | VSM2 _ _ _ _ => sch = 9
  | VBytes _ => 0 <= sch <= 8 \/ sch = 10 \/ sch = 11
  | VOther _ => False
  end.
Theorem C34_mismatch_rejected : forall sch v, (forall b, v <> VBytes b) -> ~ belongs v sch ->
  exists e, Serialize (Some {| sg_Scheme := sch; sg_Value := v |}) = Val (Err e).
Proof.
  intros sch v NB N. unfold Serialize. cbn [sg_Value sg_Scheme]. destruct v as [r s c|r s c id|b|t]; cbn in N.
  - apply ecdsa_scheme_false in N as ->. eexists. reflexivity.
  - destruct (Z.eqb_spec sch SM3withSM2) as [->|]; [exfalso; apply N; reflexivity|]. eexists. reflexivity.
  - exfalso. apply (NB b). reflexivity.
  - eexists. reflexivity.
Qed.
(** Byte values are the exception: Serialize accepts them under every scheme byte, also under
    SM2 and under scheme numbers that do not exist. *)
Theorem C34_bytes_always_accepted : forall sch b,
  exists e, Serialize (Some {| sg_Scheme := sch; sg_Value := VBytes b |}) = Val (Ok e) /\
    (e = sch :: b \/ (sch = 1 /\ length b = 64%nat /\ e = b)).
Proof.
  intros sch b. destruct (Z.eq_dec sch 1) as [->|N].
  - destruct (Nat.eq_dec (length b) 64) as [L|L].
    + exists b. split; [|right; auto]. unfold Serialize. cbn [sg_Value sg_Scheme].
      replace (zlen (1 :: b) =? 65) with true by (rewrite zlen_cons; unfold zlen; rewrite L; reflexivity).
      change (1 =? SHA256withECDSA) with true. cbn [andb]. rewrite slice_tail1. reflexivity.
    + exists (1 :: b). split; [apply Ser_bytes; lia|left; reflexivity].
  - exists (sch :: b). split; [apply Ser_bytes; lia|left; reflexivity].
Qed.
Print Assumptions C34_mismatch_rejected.
Print Assumptions C34_bytes_always_accepted.
Example C34_example : ~ belongs (VDSA 1 1 (Some P256)) 9 /\ ~ belongs (VSM2 1 1 (Some P256) []) 1.
Proof. cbn. lia. Qed.
(** so a byte value under the SM2 scheme is mis-tagged: it reads back as R, S and an ID *)
Example C34_mistagged : exists e sig, ~ belongs (VBytes [65; 0; 1; 2]) 9 /\
  Serialize (Some {| sg_Scheme := 9; sg_Value := VBytes [65; 0; 1; 2] |}) = Val (Ok e) /\
  Deserialize e = Val (Ok sig) /\ sg_Value sig = VSM2 1 2 None [65].
Proof. do 2 eexists. split; [cbn; lia|]. split; [reflexivity|]. split; reflexivity. Qed.

(** ** C40 *)
Lemma scheme_name_at : forall s n, scheme_name s n <-> 0 <= s /\ nth_error names (Z.to_nat s) = Some n.
Proof.
  intros s n. split.
  - intros H. destruct H; split; (lia || reflexivity).
  - intros [H E]. assert (K : (Z.to_nat s < 12)%nat) by (change 12%nat with (length names); apply nth_error_Some; congruence).
    assert (C : s = 0 \/ s = 1 \/ s = 2 \/ s = 3 \/ s = 4 \/ s = 5 \/ s = 6 \/ s = 7 \/ s = 8 \/ s = 9 \/ s = 10 \/ s = 11) by lia.
    repeat match type of C with _ \/ _ => destruct C as [C|C] end; subst s;
      match type of E with nth_error _ ?k = _ => let v := eval vm_compute in k in change k with v in E end;
      cbn [nth_error names] in E; injection E as <-; constructor.
Qed.

Definition ascii7 (v : bytes) : Prop := Forall (fun a => 0 <= a < 128) v.
Lemma lower_spelling : forall a b, 0 <= a < 128 -> b < 128 -> lower a = lower b -> char_spelling a [b].
Proof.
  intros a b Ha Hb E. unfold lower in E.
  destruct (Z.leb_spec 65 a), (Z.leb_spec a 90), (Z.leb_spec 65 b), (Z.leb_spec b 90); cbn [andb] in E;
    first [assert (a = b) by lia; subst b; apply cs_same; lia
          |assert (b = a - 32) by lia; subst b; apply cs_upper; lia
          |assert (b = a + 32) by lia; subst b; apply cs_lower; lia].
Qed.
Lemma EqualFold_spelling : forall v s, ascii7 v -> EqualFold v s = true -> spelling v s.
Proof.
  induction v as [|a v IH]; intros s Hv E.
  - destruct s; [constructor|discriminate].
  - destruct s as [|b s]; [discriminate|]. inversion Hv; subst. cbn [EqualFold] in E.
    destruct (Z.ltb_spec b 128).
    + apply andb_true_iff in E as [E1 E2]. apply Z.eqb_eq in E1.
      change (b :: s) with ([b] ++ s). constructor; [apply lower_spelling; assumption|apply IH; assumption].
    + destruct s as [|b2 s]; [discriminate|].
      destruct ((b =? 0xC5) && (b2 =? 0xBF)) eqn:K.
      * apply andb_true_iff in K as [K1 K2]. apply Z.eqb_eq in K1, K2. subst.
        apply andb_true_iff in E as [E1 E2]. apply Z.eqb_eq in E1.
        change (0xC5 :: 0xBF :: s) with ([0xC5; 0xBF] ++ s). constructor; [|apply IH; assumption].
        apply cs_long_s. unfold lower in E1. destruct (Z.leb_spec 65 a), (Z.leb_spec a 90); cbn [andb] in E1; lia.
      * destruct s as [|b3 s]; [discriminate|].
        destruct ((b =? 0xE2) && (b2 =? 0x84) && (b3 =? 0xAA)) eqn:K'; [|discriminate].
        apply andb_true_iff in K' as [K' K3]. apply andb_true_iff in K' as [K1 K2].
        apply Z.eqb_eq in K1, K2, K3. subst. apply andb_true_iff in E as [E1 E2]. apply Z.eqb_eq in E1.
        change (0xE2 :: 0x84 :: 0xAA :: s) with ([0xE2; 0x84; 0xAA] ++ s). constructor; [|apply IH; assumption].
        apply cs_kelvin. unfold lower in E1. destruct (Z.leb_spec 65 a), (Z.leb_spec a 90); cbn [andb] in E1; lia.
Qed.
Lemma spelling_EqualFold : forall v s, ascii7 v -> spelling v s -> EqualFold v s = true.
Proof.
  intros v s Hv H. induction H as [|a v x y Hx Hy IH]; [reflexivity|]. inversion Hv as [|? ? Ha Hv']; subst.
  specialize (IH Hv'). destruct Hx as [a H|a H|a H|a H|a H]; cbn [app EqualFold].
  - destruct (Z.ltb_spec a 128); [|lia]. rewrite Z.eqb_refl. exact IH.
  - destruct (Z.ltb_spec (a - 32) 128); [|lia]. rewrite IH, andb_true_r. apply Z.eqb_eq. unfold lower.
    destruct (Z.leb_spec 65 a), (Z.leb_spec a 90), (Z.leb_spec 65 (a-32)), (Z.leb_spec (a-32) 90); cbn [andb]; lia.
  - destruct (Z.ltb_spec (a + 32) 128); [|lia]. rewrite IH, andb_true_r. apply Z.eqb_eq. unfold lower.
    destruct (Z.leb_spec 65 a), (Z.leb_spec a 90), (Z.leb_spec 65 (a+32)), (Z.leb_spec (a+32) 90); cbn [andb]; lia.
  - rewrite IH. destruct H as [-> | ->]; reflexivity.
  - rewrite IH. destruct H as [-> | ->]; reflexivity.
Qed.
Lemma spelling_lower : forall v w s, ascii7 v -> ascii7 w -> EqualFold v s = true -> EqualFold w s = true ->
  map lower v = map lower w.
Proof.
  induction v as [|a v IH]; intros w s Hv Hw E F.
  - destruct s; [|discriminate]. destruct w; [reflexivity|discriminate].
  - destruct s as [|b s]; [discriminate|]. destruct w as [|c w]; [discriminate|].
    inversion Hv; inversion Hw; subst. cbn [EqualFold] in E, F. cbn [map].
    destruct (b <? 128).
    + apply andb_true_iff in E as [E1 E2], F as [F1 F2]. apply Z.eqb_eq in E1, F1.
      rewrite E1, F1. f_equal. eapply IH; eassumption.
    + destruct s as [|b2 s]; [discriminate|]. destruct ((b =? 0xC5) && (b2 =? 0xBF)).
      * apply andb_true_iff in E as [E1 E2], F as [F1 F2]. apply Z.eqb_eq in E1, F1.
        rewrite E1, F1. f_equal. eapply IH; eassumption.
      * destruct s as [|b3 s]; [discriminate|]. destruct ((b =? 0xE2) && (b2 =? 0x84) && (b3 =? 0xAA)); [|discriminate].
        apply andb_true_iff in E as [E1 E2], F as [F1 F2]. apply Z.eqb_eq in E1, F1.
        rewrite E1, F1. f_equal. eapply IH; eassumption.
Qed.
Lemma names_ascii : forall s n, scheme_name s n -> ascii7 (str_bytes n).
Proof. intros s n H. destruct H; repeat constructor; cbn; discriminate. Qed.
Lemma names_distinct : forall s t n m, scheme_name s n -> scheme_name t m ->
  map lower (str_bytes n) = map lower (str_bytes m) -> s = t.
Proof. intros s t n m H1 H2. destruct H1, H2; vm_compute; intros E; first [reflexivity|discriminate E]. Qed.
Lemma get_scheme_from_ok : forall l i s k, get_scheme_from i l s = Ok k ->
  exists j n, k = i + Z.of_nat j /\ nth_error l j = Some n /\ EqualFold (str_bytes n) s = true.
Proof.
  induction l as [|v l IH]; intros i s k E; [discriminate|]. cbn [get_scheme_from] in E.
  destruct (EqualFold (str_bytes v) s) eqn:F.
  - injection E as <-. exists O, v. split; [lia|]. split; [reflexivity|exact F].
  - apply IH in E as (j & n & H1 & H2 & H3). exists (S j), n. split; [lia|]. split; assumption.
Qed.
Lemma get_scheme_from_found : forall l i s j n, nth_error l j = Some n -> EqualFold (str_bytes n) s = true ->
  exists k, get_scheme_from i l s = Ok k.
Proof.
  induction l as [|v l IH]; intros i s j n H E; [destruct j; discriminate|]. cbn [get_scheme_from].
  destruct (EqualFold (str_bytes v) s) eqn:F; [eexists; reflexivity|].
  destruct j as [|j]; cbn in H; [injection H as ->; congruence|]. eapply IH; eassumption.
Qed.

Lemma GetScheme_eq : forall s, GetScheme s = get_scheme_from 0 names s.
Proof. reflexivity. Qed.

(** GetScheme recognises exactly the spellings of the twelve names. *)
Theorem C40_GetScheme : forall str s, GetScheme str = Ok s <->
  exists n, scheme_name s n /\ spelling (str_bytes n) str.
Proof.
  assert (OK : forall str s, GetScheme str = Ok s -> exists n, scheme_name s n /\ EqualFold (str_bytes n) str = true).
  { intros str s E. rewrite GetScheme_eq in E. apply get_scheme_from_ok in E as (j & n & H1 & H2 & H3). exists n. split; [|exact H3].
    apply scheme_name_at. split; [lia|]. rewrite H1, Z.add_0_l, Nat2Z.id. exact H2. }
  intros str s. split.
  - intros E. destruct (OK str s E) as (n & H1 & H2). exists n. split; [exact H1|].
    apply EqualFold_spelling; [eapply names_ascii; exact H1|exact H2].
  - intros (n & H1 & H2). pose proof (names_ascii s n H1) as A. apply spelling_EqualFold in H2; [|exact A].
    destruct (proj1 (scheme_name_at s n) H1) as [_ N].
    assert (F : exists k, GetScheme str = Ok k) by (rewrite GetScheme_eq; eapply get_scheme_from_found; eassumption).
    destruct F as [k K].
    destruct (OK str k K) as (m & M1 & M2). rewrite K. f_equal.
    eapply names_distinct; [exact M1|exact H1|]. eapply spelling_lower; try eassumption. eapply names_ascii; exact M1.
Qed.
(** Name gives the name of each scheme and panics for any other number; the name is found again. *)
Theorem C40_Name : forall s, 0 <= s -> (forall n, Name s = Val n <-> scheme_name s n) /\
  ((exists w, Name s = Panic w) <-> 12 <= s).
Proof.
  intros s Hs.
  assert (K : (s < 12 /\ exists n, nth_error names (Z.to_nat s) = Some n /\ Name s = Val n) \/
    (12 <= s /\ nth_error names (Z.to_nat s) = None /\ exists w, Name s = Panic w)).
  { unfold Name. change (zlen names) with 12. rewrite Z.geb_leb. destruct (Z.leb_spec 12 s).
    - right. split; [assumption|]. split; [apply nth_error_None; change (length names) with 12%nat; lia|eexists; reflexivity].
    - left. split; [assumption|]. destruct (nth_error names (Z.to_nat s)) as [n|] eqn:E.
      + exists n. split; [reflexivity|]. unfold index. change (zlen names) with 12.
        destruct (Z.leb_spec 0 s); [|lia]. destruct (Z.ltb_spec s 12); [|lia]. cbn [andb]. rewrite E. reflexivity.
      + apply nth_error_None in E. change (length names) with 12%nat in E. lia. }
  destruct K as [(L & n & N & E)|(L & N & w & E)].
  - split.
    + intros m. rewrite scheme_name_at, E, N. split; [intros H; injection H as <-; auto|intros [_ H]; congruence].
    + split; [intros [w W]; rewrite E in W; discriminate|lia].
  - split.
    + intros m. rewrite scheme_name_at, E, N. split; [discriminate|intros [_ H]; discriminate].
    + split; [intros _; exact L|intros _; exists w; exact E].
Qed.
Theorem C40_GetScheme_Name : forall s n, 0 <= s -> Name s = Val n -> GetScheme (str_bytes n) = Ok s.
Proof.
  intros s n Hs E. apply C40_GetScheme. exists n. apply (proj1 (C40_Name s Hs)) in E. split; [exact E|].
  pose proof (names_ascii s n E) as A. induction (str_bytes n) as [|a v IH]; [constructor|].
  inversion A; subst. change (a :: v) with ([a] ++ v) at 2. constructor; [apply cs_same; assumption|apply IH; assumption].
Qed.
Theorem C40_GetHash : forall s, GetHash_known s = true <-> exists n, scheme_name s n.
Proof.
  intros s. rewrite known_iff. split.
  - intros H. destruct (nth_error names (Z.to_nat s)) as [n|] eqn:E.
    + exists n. apply scheme_name_at. split; [lia|exact E].
    + apply nth_error_None in E. change (length names) with 12%nat in E. lia.
  - intros [n H]. destruct H; lia.
Qed.
Print Assumptions C40_GetScheme.
Print Assumptions C40_Name.
Print Assumptions C40_GetScheme_Name.
Print Assumptions C40_GetHash.
(** "sm3WITHsm2" is scheme 9, and so is the spelling with a long s; "SM3withSM" is nothing *)
Example C40_example : GetScheme (str_bytes "sm3WITHsm2") = Ok 9 /\
  GetScheme ([0xC5; 0xBF] ++ str_bytes "m3withsm2") = Ok 9 /\ (exists e, GetScheme (str_bytes "SM3withSM") = Err e) /\
  Name 9 = Val "SM3withSM2"%string.
Proof. repeat split; try (eexists; vm_compute; reflexivity); vm_compute; reflexivity. Qed.

(** ** C41 *)
Lemma rotate_copy : forall (v : Z) l w, l <> [] -> set_nth (length l) w (go_copy (v :: l) l) = l ++ [w].
Proof.
  intros v l w N. assert (G : go_copy (v :: l) l = l ++ [last l v]).
  { unfold go_copy. rewrite firstn_all2 by (cbn; lia). f_equal.
    destruct (exists_last N) as (l0 & x & ->). rewrite last_last. cbn [length].
    rewrite app_length. cbn [length]. replace (length l0 + 1)%nat with (length (v :: l0)) by (cbn; lia).
    rewrite app_comm_cons. apply skipn_app_l. reflexivity. }
  rewrite G. clear N G. generalize (last l v). clear v. intros x.
  induction l as [|y l IH]; [reflexivity|]. cbn. f_equal. exact IH.
Qed.
Lemma convert_value : forall sig sch v l, Deserialize sig = Val (Ok {| sg_Scheme := sch; sg_Value := VBytes (v :: l) |}) ->
  length l = 64%nat -> forall b0, index sig 0 = Val b0 ->
  ConvertToEthCompatible sig = Val (Ok (l ++ [(v - 27) mod 256]), if ecdsa_scheme sch then b0 :: l ++ [(v - 27) mod 256] else sig).
Proof.
  intros sig sch v l D L b0 B. unfold ConvertToEthCompatible. rewrite D. cbn [bind sg_Value sg_Scheme].
  replace (zlen (v :: l)) with 65 by (rewrite zlen_cons; unfold zlen; rewrite L; reflexivity). cbn [Z.eqb Pos.eqb negb].
  rewrite index_cons0. cbn [bind]. replace 65 with (zlen (v :: l)) at 1 by (rewrite zlen_cons; unfold zlen; rewrite L; reflexivity).
  rewrite slice_tail1. cbn [bind]. rewrite B. cbn [bind].
  rewrite <- L. rewrite rotate_copy by (intros ->; discriminate). reflexivity.
Qed.
(** v || r || s, tagged with an ECDSA scheme, becomes r || s || v-27; the caller's buffer is
    overwritten with the result (after the scheme byte). *)
Theorem C41_ecdsa : forall sch v rs, 0 <= sch <= 8 -> length rs = 64%nat ->
  ConvertToEthCompatible (sch :: v :: rs) =
    Val (Ok (rs ++ [(v - 27) mod 256]), sch :: rs ++ [(v - 27) mod 256]).
Proof.
  intros sch v rs H L. rewrite (convert_value _ sch v rs) with (b0 := sch).
  - apply ecdsa_scheme_iff in H as ->. reflexivity.
  - rewrite Deserialize_cons by (discriminate || (cbn [length]; lia)). apply des_bytes; [exact H|cbn [length]; lia].
  - exact L.
  - apply index_cons0.
Qed.
(** A second call on the same buffer rotates again, so its result differs from the first one
    unless all bytes r, s, v-27 are equal to one value b and b-27 = b, which is impossible. *)
Theorem C41_second_call : forall sch v r0 rs, 0 <= sch <= 8 -> length (r0 :: rs) = 64%nat ->
  exists out1 buf1 out2 buf2,
    ConvertToEthCompatible (sch :: v :: r0 :: rs) = Val (Ok out1, buf1) /\
    ConvertToEthCompatible buf1 = Val (Ok out2, buf2) /\
    out2 = rs ++ [(v - 27) mod 256] ++ [(r0 - 27) mod 256] /\ (octets (r0 :: rs) -> out2 <> out1).
Proof.
  intros sch v r0 rs H L. rewrite C41_ecdsa by assumption. cbn [app].
  do 4 eexists. split; [reflexivity|]. rewrite C41_ecdsa; [|exact H|rewrite app_length; cbn [length] in *; lia].
  split; [reflexivity|]. rewrite <- app_assoc. split; [reflexivity|].
  intros O E. set (w := (v - 27) mod 256) in *.
  assert (A : forall (l : list Z) x y z, l ++ [y] ++ [z] = x :: l ++ [y] -> x = z).
  { clear. induction l as [|a l IH]; intros x y z E; cbn in E; [injection E; congruence|].
    injection E as -> E. apply (IH x y z). cbn. exact E. }
  apply A in E. inversion O as [|? ? O1 O2]; subst.
  pose proof (Z.mod_eq (r0 - 27) 256). lia.
Qed.
(** EdDSA- and Ethereum-tagged values of 65 bytes are rotated too, although an Ethereum value
    already is r || s || v; here the buffer is left alone. *)
Theorem C41_keccak : forall sch b0 l, sch = 10 \/ sch = 11 -> length l = 64%nat ->
  ConvertToEthCompatible (sch :: b0 :: l) = Val (Ok (l ++ [(b0 - 27) mod 256]), sch :: b0 :: l).
Proof.
  intros sch v rs H L. rewrite (convert_value _ sch v rs) with (b0 := sch).
  - replace (ecdsa_scheme sch) with false by (symmetry; apply ecdsa_scheme_false; lia). reflexivity.
  - rewrite Deserialize_cons by (discriminate || (cbn [length]; lia)). apply des_copy. exact H.
  - exact L.
  - apply index_cons0.
Qed.
(** Everything else is an error, and the buffer is then unchanged. *)
Theorem C41_others : forall sig, (forall sch l, (0 <= sch <= 8 \/ sch = 10 \/ sch = 11) -> length l = 65%nat -> sig <> sch :: l) ->
  exists e, ConvertToEthCompatible sig = Val (Err e, sig).
Proof.
  intros sig H. unfold ConvertToEthCompatible.
  destruct (Deserialize_cases sig) as [[e ->]|(sg & sch & data & -> & S & D)]; cbn [bind]; [eexists; reflexivity|].
  destruct D as [H1 H2|a b H1 H2 H3|id a b H1 H2 H3 H4|H1]; cbn [sg_Value sg_Scheme].
  - destruct S as [buf L|t data N L]; [lia|]. exfalso. exact (H t data (or_introl H1) H2 eq_refl).
  - eexists; reflexivity.
  - eexists; reflexivity.
  - destruct (Z.eqb_spec (zlen data) 65) as [E|]; [|eexists; reflexivity].
    destruct S as [buf L|t data N L]; [lia|]. exfalso.
    assert (E' : length data = 65%nat) by (unfold zlen in E; lia).
    exact (H t data (or_intror H1) E' eq_refl).
Qed.
Print Assumptions C41_ecdsa.
Print Assumptions C41_second_call.
Print Assumptions C41_keccak.
Print Assumptions C41_others.
Example C41_example :
  ConvertToEthCompatible (1 :: 28 :: repeat 5 32 ++ repeat 6 32) =
    Val (Ok (repeat 5 32 ++ repeat 6 32 ++ [1]), 1 :: repeat 5 32 ++ repeat 6 32 ++ [1]) /\
  ConvertToEthCompatible (11 :: repeat 5 32 ++ repeat 6 32 ++ [1]) =
    Val (Ok (repeat 5 31 ++ repeat 6 32 ++ [1; 234]), 11 :: repeat 5 32 ++ repeat 6 32 ++ [1]).
Proof. split; vm_compute; reflexivity. Qed.
