(** * KeyFacts: lemmas about the key model *)
From Coq Require Import ZArith String List Bool Lia Znumtheory.
From Verif Require Import Base BaseFacts NumTheory Curves ECKey LucasFacts Spec_EC ECFacts ECFacts2 Prop_EC Keypair Spec_Keys.
Import ListNotations.
Open Scope Z_scope.

Lemma index_cons1 : forall (A : Type) (t u : A) l, index (t :: u :: l) 1 = Val u.
Proof. intros. unfold index, zlen. destruct (Z.ltb_spec 1 (Z.of_nat (length (t :: u :: l)))); [reflexivity|cbn [length] in *; lia]. Qed.
Lemma slice_tail : forall (A : Type) (a b : list A) lo, lo = zlen a -> slice (a ++ b) lo (zlen (a ++ b)) = Val b.
Proof.
  intros A a b lo ->. rewrite <- (app_nil_r b) at 1. rewrite (slice_app3 _ a b []); auto.
  rewrite zlen_app. reflexivity.
Qed.
Lemma slice_tail1 : forall (A : Type) (t : A) b, slice (t :: b) 1 (zlen (t :: b)) = Val b.
Proof. intros. apply (slice_tail A [t] b 1). reflexivity. Qed.
Lemma slice_tail2 : forall (A : Type) (t u : A) b, slice (t :: u :: b) 2 (zlen (t :: u :: b)) = Val b.
Proof. intros. apply (slice_tail A [t; u] b 2). reflexivity. Qed.

Lemma field_bytes_ex : forall c a, supported c a -> exists n, field_bytes c n /\ byte_size c = n /\ 20 < n.
Proof.
  intros c a H. exists (byte_size c). destruct H; vm_compute; repeat split; discriminate.
Qed.

Lemma affine_unique : forall c a x y1 y2, supported c a -> affine_point c a x y1 -> affine_point c a x y2 ->
  Z.even y1 = Z.even y2 -> y1 = y2.
Proof.
  intros c a x y1 y2 Hs (_ & H1 & E1) (_ & H2 & E2) P.
  destruct (supported_odd c a Hs) as [H Ho]. unfold curve_eq in *.
  destruct (root_unique (c_P c) y1 y2 (supported_prime c a Hs) H H1 H2 ltac:(congruence)) as [->|[-> N]]; auto.
  rewrite Z.even_sub in P. rewrite <- (Z.negb_odd (c_P c)), Ho in P. destruct (Z.even y1); discriminate.
Qed.

Lemma sec1_inj : forall n x1 y1 x2 y2 e, sec1_compressed n x1 y1 e -> sec1_compressed n x2 y2 e ->
  x1 = x2 /\ Z.even y1 = Z.even y2.
Proof.
  intros n x1 y1 x2 y2 e (b1 & (L1 & W1 & V1) & E1) (b2 & (L2 & W2 & V2) & E2). subst e.
  injection E2 as T ->. split; [congruence|]. destruct (Z.even y1), (Z.even y2); congruence.
Qed.

(** encoding of a valid key: its SEC 1 bytes; decoding with anything appended *)
Lemma enc_valid : forall c a x y n, supported c a -> affine_point c a x y -> field_bytes c n ->
  exists e, EncodePublicKey {| pk_curve := c; pk_X := x; pk_Y := y |} true = Val e /\
    sec1_compressed n x y e /\ zlen e = n + 1.
Proof.
  intros c a x y n Hs (Hx & Hy & Hc) Hn.
  destruct (supported_size c a Hs) as (L & HL & HL0 & HLp & HLm).
  assert (En : n = Z.of_nat L) by (apply (size_unique c); assumption). subst n.
  exists ((if Z.even y then 2 else 3) :: to_be L x). split; [|split].
  - rewrite (encode_compressed_ok {| pk_curve := c; pk_X := x; pk_Y := y |} L HL); cbn [pk_X pk_Y]; [|lia].
    rewrite testbit0, <- Z.negb_even. destruct (Z.even y); reflexivity.
  - exists (to_be L x). split; [apply encodes_to_be; lia|reflexivity].
  - unfold zlen. cbn [length]. rewrite to_be_length. lia.
Qed.

Lemma dec_valid : forall c a x y n e rest rng, supported c a -> affine_point c a x y -> field_bytes c n ->
  decompressible c y rng -> sec1_compressed n x y e ->
  DecodePublicKey rng (e ++ rest) c = Val (Ok {| pk_curve := c; pk_X := x; pk_Y := y |}).
Proof.
  intros c a x y n e rest rng Hs Ha Hn Hd (xb & Hxb & ->).
  destruct (C10_compressed_round_trip c a x y n Hs Ha Hn) as (e' & _ & (xb' & Hxb' & ->) & D).
  { intros E. apply Hd. exact E. }
  rewrite (C14_trailing_bytes_ignored rng c a n); auto.
  - replace xb with xb'; [|rewrite (encodes_fun _ _ _ Hxb), (encodes_fun _ _ _ Hxb'); reflexivity].
    apply (proj1 (D rng)).
    assert (DEC : c = P224 \/ c <> P224) by (destruct Hs; auto; right; discriminate).
    destruct DEC as [E|E]; [right; apply Hd; exact E|left; exact E].
  - right. split; [destruct (Z.even y); discriminate|]. apply Hxb.
Qed.

Lemma GetCurve_label : forall c l, label_of c l -> GetCurve l = Ok c /\ GetCurveLabel c = Ok l.
Proof.
  intros c l H. unfold label_of in H.
  repeat match type of H with _ \/ _ => destruct H as [H|H] end; destruct H as [-> ->]; split; vm_compute; reflexivity.
Qed.
Lemma supported_label : forall c a, supported c a -> exists l, label_of c l.
Proof.
  intros c a H. unfold label_of. destruct H; eexists; intuition reflexivity.
Qed.
Lemma label_fun : forall c l m, label_of c l -> label_of c m -> l = m.
Proof.
  intros c l m H1 H2. apply GetCurve_label in H1 as [_ H1]. apply GetCurve_label in H2 as [_ H2]. congruence.
Qed.
Lemma label_inj : forall c d l, label_of c l -> label_of d l -> c = d.
Proof.
  intros c d l H1 H2. apply GetCurve_label in H1 as [H1 _]. apply GetCurve_label in H2 as [H2 _]. congruence.
Qed.
Lemma label_supported : forall c l, label_of c l -> exists a, supported c a.
Proof.
  intros c l H. unfold label_of in H.
  repeat match type of H with _ \/ _ => destruct H as [H|H] end; destruct H as [-> ->]; eexists; constructor.
Qed.
Lemma GetCurve_inv : forall l c, GetCurve l = Ok c -> label_of c l.
Proof.
  intros l c H. unfold GetCurve in H. unfold label_of.
  repeat match type of H with (if ?x =? ?y then _ else _) = _ => destruct (Z.eqb_spec x y) as [->|]; [injection H as <-; auto 10|] end.
  discriminate.
Qed.
Lemma p256_name : forall c a, supported c a -> String.eqb (c_name c) (c_name P256) = true -> c = P256.
Proof. intros c a H. destruct H; vm_compute; intros E; auto; discriminate. Qed.
Lemma curve_p256_dec : forall c a, supported c a -> c = P256 \/ (c <> P256 /\ String.eqb (c_name c) (c_name P256) = false).
Proof. intros c a H. destruct H; [right|left|right|right|right|right]; split || idtac; try reflexivity; discriminate. Qed.

Lemma GetCurveLabel_range : forall c l, GetCurveLabel c = Ok l ->
  l = 1 \/ l = 2 \/ l = 3 \/ l = 4 \/ l = 5 \/ l = 20.
Proof.
  intros c l H. unfold GetCurveLabel, GetNamedCurveLabel in H.
  repeat match type of H with (if ?b then _ else _) = _ => destruct b; [injection H as <-; vm_compute; intuition|] end.
  discriminate.
Qed.
