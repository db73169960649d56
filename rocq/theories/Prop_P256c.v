(** * Prop_P256c: C61, ScalarMult, ScalarBaseMult and CombinedMult over correct assembly routines *)
From Coq Require Import ZArith Znumtheory String List Bool Lia.
From Verif Require Import Base BaseFacts Curves ECKey SM3 Spec_Group SM2Sig Spec_SM2 Prop_SM2 Primes3 P256 Spec_P256 Spec_P256b P256Booth P256Inv P256Sched P256Sched2 Prop_P256b.
Import ListNotations.
Open Scope Z_scope.

Lemma getScalar_ok : forall b, wf_bytes b -> p256GetScalar b = Val (words_of 4 (be2z b mod cN)).
Proof.
  intros b W. unfold p256GetScalar, fromBig. cbv zeta. pose proof (be2z_bound b W) as [B _].
  assert (EK : (if be2z b >=? cN then be2z b mod cN else be2z b) = be2z b mod cN).
  { destruct (Z.geb_spec (be2z b) cN); [reflexivity|]. symmetry. apply Z.mod_small. lia. }
  rewrite EK. pose proof (Z.mod_pos_bound (be2z b) cN ltac:(reflexivity)). rewrite Z.abs_eq by lia.
  assert (cN < 2 ^ 256) by reflexivity. destruct (Z.ltb_spec (be2z b mod cN) (2 ^ 256)); [reflexivity|lia].
Qed.
Lemma lval_scalar : forall z, lval (words_of 4 (z mod cN)) = z mod cN.
Proof.
  intros z. apply lval_words_of. change (2 ^ (64 * Z.of_nat 4)) with (2 ^ 256). pose proof (Z.mod_pos_bound z cN ltac:(reflexivity)).
  assert (cN < 2 ^ 256) by reflexivity. lia.
Qed.
Section C61.
Variables (E : ecgroup) (A : prims).
Hypothesis OK : prims_ok E A.
Hypothesis CO : coords_ok E.
Hypothesis EN : eN E = cN.
Hypothesis GC : ecoords (eG (e := E)) = (c_Gx SM2P256V1, c_Gy SM2P256V1).
Lemma GN' : gmul cN (eG (e := E)) = gO.
Proof. rewrite <- EN. apply eG_order. Qed.
Lemma load_words : forall x, 0 <= x -> exists w, fromBig (maybeReduceModP x) = Val w /\ is_words 4 w /\ lval w = x mod cP.
Proof.
  intros x Hx. unfold fromBig, maybeReduceModP.
  assert (EK : (if x <? cP then x else x mod cP) = x mod cP) by (destruct (Z.ltb_spec x cP); [symmetry; apply Z.mod_small; lia|reflexivity]).
  rewrite EK. pose proof (Z.mod_pos_bound x cP ltac:(reflexivity)). rewrite Z.abs_eq by lia.
  assert (cP < 2 ^ 256) by reflexivity. destruct (Z.ltb_spec (x mod cP) (2 ^ 256)); [|lia].
  exists (words_of 4 (x mod cP)). split; [reflexivity|]. split; [apply words_of_ok|]. apply lval_words_of. change (2 ^ (64 * Z.of_nat 4)) with (2 ^ 256). lia.
Qed.
Lemma words_rr : is_words 4 rr.
Proof. apply is_words_lit; reflexivity. Qed.
Lemma to_mont : forall w, is_words 4 w -> mont cP (a_mul A w rr) (lval w).
Proof.
  intros w W. destruct (ok_mul E A OK w rr W words_rr) as (Wm & Em & Rm). split; [split; [exact Wm|]|apply Rm; right; reflexivity].
  apply cancel_R; [reflexivity|reflexivity|]. rewrite Em. assert (RRv : lval rr = (2 ^ 256 * 2 ^ 256) mod cP) by apply constants_ok.
  rewrite RRv, Z.mul_mod_idemp_r by discriminate. f_equal. ring.
Qed.
Lemma load_ok : forall X Y (P : pt (eg E)), P <> gO -> 0 <= X -> 0 <= Y -> ecoords P = (X mod cP, Y mod cP) ->
  exists p, load_point A X Y = Val p /\ rep12 E p P.
Proof.
  intros X Y P NP HX HY HC. unfold load_point. destruct (load_words X HX) as (wx & -> & Wx & Vx). destruct (load_words Y HY) as (wy & -> & Wy & Vy). cbn [bind].
  eexists. split; [reflexivity|]. exists (a_mul A wx rr), (a_mul A wy rr), one_mont. split; [reflexivity|]. apply arep_rep. split; [exact NP|].
  rewrite HC. cbn [fst snd]. rewrite <- Vx, <- Vy. split; apply to_mont; assumption.
Qed.
Lemma base_all : forall z, 
  (z mod cN <> 0 -> rep12 E (p256BaseMult A (initTable A) (words_of 4 (z mod cN))) (gmul z eG)) /\
  (z mod cN = 0 -> p256BaseMult A (initTable A) (words_of 4 (z mod cN)) = repeat 0 8 ++ one_mont).
Proof.
  intros z. pose proof (Z.mod_pos_bound z cN ltac:(reflexivity)) as B.
  destruct (BaseMult_ok E A OK CO GN' (initTable A) (words_of 4 (z mod cN)) (table_ok' E A OK GN' GC) (words_of_ok 4 _)) as [B1 B2].
  { rewrite lval_scalar. lia. }
  rewrite lval_scalar in *. split; [|exact B2]. intros N. rewrite <- (gmul_mod _ cN z eG eq_refl GN'). apply B1, N.
Qed.

(** p256Curve.ScalarBaseMult is right for every scalar of any length *)
Theorem C61_base : forall k, wf_bytes k -> ScalarBaseMult A k = Val (ecoords (gmul (be2z k) (eG (e := E)))).
Proof.
  intros k W. unfold ScalarBaseMult. rewrite getScalar_ok by exact W. cbn [bind]. f_equal. destruct (base_all (be2z k)) as [B1 B2].
  destruct (Z.eq_dec (be2z k mod cN) 0) as [Z0|Z0].
  - rewrite (B2 Z0), (affine_zero E A OK). rewrite <- (gmul_mod _ cN _ _ eq_refl GN'), Z0, gmul_0, ecoords_O. reflexivity.
  - apply (affine_of_rep E A OK CO). apply B1, Z0.
Qed.
(** ScalarMult is right for every point and every scalar, except scalars congruent to N - 6: there the
    last addition meets equal points and the result is (0, 0) *)
Theorem C61_scalar : forall k X Y (P : pt (eg E)), wf_bytes k -> P <> gO -> gmul cN P = gO -> 0 <= X -> 0 <= Y -> ecoords P = (X mod cP, Y mod cP) ->
  ScalarMult A X Y k = Val (if be2z k mod cN =? cN - 6 then (0, 0) else ecoords (gmul (be2z k) P)).
Proof.
  intros k X Y P W NP PN HX HY HC. unfold ScalarMult. rewrite getScalar_ok by exact W. cbn [bind].
  destruct (load_ok X Y P NP HX HY HC) as (p & -> & Rp). cbn [bind].
  destruct (ScalarMult_ok E A OK CO P PN NP p (words_of 4 (be2z k mod cN)) Rp (words_of_ok 4 _)) as (q & -> & Q1 & Q2).
  { rewrite lval_scalar. apply Z.mod_pos_bound. reflexivity. }
  cbn [bind]. f_equal. rewrite lval_scalar in *. destruct (Z.eqb_spec (be2z k mod cN) (cN - 6)) as [X6|X6].
  - rewrite (affine_of_rep E A OK CO _ _ (Q2 X6)). apply ecoords_O.
  - rewrite (affine_of_rep E A OK CO _ _ (Q1 X6)). rewrite (gmul_mod _ cN) by (reflexivity || assumption). reflexivity.
Qed.
(** CombinedMult: s G + t P, except when t is 0 or N - 6 modulo N or when s G = t P: there (0, 0) *)
Theorem C61_combined : forall s t X Y (P : pt (eg E)), wf_bytes s -> wf_bytes t -> P <> gO -> gmul cN P = gO -> 0 <= X -> 0 <= Y -> ecoords P = (X mod cP, Y mod cP) ->
  be2z s mod cN <> 0 ->
  (be2z t mod cN <> 0 -> be2z t mod cN <> cN - 6 -> gmul (be2z s) eG <> gmul (be2z t) P ->
     CombinedMult A X Y s t = Val (ecoords (gadd (gmul (be2z s) eG) (gmul (be2z t) P)))) /\
  (be2z t mod cN = 0 \/ be2z t mod cN = cN - 6 \/ gmul (be2z s) eG = gmul (be2z t) P -> CombinedMult A X Y s t = Val (0, 0)).
Proof.
  intros s t X Y P Ws Wt NP PN HX HY HC S0. unfold CombinedMult. rewrite !getScalar_ok by assumption. cbn [bind].
  destruct (load_ok X Y P NP HX HY HC) as (p & -> & Rp). cbn [bind].
  destruct (ScalarMult_ok E A OK CO P PN NP p (words_of 4 (be2z t mod cN)) Rp (words_of_ok 4 _)) as (q & -> & Q1 & Q2).
  { rewrite lval_scalar. apply Z.mod_pos_bound. reflexivity. }
  rewrite lval_scalar in *. cbn [bind]. destruct (base_all (be2z s)) as [B1 _]. specialize (B1 S0).
  set (r1 := p256BaseMult _ _ _) in *. clearbody r1. rewrite (gmul_mod _ cN) in Q1 by (reflexivity || assumption).
  split.
  - intros T0 T6 NE. f_equal. apply (affine_of_rep E A OK CO). apply (ok_add E A OK); [exact B1|apply Q1, T6|..|exact NE].
    + intros C. apply S0. apply (gmul_zero_iff _ cN _ eG prime_c_N_SM2P256V1 GN' (eG_nonzero E)), C.
    + intros C. apply T0. apply (gmul_zero_iff _ cN _ P prime_c_N_SM2P256V1 PN NP), C.
  - intros X0. assert (RO : rep12 E (a_add A r1 q) gO).
    { destruct (Z.eq_dec (be2z t mod cN) (cN - 6)) as [T6|T6].
      - eapply (ok_add_degenerate E A OK); [exact B1|apply Q2, T6|]. auto.
      - eapply (ok_add_degenerate E A OK); [exact B1|apply Q1, T6|]. destruct X0 as [T0|[T6'|Eq]]; [|contradiction|auto].
        right. left. apply (gmul_zero_iff _ cN _ P prime_c_N_SM2P256V1 PN NP), T0. }
    rewrite (affine_of_rep E A OK CO _ _ RO), ecoords_O. reflexivity.
Qed.

(** the signature code on these multiplications *)
Definition asm_sbm (k : bytes) : Z * Z := match ScalarBaseMult A k with Val r => r | _ => (0, 0) end.
Definition asm_comb (pub : ecpub) (s t : bytes) : Z * Z := match CombinedMult A (pk_X pub) (pk_Y pub) s t with Val r => r | _ => (0, 0) end.
Lemma asm_sbm_ok : forall j, 0 <= j -> asm_sbm (big_bytes j) = ecoords (gmul j (eG (e := E))).
Proof. intros j Hj. unfold asm_sbm. rewrite C61_base by apply big_bytes_wf. rewrite be2z_big_bytes by exact Hj. reflexivity. Qed.
(** Verify accepts exactly what the standard accepts, except that it refuses the signatures with
    r + s = -6 modulo N or s G = (r + s) P *)
Theorem C61_verify : forall (P : pt (eg E)) pub id msg hasher r s, inputs_ok pub id msg hasher ->
  P <> gO -> gmul cN P = gO -> ecoords P = (pk_X pub, pk_Y pub) ->
  (SM2Sig.Verify asm_comb pub id msg hasher r s = Val true <->
   sm2_accepts E P (msg_e pub id msg) r s /\ (r + s) mod cN <> cN - 6 /\ gmul s eG <> gmul (r + s) P).
Proof.
  intros P pub id msg hasher r s I NP PN HC.
  destruct (CO P NP) as (RX & RY & _). rewrite HC in RX, RY. cbn [fst snd] in RX, RY.
  assert (HC' : ecoords P = (pk_X pub mod cP, pk_Y pub mod cP)) by (rewrite !Z.mod_small by lia; exact HC).
  destruct (verify_iff asm_comb pub id msg hasher r s I) as (b & EV & Hb). rewrite EV.
  assert (Tr : Val b = Val true <-> b = true) by (split; [intros C; injection C; auto|intros ->; reflexivity]). rewrite Tr, Hb. clear Tr Hb EV.
  unfold sm2_accepts. rewrite EN. cbv zeta.
  destruct (Z_le_dec 1 s) as [S1|S1]; [|split; [lia|intros (C & _); lia]]. destruct (Z_le_dec s (cN - 1)) as [S2|S2]; [|split; [lia|intros (C & _); lia]].
  set (t := (r + s) mod cN). pose proof (Z.mod_pos_bound (r + s) cN ltac:(reflexivity)) as Ht. fold t in Ht.
  assert (Es : be2z (big_bytes s) = s) by (apply be2z_big_bytes; lia). assert (Et : be2z (big_bytes t) = t) by (apply be2z_big_bytes; lia).
  destruct (C61_combined (big_bytes s) (big_bytes t) (pk_X pub) (pk_Y pub) P (big_bytes_wf s) (big_bytes_wf t) NP PN ltac:(lia) ltac:(lia) HC') as [C1 C2].
  { rewrite Es. rewrite Z.mod_small by lia. lia. }
  rewrite Es, Et, (Z.mod_small t) in C1, C2 by lia.
  assert (TP : gmul t P = gmul (r + s) P) by (apply gmul_mod; [reflexivity|exact PN]). rewrite TP in C1, C2.
  assert (O : forall Q : pt (eg E), ecoords Q <> (0, 0) <-> Q <> gO).
  { intros Q. rewrite <- (ecoords_O E). split; intros C D; apply C; [rewrite D; reflexivity|apply ecoords_inj; exact D]. }
  assert (CV : forall v, CombinedMult A (pk_X pub) (pk_Y pub) (big_bytes s) (big_bytes t) = Val v -> asm_comb pub (big_bytes s) (big_bytes t) = v).
  { intros v V. unfold asm_comb. rewrite V. reflexivity. }
  split.
  - intros (R1 & R2 & T0 & NZ & EQ). fold t in T0, NZ, EQ.
    assert (T6 : t <> cN - 6) by (intros C; apply NZ, CV, C2; auto).
    assert (NE : gmul s eG <> gmul (r + s) P) by (intros C; apply NZ, CV, C2; auto).
    rewrite (CV _ (C1 T0 T6 NE)) in NZ, EQ. rewrite O in NZ. tauto.
  - intros ((R1 & R2 & T0 & NZ & EQ) & T6 & NE). fold t in T0.
    rewrite (CV _ (C1 T0 T6 NE)). rewrite O. tauto.
Qed.
End C61.
Print Assumptions C61_verify.
