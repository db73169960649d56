(** * AsmMisc: the short field routines of p256_asm_amd64.s *)
From Coq Require Import ZArith List Bool Lia.
From Verif Require Import AsmX86 AsmSM2 AsmFacts AsmMul AsmInt.
Import ListNotations.
Open Scope Z_scope.

(** ** What they compute *)
(** x - y: the modulus is added when the words wrapped, but also when adding it does not carry *)
Definition asub (x y : Z) : Z :=
  let d := x - y in
  if d <? 0 then (if d + PP <? 0 then d + R256 else d + PP)
  else if d + PP <? R256 then d + PP else d.
(** x + y: the modulus is subtracted once; the words may wrap *)
Definition aadd (x y : Z) : Z := let t := x + y in if t <? PP then t else (t - PP) mod R256.
(** half of x, or of x plus the modulus *)
Definition ahalf (x : Z) : Z := if Z.even x then x / 2 else (x + PP) / 2.
(** the modulus minus x, wrapped *)
Definition aneg (x : Z) : Z := (PP - x) mod R256.

(** p256_sm2MulBy2Inline, p256_asm_amd64.s:2147-2166 *)
Definition dbl_code : list instr := [
  XOR (R AX) AX; ADD (R R10) R10; ADC (R R11) R11; ADC (R R12) R12; ADC (R R13) R13; ADC (K 0) AX;
  MOV (R R10) R14; MOV (R R11) R15; MOV (R R12) DI; MOV (R R13) SI;
  SUB (K 18446744073709551615) R14; SBB (K 18446744069414584320) R15; SBB (K 18446744073709551615) DI;
  SBB (K 18446744069414584319) SI; SBB (K 0) AX; CMOVCS R10 R14; CMOVCS R11 R15; CMOVCS R12 DI; CMOVCS R13 SI].
(** p256_sm2AddInline, p256_asm_amd64.s:2168-2187 *)
Definition add_code : list instr := [
  XOR (R AX) AX; ADD (R R14) R10; ADC (R R15) R11; ADC (R DI) R12; ADC (R SI) R13; ADC (K 0) AX;
  MOV (R R10) R14; MOV (R R11) R15; MOV (R R12) DI; MOV (R R13) SI;
  SUB (K 18446744073709551615) R14; SBB (K 18446744069414584320) R15; SBB (K 18446744073709551615) DI;
  SBB (K 18446744069414584319) SI; SBB (K 0) AX; CMOVCS R10 R14; CMOVCS R11 R15; CMOVCS R12 DI; CMOVCS R13 SI].
(** p256_asm_amd64.s:2728-2750 *)
Definition half_code : list instr := [
  XOR (R AX) AX; MOV (R R10) R14; MOV (R R11) R15; MOV (R R12) DI; MOV (R R13) SI;
  ADD (K 18446744073709551615) R10; ADC (K 18446744069414584320) R11; ADC (K 18446744073709551615) R12;
  ADC (K 18446744069414584319) R13; ADC (K 0) AX; TEST (K 1) R14; CMOVEQ R14 R10; CMOVEQ R15 R11; CMOVEQ DI R12;
  CMOVEQ SI R13; AND (R R14) AX; SHRD 1 R10 R11; SHRD 1 R11 R12; SHRD 1 R12 R13; SHRD 1 R13 AX].

Lemma wp_SHRD1 c Q rg xm h al fr ar d s cf zf a b : nth d rg U = I a -> nth s rg U = I b -> u64 a -> u64 b ->
  (forall r qa ra qb rb, u64 r -> bit ra -> bit rb -> a = 2 * qa + ra -> b = 2 * qb + rb -> r = qa + 9223372036854775808 * rb ->
     wp c Q (St (upd rg d (I r)) xm None None h al fr ar)) ->
  wp (SHRD 1 d s :: c) Q (St rg xm cf zf h al fr ar).
Proof.
  intros Ed Es Ha Hb H. unfold u64 in *. change W64 with 18446744073709551616 in *.
  pose proof (Z.div_mod a 2 ltac:(discriminate)) as Da. pose proof (Z.mod_pos_bound a 2 eq_refl) as Ma.
  pose proof (Z.div_mod b 2 ltac:(discriminate)) as Db. pose proof (Z.mod_pos_bound b 2 eq_refl) as Mb.
  assert (E : (a + W64 * b) / 2 ^ 1 mod W64 = a / 2 + 9223372036854775808 * (b mod 2)).
  { change W64 with 18446744073709551616. change (2 ^ 1) with 2.
    replace (a + 18446744073709551616 * b) with ((a / 2 + 9223372036854775808 * b) * 2 + a mod 2) by lia.
    rewrite Z.div_add_l by discriminate. rewrite (Z.div_small (a mod 2) 2) by lia. rewrite Z.add_0_r.
    symmetry. apply (Z.mod_unique _ _ (b / 2)); [left; lia|lia]. }
  eapply wp_step; [|apply (H ((a + W64 * b) / 2 ^ 1 mod W64) (a / 2) (a mod 2) (b / 2) (b mod 2)); unfold bit; rewrite ?E; lia].
  cbn [step]. unfold rdi, rd. cbn [AsmX86.rg]. rewrite Ed, Es. reflexivity.
Qed.
Lemma land1 x : Z.land 1 x = x mod 2.
Proof. rewrite Z.land_comm. change 1 with (Z.ones 1). rewrite Z.land_ones by discriminate. reflexivity. Qed.
Lemma landk x k : bit k -> Z.land x k = k * (x mod 2).
Proof.
  intros H. assert (C : k = 0 \/ k = 1) by (unfold bit in H; lia). destruct C; subst k.
  - rewrite Z.land_0_r. reflexivity.
  - rewrite Z.land_comm, land1. lia.
Qed.

Section Short.
Variables (h : heap) (al : nat -> Z) (xm : list (option (Z * Z))) (fr ar : list val) (cf : option Z) (zf : option bool).
Variables (x0 x1 x2 x3 y0 y1 y2 y3 : Z) (j0 j1 j2 j3 j4 j5 j6 j7 j8 j13 j14 : val).
Hypothesis (X0 : u64 x0) (X1 : u64 x1) (X2 : u64 x2) (X3 : u64 x3) (Y0 : u64 y0) (Y1 : u64 y1) (Y2 : u64 y2) (Y3 : u64 y3).
Notation X := (v4 x0 x1 x2 x3).
Notation Y := (v4 y0 y1 y2 y3).

Lemma asub_sel d k s k2 a r k' k3 : 0 <= d < R256 -> 0 <= s < R256 -> bit k -> bit k2 -> u64 a -> u64 r -> bit k' -> bit k3 ->
  d - R256 * k = X - Y -> a - W64 * k' = 0 - 0 - k -> s + R256 * k2 = d + PP -> r + W64 * k3 = 0 + a + k2 ->
  (if r =? 0 then s else d) = asub X Y.
Proof.
  intros Hd Hs Hk Hk2 Ha Hr Hk' Hk3 E1 E2 E3 E4. unfold asub. cbv zeta. unfold bit in *.
  change R256 with 115792089237316195423570985008687907853269984665640564039457584007913129639936 in *.
  change PP with 0xFFFFFFFEFFFFFFFFFFFFFFFFFFFFFFFFFFFFFFFF00000000FFFFFFFFFFFFFFFF in *.
  generalize dependent (X - Y). intros D E1.
  assert (C : k = 0 \/ k = 1) by lia. assert (C2 : k2 = 0 \/ k2 = 1) by lia.
  destruct (Z.eqb_spec r 0); destruct (Z.ltb_spec D 0); destruct C; destruct C2; subst k k2;
    try (destruct (Z.ltb_spec (D + 0xFFFFFFFEFFFFFFFFFFFFFFFFFFFFFFFFFFFFFFFF00000000FFFFFFFFFFFFFFFF) 0));
    try (destruct (Z.ltb_spec (D + 0xFFFFFFFEFFFFFFFFFFFFFFFFFFFFFFFFFFFFFFFF00000000FFFFFFFFFFFFFFFF) 115792089237316195423570985008687907853269984665640564039457584007913129639936)); ar64.
Qed.
Lemma SubInternal_spec : wp sm2SubInternal (ires h al xm fr ar (I y3) (I y2) (I y0) (I y1) (asub X Y))
  (St [j0; j1; j2; j3; I y3; I y2; j6; j7; j8; I x0; I x1; I x2; I x3; I y0; I y1] xm cf zf h al fr ar).
Proof.
  unfold sm2SubInternal.
  do 5 ins.
  let a := regi R10 in let b := regi R11 in let c := regi R12 in let d := regi R13 in let k := carry in
  assert (N1 : kept (v4 a b c d - R256 * k = X - Y)) by (unfold kept, v4; change R256 with (W64 * W64 * W64 * W64); ar64).
  done_with. ins.
  match goal with H : ?a - W64 * ?k = 0 - 0 - _ |- _ => apply keep in H end.
  let a := regi R10 in let b := regi R11 in let c := regi R12 in let d := regi R13 in
  do 8 ins;
  let a2 := regi R10 in let b2 := regi R11 in let c2 := regi R12 in let d2 := regi R13 in let k := carry in
  assert (N2 : kept (v4 a2 b2 c2 d2 + R256 * k = v4 a b c d + PP)) by (unfold kept, v4; change R256 with (W64 * W64 * W64 * W64); unfold PP; ar64);
  done_with.
  ins.
  let r := regi AX in
  do 4 ins;
  let a2 := regi R10 in let b2 := regi R11 in let c2 := regi R12 in let d2 := regi R13 in
  ins; exists a2, b2, c2, d2; do 9 eexists; split; [reflexivity|]; repeat (split; [rng|]);
  unfold kept in *; match goal with N1 : v4 ?a ?b ?c ?d - R256 * ?k = _, N2 : v4 ?s0 ?s1 ?s2 ?s3 + R256 * ?k2 = _ |- _ =>
    transitivity (if r =? 0 then v4 s0 s1 s2 s3 else v4 a b c d);
    [subst; destruct (r =? 0); reflexivity
    |eapply (asub_sel _ k _ k2); [apply v4_range; rng|apply v4_range; rng|rng|rng| | | | |exact N1|eassumption|exact N2|eassumption]; rng] end.
Qed.

(** four result words in R14, R15, DI, SI *)
Definition tres (v : Z) (st : state) : Prop := exists a b c d k0 k1 k2 k3 k6 k7 k8 k9 k10 k11 k12 cf' zf',
  st = St [k0; k1; k2; k3; I d; I c; k6; k7; k8; k9; k10; k11; k12; I a; I b] xm cf' zf' h al fr ar /\
  u64 a /\ u64 b /\ u64 c /\ u64 d /\ v4 a b c d = v.
Lemma aadd_sel t d k s k2 a r k' k3 : 0 <= d < R256 -> 0 <= s < R256 -> bit k -> bit k2 -> u64 a -> u64 r -> bit k' -> bit k3 ->
  d + R256 * k = t -> a + W64 * k' = 0 + 0 + k -> s - R256 * k2 = d - PP -> r - W64 * k3 = a - 0 - k2 ->
  (if k3 =? 0 then s else d) = (if t <? PP then t else (t - PP) mod R256).
Proof.
  intros Hd Hs Hk Hk2 Ha Hr Hk' Hk3 E1 E2 E3 E4. unfold bit in *.
  assert (EK : a = k) by ar64.
  assert (C3 : k3 = 0 \/ k3 = 1) by lia.
  assert (M : t <? PP = false -> k3 = 0 /\ (t - PP) mod R256 = s).
  { intros Ht. apply Z.ltb_ge in Ht.
    assert (K3 : k3 = 0).
    { change R256 with 115792089237316195423570985008687907853269984665640564039457584007913129639936 in *.
      change PP with 0xFFFFFFFEFFFFFFFFFFFFFFFFFFFFFFFFFFFFFFFF00000000FFFFFFFFFFFFFFFF in *. ar64. }
    split; [exact K3|]. symmetry. apply (Z.mod_unique _ _ (k - k2)); [left; exact Hs|lia]. }
  destruct (t <? PP) eqn:Et.
  - apply Z.ltb_lt in Et. destruct (Z.eqb_spec k3 0) as [K|K].
    + change R256 with 115792089237316195423570985008687907853269984665640564039457584007913129639936 in *.
      change PP with 0xFFFFFFFEFFFFFFFFFFFFFFFFFFFFFFFFFFFFFFFF00000000FFFFFFFFFFFFFFFF in *. ar64.
    + change R256 with 115792089237316195423570985008687907853269984665640564039457584007913129639936 in *.
      change PP with 0xFFFFFFFEFFFFFFFFFFFFFFFFFFFFFFFFFFFFFFFF00000000FFFFFFFFFFFFFFFF in *. ar64.
  - destruct (M eq_refl) as [-> ->]. reflexivity.
Qed.
Ltac addsub T :=
  do 5 ins;
  let a := regi R10 in let b := regi R11 in let c := regi R12 in let d := regi R13 in let k := carry in
  assert (N1 : kept (v4 a b c d + R256 * k = T)) by (unfold kept, v4; change R256 with (W64 * W64 * W64 * W64); ar64);
  done_with; ins;
  match goal with H : _ + W64 * _ = 0 + 0 + _ |- _ => apply keep in H end;
  do 8 ins;
  let a2 := regi R14 in let b2 := regi R15 in let c2 := regi DI in let d2 := regi SI in let k := carry in
  assert (N2 : kept (v4 a2 b2 c2 d2 - R256 * k = v4 a b c d - PP)) by (unfold kept, v4; change R256 with (W64 * W64 * W64 * W64); unfold PP; ar64);
  done_with;
  ins; let k3 := carry in
  do 4 ins;
  let a2 := regi R14 in let b2 := regi R15 in let c2 := regi DI in let d2 := regi SI in
  ins; exists a2, b2, c2, d2; do 13 eexists; split; [reflexivity|]; repeat (split; [rng|]);
  unfold kept in *; match goal with N1 : v4 ?a ?b ?c ?d + R256 * ?k = _, N2 : v4 ?s0 ?s1 ?s2 ?s3 - R256 * ?k2 = _ |- _ =>
    transitivity (if k3 =? 0 then v4 s0 s1 s2 s3 else v4 a b c d);
    [subst; destruct (k3 =? 0); reflexivity
    |eapply (aadd_sel _ _ k _ k2); [apply v4_range; rng|apply v4_range; rng|rng|rng| | | | |exact N1|eassumption|exact N2|eassumption]; rng] end.
Lemma add_spec : wp add_code (tres (aadd X Y))
  (St [j0; j1; j2; j3; I y3; I y2; j6; j7; j8; I x0; I x1; I x2; I x3; I y0; I y1] xm cf zf h al fr ar).
Proof. unfold add_code. addsub (X + Y). Qed.
Lemma dbl_spec : wp dbl_code (tres (aadd X X))
  (St [j0; j1; j2; j3; j4; j5; j6; j7; j8; I x0; I x1; I x2; I x3; j13; j14] xm cf zf h al fr ar).
Proof. unfold dbl_code. addsub (X + X). Qed.

Lemma half_sum a b c d e qa ra qb rb qc rc qd rd qe re :
  a = 2 * qa + ra -> b = 2 * qb + rb -> c = 2 * qc + rc -> d = 2 * qd + rd -> e = 2 * qe + re -> bit ra -> bit e -> bit re ->
  v4 (qa + 9223372036854775808 * rb) (qb + 9223372036854775808 * rc) (qc + 9223372036854775808 * rd) (qd + 9223372036854775808 * re)
  = (v4 a b c d + R256 * e) / 2.
Proof.
  intros -> -> -> -> -> Ha He He'. assert (qe = 0) by (unfold bit in *; lia). subst qe.
  apply (Z.div_unique _ 2 _ ra); [left; unfold bit in Ha; lia|].
  unfold v4. change R256 with (W64 * W64 * W64 * W64). ar64.
Qed.
Lemma half_spec : wp half_code (ires h al xm fr ar (I x3) (I x2) (I x0) (I x1) (ahalf X))
  (St [j0; j1; j2; j3; j4; j5; j6; j7; j8; I x0; I x1; I x2; I x3; j13; j14] xm cf zf h al fr ar).
Proof.
  unfold half_code. do 9 ins.
  let a2 := regi R10 in let b2 := regi R11 in let c2 := regi R12 in let d2 := regi R13 in let k := carry in
  assert (N2 : kept (v4 a2 b2 c2 d2 + R256 * k = X + PP)) by (unfold kept, v4; change R256 with (W64 * W64 * W64 * W64); unfold PP; ar64).
  done_with. ins.
  let a := regi AX in match goal with H : a + W64 * _ = 0 + 0 + ?k |- _ => assert (EA : a = k) by ar64; rewrite EA; clear H EA end.
  sweep.
  eapply wp_step; [reflexivity|]. unfold set_f. cbn [AsmX86.rg AsmX86.xm hp AsmX86.al AsmX86.fr AsmX86.ar].
  rewrite land1.
  do 4 ins.
  eapply wp_step; [reflexivity|]. unfold set_f, set_r. cbn [AsmX86.rg AsmX86.xm hp AsmX86.al AsmX86.fr AsmX86.ar]. nrm.
  match goal with |- context [Z.land x0 ?k] => rewrite (landk x0 k) by rng; assert (HB : bit (k * (x0 mod 2))) end.
  { pose proof (Z.mod_pos_bound x0 2 eq_refl). 
    match goal with |- bit (?k * _) => assert (C : k = 0 \/ k = 1) by (assert (bit k) by rng; unfold bit in *; lia); destruct C; subst k end;
    unfold bit; lia. }
  assert (HE : Z.even X = (x0 mod 2 =? 0)).
  { unfold v4. rewrite Z.even_add, Z.even_mul. change (Z.even W64) with true. cbn [orb].
    rewrite (Zeven_mod x0). unfold Zeq_bool, Z.eqb. destruct (x0 mod 2) eqn:E0; cbn; reflexivity. }
  pose proof (Z.mod_pos_bound x0 2 eq_refl) as Mx.
  match goal with |- context [I (?k * (x0 mod 2))] => set (e := k * (x0 mod 2)) in * end.
  assert (He : u64 e) by (clear - HB; ar64).
  eapply wp_SHRD1; [reflexivity|reflexivity|rng|rng|]; intros w0 qa ra qb rb ? ? ? ? ? ?; nrm.
  eapply wp_SHRD1; [reflexivity|reflexivity|rng|rng|]; intros w1 qb' rb' qc rc ? ? ? ? ? ?; nrm.
  eapply wp_SHRD1; [reflexivity|reflexivity|rng|rng|]; intros w2 qc' rc' qd rd' ? ? ? ? ? ?; nrm.
  eapply wp_SHRD1; [reflexivity|reflexivity|rng|rng|]; intros w3 qd' rdd qe re ? ? ? ? ? ?; nrm.
  ins. exists w0, w1, w2, w3. do 9 eexists. split; [reflexivity|]. repeat (split; [rng|]).
  assert (qb' = qb /\ rb' = rb) as [-> ->] by (unfold bit in *; lia).
  assert (qc' = qc /\ rc' = rc) as [-> ->] by (unfold bit in *; lia).
  assert (qd' = qd /\ rdd = rd') as [-> ->] by (unfold bit in *; lia).
  match goal with E0 : ?a = 2 * qa + ra, E1 : ?b = 2 * qb + rb, E2 : ?c = 2 * qc + rc, E3 : ?d = 2 * qd + rd' |- _ =>
    transitivity ((v4 a b c d + R256 * e) / 2); [subst w0 w1 w2 w3; eapply half_sum; eassumption|] end.
  unfold ahalf. rewrite HE. unfold kept in N2.
  destruct (Z.eqb_spec (x0 mod 2) 0) as [Z0|Z0].
  - subst e. rewrite Z0, Z.mul_0_r, Z.mul_0_r, Z.add_0_r. subst. reflexivity.
  - assert (E1 : x0 mod 2 = 1) by lia. subst e. rewrite E1, Z.mul_1_r. subst. rewrite N2. reflexivity.
Qed.
End Short.

Section NegCond.
Variables (h : heap) (al : nat -> Z) (r1 : nat) (o1 : Z) (x0 x1 x2 x3 cond : Z) (l1 l2 : val).
Hypothesis (Hx : quad h r1 o1 x0 x1 x2 x3).
Hypothesis (X0 : u64 x0) (X1 : u64 x1) (X2 : u64 x2) (X3 : u64 x3).
Lemma NegCond_spec : wp sm2NegCond (res4 h r1 o1 (if cond =? 0 then v4 x0 x1 x2 x3 else aneg (v4 x0 x1 x2 x3)))
  (init h al [Ptr r1 o1; l1; l2; I cond] 0).
Proof.
  destruct Hx as (Hx0 & Hx1 & Hx2 & Hx3). clear Hx.
  unfold sm2NegCond, init. cbn [repeat].
  do 14 ins.
  let a := regi R8 in let b := regi R9 in let c := regi R10 in let d := regi R11 in let k := carry in
  assert (N : v4 a b c d - R256 * k = PP - v4 x0 x1 x2 x3) by (unfold v4; change R256 with (W64 * W64 * W64 * W64); unfold PP; ar64).
  done_with.
  eapply wp_step; [reflexivity|]. unfold set_f. cbn [AsmX86.rg AsmX86.xm hp AsmX86.al AsmX86.fr AsmX86.ar].
  rewrite Z.land_diag.
  do 4 ins.
  let a := regi R8 in let b := regi R9 in let c := regi R10 in let d := regi R11 in
  do 4 ins; ins; exists a, b, c, d; repeat (split; [rng|]); split; [reflexivity|].
  unfold aneg. match goal with N : v4 ?a ?b ?c ?d - R256 * ?k = _ |- _ =>
    assert (E : (PP - v4 x0 x1 x2 x3) mod R256 = v4 a b c d)
      by (symmetry; apply (Z.mod_unique _ _ (- k)); [left; apply v4_range; rng|lia]) end.
  rewrite E. subst. destruct (cond =? 0); reflexivity.
Qed.
End NegCond.
