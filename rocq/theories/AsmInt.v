(** * AsmInt: FromMont, Sqr, MulInternal and SqrInternal of p256_asm_amd64.s *)
From Coq Require Import ZArith List Bool Lia.
From Verif Require Import AsmX86 AsmSM2 AsmFacts AsmMul.
Import ListNotations.
Open Scope Z_scope.

Lemma chain4L l m0 m1 m2 m3 p s1 s2 s3 s4 :
  W64 * s1 = l + m0 * p -> W64 * s2 = s1 + m1 * p -> W64 * s3 = s2 + m2 * p ->
  W64 * s4 = s3 + m3 * p -> R256 * s4 = l + v4 m0 m1 m2 m3 * p.
Proof.
  intros E1 E2 E3 E4. unfold v4. replace R256 with (W64 * W64 * W64 * W64) by reflexivity.
  generalize W64 E1 E2 E3 E4. intros W. clear. intros E1 E2 E3 E4.
  replace (W * W * W * W * s4) with (W * W * W * (W * s4)) by ring. rewrite E4.
  replace (W * W * W * (s3 + m3 * p)) with (W * W * (W * s3) + W * W * W * (m3 * p)) by ring. rewrite E3.
  replace (W * W * (s2 + m2 * p)) with (W * (W * s2) + W * W * (m2 * p)) by ring. rewrite E2.
  replace (W * (s1 + m1 * p)) with (W * s1 + W * (m1 * p)) by ring. rewrite E1. ring.
Qed.
Lemma low_bound l q s p : 0 <= l < R256 -> 0 <= q < R256 -> 0 < p -> R256 * s = l + q * p -> s <= p.
Proof.
  intros Hl Hq Hp E. assert (q * p <= (R256 - 1) * p) by (apply Z.mul_le_mono_nonneg_r; lia).
  assert (R256 * s < R256 * (p + 1)); [|assert (0 < R256) by reflexivity; nia]. assert (0 < R256) by reflexivity. lia.
Qed.

(** one reduction step on four words *)
Lemma stage_exact a b c d b1 c1 d1 g s u b2 c2 d2 e2 k :
  u64 a -> u64 b -> u64 c -> u64 d ->
  b1 + W64 * (c1 + W64 * (d1 + W64 * g)) = b + W64 * (c + W64 * d) + a + W64 * W64 * (18446744069414584320 * a) ->
  s + W64 * u = 4294967296 * a ->
  u64 b2 -> u64 c2 -> u64 d2 -> u64 e2 -> bit k ->
  v4 b2 c2 d2 e2 - W64 * W64 * W64 * W64 * k = v4 b1 c1 d1 g - (s + W64 * u) ->
  W64 * v4 b2 c2 d2 e2 = v4 a b c d + a * PP /\ k = 0.
Proof.
  intros Ha Hb Hc Hd E1 E3 Hb2 Hc2 Hd2 He2 Hk E4.
  unfold v4 in E4 at 2. rewrite E1, E3 in E4.
  assert (K0 : k = 0).
  { assert (v4 b2 c2 d2 e2 < W64 * W64 * W64 * W64) by (unfold v4; ar64). clear - E4 Ha Hb Hc Hd Hk H. ar64. }
  split; [|exact K0]. subst k. unfold v4 in *. unfold PP. ar64.
Qed.
(** [mv]: moves before the shifts; [is], [iu]: the shifted words; [it]: the new top word *)
Ltac stage mv is iu it i0 i1 i2 i3 :=
  let a := regi i0 in let b := regi i1 in let c := regi i2 in let d := regi i3 in
  do 9 ins;
  let b1 := regi i1 in let c1 := regi i2 in let d1 := regi i3 in let g := regi DX in
  let N1 := fresh "N" in let N3 := fresh "N" in let N4 := fresh "N" in
  assert (N1 : kept (b1 + W64 * (c1 + W64 * (d1 + W64 * g)) = b + W64 * (c + W64 * d) + a + W64 * W64 * (18446744069414584320 * a))) by (drop_big; unfold kept; ar64);
  done_with; mv; do 2 ins;
  let s1 := regi is in let u1 := regi iu in
  assert (N3 : kept (s1 + W64 * u1 = 4294967296 * a)) by (clear N1; drop_big; unfold kept in *; ar64);
  done_with; do 4 ins;
  let b2 := regi i1 in let c2 := regi i2 in let d2 := regi i3 in let e2 := regi it in let k := carry in
  assert (N4 : kept (v4 b2 c2 d2 e2 - W64 * W64 * W64 * W64 * k = v4 b1 c1 d1 g - (s1 + W64 * u1))) by (clear N1 N3; drop_big; unfold kept, v4 in *; ar64);
  let E := fresh "E" in let HK := fresh "HK" in
  assert (E : W64 * v4 b2 c2 d2 e2 = v4 a b c d + a * PP /\ k = 0)
    by (apply (stage_exact a b c d b1 c1 d1 g s1 u1 b2 c2 d2 e2 k); first [rng | exact N1 | exact N3 | exact N4]);
  destruct E as [E HK]; apply bigi in E; apply bigi in HK;
  done_with; drop_kept.

Ltac lowred L s m0 m1 m2 m3 :=
  assert (big (exists q, 0 <= q < R256 /\ R256 * s = L + q * PP /\ s <= PP));
  [ exists (v4 m0 m1 m2 m3); split; [apply v4_range; assumption|];
    let E := fresh in
    assert (E : R256 * s = L + v4 m0 m1 m2 m3 * PP) by (eapply chain4L; eassumption);
    split; [exact E|];
    apply (low_bound L (v4 m0 m1 m2 m3)); [apply v4_range; assumption|apply v4_range; assumption|reflexivity|exact E]
  | repeat match goal with E : big (W64 * _ = _) |- _ => clear E end; sweep ].
Ltac lowred4 := match goal with
  E1 : big (W64 * ?s1 = ?l + ?m0 * PP), E2 : big (W64 * ?s2 = ?s1 + ?m1 * PP), E3 : big (W64 * ?s3 = ?s2 + ?m2 * PP),
  E4 : big (W64 * ?s4 = ?s3 + ?m3 * PP) |- _ => lowred l s4 m0 m1 m2 m3 end.

Lemma final_four m a b c d a1 b1 c1 d1 k ra rb rc rd : 0 <= m < R256 ->
  u64 a -> u64 b -> u64 c -> u64 d -> u64 a1 -> u64 b1 -> u64 c1 -> u64 d1 -> bit k ->
  v4 a1 b1 c1 d1 - W64 * W64 * W64 * W64 * k = v4 a b c d - m ->
  ra = (if k =? 0 then a1 else a) -> rb = (if k =? 0 then b1 else b) ->
  rc = (if k =? 0 then c1 else c) -> rd = (if k =? 0 then d1 else d) ->
  v4 ra rb rc rd = once m (v4 a b c d).
Proof.
  intros Hm Ha Hb Hc Hd Ha1 Hb1 Hc1 Hd1 Hk E -> -> -> ->. unfold once.
  pose proof (v4_range _ _ _ _ Ha1 Hb1 Hc1 Hd1) as V1. pose proof (v4_range _ _ _ _ Ha Hb Hc Hd) as V.
  change (W64 * W64 * W64 * W64) with R256 in E.
  destruct (k =? 0) eqn:Ek.
  - apply Z.eqb_eq in Ek. subst k. destruct (v4 a b c d <? m) eqn:El; [apply Z.ltb_lt in El; lia|lia].
  - apply Z.eqb_neq in Ek. assert (k = 1) by (unfold bit in Hk; lia). subst k.
    destruct (v4 a b c d <? m) eqn:El; [reflexivity|apply Z.ltb_ge in El; lia].
Qed.

Section FromMont.
Variables (h : heap) (al : nat -> Z) (r1 r2 : nat) (o1 o2 : Z) (x0 x1 x2 x3 : Z) (l1 l2 l3 l4 : val) (z0 z1 z2 z3 : Z).
Hypothesis (Hx : quad h r2 o2 x0 x1 x2 x3) (Hz : quad h r1 o1 z0 z1 z2 z3).
Hypothesis (X0 : u64 x0) (X1 : u64 x1) (X2 : u64 x2) (X3 : u64 x3).
Lemma FromMont_spec : wp sm2FromMont (res4 h r1 o1 (mont_mul PP PI (v4 x0 x1 x2 x3) 1))
  (init h al [Ptr r1 o1; l1; l2; Ptr r2 o2; l3; l4] 0).
Proof.
  destruct Hx as (Hx0 & Hx1 & Hx2 & Hx3). destruct Hz as (Hz0 & Hz1 & Hz2 & Hz3). clear Hx Hz.
  unfold sm2FromMont, init. cbn [repeat].
  do 7 ins.
  stage idtac R8 R15 DX R8 R9 R10 R11. ins. ins.
  stage idtac R9 R15 DX R9 R10 R11 R12. ins. ins.
  stage idtac R10 R15 DX R10 R11 R12 R13. do 3 ins.
  stage idtac R11 R15 DX R11 R12 R13 R8. ins.
  lowred4. do 4 ins.
  let a := regi R12 in let b := regi R13 in let c := regi R8 in let d := regi R9 in
  do 4 ins;
  let a1 := regi R12 in let b1 := regi R13 in let c1 := regi R8 in let d1 := regi R9 in let k := carry in
  assert (N : v4 a1 b1 c1 d1 - W64 * W64 * W64 * W64 * k = v4 a b c d - PP) by (drop_big; unfold v4, PP in *; ar64);
  do 4 ins;
  let ra := regi R12 in let rb := regi R13 in let rc := regi R8 in let rd := regi R9 in
  assert (F : v4 ra rb rc rd = once PP (v4 a b c d))
    by (eapply (final_four PP a b c d a1 b1 c1 d1 k); first [rng | exact N | eassumption | reflexivity | split; [discriminate|reflexivity]]);
  do 4 ins; ins; exists ra, rb, rc, rd; repeat (split; [rng|]); split; [reflexivity|rewrite F].
  unfold mont_mul. f_equal.
  match goal with H : big (ex _) |- _ => destruct H as (qq & Hqq & Eqq & _) end.
  apply (mont_t_unique PP PI _ _ qq); [vm_compute; reflexivity|exact Hqq|rewrite Z.mul_1_r; exact Eqq].
Qed.
End FromMont.

(** the reduction of an eight-word product: the four low words are reduced, the high ones added *)
Lemma wide_t l h8 ab s t : l + R256 * h8 = ab -> (exists q, 0 <= q < R256 /\ R256 * s = l + q * PP /\ s <= PP) -> 0 <= h8 < R256 ->
  forall a b, a * b = ab -> t = s + h8 -> t = mont_t PP PI a b /\ t < R256 + PP.
Proof.
  intros E (q & Hq & E1 & Hs) H8 a b Eab ->. split; [|lia].
  apply (mont_t_unique PP PI _ _ q); [vm_compute; reflexivity|exact Hq|]. rewrite Eab, <- E.
  rewrite Z.mul_add_distr_l, E1. ring.
Qed.
Ltac mac2t ti d dn x y := let a := regi d in let t := regi ti in do 7 ins; let a' := regi d in let b := regi dn in
  note (a' + W64 * b = a + t + x * y); done_with.
(** add the high words (carry clear), compare with the modulus *)
Ltac finsub i0 i1 i2 i3 i4 F :=
  let a := regi i0 in let b := regi i1 in let c := regi i2 in let d := regi i3 in let e := regi i4 in
  do 5 ins;
  let a1 := regi i0 in let b1 := regi i1 in let c1 := regi i2 in let d1 := regi i3 in let e1 := regi i4 in let k := carry in
  let N := fresh "N" in
  assert (N : v5 a1 b1 c1 d1 e1 - W64 * W64 * W64 * W64 * W64 * k = v5 a b c d e - PP) by (drop_big; unfold v5, PP in *; ar64);
  do 4 ins;
  let ra := regi i0 in let rb := regi i1 in let rc := regi i2 in let rd := regi i3 in
  assert (F : v5 a b c d e < R256 + PP -> v4 ra rb rc rd = once PP (v5 a b c d e))
    by (let HU := fresh in intros HU; eapply (final_once PP a b c d e a1 b1 c1 d1 e1 k); first [rng | exact HU | exact N | eassumption | reflexivity | discriminate]).

(** [s0..s3]: reduced low words; [i0..i3]: high words, [i4]: zero, to which the carry goes *)
Ltac addhigh s0 s1 s2 s3 i0 i1 i2 i3 i4 :=
  let a := regi s0 in let b := regi s1 in let c := regi s2 in let d := regi s3 in
  let e := regi i0 in let f := regi i1 in let g := regi i2 in let i := regi i3 in let k := carry in
  let HK0 := fresh "HK" in
  match goal with HK : big (k = 0) |- _ => assert (HK0 : k = 0) by exact HK end;
  do 5 ins;
  let a1 := regi i0 in let b1 := regi i1 in let c1 := regi i2 in let d1 := regi i3 in let e1 := regi i4 in
  assert (big (v5 a1 b1 c1 d1 e1 = v4 a b c d + v4 e f g i)) by (drop_big; unfold big, v4, v5; ar64);
  clear HK0; done_with; repeat match goal with HK : big (_ = 0) |- _ => clear HK end; sweep.
Ltac widefact x y :=
  match goal with HP : big (?l + R256 * ?e = x * y), HE : big (ex _), HH : big (0 <= ?e < R256), HT : big (?t = ?s + ?e) |- _ =>
    let T := fresh "T" in pose proof (wide_t l e (x * y) s t HP HE HH x y eq_refl HT) as T; clear HP HE HH HT; destruct T as [T ?]; apply bigi in T end.

Lemma sqr_bound x : 0 <= x < R256 -> x * x < R256 * R256.
Proof. intros. apply Z.mul_lt_mono_nonneg; lia. Qed.
(** squares: the products of different words are in i1..i6; double them, add the squares; i7 is the top word, [ti] the carry word *)
Ltac sqsum ti i0 i1 i2 i3 i4 i5 i6 i7 x0 x1 x2 x3 :=
  let a := regi i1 in let b := regi i2 in let c := regi i3 in let d := regi i4 in let e := regi i5 in let f := regi i6 in
  let HP := fresh "HP" in let HP2 := fresh "HP" in
  assert (HP : kept (v6 a b c d e f = x0 * x1 + W64 * (x0 * x2 + W64 * (x0 * x3 + x1 * x2 + W64 * (x1 * x3 + W64 * (x2 * x3))))))
    by (unfold kept, v6 in *; ar64);
  repeat match goal with H : kept (_ + W64 * _ = _) |- _ => clear H end; sweep;
  ins; do 7 ins;
  let a1 := regi i1 in let b1 := regi i2 in let c1 := regi i3 in let d1 := regi i4 in let e1 := regi i5 in let f1 := regi i6 in let g1 := regi i7 in
  assert (HP2 : kept (v6 a1 b1 c1 d1 e1 f1 + W64 * W64 * W64 * W64 * W64 * W64 * g1 = 2 * v6 a b c d e f))
    by (clear HP; unfold kept, v6 in *; ar64); unfold kept in HP, HP2; rewrite HP in HP2; apply keep in HP2; clear HP; done_with;
  do 4 ins; let z := regi i0 in let t := regi ti in note (z + W64 * t = x0 * x0); done_with;
  do 6 ins; let a2 := regi i1 in let b2 := regi i2 in let t2 := regi ti in
  note (a2 + W64 * (b2 + W64 * t2) = a1 + W64 * b1 + t + W64 * (x1 * x1)); done_with;
  do 6 ins; let c2 := regi i3 in let d2 := regi i4 in let t3 := regi ti in
  note (c2 + W64 * (d2 + W64 * t3) = c1 + W64 * d1 + t2 + W64 * (x2 * x2)); done_with;
  do 5 ins; let e2 := regi i5 in let f2 := regi i6 in let g2 := regi i7 in let k := carry in
  note (e2 + W64 * (f2 + W64 * (g2 + W64 * k)) = e1 + W64 * (f1 + W64 * g1) + t3 + W64 * (x3 * x3)); done_with;
  let HB := fresh "HB" in
  assert (HB : kept (v4 x0 x1 x2 x3 * v4 x0 x1 x2 x3 < R256 * R256)) by (apply sqr_bound, v4_range; rng);
  assert (big (v4 z a2 b2 c2 + R256 * v4 d2 e2 f2 g2 = v4 x0 x1 x2 x3 * v4 x0 x1 x2 x3));
  [ let HS := fresh "HS" in
    assert (HS : v4 z a2 b2 c2 + R256 * v4 d2 e2 f2 g2 + R256 * R256 * k = v4 x0 x1 x2 x3 * v4 x0 x1 x2 x3)
      by (clear HB; unfold kept, v4, v6 in *; change R256 with (W64 * W64 * W64 * W64); ar64);
    let HL := fresh "HL" in let HH := fresh "HH" in
    assert (HL : 0 <= v4 z a2 b2 c2 < R256) by (apply v4_range; rng);
    assert (HH : 0 <= v4 d2 e2 f2 g2 < R256) by (apply v4_range; rng);
    unfold kept in HB; unfold big; assert (Hb : bit k) by rng; revert HS HB HL HH Hb; clear;
    generalize (v4 x0 x1 x2 x3 * v4 x0 x1 x2 x3), (v4 z a2 b2 c2), (v4 d2 e2 f2 g2); unfold bit;
    change R256 with 115792089237316195423570985008687907853269984665640564039457584007913129639936; intros; lia
  | assert (big (0 <= v4 d2 e2 f2 g2 < R256)) by (apply bigi, v4_range; rng); drop_kept ].

Section Internal.
Variables (h : heap) (al : nat -> Z) (xm : list (option (Z * Z))) (fr ar : list val) (cf : option Z) (zf : option bool).
Variables (x0 x1 x2 x3 y0 y1 y2 y3 : Z) (j0 j1 j2 j3 j4 j5 j6 j7 j8 j13 j14 : val).
Hypothesis (X0 : u64 x0) (X1 : u64 x1) (X2 : u64 x2) (X3 : u64 x3) (Y0 : u64 y0) (Y1 : u64 y1) (Y2 : u64 y2) (Y3 : u64 y3).
(** four result words in R10 to R13; the second operand, memory and frame unchanged *)
Definition ires (k4 k5 k13 k14 : val) (v : Z) (st : state) : Prop := exists a b c d k0 k1 k2 k3 k6 k7 k8 cf' zf',
  st = St [k0; k1; k2; k3; k4; k5; k6; k7; k8; I a; I b; I c; I d; k13; k14] xm cf' zf' h al fr ar /\
  u64 a /\ u64 b /\ u64 c /\ u64 d /\ v4 a b c d = v.
Ltac ires_done pre F :=
  let a := regi R10 in let b := regi R11 in let c := regi R12 in let d := regi R13 in
  apply wp_nil; pre; exists a, b, c, d; do 9 eexists; split; [reflexivity|]; repeat (split; [rng|]); rewrite F by assumption;
  match goal with T : big (_ = mont_t _ _ _ _) |- _ => rewrite T; reflexivity end.
Lemma MulInternal_spec : wp sm2MulInternal (ires (I y3) (I y2) (I y0) (I y1) (mont_mul PP PI (v4 x0 x1 x2 x3) (v4 y0 y1 y2 y3)))
  (St [j0; j1; j2; j3; I y3; I y2; j6; j7; j8; I x0; I x1; I x2; I x3; I y0; I y1] xm cf zf h al fr ar).
Proof.
  unfold sm2MulInternal.
  do 4 ins. let a := regi BX in let b := regi CX in note (a + W64 * b = x0 * y0). done_with.
  mac1 CX R8 x0 y1. mac1 R8 R9 x0 y2. mac1 R9 R10 x0 y3.
  mac1 CX BP x1 y0. mac2t BP R8 BP x1 y1. mac2t BP R9 BP x1 y2. mac2t BP R10 R11 x1 y3.
  mac1 R8 BP x2 y0. mac2t BP R9 BP x2 y1. mac2t BP R10 BP x2 y2. mac2t BP R11 R12 x2 y3.
  mac1 R9 BP x3 y0. mac2t BP R10 BP x3 y1. mac2t BP R11 BP x3 y2. mac2t BP R12 R13 x3 y3.
  let a := regi BX in let b := regi CX in let c := regi R8 in let d := regi R9 in
  let e := regi R10 in let f := regi R11 in let g := regi R12 in let i := regi R13 in
  assert (HP : big (v4 a b c d + R256 * v4 e f g i = v4 x0 x1 x2 x3 * v4 y0 y1 y2 y3))
    by (unfold big, kept, v4 in *; change R256 with (W64 * W64 * W64 * W64); ar64);
  assert (HH : big (0 <= v4 e f g i < R256)) by (apply bigi, v4_range; rng).
  drop_kept.
  stage ltac:(do 2 ins) AX BP BX BX CX R8 R9.
  stage ltac:(do 2 ins) AX BP CX CX R8 R9 BX.
  stage ltac:(do 2 ins) AX BP R8 R8 R9 BX CX.
  stage ltac:(do 2 ins) AX BP R9 R9 BX CX R8.
  lowred4. ins.
  addhigh BX CX R8 R9 R10 R11 R12 R13 BP.
  widefact (v4 x0 x1 x2 x3) (v4 y0 y1 y2 y3).
  do 4 ins. finsub R10 R11 R12 R13 BP F. ires_done idtac F.
Qed.
(** the square of four words in eight: products of different words, doubled, then the squares *)
Lemma SqrInternal_spec : wp sm2SqrInternal (fun st => exists k4 k5 k13 k14, ires k4 k5 k13 k14 (mont_mul PP PI (v4 x0 x1 x2 x3) (v4 x0 x1 x2 x3)) st)
  (St [j0; j1; j2; j3; j4; j5; j6; j7; j8; I x0; I x1; I x2; I x3; j13; j14] xm cf zf h al fr ar).
Proof.
  unfold sm2SqrInternal.
  do 4 ins. let a := regi CX in let b := regi R8 in note (a + W64 * b = x0 * x1). done_with.
  mac1 R8 R9 x0 x2. mac1 R9 R14 x0 x3. mac1 R9 BP x1 x2. mac2t BP R14 R15 x1 x3. mac1 R15 DI x2 x3.
  sqsum R10 BX CX R8 R9 R14 R15 DI SI x0 x1 x2 x3.
  stage ltac:(do 2 ins) AX BP BX BX CX R8 R9.
  stage ltac:(do 2 ins) AX BP CX CX R8 R9 BX.
  stage ltac:(do 2 ins) AX BP R8 R8 R9 BX CX.
  stage ltac:(do 2 ins) AX BP R9 R9 BX CX R8.
  lowred4. ins.
  addhigh BX CX R8 R9 R14 R15 DI SI BP.
  widefact (v4 x0 x1 x2 x3) (v4 x0 x1 x2 x3).
  do 4 ins. finsub R10 R11 R12 R13 BP F.
  ires_done ltac:(do 4 eexists) F.
Qed.
End Internal.

Section Sqr.
Variables (h : heap) (al : nat -> Z) (r1 r2 : nat) (o1 o2 : Z) (x0 x1 x2 x3 : Z) (l1 l2 l3 l4 : val) (z0 z1 z2 z3 : Z).
Hypothesis (Hx : quad h r2 o2 x0 x1 x2 x3) (Hz : quad h r1 o1 z0 z1 z2 z3).
Hypothesis (X0 : u64 x0) (X1 : u64 x1) (X2 : u64 x2) (X3 : u64 x3).
Lemma Sqr_spec : wp sm2Sqr (res4 h r1 o1 (mont_mul PP PI (v4 x0 x1 x2 x3) (v4 x0 x1 x2 x3)))
  (init h al [Ptr r1 o1; l1; l2; Ptr r2 o2; l3; l4] 0).
Proof.
  destruct Hx as (Hx0 & Hx1 & Hx2 & Hx3). destruct Hz as (Hz0 & Hz1 & Hz2 & Hz3). clear Hx Hz.
  unfold sm2Sqr, init. cbn [repeat].
  do 3 ins.
  do 4 ins. let a := regi R9 in let b := regi R10 in note (a + W64 * b = x0 * x1). done_with.
  mac1 R10 R11 x0 x2. mac1 R11 R12 x0 x3. ins. mac1 R11 R15 x1 x2. mac2t R15 R12 R13 x1 x3. ins. mac1 R13 CX x2 x3.
  sqsum R14 R8 R9 R10 R11 R12 R13 CX R15 x0 x1 x2 x3. ins.
  stage ltac:(do 2 ins) AX R15 R8 R8 R9 R10 R11.
  stage ltac:(do 2 ins) AX R15 R9 R9 R10 R11 R8.
  stage ltac:(do 2 ins) AX R15 R10 R10 R11 R8 R9. ins.
  stage ltac:(do 2 ins) AX R15 R11 R11 R8 R9 R10.
  lowred4.
  addhigh R12 R13 CX SI R8 R9 R10 R11 R14.
  match goal with H : big (v5 _ _ _ _ _ = _ + _) |- _ => unfold big in H; rewrite Z.add_comm in H; apply bigi in H end.
  widefact (v4 x0 x1 x2 x3) (v4 x0 x1 x2 x3).
  do 4 ins. finsub R8 R9 R10 R11 R14 F.
  let a := regi R8 in let b := regi R9 in let c := regi R10 in let d := regi R11 in
  do 4 ins; ins; exists a, b, c, d; repeat (split; [rng|]); split; [reflexivity|].
  rewrite F by assumption. match goal with T : big (_ = mont_t _ _ _ _) |- _ => rewrite T; reflexivity end.
Qed.
End Sqr.
