(** * AsmMul: the Montgomery multiplications of p256_asm_amd64.s compute what they should *)
From Coq Require Import ZArith List Bool Lia.
From Verif Require Import AsmX86 AsmSM2 AsmFacts.
Import ListNotations.
Open Scope Z_scope.

(** ** Arithmetic *)
Definition PP : Z := 0xFFFFFFFEFFFFFFFFFFFFFFFFFFFFFFFFFFFFFFFF00000000FFFFFFFFFFFFFFFF.
Definition PI : Z := 0xfffffffc00000001fffffffe00000000ffffffff000000010000000000000001.
Definition R256 : Z := 2 ^ 256.
(** (a*b + q*m) / 2^256 for the q below 2^256 that makes the division exact; mi = -1/m mod 2^256 *)
Definition mont_t (m mi a b : Z) : Z := (a * b + (a * b * mi) mod R256 * m) / R256.
Definition once (m t : Z) : Z := if t <? m then t else t - m.
Definition mont_mul (m mi a b : Z) : Z := once m (mont_t m mi a b).

Lemma mont_t_unique m mi a b q t : (m * mi) mod R256 = R256 - 1 -> 0 <= q < R256 ->
  R256 * t = a * b + q * m -> t = mont_t m mi a b.
Proof.
  intros Hm Hq E. unfold mont_t.
  assert (Eq : (a * b * mi) mod R256 = q).
  { symmetry. apply (Z.mod_unique _ _ (t * mi - (m * mi / R256 + 1) * q)); [left; exact Hq|].
    pose proof (Z.div_mod (m * mi) R256 ltac:(discriminate)) as D. rewrite Hm in D.
    set (k := m * mi / R256) in *.
    assert (a * b = R256 * t - q * m) by lia. rewrite H.
    replace ((R256 * t - q * m) * mi) with (R256 * (t * mi) - q * (m * mi)) by ring. rewrite D. ring. }
  rewrite Eq, <- E, (Z.mul_comm R256 t), Z.div_mul by discriminate. reflexivity.
Qed.

Lemma chain4 x y0 y1 y2 y3 m0 m1 m2 m3 p s1 s2 s3 s4 :
  W64 * s1 = x * y0 + m0 * p -> W64 * s2 = s1 + x * y1 + m1 * p -> W64 * s3 = s2 + x * y2 + m2 * p ->
  W64 * s4 = s3 + x * y3 + m3 * p -> R256 * s4 = x * v4 y0 y1 y2 y3 + v4 m0 m1 m2 m3 * p.
Proof.
  intros E1 E2 E3 E4. unfold v4. replace R256 with (W64 * W64 * W64 * W64) by reflexivity.
  generalize W64 E1 E2 E3 E4. intros W. clear. intros E1 E2 E3 E4.
  replace (W * W * W * W * s4) with (W * W * W * (W * s4)) by ring. rewrite E4.
  replace (W * W * W * (s3 + x * y3 + m3 * p)) with (W * W * (W * s3) + W * W * W * (x * y3 + m3 * p)) by ring. rewrite E3.
  replace (W * W * (s2 + x * y2 + m2 * p)) with (W * (W * s2) + W * W * (x * y2 + m2 * p)) by ring. rewrite E2.
  replace (W * (s1 + x * y1 + m1 * p)) with (W * s1 + W * (x * y1 + m1 * p)) by ring. rewrite E1. ring.
Qed.

Lemma v4_range a b c d : u64 a -> u64 b -> u64 c -> u64 d -> 0 <= v4 a b c d < R256.
Proof. unfold v4. change R256 with 115792089237316195423570985008687907853269984665640564039457584007913129639936. intros. ar64. Qed.

(** ** Tactics *)
Ltac regi n := lazymatch goal with |- wp _ _ (St ?rg _ _ _ _ _ _ _) =>
  let v := eval cbn in (nth n rg U) in lazymatch v with I ?z => constr:(z) end end.
Ltac done_with := repeat match goal with
  | H : _ + W64 * _ = _ |- _ => clear H | H : _ - W64 * _ = _ |- _ => clear H
  | H : _ + W64 * _ <= _ |- _ => clear H
  | H : ?a = _ * 2 ^ 32 + _ |- _ => clear H
  | H : ?a = _ * 2 ^ 32 |- _ => clear H
  | H : 0 <= _ < 2 ^ 32 |- _ => clear H end; sweep.
Ltac note P := assert (kept P) by (unfold kept; ar64).
Definition v5 (a b c d e : Z) : Z := a + W64 * (b + W64 * (c + W64 * (d + W64 * e))).
Definition v6 (a b c d e f : Z) : Z := a + W64 * (b + W64 * (c + W64 * (d + W64 * (e + W64 * f)))).
(** one product added to an accumulator, without and with a carry word *)
Ltac mac1 d dn x y := let a := regi d in do 5 ins; let a' := regi d in let b := regi dn in
  note (a' + W64 * b = a + x * y); done_with.
Ltac mac2 d x y := let a := regi d in let t := regi R15 in do 7 ins; let a' := regi d in let b := regi R15 in
  note (a' + W64 * b = a + t + x * y); done_with.
Ltac maclast d e f x y := let a := regi d in let b := regi e in let t := regi R15 in do 7 ins;
  let a' := regi d in let b' := regi e in let c' := regi f in
  note (a' + W64 * (b' + W64 * c') = a + W64 * b + t + x * y); done_with.
Definition big (P : Prop) : Prop := P.
Lemma bigi (P : Prop) : P -> big P. Proof. exact (fun x => x). Qed.
Ltac drop_kept := repeat match goal with H : kept _ |- _ => clear H end; sweep.

Ltac drop_big := repeat match goal with H : big _ |- _ => clear H end; sweep.

Lemma row_bound s x p y : 0 <= x -> 0 <= y < W64 -> s < x + p -> s + x * y < x * W64 + p.
Proof. intros. assert (x * y <= x * (W64 - 1)) by (apply Z.mul_le_mono_nonneg_l; lia). lia. Qed.
Lemma red_bound s x p m t : 0 <= m < W64 -> 0 < p -> s < x * W64 + p -> W64 * t = s + m * p -> t < x + p.
Proof.
  intros. assert (m * p <= (W64 - 1) * p) by (apply Z.mul_le_mono_nonneg_r; lia).
  apply Z.mul_lt_mono_pos_l with (p := W64); [reflexivity|]. lia.
Qed.
Definition TOP : Z := 2135987035920910082510813795406868310026275507365340677800311592487860289820098134030875216576512.
Lemma row_done s x y t : 0 <= x < R256 -> u64 y -> s < x + PP -> t = s + x * y -> t < x * W64 + PP /\ t < TOP.
Proof.
  intros Hx Hy Hs ->. pose proof (row_bound s x PP y (proj1 Hx) Hy Hs). split; [assumption|].
  assert (x * W64 < R256 * W64) by (apply Z.mul_lt_mono_pos_r; [reflexivity|lia]).
  assert (PP < R256) by reflexivity. change TOP with (R256 * W64 + R256). lia.
Qed.
Lemma red_done x t m s : u64 m -> t < x * W64 + PP -> W64 * s = t + m * PP -> s < x + PP.
Proof. intros Hm. apply red_bound; [exact Hm|reflexivity]. Qed.
(** the sum of a row, with its bounds *)
Ltac row x s y i0 i1 i2 i3 i4 i5 :=
  let a := regi i0 in let b := regi i1 in let c := regi i2 in let d := regi i3 in let e := regi i4 in let f := regi i5 in
  let E := fresh "E" in let B := fresh "B" in let T := fresh "T" in
  assert (E : big (v6 a b c d e f = s + x * y)) by (drop_big; unfold big, kept, v4, v5, v6 in *; ar64);
  drop_kept;
  match goal with HX : big (0 <= x < R256), HY : u64 y, HS : big (s < x + PP) |- _ =>
    destruct (row_done _ x y _ HX HY HS E) as [B T]; apply bigi in B; clear HS end.
Ltac carry := lazymatch goal with |- wp _ _ (St _ _ (Some ?k) _ _ _ _ _) => constr:(k) end.
Lemma top1 a b c d e f : u64 a -> u64 b -> u64 c -> u64 d -> u64 e -> u64 f -> v6 a b c d e f < TOP -> f <= 1.
Proof. unfold v6, TOP. intros. ar64. Qed.
(** the subtraction of m*2^32 does not borrow *)
Lemma red_exact a b c d e f b1 c1 d1 g e1 f1 s u b2 c2 d2 e2 f2 k :
  u64 a -> u64 b -> u64 c -> u64 d -> u64 e -> u64 f ->
  b1 + W64 * (c1 + W64 * (d1 + W64 * g)) = b + W64 * (c + W64 * d) + a + W64 * W64 * (18446744069414584320 * a) ->
  e1 + W64 * f1 = e + W64 * f + g -> s + W64 * u = 4294967296 * a ->
  u64 b2 -> u64 c2 -> u64 d2 -> u64 e2 -> u64 f2 -> bit k ->
  v5 b2 c2 d2 e2 f2 - W64 * W64 * W64 * W64 * W64 * k = v5 b1 c1 d1 e1 f1 - (s + W64 * u) ->
  W64 * v5 b2 c2 d2 e2 f2 = v6 a b c d e f + a * PP.
Proof.
  intros Ha Hb Hc Hd He Hf E1 E2 E3 Hb2 Hc2 Hd2 He2 Hf2 Hk E4.
  assert (V1 : v5 b1 c1 d1 e1 f1 = v5 b c d e f + a + W64 * W64 * (18446744069414584320 * a)).
  { unfold v5. replace (b1 + W64 * (c1 + W64 * (d1 + W64 * (e1 + W64 * f1)))) with (b1 + W64 * (c1 + W64 * (d1 + W64 * g)) + W64 * W64 * W64 * ((e1 + W64 * f1) - g)) by ring.
    rewrite E1, E2. ring. }
  rewrite V1, E3 in E4.
  assert (k = 0).
  { assert (0 <= v5 b c d e f) by (unfold v5; ar64). assert (v5 b2 c2 d2 e2 f2 < W64 * W64 * W64 * W64 * W64) by (unfold v5; ar64).
    clear - E4 Ha Hk H H0. ar64. }
  subst k. assert (v5 b2 c2 d2 e2 f2 = v5 b c d e f + a + W64 * W64 * (18446744069414584320 * a) - 4294967296 * a) by lia.
  rewrite H. unfold v5, v6, PP. ar64.
Qed.
Ltac redstep x s y i0 i1 i2 i3 i4 i5 :=
  row x s y i0 i1 i2 i3 i4 i5;
  let a := regi i0 in let b := regi i1 in let c := regi i2 in let d := regi i3 in let e := regi i4 in let f := regi i5 in
  let HF := fresh "HF" in
  assert (HF : kept (f <= 1)) by (match goal with T : _ < TOP |- _ => apply (top1 a b c d e f); [rng|rng|rng|rng|rng|rng|exact T] end);
  match goal with T : _ < TOP |- _ => clear T end;
  do 9 ins;
  let b1 := regi i1 in let c1 := regi i2 in let d1 := regi i3 in let g := regi DX in let k := carry in
  let N1 := fresh "N" in let N2 := fresh "N" in let N3 := fresh "N" in let N4 := fresh "N" in
  assert (N1 : kept (b1 + W64 * (c1 + W64 * (d1 + W64 * g)) = b + W64 * (c + W64 * d) + a + W64 * W64 * (18446744069414584320 * a))) by (drop_big; unfold kept; ar64);
  let Hk := fresh "Hk" in assert (Hk : kept (k = 0)) by (drop_big; unfold kept; ar64);
  done_with; do 3 ins;
  let e1 := regi i4 in let f1 := regi i5 in
  assert (N2 : kept (e1 + W64 * f1 = e + W64 * f + g)) by (clear N1; drop_big; unfold kept in *; ar64);
  done_with; do 2 ins;
  let s1 := regi AX in let u1 := regi R15 in
  assert (N3 : kept (s1 + W64 * u1 = 4294967296 * a)) by (clear N1 N2; drop_big; unfold kept in *; ar64);
  done_with; do 5 ins;
  let b2 := regi i1 in let c2 := regi i2 in let d2 := regi i3 in let e2 := regi i4 in let f2 := regi i5 in let k := carry in
  assert (N4 : kept (v5 b2 c2 d2 e2 f2 - W64 * W64 * W64 * W64 * W64 * k = v5 b1 c1 d1 e1 f1 - (s1 + W64 * u1))) by (clear N1 N2 N3; drop_big; unfold kept, v5 in *; ar64);
  let E := fresh "E" in
  assert (E : big (W64 * v5 b2 c2 d2 e2 f2 = v6 a b c d e f + a * PP))
    by (apply (red_exact a b c d e f b1 c1 d1 g e1 f1 s1 u1 b2 c2 d2 e2 f2 k); first [rng | exact N1 | exact N2 | exact N3 | exact N4]);
  done_with; drop_kept;
  let B := fresh "B" in
  match goal with HM : u64 a, HB : big (_ < x * W64 + PP) |- _ =>
    pose proof (red_done x _ a _ HM HB E) as B; apply bigi in B; clear HB end.
Ltac nextrow y i0 i1 i2 i3 i4 i5 := match goal with H : big (?s < ?x + PP) |- _ => redstep x s y i0 i1 i2 i3 i4 i5 end.

(** the final subtraction of the modulus [m], kept unless it borrows *)
Lemma final_once m a b c d e a1 b1 c1 d1 e1 k ra rb rc rd :
  0 <= m -> v5 a b c d e < R256 + m ->
  u64 a -> u64 b -> u64 c -> u64 d -> u64 e -> u64 a1 -> u64 b1 -> u64 c1 -> u64 d1 -> u64 e1 -> bit k ->
  v5 a1 b1 c1 d1 e1 - W64 * W64 * W64 * W64 * W64 * k = v5 a b c d e - m -> m < R256 ->
  ra = (if k =? 0 then a1 else a) -> rb = (if k =? 0 then b1 else b) ->
  rc = (if k =? 0 then c1 else c) -> rd = (if k =? 0 then d1 else d) ->
  v4 ra rb rc rd = once m (v5 a b c d e).
Proof.
  intros Hm Hb Ha1 Hb1 Hc1 Hd1 He1 Ha2 Hb2 Hc2 Hd2 He2 Hk E Hm2 -> -> -> ->. unfold once.
  change R256 with 115792089237316195423570985008687907853269984665640564039457584007913129639936 in *.
  destruct (k =? 0) eqn:Ek.
  - apply Z.eqb_eq in Ek. subst k.
    assert (Hge : v5 a b c d e <? m = false) by (apply Z.ltb_ge; assert (0 <= v5 a1 b1 c1 d1 e1) by (unfold v5; ar64); lia).
    rewrite Hge. assert (e1 = 0) by (assert (v5 a1 b1 c1 d1 e1 < 115792089237316195423570985008687907853269984665640564039457584007913129639936) by lia; unfold v5 in *; clear E Hge; ar64).
    subst e1. replace (v4 a1 b1 c1 d1) with (v5 a1 b1 c1 d1 0) by (unfold v4, v5; ring). lia.
  - apply Z.eqb_neq in Ek. assert (k = 1) by ar64. subst k.
    assert (Hlt : v5 a b c d e < m) by (assert (v5 a1 b1 c1 d1 e1 < W64 * W64 * W64 * W64 * W64) by (unfold v5; ar64); lia).
    assert (e = 0) by (unfold v5 in *; clear E Hb; ar64).
    subst e. apply Z.ltb_lt in Hlt. rewrite Hlt. unfold v4, v5. ring.
Qed.
Definition res4 (h : heap) (r : nat) (o v : Z) (st : state) : Prop :=
  exists a b c d, u64 a /\ u64 b /\ u64 c /\ u64 d /\ hp st = store4 h r o a b c d /\ v4 a b c d = v.

Ltac finish i0 i1 i2 i3 i4 HT HU :=
  let a := regi i0 in let b := regi i1 in let c := regi i2 in let d := regi i3 in let e := regi i4 in
  do 9 ins;
  let a1 := regi i0 in let b1 := regi i1 in let c1 := regi i2 in let d1 := regi i3 in let e1 := regi i4 in let k := carry in
  let N := fresh "N" in
  assert (N : v5 a1 b1 c1 d1 e1 - W64 * W64 * W64 * W64 * W64 * k = v5 a b c d e - PP) by (drop_big; unfold v5, PP in *; ar64);
  do 4 ins;
  let ra := regi i0 in let rb := regi i1 in let rc := regi i2 in let rd := regi i3 in
  let F := fresh "F" in
  assert (F : v4 ra rb rc rd = once PP (v5 a b c d e))
    by (eapply (final_once PP a b c d e a1 b1 c1 d1 e1 k); first [rng | exact HU | exact N | eassumption | reflexivity | discriminate]);
  unfold big in HT; rewrite HT in F;
  do 4 ins; ins;
  exists ra, rb, rc, rd; repeat (split; [rng|]); split; [reflexivity|exact F].

Section Mul.
Variables (h : heap) (al : nat -> Z) (r1 r2 r3 : nat) (o1 o2 o3 : Z) (x0 x1 x2 x3 y0 y1 y2 y3 : Z) (l1 l2 l3 l4 l5 l6 : val).
Variables (z0 z1 z2 z3 : Z).
Hypothesis (Hx : quad h r2 o2 x0 x1 x2 x3) (Hy : quad h r3 o3 y0 y1 y2 y3) (Hz : quad h r1 o1 z0 z1 z2 z3).
Hypothesis (X0 : u64 x0) (X1 : u64 x1) (X2 : u64 x2) (X3 : u64 x3) (Y0 : u64 y0) (Y1 : u64 y1) (Y2 : u64 y2) (Y3 : u64 y3).
Lemma Mul_spec : wp sm2Mul (res4 h r1 o1 (mont_mul PP PI (v4 x0 x1 x2 x3) (v4 y0 y1 y2 y3)))
  (init h al [Ptr r1 o1; l1; l2; Ptr r2 o2; l3; l4; Ptr r3 o3; l5; l6] 0).
Proof.
  destruct Hx as (Hx0 & Hx1 & Hx2 & Hx3). destruct Hy as (Hy0 & Hy1 & Hy2 & Hy3). destruct Hz as (Hz0 & Hz1 & Hz2 & Hz3). clear Hx Hy Hz.
  unfold sm2Mul, init. cbn [repeat].
  assert (HX : big (0 <= v4 x0 x1 x2 x3 < R256)) by (apply bigi, v4_range; assumption).
  do 4 ins.
  do 4 ins. let a := regi R8 in let b := regi R9 in note (a + W64 * b = x0 * y0). done_with.
  mac1 R9 R10 x1 y0. mac1 R10 R11 x2 y0. mac1 R11 R12 x3 y0. ins.
  let x := constr:(v4 x0 x1 x2 x3) in assert (big (0 < x + PP)) by (unfold big in *; change 0 with (0 + 0); apply Z.add_le_lt_mono; [apply HX|reflexivity]);
  redstep x 0 y0 R8 R9 R10 R11 R12 R13. ins. ins.
  mac1 R9 R15 x0 y1. mac2 R10 x1 y1. mac2 R11 x2 y1. maclast R12 R13 R8 x3 y1.
  nextrow y1 R9 R10 R11 R12 R13 R8. ins. ins.
  mac1 R10 R15 x0 y2. mac2 R11 x1 y2. mac2 R12 x2 y2. maclast R13 R8 R9 x3 y2.
  nextrow y2 R10 R11 R12 R13 R8 R9. ins. ins.
  mac1 R11 R15 x0 y3. mac2 R12 x1 y3. mac2 R13 x2 y3. maclast R8 R9 R10 x3 y3. ins.
  nextrow y3 R11 R12 R13 R8 R9 R10.
  match goal with HL : big (v5 ?a ?b ?c ?d ?e < _) |- _ =>
    assert (HT : big (v5 a b c d e = mont_t PP PI (v4 x0 x1 x2 x3) (v4 y0 y1 y2 y3)));
    [|assert (HU : big (v5 a b c d e < R256 + PP)) by (apply bigi; unfold big in *; lia); clear HL] end.
  { unfold big in *.
    match goal with E1 : W64 * ?s1 = ?t1 + ?m0 * PP, F1 : ?t1 = 0 + ?x * y0, E2 : W64 * ?s2 = ?t2 + ?m1 * PP, F2 : ?t2 = ?s1 + ?x * y1,
       E3 : W64 * ?s3 = ?t3 + ?m2 * PP, F3 : ?t3 = ?s2 + ?x * y2, E4 : W64 * ?s4 = ?t4 + ?m3 * PP, F4 : ?t4 = ?s3 + ?x * y3 |- _ =>
      rewrite F1, Z.add_0_l in E1; rewrite F2 in E2; rewrite F3 in E3; rewrite F4 in E4;
      apply (mont_t_unique PP PI _ _ (v4 m0 m1 m2 m3));
        [vm_compute; reflexivity | apply v4_range; assumption | apply (chain4 x y0 y1 y2 y3 m0 m1 m2 m3 PP s1 s2 s3 s4 E1 E2 E3 E4)] end. }
  repeat match goal with E : big (W64 * _ = _) |- _ => clear E | E : big (v6 _ _ _ _ _ _ = _) |- _ => clear E end. sweep.
  finish R12 R13 R8 R9 R10 HT HU.
Qed.
End Mul.
