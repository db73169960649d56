(** * AsmOrd: the multiplication modulo the group order, p256_sm2OrdMul *)
From Coq Require Import ZArith List Bool Lia.
From Verif Require Import AsmX86 AsmSM2 AsmFacts AsmMul AsmInt.
Import ListNotations.
Open Scope Z_scope.

Definition NN : Z := 0xFFFFFFFEFFFFFFFFFFFFFFFFFFFFFFFF7203DF6B21C6052B53BBF40939D54123.
Definition NI : Z := 0x6f39132f82e4c7bc2b0068d3b08941d4df1e8d34fc8319a5327f9e8872350975.

Lemma row_doneN s x y t : 0 <= x < R256 -> u64 y -> s < x + NN -> t = s + x * y -> t < x * W64 + NN /\ t < TOP.
Proof.
  intros Hx Hy Hs ->. pose proof (row_bound s x NN y (proj1 Hx) Hy Hs). split; [assumption|].
  assert (x * W64 < R256 * W64) by (apply Z.mul_lt_mono_pos_r; [reflexivity|lia]).
  assert (NN < R256) by reflexivity. change TOP with (R256 * W64 + R256). lia.
Qed.
Lemma red_doneN x t m s : u64 m -> t < x * W64 + NN -> W64 * s = t + m * NN -> s < x + NN.
Proof. intros Hm. apply red_bound; [exact Hm|reflexivity]. Qed.
(** the low word becomes zero *)
Lemma low_zero a m hi a1 t : u64 a1 -> m + W64 * hi = 3638801332807469429 * a -> a1 + W64 * t = a + 6033684446255071523 * m -> a1 = 0.
Proof. intros. ar64. Qed.
Ltac rowN x s y i0 i1 i2 i3 i4 i5 :=
  let a := regi i0 in let b := regi i1 in let c := regi i2 in let d := regi i3 in let e := regi i4 in let f := regi i5 in
  let E := fresh "E" in let B := fresh "B" in let T := fresh "T" in
  assert (E : big (v6 a b c d e f = s + x * y)) by (drop_big; unfold big, kept, v4, v5, v6 in *; ar64);
  drop_kept;
  match goal with HX : big (0 <= x < R256), HY : u64 y, HS : big (s < x + NN) |- _ =>
    destruct (row_doneN _ x y _ HX HY HS E) as [B T]; apply bigi in B; clear HS end.
Ltac redstepN x s y i0 i1 i2 i3 i4 i5 :=
  rowN x s y i0 i1 i2 i3 i4 i5;
  let a := regi i0 in let b := regi i1 in let c := regi i2 in let d := regi i3 in let e := regi i4 in let f := regi i5 in
  let HF := fresh "HF" in
  assert (HF : kept (f <= 1)) by (match goal with T : _ < TOP |- _ => apply (top1 a b c d e f); [rng|rng|rng|rng|rng|rng|exact T] end);
  match goal with T : _ < TOP |- _ => clear T end;
  do 3 ins; let m := regi R14 in let hi := regi DX in
  let N0 := fresh "N" in let N1 := fresh "N" in let Z := fresh "Z" in
  assert (N0 : m + W64 * hi = 3638801332807469429 * a) by assumption; apply keep in N0; done_with;
  do 5 ins; let a1 := regi i0 in let t1 := regi R15 in
  assert (N1 : kept (a1 + W64 * t1 = a + 6033684446255071523 * m)) by (clear N0; drop_big; unfold kept in *; ar64);
  assert (Z : a1 = 0) by (eapply (low_zero a m hi a1 t1); [rng|exact N0|exact N1]); clear N0; done_with;
  mac2 i1 8215655796475036971 m; mac2 i2 18446744073709551615 m;
  let d0 := regi i3 in let e0 := regi i4 in let f0 := regi i5 in let t3 := regi R15 in
  do 7 ins;
  let b1 := regi i1 in let c1 := regi i2 in let d1 := regi i3 in let e1 := regi i4 in let f1 := regi i5 in
  assert (kept (d1 + W64 * (e1 + W64 * f1) = d0 + W64 * (e0 + W64 * f0) + t3 + 18446744069414584319 * m))
    by (drop_big; unfold kept in *; ar64);
  done_with;
  let E := fresh "E" in
  assert (E : big (W64 * v5 b1 c1 d1 e1 f1 = v6 a b c d e f + m * NN))
    by (drop_big; unfold big, kept, v5, v6, NN in *; clear HF; ar64);
  subst a1; drop_kept;
  let B := fresh "B" in
  match goal with HM : u64 m, HB : big (_ < x * W64 + NN) |- _ =>
    pose proof (red_doneN x _ m _ HM HB E) as B; apply bigi in B; clear HB end.
Ltac nextrowN y i0 i1 i2 i3 i4 i5 := match goal with H : big (?s < ?x + NN) |- _ => redstepN x s y i0 i1 i2 i3 i4 i5 end.

Section OrdMul.
Variables (h : heap) (al : nat -> Z) (r1 r2 r3 : nat) (o1 o2 o3 : Z) (x0 x1 x2 x3 y0 y1 y2 y3 : Z) (l1 l2 l3 l4 l5 l6 : val).
Variables (z0 z1 z2 z3 : Z).
Hypothesis (Hx : quad h r2 o2 x0 x1 x2 x3) (Hy : quad h r3 o3 y0 y1 y2 y3) (Hz : quad h r1 o1 z0 z1 z2 z3).
Hypothesis (X0 : u64 x0) (X1 : u64 x1) (X2 : u64 x2) (X3 : u64 x3) (Y0 : u64 y0) (Y1 : u64 y1) (Y2 : u64 y2) (Y3 : u64 y3).
Lemma OrdMul_spec : wp sm2OrdMul (res4 h r1 o1 (mont_mul NN NI (v4 x0 x1 x2 x3) (v4 y0 y1 y2 y3)))
  (init h al [Ptr r1 o1; l1; l2; Ptr r2 o2; l3; l4; Ptr r3 o3; l5; l6] 0).
Proof.
  destruct Hx as (Hx0 & Hx1 & Hx2 & Hx3). destruct Hy as (Hy0 & Hy1 & Hy2 & Hy3). destruct Hz as (Hz0 & Hz1 & Hz2 & Hz3). clear Hx Hy Hz.
  unfold sm2OrdMul, init. cbn [repeat].
  assert (HX : big (0 <= v4 x0 x1 x2 x3 < R256)) by (apply bigi, v4_range; assumption).
  do 4 ins.
  do 4 ins. let a := regi R8 in let b := regi R9 in note (a + W64 * b = x0 * y0). done_with.
  mac1 R9 R10 x1 y0. mac1 R10 R11 x2 y0. mac1 R11 R12 x3 y0. ins.
  let x := constr:(v4 x0 x1 x2 x3) in assert (big (0 < x + NN)) by (unfold big in *; change 0 with (0 + 0); apply Z.add_le_lt_mono; [apply HX|reflexivity]);
  redstepN x 0 y0 R8 R9 R10 R11 R12 R13. ins.
  mac1 R9 R15 x0 y1. mac2 R10 x1 y1. mac2 R11 x2 y1. maclast R12 R13 R8 x3 y1.
  nextrowN y1 R9 R10 R11 R12 R13 R8. ins.
  mac1 R10 R15 x0 y2. mac2 R11 x1 y2. mac2 R12 x2 y2. maclast R13 R8 R9 x3 y2.
  nextrowN y2 R10 R11 R12 R13 R8 R9. ins.
  mac1 R11 R15 x0 y3. mac2 R12 x1 y3. mac2 R13 x2 y3. maclast R8 R9 R10 x3 y3.
  nextrowN y3 R11 R12 R13 R8 R9 R10.
  match goal with HL : big (v5 ?a ?b ?c ?d ?e < _) |- _ =>
    assert (HT : big (v5 a b c d e = mont_t NN NI (v4 x0 x1 x2 x3) (v4 y0 y1 y2 y3)));
    [|assert (HU : big (v5 a b c d e < R256 + NN)) by (apply bigi; unfold big in *; lia); clear HL] end.
  { unfold big in *.
    match goal with E1 : W64 * ?s1 = ?t1 + ?m0 * NN, F1 : ?t1 = 0 + ?x * y0, E2 : W64 * ?s2 = ?t2 + ?m1 * NN, F2 : ?t2 = ?s1 + ?x * y1,
       E3 : W64 * ?s3 = ?t3 + ?m2 * NN, F3 : ?t3 = ?s2 + ?x * y2, E4 : W64 * ?s4 = ?t4 + ?m3 * NN, F4 : ?t4 = ?s3 + ?x * y3 |- _ =>
      rewrite F1, Z.add_0_l in E1; rewrite F2 in E2; rewrite F3 in E3; rewrite F4 in E4;
      apply (mont_t_unique NN NI _ _ (v4 m0 m1 m2 m3));
        [vm_compute; reflexivity | apply v4_range; assumption | apply (chain4 x y0 y1 y2 y3 m0 m1 m2 m3 NN s1 s2 s3 s4 E1 E2 E3 E4)] end. }
  repeat match goal with E : big (W64 * _ = _) |- _ => clear E | E : big (v6 _ _ _ _ _ _ = _) |- _ => clear E end. sweep.
  let a := regi R12 in let b := regi R13 in let c := regi R8 in let d := regi R9 in let e := regi R10 in
  do 9 ins;
  let a1 := regi R12 in let b1 := regi R13 in let c1 := regi R8 in let d1 := regi R9 in let e1 := regi R10 in let k := carry in
  assert (N : v5 a1 b1 c1 d1 e1 - W64 * W64 * W64 * W64 * W64 * k = v5 a b c d e - NN) by (drop_big; unfold v5, NN in *; ar64);
  do 4 ins;
  let ra := regi R12 in let rb := regi R13 in let rc := regi R8 in let rd := regi R9 in
  assert (F : v4 ra rb rc rd = once NN (v5 a b c d e))
    by (eapply (final_once NN a b c d e a1 b1 c1 d1 e1 k); first [rng | exact HU | exact N | eassumption | reflexivity | discriminate]);
  unfold big in HT; rewrite HT in F;
  do 4 ins; ins;
  exists ra, rb, rc, rd; repeat (split; [rng|]); split; [reflexivity|exact F].
Qed.
End OrdMul.
