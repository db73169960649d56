(** * Prop_OrdSqr: C64, the first part of p256_sm2OrdSqr (/repo/sm2/p256_asm_amd64.s:1463-1698)

    C64_ord_sqr_wrong shows that the routine does not compute squares modulo the group order.  The part of its
    loop before the reduction is right: it leaves the square of the operand in eight registers.  The fault is in the reduction. *)
From Coq Require Import ZArith List Bool Lia.
From Verif Require Import Spec_P256 AsmX86 AsmSM2 AsmFacts AsmMul AsmInt Spec_Asm AsmLink.
Import ListNotations.
Open Scope Z_scope.

(** the function up to the first reduction round: three loads of arguments and the first 64 instructions of the loop *)
Definition head : list instr := [LDA 0 DI; LDA 24 SI; LDA 48 BX] ++ firstn 64 sm2OrdSqr_body.
Lemma head_of : firstn 3 sm2OrdSqr ++ fn (firstn 64 sm2OrdSqr_body) = fn head /\ nth_error sm2OrdSqr 3 = Some (Loop sm2OrdSqr_body).
Proof. split; reflexivity. Qed.

Section Head.
Variables (h : heap) (al : nat -> Z) (r1 r2 : nat) (o1 o2 : Z) (x0 x1 x2 x3 n : Z) (l1 l2 l3 l4 : val).
Hypothesis (Hx : quad h r2 o2 x0 x1 x2 x3).
Hypothesis (X0 : u64 x0) (X1 : u64 x1) (X2 : u64 x2) (X3 : u64 x3).
Lemma Head_spec : wp head (fun st => exists a b c d e f g k, u64 a /\ u64 b /\ u64 c /\ u64 d /\ u64 e /\ u64 f /\ u64 g /\ u64 k /\
    map (rdi st) [R8; R9; R10; R11; R12; R13; CX; SI] = map Some [a; b; c; d; e; f; g; k] /\ rd st DI = Ptr r1 o1 /\ hp st = h /\
    v4 a b c d + R256 * v4 e f g k = v4 x0 x1 x2 x3 * v4 x0 x1 x2 x3)
  (init h al [Ptr r1 o1; l1; l2; Ptr r2 o2; l3; l4; I n] 0).
Proof.
  destruct Hx as (Hx0 & Hx1 & Hx2 & Hx3). clear Hx.
  unfold head, sm2OrdSqr_body, init. cbn [repeat firstn app].
  do 4 ins.
  do 4 ins. let a := regi R9 in let b := regi R10 in note (a + W64 * b = x0 * x1). done_with.
  mac1 R10 R11 x0 x2. mac1 R11 R12 x0 x3. ins. mac1 R11 R15 x1 x2. mac2t R15 R12 R13 x1 x3. ins. mac1 R13 CX x2 x3.
  sqsum R14 R8 R9 R10 R11 R12 R13 CX R15 x0 x1 x2 x3. ins.
  let a := regi R8 in let b := regi R9 in let c := regi R10 in let d := regi R11 in
  let e := regi R12 in let f := regi R13 in let g := regi CX in let k := regi SI in
  apply wp_nil; exists a, b, c, d, e, f, g, k.
  repeat (split; [rng|]). split; [reflexivity|]. split; [reflexivity|]. split; [reflexivity|]. unfold big in *. assumption.
Qed.
End Head.

Lemma run_do : forall c st, run (fn c) st = exec c st.
Proof. induction c as [|i c IH]; intros st; [reflexivity|]. cbn [fn map run step_item exec]. destruct (step i st); [apply IH|reflexivity]. Qed.

Theorem C64_ord_sqr_square : forall h al r1 r2 o1 o2 l1 l2 l3 l4 n x, is_words 4 x -> holds h r2 o2 x ->
  exists st w, run (firstn 3 sm2OrdSqr ++ fn (firstn 64 sm2OrdSqr_body)) (init h al (slice r1 o1 l1 l2 ++ slice r2 o2 l3 l4 ++ [I n]) 0) = Some st /\
    map (rdi st) [R8; R9; R10; R11; R12; R13; CX; SI] = map Some w /\ is_words 8 w /\ lval w = lval x * lval x /\
    rd st DI = Ptr r1 o1 /\ hp st = h.
Proof.
  intros h al r1 r2 o1 o2 l1 l2 l3 l4 n x Wx Hx. destruct (quads _ _ _ _ Wx Hx) as (x0 & x1 & x2 & x3 & -> & (X0 & X1 & X2 & X3) & Qx).
  pose proof (Head_spec h al r1 r2 o1 o2 x0 x1 x2 x3 n l1 l2 l3 l4 Qx X0 X1 X2 X3) as S0.
  rewrite (proj1 head_of), run_do. change (slice r1 o1 l1 l2 ++ slice r2 o2 l3 l4 ++ [I n]) with [Ptr r1 o1; l1; l2; Ptr r2 o2; l3; l4; I n].
  destruct S0 as (st & R0 & a & b & c & d & e & f & g & k & A & B & C & D & E & F & G & K & M & P & Hh & V).
  exists st, [a; b; c; d; e; f; g; k]. split; [exact R0|]. split; [exact M|]. split.
  - split; [reflexivity|]. change (2 ^ 64) with W64. repeat constructor; (apply A || apply B || apply C || apply D || apply E || apply F || apply G || apply K).
  - split; [|split; assumption]. cbn [lval]. change (2 ^ 64) with W64. unfold v4 in V. change R256 with (W64 * W64 * W64 * W64) in V.
    rewrite !Z.mul_0_r, !Z.add_0_r. rewrite <- V. ring.
Qed.
Print Assumptions C64_ord_sqr_square.

(** the largest operand: every product carries *)
Example C64_ord_sqr_square_example : let x := repeat (2 ^ 64 - 1) 4 in
  is_words 4 x /\ exists h, holds h 1 0 x /\ match run (firstn 3 sm2OrdSqr ++ fn (firstn 64 sm2OrdSqr_body)) (init h (fun _ => 0) (slice 0 0 (I 4) (I 4) ++ slice 1 0 (I 4) (I 4) ++ [I 1]) 0) with
    | Some st => map (rdi st) [R8; R9; R10; R11; R12; R13; CX; SI] = map Some [1; 0; 0; 0; 2 ^ 64 - 2; 2 ^ 64 - 1; 2 ^ 64 - 1; 2 ^ 64 - 1]
    | None => False end.
Proof.
  cbv zeta. split; [split; [reflexivity|repeat constructor; lia]|]. exists (fun _ _ => Some (2 ^ 64 - 1)). split; [|vm_compute; reflexivity].
  intros i Hi. destruct i as [|[|[|[|i]]]]; [reflexivity..|cbn in Hi; lia].
Qed.
