(** * AsmAff: p256_sm2PointAddAffineAsm *)
From Coq Require Import ZArith List Bool Lia.
From Verif Require Import Base Curves P256 Spec_P256 P256Point P256Booth AsmX86 AsmSM2 Spec_Asm AsmFacts AsmMul AsmInt AsmMisc AsmRun AsmSel AsmOrd AsmVal AsmPoint.
Import ListNotations.
Open Scope Z_scope.
Local Opaque mont_mul asub aadd ahalf.

(** p256_asm_amd64.s:2234-2267 *)
Definition neg_code : list instr := [
  MOV (K 18446744073709551615) BX; MOV (K 18446744069414584320) CX; MOV (K 18446744073709551615) R8; MOV (K 18446744069414584319) R9;
  XOR (R AX) AX; SUB (R R10) BX; SBB (R R11) CX; SBB (R R12) R8; SBB (R R13) R9; SBB (K 0) AX;
  MOV (R BX) R14; MOV (R CX) R15; MOV (R R8) DI; MOV (R R9) SI;
  ADD (K 18446744073709551615) BX; ADC (K 18446744069414584320) CX; ADC (K 18446744073709551615) R8; ADC (K 18446744069414584319) R9; ADC (K 0) AX;
  CMOVNE R14 BX; CMOVNE R15 CX; CMOVNE DI R8; CMOVNE SI R9; TEST (R DX) DX; CMOVEQ R10 BX; CMOVEQ R11 CX; CMOVEQ R12 R8; CMOVEQ R13 R9].
Section Neg.
Variables (h : heap) (al : nat -> Z) (xm : list (option (Z * Z))) (fr ar : list val) (cf : option Z) (zf : option bool).
Variables (x0 x1 x2 x3 sign : Z) (j0 j1 j2 j3 j4 j5 j6 j7 j8 j13 j14 : val) (r : list instr) (Q : state -> Prop).
Hypothesis (HX : is64 x0 x1 x2 x3).
Lemma inl_neg :
  (forall a b c d k0 k3 k4 k5 k6 k9 k10 k11 k12 k13 k14 cf' zf', is64 a b c d ->
    [a; b; c; d] = (if sign =? 0 then [x0; x1; x2; x3] else words_of 4 (asub PP (lval [x0; x1; x2; x3]))) ->
    wp r Q (St [k0; I a; I b; k3; k4; k5; k6; I c; I d; k9; k10; k11; k12; k13; k14] xm cf' zf' h al fr ar)) ->
  wp (neg_code ++ r) Q (St [j0; j1; j2; I sign; j4; j5; j6; j7; j8; I x0; I x1; I x2; I x3; j13; j14] xm cf zf h al fr ar).
Proof.
  destruct HX as (X0 & X1 & X2 & X3). intros H. rewrite lval4 in H. apply wp_app. unfold neg_code.
  do 9 ins.
  let a := regi BX in let b := regi CX in let c := regi R8 in let d := regi R9 in let k := carry in
  assert (N1 : kept (v4 a b c d - R256 * k = PP - v4 x0 x1 x2 x3)) by (unfold kept, v4; change R256 with (W64 * W64 * W64 * W64); unfold PP; ar64).
  done_with. ins.
  match goal with H : ?a - W64 * ?k = 0 - 0 - _ |- _ => apply keep in H end.
  let a := regi BX in let b := regi CX in let c := regi R8 in let d := regi R9 in
  do 8 ins;
  let a2 := regi BX in let b2 := regi CX in let c2 := regi R8 in let d2 := regi R9 in let k := carry in
  assert (N2 : kept (v4 a2 b2 c2 d2 + R256 * k = v4 a b c d + PP)) by (unfold kept, v4; change R256 with (W64 * W64 * W64 * W64); unfold PP; ar64);
  done_with.
  ins.
  let r := regi AX in
  do 4 ins; 
  let a2 := regi BX in let b2 := regi CX in let c2 := regi R8 in let d2 := regi R9 in
  assert (E : v4 a2 b2 c2 d2 = asub (v4 18446744073709551615 18446744069414584320 18446744073709551615 18446744069414584319) (v4 x0 x1 x2 x3))
    by (unfold kept in *; match goal with N1 : v4 ?a ?b ?c ?d - R256 * ?k = _, N2 : v4 ?s0 ?s1 ?s2 ?s3 + R256 * ?k2 = _ |- _ =>
    transitivity (if r =? 0 then v4 s0 s1 s2 s3 else v4 a b c d);
    [subst; destruct (r =? 0); reflexivity
    |eapply (asub_sel _ _ _ _ _ _ _ _ _ k _ k2); [apply v4_range; rng|apply v4_range; rng|rng|rng| | | | |exact N1|eassumption|exact N2|eassumption]; rng] end).
  change (v4 18446744073709551615 18446744069414584320 18446744073709551615 18446744069414584319) with PP in E.
  match goal with |- wp _ _ (St [_; I ?a; I ?b; _; _; _; _; I ?c; I ?d; _; _; _; _; _; _] _ _ _ _ _ _ _) =>
    assert (F : [a; b; c; d] = words_of 4 (asub PP (v4 x0 x1 x2 x3))) by (apply words4; first [rng|exact E]) end.
  eapply wp_step; [reflexivity|]. vst. rewrite Z.land_diag. do 4 ins.
  apply wp_nil. apply H; [repeat (split; [rng|]); rng|]. subst. destruct (sign =? 0); [reflexivity|exact F].
Qed.
End Neg.
Section VInstr.
Variables (c : list instr) (Q : state -> Prop).
Variables (rg : list val) (xm : list (option (Z * Z))) (cf : option Z) (zf : option bool) (h : heap) (al : nat -> Z) (fr ar : list val).
Lemma wp_PANDN x y (m : bool) : nth x xm None = Some (mask true) -> nth y xm None = Some (mask m) ->
  wp c Q (St rg (upd xm y (Some (mask (negb m)))) cf zf h al fr ar) -> wp (PANDN x y :: c) Q (St rg xm cf zf h al fr ar).
Proof.
  intros Ex Ey H. eapply wp_step; [|exact H]. cbn [step]. unfold vec, rdx. cbn [AsmX86.xm]. rewrite Ex, Ey.
  unfold set_x. cbn [AsmX86.rg AsmX86.xm AsmX86.cf AsmX86.zf hp AsmX86.al AsmX86.fr AsmX86.ar]. do 4 f_equal. destruct m; reflexivity.
Qed.
End VInstr.
Ltac go2 := lazymatch goal with
  | |- wp (MOV (K _) BX :: MOV (K _) CX :: _) _ _ => inline inl_neg 28%nat neg_code; intros
  | |- wp (LD ?b ?off _ :: _) _ (St ?rg _ _ _ ?h _ _ _) =>
      let k := eval vm_compute in (off / 8) in let n := eval vm_compute in (Z.to_nat k) in
      match goal with H : holds ?h ?r ?o _ |- wp _ _ (St ?rg _ _ _ ?h _ _ _) => 
        eapply (wp_LD _ _ _ _ _ _ _ _ b off _ _ _ r o); [reflexivity|apply (holds_at _ _ _ _ k _ H); [cbn; lia|lia]|]; change (Z.to_nat k) with n; nrm; cbn [nth] end
  | |- wp (LDF32 _ _ :: _) _ _ => fail
  | |- _ => go1 end.

Ltac r64 := lazymatch goal with
  | F : is64 ?a _ _ _ |- u64 ?a => exact (proj1 F)
  | F : is64 _ ?a _ _ |- u64 ?a => exact (proj1 (proj2 F))
  | F : is64 _ _ ?a _ |- u64 ?a => exact (proj1 (proj2 (proj2 F)))
  | F : is64 _ _ _ ?a |- u64 ?a => exact (proj2 (proj2 (proj2 F)))
  | |- _ => apply u64_ok; reflexivity end.
Section Aff.
Variables (h : heap) (al : nat -> Z) (r1 r2 r3 : nat) (o1 o2 o3 : Z) (x0 x1 x2 x3 y0 y1 y2 y3 z0 z1 z2 z3 : Z) (l1 l2 l3 l4 l5 l6 : val).
Variables (u0 u1 u2 u3 v0 v1 v2 v3 sign sel zero : Z).
Hypothesis (HX : is64 x0 x1 x2 x3) (HY : is64 y0 y1 y2 y3) (HZ : is64 z0 z1 z2 z3) (HU : is64 u0 u1 u2 u3) (HV : is64 v0 v1 v2 v3).
Hypothesis (H : holds h r2 o2 [x0; x1; x2; x3; y0; y1; y2; y3; z0; z1; z2; z3]) (H' : holds h r3 o3 [u0; u1; u2; u3; v0; v1; v2; v3]) (Hr : room h r1 o1 12).
Lemma AddAffine_run : returns sm2PointAddAffineAsm sm2PointAddAffineAsm_frame h al
  [Ptr r1 o1; l1; l2; Ptr r2 o2; l3; l4; Ptr r3 o3; l5; l6; I sign; I sel; I zero] r1 o1
  (a_addaff asm_prims [x0; x1; x2; x3; y0; y1; y2; y3; z0; z1; z2; z3] [u0; u1; u2; u3; v0; v1; v2; v3] sign sel zero).
Proof.
  match goal with |- returns _ ?F _ _ ?A _ _ ?W => change (wpr sm2PointAddAffineAsm (fun st => writes h (hp st) r1 o1 W) (init h al A F)) end.
  unfold init, sm2PointAddAffineAsm, sm2PointAddAffineAsm_frame. cbn [repeat].
  do 23 go2.
  do 3 go2. change (492 mod 8 =? 0) with false. cbn [join].
  repeat go2.
  eapply wp_step; [reflexivity|]. unfold rdf. idx. vst.
  eapply wp_step; [reflexivity|]. unfold rdf. idx. vst.
  assert (Ms : 0 <= sel mod 2 ^ 32 < 2 ^ 32) by (apply Z.mod_pos_bound; reflexivity).
  assert (Mz : 0 <= zero mod 2 ^ 32 < 2 ^ 32) by (apply Z.mod_pos_bound; reflexivity).
  replace ((sel mod 2 ^ 32 + 2 ^ 32 * (zero mod 2 ^ 32)) mod 2 ^ 32) with (sel mod 2 ^ 32)
    by (apply (Z.mod_unique _ _ (zero mod 2 ^ 32)); [left; exact Ms|lia]).
  replace ((sel mod 2 ^ 32 + 2 ^ 32 * (zero mod 2 ^ 32)) / 2 ^ 32) with (zero mod 2 ^ 32)
    by (apply (Z.div_unique _ _ _ (sel mod 2 ^ 32)); [left; exact Ms|lia]).
  do 12 fdet.
  rewrite !(Z.mod_mod _ (2 ^ 32)) by discriminate.
  eapply (wp_PCMPEQL _ _ _ _ _ _ _ _ _ _ 8 6 0 (sel mod 2 ^ 32)); [reflexivity|reflexivity|reflexivity|lia|exact Ms|]. nrm.
  eapply (wp_PCMPEQL _ _ _ _ _ _ _ _ _ _ 8 7 0 (zero mod 2 ^ 32)); [reflexivity|reflexivity|reflexivity|lia|exact Mz|]. nrm.
  fdet.
  eapply wp_PANDN; [reflexivity|reflexivity|]. nrm.
  do 6 fdet.
  cbn [a_addaff asm_prims]. rewrite (Z.eqb_sym 0 (sel mod 2 ^ 32)), (Z.eqb_sym 0 (zero mod 2 ^ 32)).
  destruct (sel mod 2 ^ 32 =? 0), (zero mod 2 ^ 32 =? 0); cbn [negb].
  all: do 12 (eapply wp_PAND; [reflexivity|reflexivity|r64|r64|]; cbv iota; nrm).
  all: do 6 (eapply wp_PXOR; [reflexivity|reflexivity|reflexivity|]; nrm); rewrite ?Z.lxor_0_r, ?Z.lxor_0_l.
  all: fdet; fdet; (eapply wp_PANDN; [reflexivity|reflexivity|]); nrm; cbn [negb]; do 6 fdet.
  all: do 12 (eapply wp_PAND; [reflexivity|reflexivity|r64|r64|]; cbv iota; nrm).
  all: do 6 (eapply wp_PXOR; [reflexivity|reflexivity|reflexivity|]; nrm); rewrite ?Z.lxor_0_r, ?Z.lxor_0_l.
  all: do 6 xsto; fdet; apply wp_nil, wpr_nil; cbn [hp].
  all: unfold sub; cbn [firstn skipn]; refold; unfold addaff_f; cbv zeta; refold.
  all: match goal with |- writes _ ?H _ _ ?W => replace H with (puts h r1 o1 W); [apply puts_writes|] end.
  all: unfold one_mont; cbn [app puts]; repeat (f_equal; try lia).
Qed.
End Aff.
