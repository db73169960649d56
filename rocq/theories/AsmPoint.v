(** * AsmPoint: the point routines of p256_asm_amd64.s run the formulas of P256Point on [asm_fops] *)
From Coq Require Import ZArith List Bool Lia.
From Verif Require Import Base Curves P256 Spec_P256 P256Point P256Booth AsmX86 AsmSM2 Spec_Asm AsmFacts AsmMul AsmInt AsmMisc AsmRun AsmSel AsmOrd AsmVal.
Import ListNotations.
Open Scope Z_scope.
Local Opaque mont_mul asub aadd ahalf.

Definition is64 (a b c d : Z) : Prop := u64 a /\ u64 b /\ u64 c /\ u64 d.
Section Calls.
Variables (h : heap) (al : nat -> Z) (xm : list (option (Z * Z))) (fr ar : list val) (cf : option Z) (zf : option bool).
Variables (x0 x1 x2 x3 y0 y1 y2 y3 : Z) (j0 j1 j2 j3 j4 j5 j6 j7 j8 j13 j14 : val) (rest : list item) (Q : state -> Prop).
Variables (r : list instr).
Hypothesis (X : is64 x0 x1 x2 x3) (Y : is64 y0 y1 y2 y3).
Lemma call_mul :
  (forall a b c d k0 k1 k2 k3 k6 k7 k8 cf' zf', is64 a b c d -> [a; b; c; d] = f_mul asm_fops [x0; x1; x2; x3] [y0; y1; y2; y3] ->
    wpr rest Q (St [k0; k1; k2; k3; I y3; I y2; k6; k7; k8; I a; I b; I c; I d; I y0; I y1] xm cf' zf' h al fr ar)) ->
  wpr (Call sm2MulInternal :: rest) Q (St [j0; j1; j2; j3; I y3; I y2; j6; j7; j8; I x0; I x1; I x2; I x3; I y0; I y1] xm cf zf h al fr ar).
Proof.
  destruct X as (X0 & X1 & X2 & X3). destruct Y as (Y0 & Y1 & Y2 & Y3). intros H. apply wpr_call. eapply wp_mono; [|apply MulInternal_spec; assumption].
  intros s (a & b & c & d & k0 & k1 & k2 & k3 & k6 & k7 & k8 & cf' & zf' & -> & Ha & Hb & Hc & Hd & E).
  apply H; [exact (conj Ha (conj Hb (conj Hc Hd)))|]. cbn [f_mul asm_fops]. rewrite !lval4. apply words4; assumption.
Qed.
Lemma call_sqr :
  (forall a b c d k0 k1 k2 k3 k4 k5 k6 k7 k8 k13 k14 cf' zf', is64 a b c d -> [a; b; c; d] = f_sqr asm_fops [x0; x1; x2; x3] ->
    wpr rest Q (St [k0; k1; k2; k3; k4; k5; k6; k7; k8; I a; I b; I c; I d; k13; k14] xm cf' zf' h al fr ar)) ->
  wpr (Call sm2SqrInternal :: rest) Q (St [j0; j1; j2; j3; j4; j5; j6; j7; j8; I x0; I x1; I x2; I x3; j13; j14] xm cf zf h al fr ar).
Proof.
  destruct X as (X0 & X1 & X2 & X3). intros H. apply wpr_call. eapply wp_mono; [|apply SqrInternal_spec; assumption].
  intros s (k4 & k5 & k13 & k14 & a & b & c & d & k0 & k1 & k2 & k3 & k6 & k7 & k8 & cf' & zf' & -> & Ha & Hb & Hc & Hd & E).
  apply H; [exact (conj Ha (conj Hb (conj Hc Hd)))|]. cbn [f_sqr asm_fops]. rewrite !lval4. apply words4; assumption.
Qed.
Lemma call_sub :
  (forall a b c d k0 k1 k2 k3 k6 k7 k8 cf' zf', is64 a b c d -> [a; b; c; d] = f_sub asm_fops [x0; x1; x2; x3] [y0; y1; y2; y3] ->
    wpr rest Q (St [k0; k1; k2; k3; I y3; I y2; k6; k7; k8; I a; I b; I c; I d; I y0; I y1] xm cf' zf' h al fr ar)) ->
  wpr (Call sm2SubInternal :: rest) Q (St [j0; j1; j2; j3; I y3; I y2; j6; j7; j8; I x0; I x1; I x2; I x3; I y0; I y1] xm cf zf h al fr ar).
Proof.
  destruct X as (X0 & X1 & X2 & X3). destruct Y as (Y0 & Y1 & Y2 & Y3). intros H. apply wpr_call. eapply wp_mono; [|apply SubInternal_spec; assumption].
  intros s (a & b & c & d & k0 & k1 & k2 & k3 & k6 & k7 & k8 & cf' & zf' & -> & Ha & Hb & Hc & Hd & E).
  apply H; [exact (conj Ha (conj Hb (conj Hc Hd)))|]. cbn [f_sub asm_fops]. rewrite !lval4. apply words4; assumption.
Qed.
Lemma inl_add :
  (forall a b c d k0 k1 k2 k3 k6 k7 k8 k9 k10 k11 k12 cf' zf', is64 a b c d -> [a; b; c; d] = f_add asm_fops [x0; x1; x2; x3] [y0; y1; y2; y3] ->
    wp r Q (St [k0; k1; k2; k3; I d; I c; k6; k7; k8; k9; k10; k11; k12; I a; I b] xm cf' zf' h al fr ar)) ->
  wp (add_code ++ r) Q (St [j0; j1; j2; j3; I y3; I y2; j6; j7; j8; I x0; I x1; I x2; I x3; I y0; I y1] xm cf zf h al fr ar).
Proof.
  destruct X as (X0 & X1 & X2 & X3). destruct Y as (Y0 & Y1 & Y2 & Y3). intros H. apply wp_app. eapply wp_mono; [|apply add_spec; assumption].
  intros s (a & b & c & d & k0 & k1 & k2 & k3 & k6 & k7 & k8 & k9 & k10 & k11 & k12 & cf' & zf' & -> & Ha & Hb & Hc & Hd & E).
  apply H; [exact (conj Ha (conj Hb (conj Hc Hd)))|]. cbn [f_add asm_fops]. rewrite !lval4. apply words4; assumption.
Qed.
Lemma inl_dbl :
  (forall a b c d k0 k1 k2 k3 k6 k7 k8 k9 k10 k11 k12 cf' zf', is64 a b c d -> [a; b; c; d] = f_dbl asm_fops [x0; x1; x2; x3] ->
    wp r Q (St [k0; k1; k2; k3; I d; I c; k6; k7; k8; k9; k10; k11; k12; I a; I b] xm cf' zf' h al fr ar)) ->
  wp (dbl_code ++ r) Q (St [j0; j1; j2; j3; j4; j5; j6; j7; j8; I x0; I x1; I x2; I x3; j13; j14] xm cf zf h al fr ar).
Proof.
  destruct X as (X0 & X1 & X2 & X3). intros H. apply wp_app. eapply wp_mono; [|apply dbl_spec; assumption].
  intros s (a & b & c & d & k0 & k1 & k2 & k3 & k6 & k7 & k8 & k9 & k10 & k11 & k12 & cf' & zf' & -> & Ha & Hb & Hc & Hd & E).
  apply H; [exact (conj Ha (conj Hb (conj Hc Hd)))|]. cbn [f_dbl asm_fops]. rewrite !lval4. apply words4; assumption.
Qed.
Lemma inl_half :
  (forall a b c d k0 k1 k2 k3 k6 k7 k8 cf' zf', is64 a b c d -> [a; b; c; d] = f_half asm_fops [x0; x1; x2; x3] ->
    wp r Q (St [k0; k1; k2; k3; I x3; I x2; k6; k7; k8; I a; I b; I c; I d; I x0; I x1] xm cf' zf' h al fr ar)) ->
  wp (half_code ++ r) Q (St [j0; j1; j2; j3; j4; j5; j6; j7; j8; I x0; I x1; I x2; I x3; j13; j14] xm cf zf h al fr ar).
Proof.
  destruct X as (X0 & X1 & X2 & X3). intros H. apply wp_app. eapply wp_mono; [|apply half_spec; assumption].
  intros s (a & b & c & d & k0 & k1 & k2 & k3 & k6 & k7 & k8 & cf' & zf' & -> & Ha & Hb & Hc & Hd & E).
  apply H; [exact (conj Ha (conj Hb (conj Hc Hd)))|]. cbn [f_half asm_fops]. rewrite !lval4. apply words4; assumption.
Qed.
End Calls.

Lemma wp_STO2 c Q rg xm cf zf h al fr ar s b off r o v n k : nth b rg U = Ptr r o -> nth s rg U = I v ->
  room h r o n -> off = 8 * k -> 0 <= k < Z.of_nat n ->
  (room (store h r (o + off) v) r o n -> wp c Q (St rg xm cf zf (store h r (o + off) v) al fr ar)) -> wp (STO s b off :: c) Q (St rg xm cf zf h al fr ar).
Proof.
  intros Eb Es Hr Ho Hk H. destruct (room_at h r o n k off Hr ltac:(lia) Ho) as [y E].
  eapply wp_STO; [exact Eb|exact Es|exact E|]. apply H, room_store, Hr.
Qed.

Ltac idx := repeat match goal with |- context [fidx ?o] => let n := eval vm_compute in (fidx o) in change (fidx o) with n end.
Ltac fdet := eapply wp_step; [reflexivity|]; unfold wrf, set_fr, rdf; idx; vst.
Ltac ldk k H := let n := eval vm_compute in (Z.to_nat k) in let k' := eval vm_compute in (k + 1) in let n' := eval vm_compute in (Z.to_nat k') in
  eapply wp_XLD; [reflexivity|apply (holds_at _ _ _ _ k _ H); [cbn; lia|lia]|rewrite <- Z.add_assoc; apply (holds_at _ _ _ _ k' _ H); [cbn; lia|lia]|];
  change (Z.to_nat k) with n; change (Z.to_nat k') with n'; nrm; cbn [nth].
Ltac xld := match goal with
  | H : holds ?h ?r ?o _ |- wp (XLD ?b ?off _ :: _) _ (St ?rg _ _ _ ?h _ _ _) =>
    let p := eval cbn in (nth b rg U) in match p with Ptr r o => let k := eval vm_compute in (off / 8) in ldk k H end end.
Ltac sto := match goal with R : room ?h ?r ?o _ |- wp (STO _ _ ?off :: _) _ (St _ _ _ _ ?h _ _ _) =>
  let k := eval vm_compute in (off / 8) in
  eapply (wp_STO2 _ _ _ _ _ _ _ _ _ _ _ _ _ _ _ _ _ k); [reflexivity|reflexivity|exact R|lia|cbn; lia|]; clear R; intros R; nrm end.
Ltac xsto := match goal with R : room ?h ?r ?o _ |- wp (XST _ _ ?off :: _) _ (St _ _ _ _ ?h _ _ _) =>
  let k := eval vm_compute in (off / 8) in xst2 k end.
Ltac inline L n C := lazymatch goal with |- wp ?l _ _ => let r := eval cbn [skipn] in (skipn n l) in change l with (C ++ r); apply L; [eassumption ..|] end.
Ltac go1 := lazymatch goal with
  | |- wp [] _ _ => apply wp_nil
  | |- wpr [] _ _ => apply wpr_nil
  | |- wpr (Do _ :: _) _ _ => blk
  | |- wpr (Call sm2MulInternal :: _) _ _ => apply call_mul; [eassumption|eassumption|]; intros
  | |- wpr (Call sm2SqrInternal :: _) _ _ => apply call_sqr; [eassumption|]; intros
  | |- wpr (Call sm2SubInternal :: _) _ _ => apply call_sub; [eassumption|eassumption|]; intros
  | |- wp (XOR (R AX) AX :: ADD (R R10) R10 :: _) _ _ => inline inl_dbl 19%nat dbl_code; intros
  | |- wp (XOR (R AX) AX :: ADD (R R14) R10 :: _) _ _ => inline inl_add 19%nat add_code; intros
  | |- wp (XOR (R AX) AX :: MOV (R R10) R14 :: _) _ _ => inline inl_half 20%nat half_code; intros
  | |- wp (XLD _ _ _ :: _) _ _ => xld
  | |- wp (STO _ _ _ :: _) _ _ => sto
  | |- wp (XST _ _ _ :: _) _ _ => xsto
  | |- wp (_ :: _) _ _ => fdet
  end.

(** fold the results of the calls into the formula *)
Ltac refold := repeat match goal with E : [_; _; _; _] = ?e |- context [?e] => rewrite <- E end.
(** twelve stores in any order *)
Lemma ne_add (o a b : Z) : a <> b -> o + a <> o + b. Proof. lia. Qed.
Ltac lookup := repeat (first [rewrite store_same | rewrite store_other by (right; apply ne_add; discriminate)]).
Ltac twelve := cbn [app]; split;
  [ intros i Hi; do 12 (destruct i as [|i]; [clear; cbn [nth Z.of_nat Pos.of_succ_nat Pos.succ Z.mul Pos.mul Pos.add]; lookup; reflexivity|]); cbn in Hi; lia
  | intros r' o' Ho; rewrite !store_other; [reflexivity|..];
    (destruct Ho as [Ho|Ho]; [left; exact Ho|right;
      lazymatch goal with |- ?o' <> ?o + ?k => let n := eval vm_compute in (Z.to_nat (k / 8)) in apply (Ho n); cbn; lia end]) ].

Section Double.
Variables (h : heap) (al : nat -> Z) (r1 r2 : nat) (o1 o2 : Z) (x0 x1 x2 x3 y0 y1 y2 y3 z0 z1 z2 z3 : Z) (l1 l2 l3 l4 : val).
Hypothesis (HX : is64 x0 x1 x2 x3) (HY : is64 y0 y1 y2 y3) (HZ : is64 z0 z1 z2 z3).
Hypothesis (H : holds h r2 o2 [x0; x1; x2; x3; y0; y1; y2; y3; z0; z1; z2; z3]) (Hr : room h r1 o1 12).
Lemma Double_run : returns sm2PointDoubleAsm sm2PointDoubleAsm_frame h al [Ptr r1 o1; l1; l2; Ptr r2 o2; l3; l4] r1 o1
  (dbl_f asm_fops [x0; x1; x2; x3] [y0; y1; y2; y3] [z0; z1; z2; z3]).
Proof.
  match goal with |- returns _ ?F _ _ ?A _ _ ?W => change (wpr sm2PointDoubleAsm (fun st => writes h (hp st) r1 o1 W) (init h al A F)) end.
  unfold init, sm2PointDoubleAsm, sm2PointDoubleAsm_frame. cbn [repeat].
  repeat go1. cbn [hp]. unfold dbl_f. cbv zeta. refold. twelve.
Qed.
End Double.

Section Add.
Variables (h : heap) (al : nat -> Z) (r1 r2 r3 : nat) (o1 o2 o3 : Z) (x0 x1 x2 x3 y0 y1 y2 y3 z0 z1 z2 z3 : Z) (l1 l2 l3 l4 l5 l6 : val).
Variables (u0 u1 u2 u3 v0 v1 v2 v3 w0 w1 w2 w3 : Z).
Hypothesis (HX : is64 x0 x1 x2 x3) (HY : is64 y0 y1 y2 y3) (HZ : is64 z0 z1 z2 z3) (HU : is64 u0 u1 u2 u3) (HV : is64 v0 v1 v2 v3) (HW : is64 w0 w1 w2 w3).
Hypothesis (H : holds h r2 o2 [x0; x1; x2; x3; y0; y1; y2; y3; z0; z1; z2; z3]) (H' : holds h r3 o3 [u0; u1; u2; u3; v0; v1; v2; v3; w0; w1; w2; w3]) (Hr : room h r1 o1 12).
Lemma Add_run : returns sm2PointAddAsm sm2PointAddAsm_frame h al [Ptr r1 o1; l1; l2; Ptr r2 o2; l3; l4; Ptr r3 o3; l5; l6] r1 o1
  (add_f asm_fops [x0; x1; x2; x3] [y0; y1; y2; y3] [z0; z1; z2; z3] [u0; u1; u2; u3] [v0; v1; v2; v3] [w0; w1; w2; w3]).
Proof.
  match goal with |- returns _ ?F _ _ ?A _ _ ?W => change (wpr sm2PointAddAsm (fun st => writes h (hp st) r1 o1 W) (init h al A F)) end.
  unfold init, sm2PointAddAsm, sm2PointAddAsm_frame. cbn [repeat].
  repeat go1. cbn [hp]. unfold add_f. cbv zeta. refold.
  match goal with |- writes _ ?H _ _ ?W => replace H with (puts h r1 o1 W); [apply puts_writes|] end.
  cbn [app puts]. repeat (f_equal; try lia).
Qed.
End Add.
