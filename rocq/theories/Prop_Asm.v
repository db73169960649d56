(** * Prop_Asm: C64, the assembly arithmetic of sm2/p256_asm_amd64.s

    The first group of theorems runs the instructions: for every memory, every four-word operands and every
    overlap of result and operands the function ends without a fault, writes its result and nothing else.
    The second group says what the results are. *)
From Coq Require Import ZArith Znumtheory Zpow_facts String List Bool Lia.
From Verif Require Import Base BaseFacts Curves P256 Spec_P256 P256Booth P256Inv Prop_P256b P256Point AsmX86 AsmSM2 AsmFacts AsmMul AsmInt AsmOrd AsmMisc Spec_Asm AsmRun AsmSel AsmVal AsmPoint AsmAff AsmLink AsmEq.
Import ListNotations.
Open Scope Z_scope.

(** ** Field and scalar multiplication *)
Theorem C64_mul : forall h al r1 r2 r3 o1 o2 o3 l1 l2 l3 l4 l5 l6 x y, is_words 4 x -> is_words 4 y ->
  holds h r2 o2 x -> holds h r3 o3 y -> room h r1 o1 4 ->
  exists w, returns (fn sm2Mul) 0 h al (slice r1 o1 l1 l2 ++ slice r2 o2 l3 l4 ++ slice r3 o3 l5 l6) r1 o1 w /\
    is_words 4 w /\ (lval w * 2 ^ 256) mod cP = (lval x * lval y) mod cP /\ (lval x <= cP \/ lval y <= cP -> lval w < cP).
Proof.
  intros h al r1 r2 r3 o1 o2 o3 l1 l2 l3 l4 l5 l6 x y Wx Wy Hx Hy Hr. exists (a_mul asm_prims x y). split; [apply mul_run; assumption|].
  cbn [a_mul asm_prims f_mul asm_fops]. destruct (mont_mul_ok PP PI _ _ PP_range PP_inv (lval_R x Wx) (lval_R y Wy)) as (B & E & L).
  split; [apply words_of_ok|]. rewrite lval_words by exact B. split; [exact E|exact L].
Qed.
Print Assumptions C64_mul.
Theorem C64_sqr : forall h al r1 r2 o1 o2 l1 l2 l3 l4 x, is_words 4 x -> holds h r2 o2 x -> room h r1 o1 4 ->
  exists w, returns (fn sm2Sqr) 0 h al (slice r1 o1 l1 l2 ++ slice r2 o2 l3 l4) r1 o1 w /\
    is_words 4 w /\ (lval w * 2 ^ 256) mod cP = (lval x * lval x) mod cP /\ (lval x <= cP -> lval w < cP).
Proof.
  intros h al r1 r2 o1 o2 l1 l2 l3 l4 x Wx Hx Hr. exists (a_sqr asm_prims x). split; [apply sqr_run; assumption|].
  cbn [a_sqr asm_prims f_sqr asm_fops]. destruct (mont_mul_ok PP PI _ _ PP_range PP_inv (lval_R x Wx) (lval_R x Wx)) as (B & E & L).
  split; [apply words_of_ok|]. rewrite lval_words by exact B. split; [exact E|]. intros H. apply L. left. exact H.
Qed.
Print Assumptions C64_sqr.
Theorem C64_from_mont : forall h al r1 r2 o1 o2 l1 l2 l3 l4 x, is_words 4 x -> holds h r2 o2 x -> room h r1 o1 4 ->
  exists w, returns (fn sm2FromMont) 0 h al (slice r1 o1 l1 l2 ++ slice r2 o2 l3 l4) r1 o1 w /\
    is_words 4 w /\ lval w < cP /\ (lval w * 2 ^ 256) mod cP = lval x mod cP.
Proof.
  intros h al r1 r2 o1 o2 l1 l2 l3 l4 x Wx Hx Hr. exists (a_from asm_prims x). split; [apply from_run; assumption|]. apply asm_from_ok, Wx.
Qed.
Print Assumptions C64_from_mont.
Theorem C64_ord_mul : forall h al r1 r2 r3 o1 o2 o3 l1 l2 l3 l4 l5 l6 x y, is_words 4 x -> is_words 4 y ->
  holds h r2 o2 x -> holds h r3 o3 y -> room h r1 o1 4 ->
  exists w, returns (fn sm2OrdMul) 0 h al (slice r1 o1 l1 l2 ++ slice r2 o2 l3 l4 ++ slice r3 o3 l5 l6) r1 o1 w /\
    is_words 4 w /\ (lval w * 2 ^ 256) mod cN = (lval x * lval y) mod cN /\ (lval x <= cN \/ lval y <= cN -> lval w < cN).
Proof.
  intros h al r1 r2 r3 o1 o2 o3 l1 l2 l3 l4 l5 l6 x y Wx Wy Hx Hy Hr. exists (a_ordmul asm_prims x y). split; [apply ordmul_run; assumption|].
  cbn [a_ordmul asm_prims]. destruct (mont_mul_ok NN NI _ _ NN_range NN_inv (lval_R x Wx) (lval_R y Wy)) as (B & E & L).
  split; [apply words_of_ok|]. rewrite lval_words by exact B. split; [exact E|exact L].
Qed.
Print Assumptions C64_ord_mul.
(** ** Negation: right up to p, wrong above; 0 becomes p *)
Theorem C64_neg : forall h al r o l1 l2 x cond, is_words 4 x -> holds h r o x ->
  exists w, returns (fn sm2NegCond) 0 h al (slice r o l1 l2 ++ [I cond]) r o w /\ is_words 4 w /\
    (cond = 0 -> w = x) /\
    (cond <> 0 -> lval x <= cP -> lval w = cP - lval x) /\
    (cond <> 0 -> cP < lval x -> lval w = 2 ^ 256 + cP - lval x /\ ~ (cP | lval w + lval x)).
Proof.
  intros h al r o l1 l2 x cond Wx Hx. exists (a_neg asm_prims x cond). split; [apply neg_run; assumption|].
  destruct (Z.eq_dec cond 0) as [->|C].
  - rewrite asm_neg0. split; [exact Wx|]. repeat split; try tauto; congruence.
  - destruct (asm_neg_ok x cond Wx C) as [W E]. split; [exact W|]. rewrite E. split; [contradiction|]. split.
    + intros _ L. destruct (Z.leb_spec (lval x) cP); [reflexivity|lia].
    + intros _ L. destruct (Z.leb_spec (lval x) cP); [lia|]. split; [reflexivity|]. replace (2 ^ 256 + cP - lval x + lval x) with (2 ^ 256 + cP) by ring.
      intros D. apply (not_small (R256 - PP)); [split; reflexivity|]. replace (R256 - PP) with (2 ^ 256 + cP - 2 * cP) by reflexivity.
      apply Z.divide_sub_r; [exact D|]. exists 2. reflexivity.
Qed.
Print Assumptions C64_neg.
(** ** Selection: constant loops over the tables, entry 0 being zeros *)
Theorem C64_select : forall h al r1 r2 o1 o2 l1 l2 l3 l4 T idx, is_words 192 T -> holds h r2 o2 T -> room h r1 o1 12 -> 0 <= idx <= 16 ->
  returns sm2Select 0 h al (slice r1 o1 l1 l2 ++ slice r2 o2 l3 l4 ++ [I idx]) r1 o1
    (if idx =? 0 then repeat 0 12 else sub T (12 * (Z.to_nat idx - 1)) 12).
Proof. intros. rewrite <- asm_select_ok by assumption. apply select_run; assumption. Qed.
Print Assumptions C64_select.
Theorem C64_select_base : forall h al r1 r2 o1 o2 l1 l2 l3 l4 T idx, is_words 512 T -> holds h r2 o2 T -> room h r1 o1 8 -> 0 <= idx <= 64 ->
  returns sm2SelectBase 0 h al (slice r1 o1 l1 l2 ++ slice r2 o2 l3 l4 ++ [I idx]) r1 o1
    (if idx =? 0 then repeat 0 8 else sub T (8 * (Z.to_nat idx - 1)) 8).
Proof. intros. rewrite <- asm_selbase_ok by assumption. apply selbase_run; assumption. Qed.
Print Assumptions C64_select_base.
(** the first operand must lie at an address divisible by 16; bits 32 to 63 of the condition are ignored *)
Theorem C64_mov : forall h al r1 r2 r3 o1 o2 o3 l1 l2 l3 l4 l5 l6 a b cond, is_words 12 a -> is_words 12 b ->
  holds h r2 o2 a -> holds h r3 o3 b -> room h r1 o1 12 -> (al r2 + o2) mod 16 = 0 ->
  returns (fn sm2MovCond) 0 h al (slice r1 o1 l1 l2 ++ slice r2 o2 l3 l4 ++ slice r3 o3 l5 l6 ++ [I cond]) r1 o1
    (if cond mod 2 ^ 32 =? 0 then b else a).
Proof. intros. apply (mov_run h al r1 r2 r3 o1 o2 o3 l1 l2 l3 l4 l5 l6 a b cond); assumption. Qed.
Print Assumptions C64_mov.
(** ** Byte order *)
Theorem C64_little_to_big : forall h al r1 r2 o1 o2 l1 l2 l3 l4 x, is_words 4 x -> holds h r2 o2 x -> room h r1 o1 4 ->
  exists w, returns (fn sm2LittleToBig) 0 h al (slice r1 o1 l1 l2 ++ slice r2 o2 l3 l4) r1 o1 w /\
    flat_map (le_bytes 8) w = to_be 32 (lval x).
Proof.
  intros h al r1 r2 o1 o2 l1 l2 l3 l4 x Wx Hx Hr. destruct (l2b_run h al r1 r2 o1 o2 l1 l2 l3 l4 x Wx Hx Hr) as (w & H & E).
  exists w. split; [exact H|]. rewrite E. apply asm_l2b_ok, Wx.
Qed.
Print Assumptions C64_little_to_big.
(** the other direction, which Go declares and does not call: the words whose value the bytes spell *)
Lemma bswap_u64 w : u64 (bswap w).
Proof.
  unfold u64, bswap. cbv zeta. change (2 ^ 8) with 256. change (2 ^ 16) with 65536. change (2 ^ 24) with 16777216. change (2 ^ 32) with 4294967296.
  change (2 ^ 40) with 1099511627776. change (2 ^ 48) with 281474976710656. change (2 ^ 56) with 72057594037927936.
  change W64 with 18446744073709551616.
  pose proof (Z.mod_pos_bound (w / 2 ^ (8 * 0)) 256 eq_refl). pose proof (Z.mod_pos_bound (w / 2 ^ (8 * 1)) 256 eq_refl).
  pose proof (Z.mod_pos_bound (w / 2 ^ (8 * 2)) 256 eq_refl). pose proof (Z.mod_pos_bound (w / 2 ^ (8 * 3)) 256 eq_refl).
  pose proof (Z.mod_pos_bound (w / 2 ^ (8 * 4)) 256 eq_refl). pose proof (Z.mod_pos_bound (w / 2 ^ (8 * 5)) 256 eq_refl).
  pose proof (Z.mod_pos_bound (w / 2 ^ (8 * 6)) 256 eq_refl). pose proof (Z.mod_pos_bound (w / 2 ^ (8 * 7)) 256 eq_refl).
  lia.
Qed.
Theorem C64_big_to_little : forall h al r1 r2 o1 o2 l1 l2 l3 l4 x, is_words 4 x -> holds h r2 o2 x -> room h r1 o1 4 ->
  exists w, returns (fn sm2BigToLittle) 0 h al (slice r1 o1 l1 l2 ++ slice r2 o2 l3 l4) r1 o1 w /\
    is_words 4 w /\ flat_map (le_bytes 8) x = to_be 32 (lval w).
Proof.
  intros h al r1 r2 o1 o2 l1 l2 l3 l4 x Wx Hx Hr. destruct (quads _ _ _ _ Wx Hx) as (x0 & x1 & x2 & x3 & -> & X & Qx).
  destruct (room_quad _ _ _ Hr) as (z0 & z1 & z2 & z3 & Qz). eexists. split; [eapply BigToLittle_run; eassumption|].
  destruct (is4 _ Wx) as (? & ? & ? & ? & E & X0 & X1 & X2 & X3). injection E as <- <- <- <-.
  assert (W : is_words 4 [bswap x3; bswap x2; bswap x1; bswap x0]).
  { split; [reflexivity|]. do 4 (apply Forall_cons; [apply bswap_u64|]). apply Forall_nil. }
  split; [exact W|]. rewrite <- (asm_l2b_ok _ W). cbn [a_l2b asm_prims rev app map flat_map].
  rewrite !(fun v => le_bswap (bswap v) (bswap_u64 v)). rewrite !le_bswap by assumption. rewrite !rev_involutive. reflexivity.
Qed.
Print Assumptions C64_big_to_little.

(** ** The point routines: the formulas of C61, over the additions and subtractions below *)
Theorem C64_point_double : forall h al r1 r2 o1 o2 l1 l2 l3 l4 x y z, is_words 4 x -> is_words 4 y -> is_words 4 z ->
  holds h r2 o2 (x ++ y ++ z) -> room h r1 o1 12 ->
  returns sm2PointDoubleAsm sm2PointDoubleAsm_frame h al (slice r1 o1 l1 l2 ++ slice r2 o2 l3 l4) r1 o1 (dbl_f asm_fops x y z).
Proof.
  intros h al r1 r2 o1 o2 l1 l2 l3 l4 x y z Wx Wy Wz H Hr.
  destruct (is4 x Wx) as (x0 & x1 & x2 & x3 & -> & X). destruct (is4 y Wy) as (y0 & y1 & y2 & y3 & -> & Y).
  destruct (is4 z Wz) as (z0 & z1 & z2 & z3 & -> & V). unfold slice. cbn [app] in *. apply Double_run; assumption.
Qed.
Print Assumptions C64_point_double.
Theorem C64_point_add : forall h al r1 r2 r3 o1 o2 o3 l1 l2 l3 l4 l5 l6 x y z x' y' z',
  is_words 4 x -> is_words 4 y -> is_words 4 z -> is_words 4 x' -> is_words 4 y' -> is_words 4 z' ->
  holds h r2 o2 (x ++ y ++ z) -> holds h r3 o3 (x' ++ y' ++ z') -> room h r1 o1 12 ->
  returns sm2PointAddAsm sm2PointAddAsm_frame h al (slice r1 o1 l1 l2 ++ slice r2 o2 l3 l4 ++ slice r3 o3 l5 l6) r1 o1
    (add_f asm_fops x y z x' y' z').
Proof.
  intros h al r1 r2 r3 o1 o2 o3 l1 l2 l3 l4 l5 l6 x y z x' y' z' Wx Wy Wz Wx' Wy' Wz' H H' Hr.
  destruct (is4 x Wx) as (x0 & x1 & x2 & x3 & -> & X). destruct (is4 y Wy) as (y0 & y1 & y2 & y3 & -> & Y).
  destruct (is4 z Wz) as (z0 & z1 & z2 & z3 & -> & V).
  destruct (is4 x' Wx') as (u0 & u1 & u2 & u3 & -> & X'). destruct (is4 y' Wy') as (v0 & v1 & v2 & v3 & -> & Y').
  destruct (is4 z' Wz') as (w0 & w1 & w2 & w3 & -> & V'). unfold slice. cbn [app] in *. apply Add_run; assumption.
Qed.
Print Assumptions C64_point_add.
(** sign, sel and zero: a nonzero sign negates y', zero = 0 gives the second point, sel = 0 the first *)
Theorem C64_point_add_affine : forall h al r1 r2 r3 o1 o2 o3 l1 l2 l3 l4 l5 l6 x y z x' y' sign sel zero,
  is_words 4 x -> is_words 4 y -> is_words 4 z -> is_words 4 x' -> is_words 4 y' ->
  holds h r2 o2 (x ++ y ++ z) -> holds h r3 o3 (x' ++ y') -> room h r1 o1 12 -> 0 <= sel < 2 ^ 32 -> 0 <= zero < 2 ^ 32 ->
  let y2 := if sign =? 0 then y' else f_sub asm_fops (words_of 4 cP) y' in
  returns sm2PointAddAffineAsm sm2PointAddAffineAsm_frame h al
    (slice r1 o1 l1 l2 ++ slice r2 o2 l3 l4 ++ slice r3 o3 l5 l6 ++ [I sign; I sel; I zero]) r1 o1
    (if zero =? 0 then x' ++ y2 ++ one_mont else if sel =? 0 then x ++ y ++ z else addaff_f asm_fops x y z x' y2).
Proof.
  intros h al r1 r2 r3 o1 o2 o3 l1 l2 l3 l4 l5 l6 x y z x' y' sign sel zero Wx Wy Wz Wx' Wy' H H' Hr Hsel Hzero y2.
  destruct (is4 x Wx) as (x0 & x1 & x2 & x3 & -> & X). destruct (is4 y Wy) as (y0 & y1 & y2' & y3 & -> & Y).
  destruct (is4 z Wz) as (z0 & z1 & z2 & z3 & -> & V).
  destruct (is4 x' Wx') as (u0 & u1 & u2 & u3 & -> & X'). destruct (is4 y' Wy') as (v0 & v1 & v2 & v3 & -> & Y').
  cbn [app] in H, H'.
  pose proof (AddAffine_run h al r1 r2 r3 o1 o2 o3 _ _ _ _ _ _ _ _ _ _ _ _ l1 l2 l3 l4 l5 l6 _ _ _ _ _ _ _ _ sign sel zero X Y V X' Y' H H' Hr) as G.
  cbn [a_addaff asm_prims] in G. unfold sub in G. cbn [firstn skipn] in G. rewrite (Z.mod_small sel), (Z.mod_small zero) in G by assumption.
  unfold slice. cbn [app]. unfold y2. cbn [f_sub asm_fops]. change (lval (words_of 4 cP)) with PP. exact G.
Qed.
Print Assumptions C64_point_add_affine.

(** ** The subtraction inside them: R10 to R13 minus R14, R15, DI, SI, memory, stack and arguments unchanged *)
Theorem C64_sub : forall st x0 x1 x2 x3 y0 y1 y2 y3,
  length (rg st) = 15%nat ->
  rd st R10 = I x0 -> rd st R11 = I x1 -> rd st R12 = I x2 -> rd st R13 = I x3 ->
  rd st R14 = I y0 -> rd st R15 = I y1 -> rd st DI = I y2 -> rd st SI = I y3 ->
  is_words 4 [x0; x1; x2; x3] -> is_words 4 [y0; y1; y2; y3] ->
  exists st' w0 w1 w2 w3, exec sm2SubInternal st = Some st' /\ hp st' = hp st /\ fr st' = fr st /\
    rd st' R10 = I w0 /\ rd st' R11 = I w1 /\ rd st' R12 = I w2 /\ rd st' R13 = I w3 /\ is_words 4 [w0; w1; w2; w3] /\
    let x := lval [x0; x1; x2; x3] in let y := lval [y0; y1; y2; y3] in let w := lval [w0; w1; w2; w3] in
    ((cP | w - (x - y)) <-> y - x <= cP) /\
    (x < cP -> y < cP -> (w < cP <-> ~ 0 <= x - y < 2 ^ 256 - cP)).
Proof.
  intros [rg xm cf zf h al fr ar] x0 x1 x2 x3 y0 y1 y2 y3 L. cbn [AsmX86.rg] in L.
  destruct rg as [|j0 [|j1 [|j2 [|j3 [|j4 [|j5 [|j6 [|j7 [|j8 [|j9 [|j10 [|j11 [|j12 [|j13 [|j14 [|? ?]]]]]]]]]]]]]]]]; try discriminate L.
  unfold rd. cbn [AsmX86.rg nth R10 R11 R12 R13 R14 R15 DI SI]. intros -> -> -> -> -> -> -> -> Wx Wy.
  destruct (is4 _ Wx) as (? & ? & ? & ? & E & X0 & X1 & X2 & X3). injection E as <- <- <- <-.
  destruct (is4 _ Wy) as (? & ? & ? & ? & E & Y0 & Y1 & Y2 & Y3). injection E as <- <- <- <-.
  destruct (SubInternal_spec h al xm fr ar cf zf x0 x1 x2 x3 y0 y1 y2 y3 j0 j1 j2 j3 j6 j7 j8 X0 X1 X2 X3 Y0 Y1 Y2 Y3)
    as (st' & Ex & a & b & c & d & k0 & k1 & k2 & k3 & k6 & k7 & k8 & cf' & zf' & -> & A0 & A1 & A2 & A3 & V).
  exists (St [k0; k1; k2; k3; I y3; I y2; k6; k7; k8; I a; I b; I c; I d; I y0; I y1] xm cf' zf' h al fr ar), a, b, c, d.
  split; [exact Ex|]. cbn [AsmX86.rg nth hp AsmX86.fr]. do 6 (split; [reflexivity|]).
  split. { split; [reflexivity|]. do 4 (apply Forall_cons; [assumption|]). apply Forall_nil. }
  pose proof (lval_R _ Wx) as Bx. pose proof (lval_R _ Wy) as By. rewrite <- !lval4 in V. cbv zeta. rewrite V. split.
  - exact (asub_right _ _ Bx By).
  - intros Lx Ly. apply asub_reduced; (split; [lia|assumption]).
Qed.
Print Assumptions C64_sub.
(** unreduced operands that a subtraction of reduced ones can leave: the next subtraction is wrong *)
Example C64_sub_wrong : let x := asub (2 ^ 256 - cP - 1) 0 in
  x = 2 ^ 256 - 1 /\ (asub 0 x - (0 - x)) mod cP <> 0 /\ (aadd x x - (x + x)) mod cP <> 0.
Proof. vm_compute. repeat split; discriminate. Qed.

(** ** The inversions run on these multiplications *)
Theorem C64_inverse : forall k, exists r, Inverse asm_prims k = Val r /\ 0 <= r < cN /\
  (~ (cN | k) -> (r * Z.abs k) mod cN = 1) /\ ((cN | k) -> r = 0) /\ Inverse asm_prims (- k) = Val r.
Proof. intros k. exact (C62_inverse asm_prims asm_ordmul_ok asm_l2b_ok k). Qed.
Print Assumptions C64_inverse.
Theorem C64_p256Inverse : forall w v, montr cP w v -> exists u, montr cP (p256Inverse asm_prims w) u /\ 0 <= u < cP /\
  (lval w < cP -> lval (p256Inverse asm_prims w) < cP) /\ (~ (cP | v) -> (u * v) mod cP = 1) /\ ((cP | v) -> u = 0).
Proof. exact (C62_p256Inverse asm_prims asm_mul_ok (fun _ _ => eq_refl)). Qed.
Print Assumptions C64_p256Inverse.

(** ** Examples: the code run on objects 0, 1, 2; the result overlaps an operand *)
Definition objs (l : list (list Z)) : heap := fun r o =>
  if (o mod 8 =? 0) && (0 <=? o) then nth_error (nth r l []) (Z.to_nat (o / 8)) else None.
Definition after (code : list item) (frame : nat) (h : heap) (args : list val) (r : nat) (n : nat) : option (list (option Z)) :=
  match run code (init h (fun _ => 0) args frame) with
  | Some st => Some (map (fun i => hp st r (8 * Z.of_nat i)) (seq 0 n))
  | None => None
  end.
Definition ptr (r : nat) : list val := slice r 0 (I 4) (I 4).
Example C64_mul_example : let x := sub basePoint 0 4 in let y := sub basePoint 4 4 in let h := objs [x; y] in
  is_words 4 x /\ is_words 4 y /\ holds h 0 0 x /\ holds h 1 0 y /\ room h 0 0 4 /\
  after (fn sm2Mul) 0 h (ptr 0 ++ ptr 0 ++ ptr 1) 0 4 = Some (map Some (f_mul exact x y)) /\
  after (fn sm2Sqr) 0 h (ptr 1 ++ ptr 0) 1 4 = Some (map Some (f_sqr exact x)) /\
  after (fn sm2FromMont) 0 h (ptr 1 ++ ptr 1) 1 4 = Some (map Some (words_of 4 (c_Gy SM2P256V1))) /\
  after (fn sm2OrdMul) 0 h (ptr 0 ++ ptr 0 ++ ptr 1) 0 4 = Some (map Some (a_ordmul exact_prims x y)) /\
  after (fn sm2NegCond) 0 h (ptr 0 ++ [I 1]) 0 4 = Some (map Some (words_of 4 (cP - lval x))).
Proof.
  assert (H4 : forall l r w, nth r l [] = w -> length w = 4%nat -> holds (objs l) r 0 w).
  { intros l r w E L i Hi. unfold objs. rewrite Z.add_0_l, (Z.mul_comm 8), Z.mod_mul, Z.div_mul by discriminate. cbn [Z.eqb andb].
    destruct (Z.leb_spec 0 (Z.of_nat i * 8)); [|lia]. rewrite Nat2Z.id, E. apply nth_error_nth'. exact Hi. }
  cbv zeta. split; [apply is_words_lit; reflexivity|]. split; [apply is_words_lit; reflexivity|].
  split; [apply H4; reflexivity|]. split; [apply H4; reflexivity|].
  split; [intros i Hi; eexists; apply (H4 [sub basePoint 0 4; sub basePoint 4 4] 0%nat (sub basePoint 0 4)); [reflexivity|reflexivity|exact Hi]|].
  vm_compute. repeat split.
Qed.
Example C64_point_example : let G := basePoint in let h := objs [G; sub G 0 8; a_dbl exact_prims G] in
  after sm2PointDoubleAsm sm2PointDoubleAsm_frame h (ptr 0 ++ ptr 0) 0 12 = Some (map Some (a_dbl exact_prims G)) /\
  after sm2PointAddAsm sm2PointAddAsm_frame h (ptr 0 ++ ptr 0 ++ ptr 2) 0 12 = Some (map Some (a_add exact_prims G (a_dbl exact_prims G))) /\
  after sm2PointAddAffineAsm sm2PointAddAffineAsm_frame h (ptr 2 ++ ptr 2 ++ ptr 1 ++ [I 1; I 3; I 7]) 2 12 =
    Some (map Some (a_addaff exact_prims (a_dbl exact_prims G) (sub G 0 8) 1 3 7)).
Proof. vm_compute. repeat split. Qed.
Example C64_select_example : let T := map Z.of_nat (seq 0 512) in let h := objs [repeat 9 12; firstn 192 T; T] in
  after sm2Select 0 h (ptr 0 ++ ptr 1 ++ [I 3]) 0 12 = Some (map Some (map Z.of_nat (seq 24 12))) /\
  after sm2Select 0 h (ptr 0 ++ ptr 1 ++ [I 0]) 0 12 = Some (repeat (Some 0) 12) /\
  after sm2SelectBase 0 h (ptr 0 ++ ptr 2 ++ [I 64]) 0 8 = Some (map Some (map Z.of_nat (seq 504 8))) /\
  after (fn sm2MovCond) 0 h (ptr 0 ++ ptr 1 ++ ptr 0 ++ [I 5]) 0 12 = Some (map Some (map Z.of_nat (seq 0 12))) /\
  after (fn sm2MovCond) 0 h (ptr 0 ++ ptr 1 ++ ptr 0 ++ [I 0]) 0 12 = Some (repeat (Some 9) 12) /\
  after (fn sm2LittleToBig) 0 h (ptr 0 ++ ptr 2) 0 4 = Some [Some (3 * 2 ^ 56); Some (2 * 2 ^ 56); Some (2 ^ 56); Some 0].
Proof. vm_compute. repeat split. Qed.

(** ** The squaring modulo the group order that Go declares and does not call
    Its reduction rounds load the top word of the order and never multiply it by the quotient: the square of 0 is not 0. *)
Theorem C64_ord_sqr_wrong : exists h x w0 w1 w2 w3, is_words 4 x /\ holds h 1 0 x /\ room h 0 0 4 /\ lval x = 0 /\
  (forall al, match run sm2OrdSqr (init h al (slice 0 0 (I 4) (I 4) ++ slice 1 0 (I 4) (I 4) ++ [I 1]) 0) with
    | Some st => map (fun i => hp st 0%nat (8 * i)) [0; 1; 2; 3] = map Some [w0; w1; w2; w3]
    | None => False
    end) /\
  lval [w0; w1; w2; w3] < cN /\ ~ (cN | lval [w0; w1; w2; w3]).
Proof.
  pose (x := [0; 0; 0; 0]). exists (objs [x; x]), x. do 4 eexists.
  assert (H4 : forall r, (r < 2)%nat -> holds (objs [x; x]) r 0 x).
  { intros r Hr i Hi. destruct r as [|[|r]]; [| |lia]; (destruct i as [|[|[|[|i]]]]; [reflexivity..|cbn in Hi; lia]). }
  split; [apply is_words_lit; reflexivity|]. split; [apply H4; lia|].
  split; [intros i Hi; eexists; apply (H4 0%nat); [lia|exact Hi]|]. split; [reflexivity|].
  split; [intros al; vm_compute; reflexivity|]. split; [reflexivity|].
  intros D. apply Z.mod_divide in D; [|discriminate]. vm_compute in D. discriminate D.
Qed.
Print Assumptions C64_ord_sqr_wrong.
(** 32 bytes 0, 1, ..., 31 as they lie in memory, and back *)
Example C64_swap_example : let x := [0x0706050403020100; 0x0f0e0d0c0b0a0908; 0x1716151413121110; 0x1f1e1d1c1b1a1918] in
  let w := [0x18191a1b1c1d1e1f; 0x1011121314151617; 0x08090a0b0c0d0e0f; 0x0001020304050607] in
  is_words 4 x /\ flat_map (le_bytes 8) x = map Z.of_nat (seq 0 32) /\
  after (fn sm2BigToLittle) 0 (objs [x; x]) (ptr 0 ++ ptr 1) 0 4 = Some (map Some w) /\
  after (fn sm2LittleToBig) 0 (objs [w; w]) (ptr 0 ++ ptr 1) 0 4 = Some (map Some x).
Proof. cbv zeta. split; [apply is_words_lit; reflexivity|]. vm_compute. repeat split. Qed.
