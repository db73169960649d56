(** * AsmLink: running the assembly gives [asm_prims]; what these values are *)
From Coq Require Import ZArith Znumtheory Zpow_facts String List Bool Lia.
From Verif Require Import Base BaseFacts Curves P256 Spec_P256 P256Booth P256Point AsmX86 AsmSM2 AsmFacts AsmMul AsmInt AsmOrd AsmMisc Spec_Asm AsmRun AsmSel AsmVal AsmPoint AsmAff.
Import ListNotations.
Open Scope Z_scope.

(** ** Whole functions *)
Lemma quads h r o w : is_words 4 w -> holds h r o w ->
  exists a b c d, w = [a; b; c; d] /\ is64 a b c d /\ quad h r o a b c d.
Proof.
  intros W H. destruct (is4 w W) as (a & b & c & d & -> & U). exists a, b, c, d. split; [reflexivity|]. split; [exact U|]. apply holds_quad, H.
Qed.
Lemma room_quad h r o : room h r o 4 -> exists a b c d, quad h r o a b c d.
Proof.
  intros H. destruct (H 0%nat ltac:(lia)) as [a A]. destruct (H 1%nat ltac:(lia)) as [b B].
  destruct (H 2%nat ltac:(lia)) as [c C]. destruct (H 3%nat ltac:(lia)) as [d D]. exists a, b, c, d.
  cbn in A, B, C, D. unfold quad. auto.
Qed.
Lemma res4_returns c h al args r o v : wp c (res4 h r o v) (init h al args 0) -> returns (fn c) 0 h al args r o (words_of 4 v).
Proof.
  intros (st & E & a & b & c0 & d & Ha & Hb & Hc & Hd & Eh & Ev). exists st. unfold fn. rewrite run_map. split; [exact E|].
  rewrite Eh, <- (words4 a b c0 d v Ha Hb Hc Hd Ev). apply writes4.
Qed.
Lemma cases12 w : is_words 12 w -> exists x0 x1 x2 x3 y0 y1 y2 y3 z0 z1 z2 z3, w = [x0; x1; x2; x3; y0; y1; y2; y3; z0; z1; z2; z3] /\
  is64 x0 x1 x2 x3 /\ is64 y0 y1 y2 y3 /\ is64 z0 z1 z2 z3.
Proof.
  intros [L F]. destruct w as [|x0 [|x1 [|x2 [|x3 [|y0 [|y1 [|y2 [|y3 [|z0 [|z1 [|z2 [|z3 [|? ?]]]]]]]]]]]]]; try discriminate L.
  repeat match goal with H : Forall _ (_ :: _) |- _ => apply Forall_cons_iff in H; let G := fresh in destruct H as [G H] end.
  do 12 eexists. split; [reflexivity|]. unfold is64, u64. change W64 with (2 ^ 64). auto 20.
Qed.
Lemma cases8 w : is_words 8 w -> exists x0 x1 x2 x3 y0 y1 y2 y3, w = [x0; x1; x2; x3; y0; y1; y2; y3] /\ is64 x0 x1 x2 x3 /\ is64 y0 y1 y2 y3.
Proof.
  intros [L F]. destruct w as [|x0 [|x1 [|x2 [|x3 [|y0 [|y1 [|y2 [|y3 [|? ?]]]]]]]]]; try discriminate L.
  repeat match goal with H : Forall _ (_ :: _) |- _ => apply Forall_cons_iff in H; let G := fresh in destruct H as [G H] end.
  do 8 eexists. split; [reflexivity|]. unfold is64, u64. change W64 with (2 ^ 64). auto 20.
Qed.
Lemma words_u64 n w : is_words n w -> Forall u64 w.
Proof. intros [_ F]. exact F. Qed.
Lemma nth_firstn' : forall (l : list Z) a i, (i < a)%nat -> nth i (firstn a l) 0 = nth i l 0.
Proof. induction l as [|x l IH]; intros [|a] [|i] H; try lia; try reflexivity. cbn [firstn nth]. apply IH. lia. Qed.
Lemma nth_skipn' : forall (l : list Z) a i, nth i (skipn a l) 0 = nth (a + i) l 0.
Proof. induction l as [|x l IH]; intros [|a] i; try reflexivity; [destruct i; reflexivity|]. cbn [skipn Nat.add nth]. apply IH. Qed.
Lemma sub_nth (t : list Z) k n : (k + n <= length t)%nat -> sub t k n = map (fun j => nth (k + j) t 0) (seq 0 n).
Proof.
  intros H. apply (nth_ext _ _ 0 0).
  - unfold sub. rewrite firstn_length, skipn_length, map_length, seq_length. lia.
  - intros i Hi. assert (L : (i < n)%nat) by (unfold sub in Hi; rewrite firstn_length in Hi; lia).
    unfold sub. rewrite nth_firstn' by exact L. rewrite nth_skipn'.
    rewrite (nth_indep (map _ _) 0 (nth (k + n) t 0)) by (rewrite map_length, seq_length; exact L).
    change (nth (k + n) t 0) with ((fun j => nth (k + j) t 0) n). rewrite map_nth, seq_nth by exact L. reflexivity.
Qed.

Section Run.
Variables (h : heap) (al : nat -> Z) (r1 r2 r3 : nat) (o1 o2 o3 : Z) (l1 l2 l3 l4 l5 l6 : val).
Notation A1 := (slice r1 o1 l1 l2).
Notation A2 := (slice r2 o2 l3 l4).
Notation A3 := (slice r3 o3 l5 l6).
Lemma mul_run x y : is_words 4 x -> is_words 4 y -> holds h r2 o2 x -> holds h r3 o3 y -> room h r1 o1 4 ->
  returns (fn sm2Mul) 0 h al (A1 ++ A2 ++ A3) r1 o1 (a_mul asm_prims x y).
Proof.
  intros Wx Wy Hx Hy Hr. destruct (quads _ _ _ _ Wx Hx) as (x0 & x1 & x2 & x3 & -> & (X0 & X1 & X2 & X3) & Qx).
  destruct (quads _ _ _ _ Wy Hy) as (y0 & y1 & y2 & y3 & -> & (Y0 & Y1 & Y2 & Y3) & Qy). destruct (room_quad _ _ _ Hr) as (z0 & z1 & z2 & z3 & Qz).
  cbn [a_mul asm_prims f_mul asm_fops]. rewrite !lval4. apply res4_returns. eapply Mul_spec; eassumption.
Qed.
Lemma sqr_run x : is_words 4 x -> holds h r2 o2 x -> room h r1 o1 4 ->
  returns (fn sm2Sqr) 0 h al (A1 ++ A2) r1 o1 (a_sqr asm_prims x).
Proof.
  intros Wx Hx Hr. destruct (quads _ _ _ _ Wx Hx) as (x0 & x1 & x2 & x3 & -> & (X0 & X1 & X2 & X3) & Qx).
  destruct (room_quad _ _ _ Hr) as (z0 & z1 & z2 & z3 & Qz).
  cbn [a_sqr asm_prims f_sqr asm_fops]. rewrite !lval4. apply res4_returns. eapply Sqr_spec; eassumption.
Qed.
Lemma from_run x : is_words 4 x -> holds h r2 o2 x -> room h r1 o1 4 ->
  returns (fn sm2FromMont) 0 h al (A1 ++ A2) r1 o1 (a_from asm_prims x).
Proof.
  intros Wx Hx Hr. destruct (quads _ _ _ _ Wx Hx) as (x0 & x1 & x2 & x3 & -> & (X0 & X1 & X2 & X3) & Qx).
  destruct (room_quad _ _ _ Hr) as (z0 & z1 & z2 & z3 & Qz).
  cbn [a_from asm_prims]. rewrite !lval4. apply res4_returns. eapply FromMont_spec; eassumption.
Qed.
Lemma ordmul_run x y : is_words 4 x -> is_words 4 y -> holds h r2 o2 x -> holds h r3 o3 y -> room h r1 o1 4 ->
  returns (fn sm2OrdMul) 0 h al (A1 ++ A2 ++ A3) r1 o1 (a_ordmul asm_prims x y).
Proof.
  intros Wx Wy Hx Hy Hr. destruct (quads _ _ _ _ Wx Hx) as (x0 & x1 & x2 & x3 & -> & (X0 & X1 & X2 & X3) & Qx).
  destruct (quads _ _ _ _ Wy Hy) as (y0 & y1 & y2 & y3 & -> & (Y0 & Y1 & Y2 & Y3) & Qy). destruct (room_quad _ _ _ Hr) as (z0 & z1 & z2 & z3 & Qz).
  cbn [a_ordmul asm_prims]. rewrite !lval4. apply res4_returns. eapply OrdMul_spec; eassumption.
Qed.
Lemma neg_run x cond : is_words 4 x -> holds h r1 o1 x ->
  returns (fn sm2NegCond) 0 h al (A1 ++ [I cond]) r1 o1 (a_neg asm_prims x cond).
Proof.
  intros Wx Hx. destruct (quads _ _ _ _ Wx Hx) as (x0 & x1 & x2 & x3 & -> & (X0 & X1 & X2 & X3) & Qx).
  cbn [a_neg asm_prims]. rewrite lval4.
  replace (if cond =? 0 then [x0; x1; x2; x3] else words_of 4 (aneg (v4 x0 x1 x2 x3)))
    with (words_of 4 (if cond =? 0 then v4 x0 x1 x2 x3 else aneg (v4 x0 x1 x2 x3))).
  - apply res4_returns. apply NegCond_spec; assumption.
  - destruct (cond =? 0); [|reflexivity]. symmetry. apply words4; try assumption. reflexivity.
Qed.
Lemma mov_run a b cond : is_words 12 a -> is_words 12 b -> holds h r2 o2 a -> holds h r3 o3 b -> room h r1 o1 12 ->
  (al r2 + o2) mod 16 = 0 -> returns (fn sm2MovCond) 0 h al (A1 ++ A2 ++ A3 ++ [I cond]) r1 o1 (a_mov asm_prims a b cond).
Proof. intros Wa Wb Ha Hb Hr Al. apply MovCond_run; try assumption; first [exact (proj2 Wa)|exact (proj2 Wb)|exact (proj1 Wa)|exact (proj1 Wb)]. Qed.
Lemma l2b_run x : is_words 4 x -> holds h r2 o2 x -> room h r1 o1 4 ->
  exists w, returns (fn sm2LittleToBig) 0 h al (A1 ++ A2) r1 o1 w /\ flat_map (le_bytes 8) w = a_l2b asm_prims x.
Proof.
  intros Wx Hx Hr. destruct (quads _ _ _ _ Wx Hx) as (x0 & x1 & x2 & x3 & -> & _ & Qx).
  destruct (room_quad _ _ _ Hr) as (z0 & z1 & z2 & z3 & Qz). eexists. split; [eapply BigToLittle_run; eassumption|reflexivity].
Qed.
Lemma select_run T idx : is_words 192 T -> holds h r2 o2 T -> room h r1 o1 12 ->
  returns sm2Select 0 h al (A1 ++ A2 ++ [I idx]) r1 o1 (a_select asm_prims T idx).
Proof.
  intros WT HT Hr. pose proof (Select_run h al r1 r2 o1 o2 idx T l1 l2 l3 l4 HT (proj2 WT) Hr (proj1 WT)) as S.
  cbn [a_select asm_prims]. cbv zeta. pose proof (Z.mod_pos_bound idx (2 ^ 32) eq_refl) as B. set (i := idx mod 2 ^ 32) in *.
  unfold pick in S. destruct ((1 <=? i) && (i <=? 16)) eqn:C; [|exact S].
  apply andb_true_iff in C. destruct C as [C1 C2]. apply Z.leb_le in C1. apply Z.leb_le in C2.
  rewrite sub_nth by (rewrite (proj1 WT); lia).
  replace (map (fun j => nth (12 * (Z.to_nat i - 1) + j) T 0) (seq 0 12))
    with (map (fun j => nth (Z.to_nat (12 * (i - 1) + j)) T 0) [0; 1; 2; 3; 4; 5; 6; 7; 8; 9; 10; 11]); [exact S|].
  cbn [seq map]. repeat (apply f_equal2; [f_equal; lia|]). reflexivity.
Qed.
Lemma selbase_run T idx : is_words 512 T -> holds h r2 o2 T -> room h r1 o1 8 ->
  returns sm2SelectBase 0 h al (A1 ++ A2 ++ [I idx]) r1 o1 (a_selbase asm_prims T idx).
Proof.
  intros WT HT Hr. pose proof (SelectBase_run h al r1 r2 o1 o2 idx T l1 l2 l3 l4 HT (proj2 WT) Hr (proj1 WT)) as S.
  cbn [a_selbase asm_prims]. cbv zeta. pose proof (Z.mod_pos_bound idx (2 ^ 32) eq_refl) as B. set (i := idx mod 2 ^ 32) in *.
  unfold pick in S. destruct ((1 <=? i) && (i <=? 64)) eqn:C; [|exact S].
  apply andb_true_iff in C. destruct C as [C1 C2]. apply Z.leb_le in C1. apply Z.leb_le in C2.
  rewrite sub_nth by (rewrite (proj1 WT); lia).
  replace (map (fun j => nth (8 * (Z.to_nat i - 1) + j) T 0) (seq 0 8))
    with (map (fun j => nth (Z.to_nat (8 * (i - 1) + j)) T 0) [0; 1; 2; 3; 4; 5; 6; 7]); [exact S|].
  cbn [seq map]. repeat (apply f_equal2; [f_equal; lia|]). reflexivity.
Qed.
Lemma dbl_run p : is_words 12 p -> holds h r2 o2 p -> room h r1 o1 12 ->
  returns sm2PointDoubleAsm sm2PointDoubleAsm_frame h al (A1 ++ A2) r1 o1 (a_dbl asm_prims p).
Proof.
  intros W H Hr. destruct (cases12 p W) as (x0 & x1 & x2 & x3 & y0 & y1 & y2 & y3 & z0 & z1 & z2 & z3 & -> & X & Y & V).
  cbn [a_dbl asm_prims]. unfold sub, slice. cbn [firstn skipn app]. apply Double_run; assumption.
Qed.
Lemma add_run p q : is_words 12 p -> is_words 12 q -> holds h r2 o2 p -> holds h r3 o3 q -> room h r1 o1 12 ->
  returns sm2PointAddAsm sm2PointAddAsm_frame h al (A1 ++ A2 ++ A3) r1 o1 (a_add asm_prims p q).
Proof.
  intros W W' H H' Hr. destruct (cases12 p W) as (x0 & x1 & x2 & x3 & y0 & y1 & y2 & y3 & z0 & z1 & z2 & z3 & -> & X & Y & V).
  destruct (cases12 q W') as (u0 & u1 & u2 & u3 & v0 & v1 & v2 & v3 & w0 & w1 & w2 & w3 & -> & X' & Y' & V').
  cbn [a_add asm_prims]. unfold sub, slice. cbn [firstn skipn app]. apply Add_run; assumption.
Qed.
Lemma addaff_run p q sign sel zero : is_words 12 p -> is_words 8 q -> holds h r2 o2 p -> holds h r3 o3 q -> room h r1 o1 12 ->
  returns sm2PointAddAffineAsm sm2PointAddAffineAsm_frame h al (A1 ++ A2 ++ A3 ++ [I sign; I sel; I zero]) r1 o1 (a_addaff asm_prims p q sign sel zero).
Proof.
  intros W W' H H' Hr. destruct (cases12 p W) as (x0 & x1 & x2 & x3 & y0 & y1 & y2 & y3 & z0 & z1 & z2 & z3 & -> & X & Y & V).
  destruct (cases8 q W') as (u0 & u1 & u2 & u3 & v0 & v1 & v2 & v3 & -> & X' & Y').
  unfold slice. cbn [app]. apply AddAffine_run; assumption.
Qed.
End Run.
