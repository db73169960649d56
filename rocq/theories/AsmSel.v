(** * AsmSel: conditional moves, table selection and byte order in p256_asm_amd64.s *)
From Coq Require Import ZArith List Bool Lia.
From Verif Require Import AsmX86 AsmSM2 AsmFacts AsmMul Spec_Asm AsmRun.
Import ListNotations.
Open Scope Z_scope.

(** ** Vector instructions *)
Definition ones : Z := 18446744073709551615.
Definition mask (c : bool) : Z * Z := if c then (ones, ones) else (0, 0).
Section VInstr.
Variables (c : list instr) (Q : state -> Prop).
Variables (rg : list val) (xm : list (option (Z * Z))) (cf : option Z) (zf : option bool) (h : heap) (al : nat -> Z) (fr ar : list val).
Lemma wp_XLD b off x r o lo hi : nth b rg U = Ptr r o -> h r (o + off) = Some lo -> h r (o + off + 8) = Some hi ->
  wp c Q (St rg (upd xm x (Some (lo, hi))) cf zf h al fr ar) -> wp (XLD b off x :: c) Q (St rg xm cf zf h al fr ar).
Proof. intros Eb E1 E2 H. eapply wp_step; [|exact H]. cbn [step]. unfold rd. cbn [AsmX86.rg hp]. rewrite Eb, E1, E2. reflexivity. Qed.
Lemma wp_XST x b off r o lo hi y1 y2 : nth b rg U = Ptr r o -> nth x xm None = Some (lo, hi) ->
  h r (o + off) = Some y1 -> h r (o + off + 8) = Some y2 ->
  wp c Q (St rg xm cf zf (store (store h r (o + off) lo) r (o + off + 8) hi) al fr ar) -> wp (XST x b off :: c) Q (St rg xm cf zf h al fr ar).
Proof. intros Eb Ex E1 E2 H. eapply wp_step; [|exact H]. cbn [step]. unfold rd, rdx. cbn [AsmX86.rg AsmX86.xm hp]. rewrite Eb, Ex, E1, E2. reflexivity. Qed.
Lemma wp_PAND x y (m : bool) lo hi : nth x xm None = Some (mask m) -> nth y xm None = Some (lo, hi) -> u64 lo -> u64 hi ->
  wp c Q (St rg (upd xm y (Some (if m then (lo, hi) else (0, 0)))) cf zf h al fr ar) -> wp (PAND x y :: c) Q (St rg xm cf zf h al fr ar).
Proof.
  intros Ex Ey Hl Hh H. eapply wp_step; [|exact H]. cbn [step]. unfold vec, rdx. cbn [AsmX86.xm]. rewrite Ex, Ey.
  unfold set_x. cbn [AsmX86.rg AsmX86.xm AsmX86.cf AsmX86.zf hp AsmX86.al AsmX86.fr AsmX86.ar]. do 4 f_equal.
  unfold words2, mask. unfold u64 in *. change W64 with (2 ^ 64) in *.
  destruct m; cbn [fst snd]; [|rewrite !Z.land_0_l; reflexivity].
  change ones with (Z.ones 64). rewrite !(Z.land_comm (Z.ones 64)), !Z.land_ones, !Z.mod_small by lia. reflexivity.
Qed.
Lemma wp_PXOR x y a1 b1 a2 b2 : Nat.eqb x y = false -> nth x xm None = Some (a1, b1) -> nth y xm None = Some (a2, b2) ->
  wp c Q (St rg (upd xm y (Some (Z.lxor a1 a2, Z.lxor b1 b2))) cf zf h al fr ar) -> wp (PXOR x y :: c) Q (St rg xm cf zf h al fr ar).
Proof. intros Ne Ex Ey H. eapply wp_step; [|exact H]. cbn [step]. rewrite Ne. unfold vec, rdx. cbn [AsmX86.xm]. rewrite Ex, Ey. reflexivity. Qed.
(** four equal lanes *)
Definition wide (d : Z) : Z * Z := (d + 2 ^ 32 * d, d + 2 ^ 32 * d).
Lemma lane_lo d : 0 <= d < 2 ^ 32 -> (d + 2 ^ 32 * d) mod 2 ^ 32 = d.
Proof. intros H. symmetry. apply (Z.mod_unique _ _ d); [left; exact H|lia]. Qed.
Lemma lane_hi d : 0 <= d < 2 ^ 32 -> (d + 2 ^ 32 * d) / 2 ^ 32 = d.
Proof. intros H. symmetry. apply (Z.div_unique _ _ _ d); [left; exact H|lia]. Qed.
Lemma wp_PCMPEQL x y d e : Nat.eqb x y = false -> nth x xm None = Some (wide d) -> nth y xm None = Some (wide e) -> 0 <= d < 2 ^ 32 -> 0 <= e < 2 ^ 32 ->
  wp c Q (St rg (upd xm y (Some (mask (d =? e)))) cf zf h al fr ar) -> wp (PCMPEQL x y :: c) Q (St rg xm cf zf h al fr ar).
Proof.
  intros Ne Ex Ey Hd He H. eapply wp_step; [|exact H]. cbn [step]. rewrite Ne. unfold vec, rdx. cbn [AsmX86.xm]. rewrite Ex, Ey.
  unfold set_x. cbn [AsmX86.rg AsmX86.xm AsmX86.cf AsmX86.zf hp AsmX86.al AsmX86.fr AsmX86.ar]. do 4 f_equal.
  unfold lanes2, lanes, wide. cbn [fst snd]. rewrite !lane_lo, !lane_hi by assumption. unfold mask, eq_lane. destruct (d =? e); reflexivity.
Qed.
Lemma wp_PADDL x y d e : nth x xm None = Some (wide d) -> nth y xm None = Some (wide e) -> 0 <= d < 2 ^ 32 -> 0 <= e < 2 ^ 32 -> e + d < 2 ^ 32 ->
  wp c Q (St rg (upd xm y (Some (wide (e + d)))) cf zf h al fr ar) -> wp (PADDL x y :: c) Q (St rg xm cf zf h al fr ar).
Proof.
  intros Ex Ey Hd He Hs H. eapply wp_step; [|exact H]. cbn [step]. unfold vec, rdx. cbn [AsmX86.xm]. rewrite Ex, Ey.
  unfold set_x. cbn [AsmX86.rg AsmX86.xm AsmX86.cf AsmX86.zf hp AsmX86.al AsmX86.fr AsmX86.ar]. do 4 f_equal.
  unfold lanes2, lanes, wide. cbn [fst snd]. rewrite !lane_lo, !lane_hi by assumption. rewrite !Z.mod_small by lia. reflexivity.
Qed.
Lemma wp_DEC d a : nth d rg U = I a -> 0 < a < W64 ->
  wp c Q (St (upd rg d (I (a - 1))) xm cf (Some (a - 1 =? 0)) h al fr ar) -> wp (DEC d :: c) Q (St rg xm cf zf h al fr ar).
Proof.
  intros Ed Ha H. eapply wp_step; [|exact H]. cbn [step]. unfold rdi, rd. cbn [AsmX86.rg]. rewrite Ed. cbv zeta.
  rewrite Z.mod_small by lia. reflexivity.
Qed.
Lemma wp_PANDNM b off y r o lo hi (m : bool) : nth b rg U = Ptr r o -> nth y xm None = Some (mask m) ->
  h r (o + off) = Some lo -> h r (o + off + 8) = Some hi -> u64 lo -> u64 hi -> (al r + o + off) mod 16 = 0 ->
  wp c Q (St rg (upd xm y (Some (if m then (0, 0) else (lo, hi)))) cf zf h al fr ar) -> wp (PANDNM b off y :: c) Q (St rg xm cf zf h al fr ar).
Proof.
  intros Eb Ey E1 E2 Hl Hh Ha H. eapply wp_step; [|exact H]. cbn [step]. unfold rd, rdx. cbn [AsmX86.rg AsmX86.xm hp AsmX86.al]. rewrite Eb, Ey, E1, E2, Ha.
  cbn [Z.eqb]. unfold set_x. cbn [AsmX86.rg AsmX86.xm AsmX86.cf AsmX86.zf hp AsmX86.al AsmX86.fr AsmX86.ar]. do 4 f_equal.
  unfold words2, mask, andn, u64 in *. change W64 with (2 ^ 64) in *.
  destruct m; cbn [fst snd]; [|rewrite !Z.ldiff_0_r; reflexivity].
  change ones with (Z.ones 64). rewrite !Z.ldiff_ones_r, !Z.shiftr_div_pow2, !Z.div_small, !Z.shiftl_0_l by lia. reflexivity.
Qed.
End VInstr.
Lemma wp_det i c Q st st' : step i st = Some st' -> wp c Q st' -> wp (i :: c) Q st. Proof. apply wp_step. Qed.
Ltac vst := unfold set_f, set_x, set_r, rd; cbn [AsmX86.rg AsmX86.xm AsmX86.cf AsmX86.zf hp AsmX86.al AsmX86.fr AsmX86.ar nth]; nrm.
Ltac vdet := eapply wp_step; [reflexivity|]; vst.

(** one round of a selection: entry [n] (from 1) is taken when the index is [n] *)
Definition pick (i n : Z) (v : Z) : Z := if (1 <=? i) && (i <=? n) then v else 0.
Lemma pick_next i n t0 t1 : 0 <= n -> (i = n + 1 -> t1 = t0) ->
  Z.lxor (if i =? n + 1 then t1 else 0) (pick i n t0) = pick i (n + 1) t0.
Proof.
  intros Hn Ht. unfold pick. destruct (Z.eqb_spec i (n + 1)) as [E|E].
  - rewrite (Ht E). replace (1 <=? i) with true by (symmetry; apply Z.leb_le; lia).
    replace (i <=? n) with false by (symmetry; apply Z.leb_gt; lia). replace (i <=? n + 1) with true by (symmetry; apply Z.leb_le; lia).
    apply Z.lxor_0_r.
  - rewrite Z.lxor_0_l. replace (i <=? n + 1) with (i <=? n); [reflexivity|].
    destruct (Z.leb_spec i n), (Z.leb_spec i (n + 1)); try reflexivity; lia.
Qed.
Lemma if_fst (b : bool) (x y : Z) : fst (if b then (x, y) else (0, 0)) = if b then x else 0. Proof. destruct b; reflexivity. Qed.
Lemma if_pair (b : bool) (x y : Z) : (if b then (x, y) else (0, 0)) = (if b then x else 0, if b then y else 0). Proof. destruct b; reflexivity. Qed.

Section Select.
Variables (h : heap) (al : nat -> Z) (r2 : nat) (o2 : Z) (t : Z -> Z) (ar : list val) (i : Z).
Hypothesis (Hi : 0 <= i < 2 ^ 32).
(** words of the table, and the words chosen after [n] entries of [w] words *)
Definition chosen (w n j : Z) : Z := pick i n (t (w * (i - 1) + j)).
Definition cpair (w n j j' : Z) : option (Z * Z) := Some (chosen w n j, chosen w n j').
Definition selinv (n : Z) (rdx : val) (st : state) : Prop := exists rest x6 x7 x8 x9 x10 x11 x12 cf zf,
  st = St (I (16 - n) :: U :: U :: rdx :: U :: Ptr r2 (o2 + 96 * n) :: rest)
    [cpair 12 n 0 1; cpair 12 n 2 3; cpair 12 n 4 5; cpair 12 n 6 7; cpair 12 n 8 9; cpair 12 n 10 11; x6; x7; x8; x9; x10; x11; x12; Some (wide (n + 1)); Some (wide i); Some (wide 1)]
    cf zf h al [] ar /\ length rest = 9%nat.
Hypothesis (Ht : forall k, 0 <= k < 192 -> h r2 (o2 + 8 * k) = Some (t k) /\ u64 (t k)).
Lemma tab n k off : 0 <= n < 16 -> 0 <= k < 12 -> off = 8 * k -> h r2 (o2 + 96 * n + off) = Some (t (12 * n + k)).
Proof. intros Hn Hk ->. destruct (Ht (12 * n + k)) as [E _]; [lia|]. rewrite <- E. f_equal. lia. Qed.
Lemma tabr n k : 0 <= n < 16 -> 0 <= k < 12 -> u64 (t (12 * n + k)).
Proof. intros. apply Ht. lia. Qed.
Lemma sel_round n rdx : 0 <= n < 16 -> forall st, selinv n rdx st ->
  wp sm2Select_body (fun st' => selinv (n + 1) rdx st' /\ zf st' = Some (n =? 15)) st.
Proof.
  intros Hn st (rest & x6 & x7 & x8 & x9 & x10 & x11 & x12 & cf0 & zf0 & -> & Hr).
  destruct rest as [|q0 [|q1 [|q2 [|q3 [|q4 [|q5 [|q6 [|q7 [|q8 [|? ?]]]]]]]]]]; try discriminate Hr.
  unfold sm2Select_body. vdet.
  eapply wp_PADDL; [reflexivity|reflexivity|lia|lia|lia|]. nrm.
  eapply wp_PCMPEQL; [reflexivity|reflexivity|reflexivity|lia|lia|]. nrm.
  Ltac ld k k' := eapply wp_XLD; [reflexivity|apply (tab _ k); [assumption|lia|lia]|rewrite <- Z.add_assoc; apply (tab _ k'); [assumption|lia|lia]|]; nrm.
  ld 0 1. ld 2 3. ld 4 5. ld 6 7. ld 8 9. ld 10 11.
  vdet.
  do 6 (eapply wp_PAND; [reflexivity|reflexivity|apply tabr; [assumption|lia]|apply tabr; [assumption|lia]|]; nrm; rewrite if_pair).
  do 6 (eapply wp_PXOR; [reflexivity|reflexivity|reflexivity|]; nrm).
  eapply wp_DEC; [reflexivity|unfold W64; lia|]. nrm. apply wp_nil. split; [|cbn [zf]; f_equal; destruct (Z.eqb_spec n 15), (Z.eqb_spec (16 - n - 1) 0); try reflexivity; lia].
  exists [q0; q1; q2; q3; q4; q5; q6; q7; q8]. do 9 eexists. split; [|reflexivity].
  assert (P : forall j, Z.lxor (if i =? n + 1 then t (12 * n + j) else 0) (chosen 12 n j) = chosen 12 (n + 1) j).
  { intros j. unfold chosen. apply pick_next; [lia|]. intros ->. f_equal. lia. }
  unfold cpair. rewrite !P.
  replace (16 - n - 1) with (16 - (n + 1)) by lia. replace (o2 + 96 * n + 96) with (o2 + 96 * (n + 1)) by lia. reflexivity.
Qed.
Lemma loop_sel m : forall n fuel rdx st, (m <= fuel)%nat -> 0 <= n -> n + Z.of_nat m = 16 -> (1 <= m)%nat -> selinv n rdx st ->
  exists st', loop fuel sm2Select_body st = Some st' /\ selinv 16 rdx st'.
Proof.
  induction m as [|m IH]; intros n fuel rdx st Hf Hn Hs Hm H; [lia|].
  destruct fuel as [|fuel]; [lia|]. cbn [loop].
  destruct (sel_round n rdx ltac:(lia) st H) as (s1 & E1 & H1 & Z1). rewrite E1, Z1.
  destruct (Z.eqb_spec n 15) as [->|Ne].
  - exists s1. split; [reflexivity|exact H1].
  - apply (IH (n + 1)); try lia. exact H1.
Qed.
End Select.

(** storing twelve or eight words *)
Ltac xst := eapply wp_XST; [reflexivity|reflexivity|heapv|heapv|]; nrm.
Lemma room_store h r o n r' o' v : room h r o n -> room (store h r' o' v) r o n.
Proof. intros H i Hi. destruct (H i Hi) as [y Hy]. apply (store_def _ r' o' v) in Hy. exact Hy. Qed.
Lemma room_at h r o n k off : room h r o n -> 0 <= k < Z.of_nat n -> off = 8 * k -> exists y, h r (o + off) = Some y.
Proof. intros H Hk ->. specialize (H (Z.to_nat k)). rewrite Z2Nat.id in H by lia. apply H. lia. Qed.
Lemma wp_XST2 c Q rg xm cf zf h al fr ar x b off r o lo hi n k : nth b rg U = Ptr r o -> nth x xm None = Some (lo, hi) ->
  room h r o n -> off = 8 * k -> 0 <= k -> k + 1 < Z.of_nat n ->
  (room (store (store h r (o + off) lo) r (o + off + 8) hi) r o n ->
   wp c Q (St rg xm cf zf (store (store h r (o + off) lo) r (o + off + 8) hi) al fr ar)) -> wp (XST x b off :: c) Q (St rg xm cf zf h al fr ar).
Proof.
  intros Eb Ex Hr Ho Hk Hn H.
  destruct (room_at h r o n k off Hr ltac:(lia) Ho) as [y1 E1]. destruct (room_at h r o n (k + 1) (off + 8) Hr ltac:(lia) ltac:(lia)) as [y2 E2].
  eapply (wp_XST c Q rg xm cf zf h al fr ar x b off r o lo hi y1 y2); [exact Eb|exact Ex|exact E1|rewrite <- Z.add_assoc; exact E2|].
  apply H. apply room_store, room_store, Hr.
Qed.
Ltac xst2 k := match goal with R : room _ _ _ _ |- _ =>
  eapply (wp_XST2 _ _ _ _ _ _ _ _ _ _ _ _ _ _ _ _ _ _ k); [reflexivity|reflexivity|exact R|lia|lia|lia|]; clear R; intros R; nrm end.
Lemma holds_room h r o w : holds h r o w -> room h r o (length w).
Proof. intros H i Hi. eexists. apply H. exact Hi. Qed.

Section SelectRun.
Variables (h : heap) (al : nat -> Z) (r1 r2 : nat) (o1 o2 idx : Z) (T : list Z) (l1 l2 l3 l4 : val).
Hypothesis (HT : holds h r2 o2 T) (UT : Forall u64 T) (Hr : room h r1 o1 12) (LT : length T = 192%nat).
Lemma Select_run : returns sm2Select 0 h al [Ptr r1 o1; l1; l2; Ptr r2 o2; l3; l4; I idx] r1 o1
  (map (fun j => pick (idx mod 2 ^ 32) 16 (nth (Z.to_nat (12 * (idx mod 2 ^ 32 - 1) + j)) T 0)) [0; 1; 2; 3; 4; 5; 6; 7; 8; 9; 10; 11]).
Proof.
  set (t := fun k => nth (Z.to_nat k) T 0). set (i := idx mod 2 ^ 32).
  assert (Hi : 0 <= i < 2 ^ 32) by (apply Z.mod_pos_bound; reflexivity).
  assert (Ht : forall k, 0 <= k < 192 -> h r2 (o2 + 8 * k) = Some (t k) /\ u64 (t k)).
  { intros k Hk. split; [apply (holds_at h r2 o2 T k); [exact HT|rewrite LT; lia|reflexivity]|].
    unfold t. rewrite Forall_forall in UT. apply UT, nth_In. rewrite LT. lia. }
  match goal with |- returns _ _ _ _ _ _ _ ?W => change (wpr sm2Select (fun st => writes h (hp st) r1 o1 W) (init h al [Ptr r1 o1; l1; l2; Ptr r2 o2; l3; l4; I idx] 0)) end.
  unfold init, sm2Select. cbn [repeat]. blk. do 4 vdet. vdet. vdet. vdet. vdet. do 8 vdet. apply wp_nil.
  eapply (wpr_loop _ _ _ (selinv h al r2 o2 t [Ptr r1 o1; l1; l2; Ptr r2 o2; l3; l4; I idx] i 16 (Ptr r1 o1))).
  { apply (loop_sel h al r2 o2 t _ i Hi Ht 16%nat 0); [repeat constructor|lia|reflexivity|repeat constructor|].
    unfold selinv, cpair, chosen.
    assert (P0 : forall v, pick i 0 v = 0) by (intros v; unfold pick; destruct (Z.leb_spec 1 i), (Z.leb_spec i 0); try reflexivity; lia).
    rewrite !P0. rewrite Z.mul_0_r, Z.add_0_r. exists (repeat U 9). do 9 eexists. split; [|reflexivity].
    cbn [repeat]. rewrite Z.mod_mod by discriminate. fold i. reflexivity. }
  intros s (rest0 & x6 & x7 & x8 & x9 & x10 & x11 & x12 & cf0 & zf0 & -> & Hl).
  blk. unfold cpair.
  xst2 0. xst2 2. xst2 4. xst2 6. xst2 8. xst2 10. apply wp_nil, wpr_nil. cbn [hp].
  match goal with |- writes _ ?H _ _ ?W => replace H with (puts h r1 o1 W); [apply puts_writes|] end.
  cbn [map puts]. unfold chosen, t. repeat (f_equal; try lia).
Qed.
End SelectRun.

Section SelectBase.
Variables (h : heap) (al : nat -> Z) (r2 : nat) (o2 : Z) (t : Z -> Z) (ar : list val) (i : Z).
Hypothesis (Hi : 0 <= i < 2 ^ 32).
Notation cpair := (cpair t i).
Definition sbinv (n : Z) (rdx : val) (st : state) : Prop := exists rest x4 x5 x6 x7 x8 x9 x10 x11 x12 cf zf,
  st = St (I (32 - n) :: U :: U :: rdx :: U :: Ptr r2 (o2 + 128 * n) :: rest)
    [cpair 8 (2 * n) 0 1; cpair 8 (2 * n) 2 3; cpair 8 (2 * n) 4 5; cpair 8 (2 * n) 6 7; x4; x5; x6; x7; x8; x9; x10; x11; x12;
     Some (wide (2 * n + 1)); Some (wide i); Some (wide 1)]
    cf zf h al [] ar /\ length rest = 9%nat.
Hypothesis (Ht : forall k, 0 <= k < 512 -> h r2 (o2 + 8 * k) = Some (t k) /\ u64 (t k)).
Lemma tabb n k off : 0 <= n < 32 -> 0 <= k < 16 -> off = 8 * k -> h r2 (o2 + 128 * n + off) = Some (t (16 * n + k)).
Proof. intros Hn Hk ->. destruct (Ht (16 * n + k)) as [E _]; [lia|]. rewrite <- E. f_equal. lia. Qed.
Lemma tabbr n k : 0 <= n < 32 -> 0 <= k < 16 -> u64 (t (16 * n + k)).
Proof. intros. apply Ht. lia. Qed.
Lemma sb_round n rdx : 0 <= n < 32 -> forall st, sbinv n rdx st ->
  wp sm2SelectBase_body (fun st' => sbinv (n + 1) rdx st' /\ zf st' = Some (n =? 31)) st.
Proof.
  intros Hn st (rest & x4 & x5 & x6 & x7 & x8 & x9 & x10 & x11 & x12 & cf0 & zf0 & -> & Hr).
  destruct rest as [|q0 [|q1 [|q2 [|q3 [|q4 [|q5 [|q6 [|q7 [|q8 [|? ?]]]]]]]]]]; try discriminate Hr.
  unfold sm2SelectBase_body. vdet.
  eapply wp_PADDL; [reflexivity|reflexivity|lia|lia|lia|]. nrm.
  eapply wp_PCMPEQL; [reflexivity|reflexivity|reflexivity|lia|lia|]. nrm.
  Ltac ldb k k' := eapply wp_XLD; [reflexivity|apply (tabb _ k); [assumption|lia|lia]|rewrite <- Z.add_assoc; apply (tabb _ k'); [assumption|lia|lia]|]; nrm.
  ldb 0 1. ldb 2 3. ldb 4 5. ldb 6 7. ldb 8 9. ldb 10 11. ldb 12 13. ldb 14 15.
  vdet.
  do 4 (eapply wp_PAND; [reflexivity|reflexivity|apply tabbr; [assumption|lia]|apply tabbr; [assumption|lia]|]; nrm; rewrite if_pair).
  vdet.
  eapply wp_PADDL; [reflexivity|reflexivity|lia|lia|lia|]. nrm.
  eapply wp_PCMPEQL; [reflexivity|reflexivity|reflexivity|lia|lia|]. nrm.
  do 4 (eapply wp_PAND; [reflexivity|reflexivity|apply tabbr; [assumption|lia]|apply tabbr; [assumption|lia]|]; nrm; rewrite if_pair).
  do 8 (eapply wp_PXOR; [reflexivity|reflexivity|reflexivity|]; nrm).
  eapply wp_DEC; [reflexivity|unfold W64; lia|]. nrm. apply wp_nil. split; [|cbn [zf]; f_equal; destruct (Z.eqb_spec n 31), (Z.eqb_spec (32 - n - 1) 0); try reflexivity; lia].
  exists [q0; q1; q2; q3; q4; q5; q6; q7; q8]. do 11 eexists. split; [|reflexivity].
  assert (P : forall j j', j' = 8 + j -> Z.lxor (if i =? 2 * n + 1 + 1 then t (16 * n + j') else 0)
     (Z.lxor (if i =? 2 * n + 1 then t (16 * n + j) else 0) (chosen t i 8 (2 * n) j)) = chosen t i 8 (2 * (n + 1)) j).
  { intros j j' ->. unfold chosen. rewrite pick_next; [|lia|intros ->; f_equal; lia].
    rewrite pick_next; [|lia|intros ->; f_equal; lia]. f_equal. lia. }
  unfold AsmSel.cpair.
  rewrite (P 0 8), (P 1 9), (P 2 10), (P 3 11), (P 4 12), (P 5 13), (P 6 14), (P 7 15) by reflexivity.
  replace (32 - n - 1) with (32 - (n + 1)) by lia. replace (o2 + 128 * n + 128) with (o2 + 128 * (n + 1)) by lia.
  replace (2 * n + 1 + 1 + 1) with (2 * (n + 1) + 1) by lia. reflexivity.
Qed.
Lemma loop_sb m : forall n fuel rdx st, (m <= fuel)%nat -> 0 <= n -> n + Z.of_nat m = 32 -> (1 <= m)%nat -> sbinv n rdx st ->
  exists st', loop fuel sm2SelectBase_body st = Some st' /\ sbinv 32 rdx st'.
Proof.
  induction m as [|m IH]; intros n fuel rdx st Hf Hn Hs Hm H; [lia|].
  destruct fuel as [|fuel]; [lia|]. cbn [loop].
  destruct (sb_round n rdx ltac:(lia) st H) as (s1 & E1 & H1 & Z1). rewrite E1, Z1.
  destruct (Z.eqb_spec n 31) as [->|Ne].
  - exists s1. split; [reflexivity|exact H1].
  - apply (IH (n + 1)); try lia. exact H1.
Qed.
End SelectBase.

Section SelectBaseRun.
Variables (h : heap) (al : nat -> Z) (r1 r2 : nat) (o1 o2 idx : Z) (T : list Z) (l1 l2 l3 l4 : val).
Hypothesis (HT : holds h r2 o2 T) (UT : Forall u64 T) (Hr : room h r1 o1 8) (LT : length T = 512%nat).
Lemma SelectBase_run : returns sm2SelectBase 0 h al [Ptr r1 o1; l1; l2; Ptr r2 o2; l3; l4; I idx] r1 o1
  (map (fun j => pick (idx mod 2 ^ 32) 64 (nth (Z.to_nat (8 * (idx mod 2 ^ 32 - 1) + j)) T 0)) [0; 1; 2; 3; 4; 5; 6; 7]).
Proof.
  set (t := fun k => nth (Z.to_nat k) T 0). set (i := idx mod 2 ^ 32).
  assert (Hi : 0 <= i < 2 ^ 32) by (apply Z.mod_pos_bound; reflexivity).
  assert (Ht : forall k, 0 <= k < 512 -> h r2 (o2 + 8 * k) = Some (t k) /\ u64 (t k)).
  { intros k Hk. split; [apply (holds_at h r2 o2 T k); [exact HT|rewrite LT; lia|reflexivity]|].
    unfold t. rewrite Forall_forall in UT. apply UT, nth_In. rewrite LT. lia. }
  match goal with |- returns _ _ _ _ _ _ _ ?W => change (wpr sm2SelectBase (fun st => writes h (hp st) r1 o1 W) (init h al [Ptr r1 o1; l1; l2; Ptr r2 o2; l3; l4; I idx] 0)) end.
  unfold init, sm2SelectBase. cbn [repeat]. blk. do 14 vdet. apply wp_nil.
  eapply (wpr_loop _ _ _ (sbinv h al r2 o2 t [Ptr r1 o1; l1; l2; Ptr r2 o2; l3; l4; I idx] i 32 (Ptr r1 o1))).
  { apply (loop_sb h al r2 o2 t _ i Hi Ht 32%nat 0); [repeat constructor|lia|reflexivity|repeat constructor|].
    unfold sbinv, cpair, chosen.
    assert (P0 : forall v, pick i (2 * 0) v = 0) by (intros v; unfold pick; destruct (Z.leb_spec 1 i), (Z.leb_spec i (2 * 0)); try reflexivity; lia).
    rewrite !P0. rewrite Z.mul_0_r, Z.add_0_r. exists (repeat U 9). do 11 eexists. split; [|reflexivity].
    cbn [repeat]. rewrite Z.mod_mod by discriminate. fold i. reflexivity. }
  intros s (rest0 & x4 & x5 & x6 & x7 & x8 & x9 & x10 & x11 & x12 & cf0 & zf0 & -> & Hl).
  blk. unfold cpair.
  xst2 0. xst2 2. xst2 4. xst2 6. apply wp_nil, wpr_nil. cbn [hp].
  match goal with |- writes _ ?H _ _ ?W => replace H with (puts h r1 o1 W); [apply puts_writes|] end.
  cbn [map puts]. unfold chosen, t. repeat (f_equal; try lia).
Qed.
End SelectBaseRun.

Section MovCond.
Variables (h : heap) (al : nat -> Z) (r1 r2 r3 : nat) (o1 o2 o3 cond : Z) (l1 l2 l3 l4 l5 l6 : val).
Variables (a b : list Z).
Hypothesis (Ha : holds h r2 o2 a) (Hb : holds h r3 o3 b) (La : length a = 12%nat) (Lb : length b = 12%nat).
Hypothesis (Ua : Forall u64 a) (Ub : Forall u64 b) (Hr : room h r1 o1 12) (Al : (al r2 + o2) mod 16 = 0).
Lemma ua k : 0 <= k < 12 -> u64 (nth (Z.to_nat k) a 0).
Proof. intros. rewrite Forall_forall in Ua. apply Ua, nth_In. rewrite La. lia. Qed.
Lemma ub k : 0 <= k < 12 -> u64 (nth (Z.to_nat k) b 0).
Proof. intros. rewrite Forall_forall in Ub. apply Ub, nth_In. rewrite Lb. lia. Qed.
Lemma MovCond_run : returns (fn sm2MovCond) 0 h al [Ptr r1 o1; l1; l2; Ptr r2 o2; l3; l4; Ptr r3 o3; l5; l6; I cond] r1 o1
  (if cond mod 2 ^ 32 =? 0 then b else a).
Proof.
  match goal with |- returns _ _ _ _ ?A _ _ ?W => change (wpr (fn sm2MovCond) (fun st => writes h (hp st) r1 o1 W) (init h al A 0)) end.
  unfold init, fn, sm2MovCond. cbn [repeat map]. blk. do 6 vdet.
  assert (Hc : 0 <= cond mod 2 ^ 32 < 2 ^ 32) by (apply Z.mod_pos_bound; reflexivity).
  eapply (wp_PCMPEQL _ _ _ _ _ _ _ _ _ _ 13 12 0 (cond mod 2 ^ 32)); [reflexivity|reflexivity|reflexivity|lia|exact Hc|]. nrm.
  rewrite (Z.eqb_sym 0). set (m := cond mod 2 ^ 32 =? 0).
  Ltac ldn Ha L k k' := vdet; eapply (wp_PANDNM);
     [reflexivity|reflexivity|apply (holds_at _ _ _ _ k _ Ha); [rewrite L; lia|lia]|rewrite <- Z.add_assoc; apply (holds_at _ _ _ _ k' _ Ha); [rewrite L; lia|lia]
      |apply ua; lia|apply ua; lia|rewrite Z.add_mod, Al by discriminate; reflexivity|]; nrm.
  ldn Ha La 0 1. ldn Ha La 2 3. ldn Ha La 4 5. ldn Ha La 6 7. ldn Ha La 8 9. ldn Ha La 10 11.
  Ltac ldm Ha L k k' := eapply wp_XLD; [reflexivity|apply (holds_at _ _ _ _ k _ Ha); [rewrite L; lia|lia]|rewrite <- Z.add_assoc; apply (holds_at _ _ _ _ k' _ Ha); [rewrite L; lia|lia]|]; nrm.
  ldm Hb Lb 0 1. ldm Hb Lb 2 3. ldm Hb Lb 4 5. ldm Hb Lb 6 7. ldm Hb Lb 8 9. ldm Hb Lb 10 11.
  do 6 (eapply wp_PAND; [reflexivity|reflexivity|apply ub; lia|apply ub; lia|]; nrm).
  destruct m.
  all: do 6 (eapply wp_PXOR; [reflexivity|reflexivity|reflexivity|]; nrm).
  all: rewrite ?Z.lxor_0_r, ?Z.lxor_0_l.
  all: xst2 0; xst2 2; xst2 4; xst2 6; xst2 8; xst2 10; apply wp_nil, wpr_nil; cbn [hp].
  all: match goal with |- writes _ ?H _ _ ?W => replace H with (puts h r1 o1 W); [apply puts_writes|] end.
  all: clear Ha Hb Ua Ub Hr Al.
  - destruct b as [|b0 [|b1 [|b2 [|b3 [|b4 [|b5 [|b6 [|b7 [|b8 [|b9 [|b10 [|b11 [|? ?]]]]]]]]]]]]]; try discriminate Lb.
    cbn [puts]. repeat (f_equal; try lia).
  - destruct a as [|a0 [|a1 [|a2 [|a3 [|a4 [|a5 [|a6 [|a7 [|a8 [|a9 [|a10 [|a11 [|? ?]]]]]]]]]]]]]; try discriminate La.
    cbn [puts]. repeat (f_equal; try lia).
Qed.
End MovCond.

(** ** Byte order *)
Lemma le_bswap w : u64 w -> le_bytes 8 (bswap w) = rev (le_bytes 8 w).
Proof.
  intros H. unfold bswap. cbv zeta.
  change (2 ^ (8 * 0)) with 1. change (2 ^ (8 * 1)) with 256. change (2 ^ (8 * 2)) with 65536. change (2 ^ (8 * 3)) with 16777216.
  change (2 ^ (8 * 4)) with 4294967296. change (2 ^ (8 * 5)) with 1099511627776. change (2 ^ (8 * 6)) with 281474976710656. change (2 ^ (8 * 7)) with 72057594037927936.
  change (2 ^ 8) with 256. change (2 ^ 16) with 65536. change (2 ^ 24) with 16777216. change (2 ^ 32) with 4294967296. change (2 ^ 40) with 1099511627776. change (2 ^ 48) with 281474976710656. change (2 ^ 56) with 72057594037927936.
  assert (L : rev (le_bytes 8 w) = [w / 72057594037927936 mod 256; w / 281474976710656 mod 256; w / 1099511627776 mod 256; w / 4294967296 mod 256; w / 16777216 mod 256; w / 65536 mod 256; w / 256 mod 256; w / 1 mod 256]).
  { cbn [le_bytes rev app]. rewrite !Zdiv.Zdiv_Zdiv by discriminate. cbn [Z.mul Pos.mul Pos.add]. rewrite Z.div_1_r. reflexivity. }
  rewrite L. clear L.
  assert (B : forall k, 0 <= w / k mod 256 < 256) by (intros; apply Z.mod_pos_bound; reflexivity).
  generalize (B 72057594037927936) (B 281474976710656) (B 1099511627776) (B 4294967296) (B 16777216) (B 65536) (B 256) (B 1).
  generalize (w / 72057594037927936 mod 256) (w / 281474976710656 mod 256) (w / 1099511627776 mod 256) (w / 4294967296 mod 256)
    (w / 16777216 mod 256) (w / 65536 mod 256) (w / 256 mod 256) (w / 1 mod 256).
  clear. intros a b c d e f g h Ha Hb Hc Hd He Hf Hg Hh.
  assert (S : forall q r, 0 <= r < 256 -> (r + 256 * q) mod 256 = r /\ (r + 256 * q) / 256 = q).
  { intros q r Hr. split; [symmetry; apply (Z.mod_unique _ _ q); [left; exact Hr|lia]|symmetry; apply (Z.div_unique _ _ _ r); [left; exact Hr|lia]]. }
  match goal with |- le_bytes 8 ?v = _ => replace v with (a + 256 * (b + 256 * (c + 256 * (d + 256 * (e + 256 * (f + 256 * (g + 256 * (h + 256 * 0)))))))) by lia end.
  cbn [le_bytes].
  rewrite !(proj1 (S _ a Ha)), !(proj2 (S _ a Ha)), !(proj1 (S _ b Hb)), !(proj2 (S _ b Hb)), !(proj1 (S _ c Hc)), !(proj2 (S _ c Hc)),
    !(proj1 (S _ d Hd)), !(proj2 (S _ d Hd)), !(proj1 (S _ e He)), !(proj2 (S _ e He)), !(proj1 (S _ f Hf)), !(proj2 (S _ f Hf)),
    !(proj1 (S _ g Hg)), !(proj2 (S _ g Hg)), !(proj1 (S _ h Hh)). reflexivity.
Qed.
Section Swap.
Variables (h : heap) (al : nat -> Z) (r1 r2 : nat) (o1 o2 : Z) (x0 x1 x2 x3 z0 z1 z2 z3 : Z) (l1 l2 l3 l4 : val).
Hypothesis (Hx : quad h r2 o2 x0 x1 x2 x3) (Hz : quad h r1 o1 z0 z1 z2 z3).
Lemma BigToLittle_run : returns (fn sm2BigToLittle) 0 h al [Ptr r1 o1; l1; l2; Ptr r2 o2; l3; l4] r1 o1 [bswap x3; bswap x2; bswap x1; bswap x0].
Proof.
  destruct Hx as (Hx0 & Hx1 & Hx2 & Hx3). destruct Hz as (Hz0 & Hz1 & Hz2 & Hz3). clear Hx Hz.
  match goal with |- returns _ _ _ _ ?A _ _ ?W => change (wpr (fn sm2BigToLittle) (fun st => writes h (hp st) r1 o1 W) (init h al A 0)) end.
  unfold init, fn, sm2BigToLittle. cbn [repeat map]. blk.
  do 6 ins. do 4 (eapply wp_step; [reflexivity|]; vst). do 4 ins. apply wp_nil, wpr_nil. cbn [hp].
  apply writes4.
Qed.
End Swap.
