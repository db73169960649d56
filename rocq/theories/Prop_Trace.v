(** * Prop_Trace: C69, the SM2 assembly does not leak what it computes on

    The positions of the arguments count words: a slice is pointer, length, capacity. *)
From Coq Require Import ZArith List Bool Lia.
From Verif Require Import AsmX86 AsmSM2 Spec_Asm Spec_AsmTrace AsmTrace.
Import ListNotations.
Open Scope Z_scope.

Theorem C69_field : oblivious 0 [0; 3; 6]%nat (fn sm2Mul) /\ oblivious 0 [0; 3]%nat (fn sm2Sqr) /\ oblivious 0 [0; 3]%nat (fn sm2FromMont) /\
  oblivious 0 [0; 3; 6]%nat (fn sm2OrdMul) /\ oblivious 0 [0]%nat (fn sm2NegCond) /\ oblivious 0 [0; 3]%nat (fn sm2LittleToBig) /\
  oblivious 0 [0; 3]%nat (fn sm2BigToLittle).
Proof. repeat split; apply analysis_sound; eexists; vm_compute; reflexivity. Qed.
Print Assumptions C69_field.
Theorem C69_select : oblivious 0 [0; 3]%nat sm2Select /\ oblivious 0 [0; 3]%nat sm2SelectBase /\ oblivious 0 [0; 3; 6]%nat (fn sm2MovCond).
Proof. repeat split; apply analysis_sound; eexists; vm_compute; reflexivity. Qed.
Print Assumptions C69_select.
Theorem C69_points : oblivious sm2PointDoubleAsm_frame [0; 3]%nat sm2PointDoubleAsm /\ oblivious sm2PointAddAsm_frame [0; 3; 6]%nat sm2PointAddAsm /\
  oblivious sm2PointAddAffineAsm_frame [0; 3; 6]%nat sm2PointAddAffineAsm.
Proof. repeat split; apply analysis_sound; eexists; vm_compute; reflexivity. Qed.
Print Assumptions C69_points.
(** the number of squarings, word 6 of the arguments, is not hidden *)
Theorem C69_ord_sqr : oblivious 0 [0; 3; 6]%nat sm2OrdSqr.
Proof. apply analysis_sound; eexists; vm_compute; reflexivity. Qed.
Print Assumptions C69_ord_sqr.

(** ** Examples: runs that differ in everything but the pointers, and code that is not oblivious *)
From Verif Require Import P256 Prop_Asm.
Definition seen (code : list item) (frame : nat) (h : heap) (args : list val) : option (list event) :=
  match run code (init h (fun _ => 0) args frame) with Some _ => Some (trace code (init h (fun _ => 0) args frame)) | None => None end.
(** selecting entry 3 or none at all, from different tables: 16 rounds of 23 instructions and the rest *)
Example C69_select_example : let T := map Z.of_nat (seq 0 192) in
  let h := objs [repeat 9 12; T] in let h' := objs [repeat 7 12; rev T] in
  after sm2Select 0 h (ptr 0 ++ ptr 1 ++ [I 3]) 0 12 <> after sm2Select 0 h' (ptr 0 ++ ptr 1 ++ [I 0]) 0 12 /\
  exists t, seen sm2Select 0 h (ptr 0 ++ ptr 1 ++ [I 3]) = Some t /\ seen sm2Select 0 h' (ptr 0 ++ ptr 1 ++ [I 0]) = Some t /\
    length t = 390%nat /\ length (flat_map snd t) = 204%nat /\ nth 18%nat (flat_map snd t) (0%nat, 0) = (1%nat, 144).
Proof. split; [vm_compute; discriminate|]. eexists. vm_compute. repeat split. Qed.
(** adding, and adding nothing because the digit is zero *)
Example C69_add_affine_example : let G := basePoint in let h := objs [G; sub G 0 8] in
  let args z := ptr 0 ++ ptr 0 ++ ptr 1 ++ [I 1; I z; I 7] in
  after sm2PointAddAffineAsm sm2PointAddAffineAsm_frame h (args 0) 0 12 <> after sm2PointAddAffineAsm sm2PointAddAffineAsm_frame h (args 3) 0 12 /\
  exists t, seen sm2PointAddAffineAsm sm2PointAddAffineAsm_frame h (args 0) = Some t /\
            seen sm2PointAddAffineAsm sm2PointAddAffineAsm_frame h (args 3) = Some t /\ (1000 < length t)%nat.
Proof. split; [vm_compute; discriminate|]. eexists. vm_compute. repeat split. lia. Qed.
(** a load from where an argument points, and a loop that runs as often as an argument says *)
Definition lookup : list item := [Do (LDA 24 DI); Do (LD DI 0 BX)].
Definition count_down : list item := [Do (LDA 0 AX); Loop [DEC AX]].
Example C69_not_oblivious : ~ oblivious 0 [0]%nat lookup /\ oblivious 0 [0; 3]%nat lookup /\
  ~ oblivious 0 [] count_down /\ oblivious 0 [0]%nat count_down.
Proof.
  split; [|split; [|split]]; try (apply analysis_sound; eexists; vm_compute; reflexivity); intros H.
  - pose (h := objs [[1]; [2; 3]]). pose (a k := ptr 0 ++ slice 1 k (I 1) (I 1)).
    assert (P : forall k, In k [0]%nat -> nth_error (a 0) k = nth_error (a 8) k) by (intros k [<-|[]]; reflexivity).
    destruct (run lookup (init h (fun _ => 0) (a 0) 0)) as [s|] eqn:S; [|vm_compute in S; discriminate S].
    destruct (run lookup (init h (fun _ => 0) (a 8) 0)) as [t|] eqn:T; [|vm_compute in T; discriminate T].
    specialize (H _ _ _ _ _ _ _ _ P S T). vm_compute in H. discriminate H.
  - destruct (run count_down (init (objs []) (fun _ => 0) [I 1] 0)) as [s|] eqn:S; [|vm_compute in S; discriminate S].
    destruct (run count_down (init (objs []) (fun _ => 0) [I 2] 0)) as [t|] eqn:T; [|vm_compute in T; discriminate T].
    assert (P : forall k, In k [] -> nth_error [I 1] k = nth_error [I 2] k) by (intros k []).
    specialize (H _ _ _ _ _ _ _ _ P S T). vm_compute in H. discriminate H.
Qed.
