(** * AsmRun: whole functions; memory before and after *)
From Coq Require Import ZArith List Bool Lia.
From Verif Require Import AsmX86 AsmSM2 AsmFacts AsmMul Spec_Asm.
Import ListNotations.
Open Scope Z_scope.

Definition wpr (c : list item) (Q : state -> Prop) (st : state) : Prop := exists st', run c st = Some st' /\ Q st'.
Lemma wpr_nil (Q : state -> Prop) st : Q st -> wpr [] Q st.
Proof. intros H. exists st. split; [reflexivity|exact H]. Qed.
Lemma run_app c1 c2 st : run (c1 ++ c2) st = match run c1 st with Some s => run c2 s | None => None end.
Proof. revert st. induction c1 as [|i c1 IH]; intros st; [reflexivity|]. cbn [app run]. destruct (step_item i st); [apply IH|reflexivity]. Qed.
Lemma run_map c : forall st, run (map Do c) st = exec c st.
Proof. induction c as [|i c IH]; intros st; [reflexivity|]. cbn [map run exec step_item]. destruct (step i st); [apply IH|reflexivity]. Qed.
Lemma wpr_blk c rest Q st : wp c (fun s => wpr rest Q s) st -> wpr (map Do c ++ rest) Q st.
Proof. intros (s1 & E1 & s2 & E2 & H). exists s2. split; [|exact H]. rewrite run_app, run_map, E1. exact E2. Qed.
Lemma wpr_call c rest Q st : wp c (fun s => wpr rest Q s) st -> wpr (Call c :: rest) Q st.
Proof. intros (s1 & E1 & s2 & E2 & H). exists s2. split; [|exact H]. cbn [run step_item]. rewrite E1. exact E2. Qed.
Lemma wpr_loop c rest (Q Q' : state -> Prop) st : (exists s, loop 200 c st = Some s /\ Q' s) -> (forall s, Q' s -> wpr rest Q s) -> wpr (Loop c :: rest) Q st.
Proof. intros (s1 & E1 & H1) HQ. destruct (HQ s1 H1) as (s2 & E2 & H2). exists s2. split; [|exact H2]. cbn [run step_item]. rewrite E1. exact E2. Qed.
Ltac undo l := lazymatch l with Do ?i :: ?l' => let r := undo l' in constr:(i :: r) | _ => constr:(@nil instr) end.
Ltac rest l := lazymatch l with Do ?i :: ?l' => rest l' | _ => constr:(l) end.
(** the instructions up to the next call or loop *)
Ltac blk := lazymatch goal with |- wpr ?l _ _ => let c := undo l in let r := rest l in change l with (map Do c ++ r); apply wpr_blk end.

(** ** Memory *)
Fixpoint puts (h : heap) (r : nat) (o : Z) (w : list Z) : heap :=
  match w with [] => h | x :: w' => puts (store h r o x) r (o + 8) w' end.
Lemma puts_frame w : forall h r o r' o', (r' <> r \/ forall i, (i < length w)%nat -> o' <> o + 8 * Z.of_nat i) -> puts h r o w r' o' = h r' o'.
Proof.
  induction w as [|x w IH]; intros h r o r' o' H; [reflexivity|]. cbn [puts]. rewrite IH.
  - apply store_other. destruct H as [H|H]; [left; exact H|right]. specialize (H O). cbn [length Z.of_nat] in H. rewrite Z.mul_0_r, Z.add_0_r in H. apply H. lia.
  - destruct H as [H|H]; [left; exact H|right]. intros i Hi. specialize (H (S i)). cbn [length] in H. rewrite Nat2Z.inj_succ in H. intros E. apply H; lia.
Qed.
Lemma puts_holds w : forall h r o, holds (puts h r o w) r o w.
Proof.
  induction w as [|x w IH]; intros h r o i Hi; [cbn in Hi; lia|]. cbn [puts]. destruct i as [|i].
  - cbn [nth Z.of_nat]. rewrite Z.mul_0_r, Z.add_0_r. rewrite puts_frame; [apply store_same|]. right. intros j Hj. lia.
  - cbn [nth]. specialize (IH (store h r o x) r (o + 8) i). rewrite <- IH; [|cbn [length] in Hi; lia]. f_equal. rewrite Nat2Z.inj_succ. lia.
Qed.
Lemma puts_writes h r o w : writes h (puts h r o w) r o w.
Proof. split; [apply puts_holds|intros; apply puts_frame; assumption]. Qed.
Lemma writes4 h r o a b c d : writes h (store4 h r o a b c d) r o [a; b; c; d].
Proof.
  replace (store4 h r o a b c d) with (puts h r o [a; b; c; d]); [apply puts_writes|].
  unfold store4. cbn [puts]. repeat (f_equal; try lia).
Qed.
Lemma holds_quad h r o a b c d : holds h r o [a; b; c; d] -> quad h r o a b c d.
Proof.
  intros H. unfold quad.
  pose proof (H 0%nat ltac:(cbn; lia)) as H0. pose proof (H 1%nat ltac:(cbn; lia)) as H1. pose proof (H 2%nat ltac:(cbn; lia)) as H2. pose proof (H 3%nat ltac:(cbn; lia)) as H3.
  cbn in H0, H1, H2, H3. auto.
Qed.
(** word [k] of what an object holds *)
Lemma holds_at h r o w k off : holds h r o w -> 0 <= k < Z.of_nat (length w) -> off = 8 * k -> h r (o + off) = Some (nth (Z.to_nat k) w 0).
Proof. intros H Hk ->. rewrite <- (H (Z.to_nat k)); [|lia]. rewrite Z2Nat.id by lia. reflexivity. Qed.
