(** * AsmVal: the assembly routines as functions on words

    [asm_fops] and [asm_prims] say in terms of whole 256-bit values what the routines of
    p256_asm_amd64.s do; AsmPoint and Prop_Asm show that running the instructions gives exactly this. *)
From Coq Require Import ZArith List Bool Lia.
From Verif Require Import Base Curves P256 Spec_P256 P256Point P256Booth AsmX86 Spec_Asm AsmFacts AsmMul AsmOrd AsmMisc.
Import ListNotations.
Open Scope Z_scope.

(** p256_asm_amd64.s:1729-2187 and 2728-2751 *)
Definition asm_fops : fops := {|
  f_mul a b := words_of 4 (mont_mul PP PI (lval a) (lval b));
  f_sqr a := words_of 4 (mont_mul PP PI (lval a) (lval a));
  f_sub a b := words_of 4 (asub (lval a) (lval b));
  f_add a b := words_of 4 (aadd (lval a) (lval b));
  f_dbl a := words_of 4 (aadd (lval a) (lval a));
  f_half a := words_of 4 (ahalf (lval a)) |}.
(** p256_asm_amd64.s: the order of the entries is that of the functions in [prims]; conditions and
    indices are used modulo 2^32, except by NegCond (:174-205) and for the sign in PointAddAffine (:2260) *)
Definition asm_prims : prims := {|
  a_mul := f_mul asm_fops;
  a_sqr := f_sqr asm_fops;
  a_from a := words_of 4 (mont_mul PP PI (lval a) 1);
  a_neg a c := if c =? 0 then a else words_of 4 (aneg (lval a));
  a_mov a b c := if c mod 2 ^ 32 =? 0 then b else a;
  a_l2b a := flat_map (le_bytes 8) (map bswap (rev a));
  a_select t i := let i := i mod 2 ^ 32 in if (1 <=? i) && (i <=? 16) then sub t (12 * (Z.to_nat i - 1)) 12 else repeat 0 12;
  a_selbase t i := let i := i mod 2 ^ 32 in if (1 <=? i) && (i <=? 64) then sub t (8 * (Z.to_nat i - 1)) 8 else repeat 0 8;
  a_ordmul a b := words_of 4 (mont_mul NN NI (lval a) (lval b));
  a_addaff p q sign sel zero :=
    let y2 := if sign =? 0 then sub q 4 4 else words_of 4 (asub PP (lval (sub q 4 4))) in
    if zero mod 2 ^ 32 =? 0 then sub q 0 4 ++ y2 ++ one_mont
    else if sel mod 2 ^ 32 =? 0 then p
    else addaff_f asm_fops (sub p 0 4) (sub p 4 4) (sub p 8 4) (sub q 0 4) y2;
  a_add p q := add_f asm_fops (sub p 0 4) (sub p 4 4) (sub p 8 4) (sub q 0 4) (sub q 4 4) (sub q 8 4);
  a_dbl p := dbl_f asm_fops (sub p 0 4) (sub p 4 4) (sub p 8 4) |}.

Lemma lval4 a b c d : lval [a; b; c; d] = v4 a b c d.
Proof. cbn [lval]. unfold v4. change (2 ^ 64) with W64. rewrite Z.mul_0_r, Z.add_0_r. reflexivity. Qed.
Lemma words4 a b c d v : u64 a -> u64 b -> u64 c -> u64 d -> v4 a b c d = v -> [a; b; c; d] = words_of 4 v.
Proof.
  intros Ha Hb Hc Hd <-. cbn [words_of]. change (2 ^ 64) with W64. unfold u64, v4 in *.
  assert (S : forall r q, 0 <= r < W64 -> (r + W64 * q) mod W64 = r /\ (r + W64 * q) / W64 = q).
  { intros r q Hr. split; [symmetry; apply (Z.mod_unique _ _ q); [left; exact Hr|lia]|symmetry; apply (Z.div_unique _ _ _ r); [left; exact Hr|lia]]. }
  rewrite (proj1 (S a _ Ha)), (proj2 (S a _ Ha)), (proj1 (S b _ Hb)), (proj2 (S b _ Hb)), (proj1 (S c _ Hc)), (proj2 (S c _ Hc)), Z.mod_small by exact Hd.
  reflexivity.
Qed.
Lemma is4 w : is_words 4 w -> exists a b c d, w = [a; b; c; d] /\ u64 a /\ u64 b /\ u64 c /\ u64 d.
Proof.
  intros [L F]. destruct w as [|a [|b [|c [|d [|? ?]]]]]; try discriminate L. exists a, b, c, d. split; [reflexivity|].
  repeat match goal with H : Forall _ (_ :: _) |- _ => apply Forall_cons_iff in H; let G := fresh in destruct H as [G H] end.
  unfold u64. change W64 with (2 ^ 64). auto.
Qed.
