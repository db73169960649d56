(** * Prop_P256: C60, the signed windows of the scalar multiplications *)
From Coq Require Import ZArith List Bool Lia.
From Verif Require Import Base Curves P256 Spec_P256 P256Booth.
Import ListNotations.
Open Scope Z_scope.

(** the recoded digits, lowest first: the windows at indices 4, 9, ..., 254 (p256ScalarMult) and at
    6, 13, ..., 251 (p256BaseMult), below them the window of the doubled lowest word *)
Definition digits5 (s : list Z) : list (Z * Z) :=
  boothW5 (window0 s 0x3f) :: map (fun i => boothW5 (window s 0x3f (4 + 5 * Z.of_nat i))) (seq 0 51).
Definition digits7 (s : list Z) : list (Z * Z) :=
  boothW7 (window0 s 0xff) :: map (fun i => boothW7 (window s 0xff (6 + 7 * Z.of_nat i))) (seq 0 36).

Lemma digits5_at : forall s, digits5 s = map (fun i => boothW5 (window_at s 0x3f (5 * Z.of_nat i))) (seq 0 52).
Proof. intros s. reflexivity. Qed.
Lemma digits7_at : forall s, digits7 s = map (fun i => boothW7 (window_at s 0xff (7 * Z.of_nat i))) (seq 0 37).
Proof. intros s. reflexivity. Qed.
Lemma positional_prefix : forall (f : nat -> Z) m b (K : Z -> Z), (forall i, (i < m)%nat -> K (Z.of_nat i) = b * K (Z.of_nat i + 1) + f i) ->
  forall n k, (k + n <= m)%nat -> positional b (map f (seq k n)) + b ^ Z.of_nat n * K (Z.of_nat (k + n)) = K (Z.of_nat k).
Proof.
  intros f m b K H n. induction n; intros k L.
  - cbn [seq map positional]. rewrite Nat.add_0_r. change (b ^ Z.of_nat 0) with 1. lia.
  - cbn [seq map positional]. rewrite (H k) by lia. specialize (IHn (S k) ltac:(lia)).
    replace (Z.of_nat (S k)) with (Z.of_nat k + 1) in IHn by lia. rewrite <- IHn.
    rewrite Nat2Z.inj_succ, Z.pow_succ_r by lia. replace (k + S n)%nat with (S k + n)%nat by lia. lia.
Qed.

Theorem C60_scalar_digits : forall s, is_words 4 s ->
  positional 32 (map digit (digits5 s)) = lval s /\
  Forall (fun d => 0 <= fst d <= 16 /\ (snd d = 0 \/ snd d = 1)) (digits5 s) /\
  (forall d, last (digits5 s) d = boothW5 (window s 0x3f 254)) /\ snd (boothW5 (window s 0x3f 254)) = 0 /\
  fst (boothW5 (window s 0x3f 254)) <= 2.
Proof.
  intros s W. pose proof (lval_256 s W) as B. repeat split.
  - rewrite digits5_at, map_map.
    pose proof (positional_prefix (fun i => digit (boothW5 (window_at s 0x3f (5 * Z.of_nat i)))) 52 32 (fun i => prefix (lval s) (5 * i))) as P.
    cbv beta in P. specialize (P ltac:(intros i Hi; rewrite step5 by (assumption || lia); do 3 f_equal; lia) 52%nat 0%nat ltac:(lia)).
    rewrite prefix_top in P by (assumption || lia). change (5 * Z.of_nat 0) with 0 in P. rewrite prefix_0 in P. lia.
  - rewrite digits5_at. apply Forall_forall. intros d Hd. apply in_map_iff in Hd. destruct Hd as (i & <- & Hi). apply in_seq in Hi.
    change 0x3f with (2 ^ 6 - 1). rewrite window_at_eq by (assumption || lia).
    pose proof (Z.mod_pos_bound (2 * lval s / 2 ^ (5 * Z.of_nat i)) (2 ^ 6) ltac:(lia)) as M. change (2 ^ 6) with 64 in *.
    destruct (booth5 _ M) as (R & S & _). split; [exact R|]. rewrite S.
    set (w := _ mod 64) in *. pose proof (Z.div_pos w 32). pose proof (Z.div_lt_upper_bound w 32 2). lia.
  - change 0x3f with (2 ^ 6 - 1). rewrite window_eq by (assumption || lia). 
    pose proof (Z.div_lt_upper_bound (lval s) (2 ^ 254) 4 ltac:(lia) ltac:(lia)). pose proof (Z.div_pos (lval s) (2 ^ 254) ltac:(lia) ltac:(lia)).
    rewrite Z.mod_small by lia. destruct (booth5 (lval s / 2 ^ 254)) as (_ & -> & _); [lia|]. apply Z.div_small. lia.
  - change 0x3f with (2 ^ 6 - 1). rewrite window_eq by (assumption || lia). 
    pose proof (Z.div_lt_upper_bound (lval s) (2 ^ 254) 4 ltac:(lia) ltac:(lia)). pose proof (Z.div_pos (lval s) (2 ^ 254) ltac:(lia) ltac:(lia)).
    rewrite Z.mod_small by lia. assert (E : let w := lval s / 2 ^ 254 in w = 0 \/ w = 1 \/ w = 2 \/ w = 3) by (cbv zeta; lia).
    destruct E as [-> | [-> | [-> | ->]]]; vm_compute; discriminate.
Qed.
Print Assumptions C60_scalar_digits.

Theorem C60_base_digits : forall s, is_words 4 s ->
  positional 128 (map digit (digits7 s)) = lval s /\
  Forall (fun d => 0 <= fst d <= 64 /\ (snd d = 0 \/ snd d = 1)) (digits7 s) /\
  (forall d, last (digits7 s) d = boothW7 (window s 0xff 251)) /\ snd (boothW7 (window s 0xff 251)) = 0 /\
  fst (boothW7 (window s 0xff 251)) <= 16.
Proof.
  intros s W. pose proof (lval_256 s W) as B.
  assert (T : window s 0xff 251 = lval s / 2 ^ 251 /\ 0 <= lval s / 2 ^ 251 < 32).
  { change 0xff with (2 ^ 8 - 1). rewrite window_eq by (assumption || lia).
    pose proof (Z.div_lt_upper_bound (lval s) (2 ^ 251) 32 ltac:(lia) ltac:(lia)). pose proof (Z.div_pos (lval s) (2 ^ 251) ltac:(lia) ltac:(lia)).
    split; [apply Z.mod_small|]; lia. }
  repeat split.
  - rewrite digits7_at, map_map.
    pose proof (positional_prefix (fun i => digit (boothW7 (window_at s 0xff (7 * Z.of_nat i)))) 37 128 (fun i => prefix (lval s) (7 * i))) as P.
    cbv beta in P. specialize (P ltac:(intros i Hi; rewrite step7 by (assumption || lia); do 3 f_equal; lia) 37%nat 0%nat ltac:(lia)).
    rewrite prefix_top in P by (assumption || lia). change (7 * Z.of_nat 0) with 0 in P. rewrite prefix_0 in P. lia.
  - rewrite digits7_at. apply Forall_forall. intros d Hd. apply in_map_iff in Hd. destruct Hd as (i & <- & Hi). apply in_seq in Hi.
    change 0xff with (2 ^ 8 - 1). rewrite window_at_eq by (assumption || lia).
    pose proof (Z.mod_pos_bound (2 * lval s / 2 ^ (7 * Z.of_nat i)) (2 ^ 8) ltac:(lia)) as M. change (2 ^ 8) with 256 in *.
    destruct (booth7 _ M) as (R & S & _). split; [exact R|]. rewrite S.
    set (w := _ mod 256) in *. pose proof (Z.div_pos w 128). pose proof (Z.div_lt_upper_bound w 128 2). lia.
  - destruct T as [-> T]. destruct (booth7 (lval s / 2 ^ 251)) as (_ & -> & _); [lia|]. apply Z.div_small. lia.
  - destruct T as [-> T]. destruct (booth7 (lval s / 2 ^ 251)) as (R & S & D); [lia|]. unfold digit in D. rewrite S in D.
    rewrite (Z.div_small _ 128) in D by lia. cbn [Z.eqb] in D. rewrite D. pose proof (Z.div_lt_upper_bound (lval s / 2 ^ 251 + 1) 2 17). lia.
Qed.
Print Assumptions C60_base_digits.

Example C60_example :
  let s := words_of 4 (cN - 2) in
  positional 32 (map digit (digits5 s)) = cN - 2 /\
  positional 128 (map digit (digits7 s)) = cN - 2 /\ firstn 4 (map digit (digits5 s)) = [1; 9; -16; 11] /\ firstn 3 (digits7 s) = [(33, 0); (2, 0); (43, 1)].
Proof. vm_compute. repeat split. Qed.
