(** * Pocklington: a checked primality criterion *)
From Coq Require Import ZArith List Bool Lia Znumtheory Zpow_facts.
From Verif Require Import Base ECKey NumTheory LucasFacts.
Import ListNotations.
Open Scope Z_scope.

(** ** Trial division *)
Fixpoint no_div (fuel : nat) (d n : Z) : bool :=
  match fuel with
  | O => false
  | S f => if n <? d * d then true else if n mod d =? 0 then false else no_div f (d + 1) n
  end.
Definition small_prime (n : Z) : bool := (1 <? n) && no_div 200 2 n.

Lemma exists_prime_divisor : forall n, 1 < n -> exists r, prime r /\ (r | n).
Proof.
  intros n Hn. assert (H0 : 0 <= n) by lia. revert Hn. pattern n. apply Z_lt_induction; [|exact H0].
  clear n H0. intros n IH Hn. destruct (prime_dec n) as [P|P].
  - exists n. split; [exact P|apply Z.divide_refl].
  - apply not_prime_divide in P; [|lia]. destruct P as (d & Hd & Dd).
    destruct (IH d) as (r & Hr & Dr); [lia|lia|].
    exists r. split; [exact Hr|]. eapply Z.divide_trans; eassumption.
Qed.

Lemma no_div_sound : forall f d n, 1 < d -> 1 < n -> no_div f d n = true ->
  (forall x, 1 < x < d -> ~ (x | n)) -> forall x, 1 < x -> x * x <= n -> ~ (x | n).
Proof.
  induction f as [|f IH]; intros d n Hd Hn H L x Hx Hxx; [discriminate|].
  cbn [no_div] in H. destruct (Z.ltb_spec n (d * d)).
  - apply L. nia.
  - destruct (Z.eqb_spec (n mod d) 0) as [|N]; [discriminate|].
    apply (IH (d + 1) n) ; try lia; auto.
    intros y Hy. destruct (Z.eq_dec y d) as [->|]; [|apply L; lia].
    intros D. apply N. apply Z.mod_divide; [lia|exact D].
Qed.

Lemma prime_by_sqrt : forall n, 1 < n -> (forall x, 1 < x -> x * x <= n -> ~ (x | n)) -> prime n.
Proof.
  intros n Hn H. destruct (prime_dec n) as [P|P]; [exact P|].
  apply not_prime_divide in P; [|lia]. destruct P as (d & Hd & [k Dk]).
  destruct (Z_le_gt_dec (d * d) n).
  - exfalso. apply (H d); try lia. exists k; lia.
  - exfalso. apply (H k); try nia. exists d; lia.
Qed.

Lemma small_prime_sound : forall n, small_prime n = true -> prime n.
Proof.
  intros n H. unfold small_prime in H. apply andb_true_iff in H. destruct H as [H1 H2].
  apply Z.ltb_lt in H1. apply prime_by_sqrt; [exact H1|].
  apply (no_div_sound 200 2 n); try lia; auto.
Qed.

(** ** Exponents with b^k = 1 are closed under gcd *)
Lemma pow1_gcd : forall r b, 1 < r -> forall n, 0 <= n -> forall m, 0 <= m ->
  b ^ m mod r = 1 -> b ^ n mod r = 1 -> b ^ (Z.gcd m n) mod r = 1.
Proof.
  intros r b Hr n Hn. pattern n. apply Z_lt_induction; [|exact Hn]. clear n Hn.
  intros n IH m Hm Bm Bn. destruct (Z_lt_le_dec n 1) as [H0|H1].
  - destruct (Z_lt_le_dec n 0).
    + destruct n; try lia. rewrite Z.pow_neg_r, Z.mod_0_l in Bn by lia. lia.
    + replace n with 0 by lia. rewrite Z.gcd_0_r, Z.abs_eq by lia. exact Bm.
  - rewrite Z.gcd_comm. rewrite <- Z.gcd_mod by lia. rewrite Z.gcd_comm.
    pose proof (Z.mod_pos_bound m n ltac:(lia)). apply IH; try lia; auto.
    rewrite (Z.div_mod m n) in Bm by lia.
    assert (0 <= m / n) by (apply Z.div_pos; lia).
    rewrite Z.pow_add_r, Z.pow_mul_r in Bm by nia.
    rewrite Z.mul_mod in Bm by lia. rewrite (Zpower_mod (b ^ n)) in Bm by lia. rewrite Bn in Bm.
    rewrite Z.pow_1_l in Bm by lia. rewrite (Z.mod_small 1) in Bm by lia.
    rewrite Z.mul_1_l, Z.mod_mod in Bm by lia. exact Bm.
Qed.

Lemma pocklington_divisor : forall N q e a r, 1 < N -> prime q -> 0 < e -> (q ^ e | N - 1) ->
  a ^ (N - 1) mod N = 1 -> Z.gcd (a ^ ((N - 1) / q) - 1) N = 1 ->
  prime r -> (r | N) -> (q ^ e | r - 1).
Proof.
  intros N q e a r HN Hq He [c Hc] H1 H2 Hr Dr.
  pose proof (prime_ge_2 _ Hr) as R2. pose proof (prime_ge_2 _ Hq) as Q2.
  assert (Qe : q ^ e = q ^ (e - 1) * q).
  { replace e with (e - 1 + 1) at 1 by lia. rewrite Z.pow_add_r, Z.pow_1_r by lia. reflexivity. }
  assert (Qpos : 0 < q ^ (e - 1)) by (apply Z.pow_pos_nonneg; lia).
  assert (Cpos : 0 < c) by nia.
  set (b := a ^ c).
  assert (M : forall x, x mod N = 1 -> x mod r = 1).
  { intros x Hx. destruct Dr as [k ->]. pose proof (Z.div_mod x (k * r) ltac:(nia)) as D.
    rewrite Hx in D. rewrite D. replace (k * r * (x / (k * r)) + 1) with (1 + k * (x / (k * r)) * r) by ring.
    rewrite Z.mod_add by lia. apply Z.mod_small; lia. }
  assert (B1 : b ^ (q ^ e) mod r = 1).
  { unfold b. rewrite <- Z.pow_mul_r by nia. rewrite <- Hc. apply M. exact H1. }
  assert (B2 : b ^ (q ^ (e - 1)) mod r <> 1).
  { unfold b. rewrite <- Z.pow_mul_r by nia. intros E.
    assert (Eq : (N - 1) / q = c * q ^ (e - 1)).
    { rewrite Hc, Qe, Z.mul_assoc, Z.div_mul by lia. reflexivity. }
    rewrite <- Eq in E.
    assert (D : (r | Z.gcd (a ^ ((N - 1) / q) - 1) N)).
    { apply Z.gcd_greatest; [|exact Dr]. apply Z.mod_divide; [lia|].
      rewrite Zminus_mod, E, (Z.mod_small 1) by lia. reflexivity. }
    rewrite H2 in D. apply Z.divide_1_r_nonneg in D; lia. }
  assert (Nb : ~ (r | b)).
  { intros D. assert (0 < q ^ e) by nia.
    assert (Z0 : b ^ (q ^ e) mod r = 0).
    { rewrite Zpower_mod by lia. apply Z.mod_divide in D; [|lia]. rewrite D, Z.pow_0_l by lia. apply Z.mod_0_l; lia. }
    lia. }
  pose proof (fermat_unit r b Hr Nb) as B3.
  pose proof (pow1_gcd r b ltac:(lia) (r - 1) ltac:(lia) (q ^ e) ltac:(nia) B1 B3) as G.
  set (g := Z.gcd (q ^ e) (r - 1)) in *.
  assert (Gq : (g | q ^ e)) by apply Z.gcd_divide_l.
  assert (Gr : (g | r - 1)) by apply Z.gcd_divide_r.
  assert (Gnn : 0 <= g) by apply Z.gcd_nonneg.
  destruct (Zdivide_power_2 g q e ltac:(lia) Gnn Hq Gq) as [j Gj].
  destruct (Z_lt_le_dec j e) as [L|L].
  - exfalso. apply B2.
    destruct (Z_lt_le_dec j 0) as [J|J].
    { rewrite Z.pow_neg_r in Gj by lia. rewrite Gj in Gq. destruct Gq as [z Gq]. nia. }
    replace (q ^ (e - 1)) with (g * q ^ (e - 1 - j)).
    2:{ rewrite Gj, <- Z.pow_add_r by lia. f_equal. lia. }
    assert (0 <= q ^ (e - 1 - j)) by (apply Z.pow_nonneg; lia).
    rewrite Z.pow_mul_r, Zpower_mod, G, Z.pow_1_l by lia. apply Z.mod_small; lia.
  - eapply Z.divide_trans; [|exact Gr]. rewrite Gj. exists (q ^ (j - e)).
    rewrite <- Z.pow_add_r by lia. f_equal. lia.
Qed.

(** ** Multiplication with windows of four bits: a fifth as many additions as Pos.mul *)
Section Window.
Variables y1 y3 y5 y7 y9 y11 y13 y15 : positive.
Fixpoint wmul (x : positive) : positive :=
  match x with
  | xH => y1
  | xO p => xO (wmul p)
  | xI xH => y3
  | xI (xO xH) => y5
  | xI (xI xH) => y7
  | xI (xO (xO xH)) => y9
  | xI (xO (xI xH)) => y13
  | xI (xI (xO xH)) => y11
  | xI (xI (xI xH)) => y15
  | xI (xO (xO (xO p))) => (y1 + (wmul p)~0~0~0~0)%positive
  | xI (xO (xO (xI p))) => (y9 + (wmul p)~0~0~0~0)%positive
  | xI (xO (xI (xO p))) => (y5 + (wmul p)~0~0~0~0)%positive
  | xI (xO (xI (xI p))) => (y13 + (wmul p)~0~0~0~0)%positive
  | xI (xI (xO (xO p))) => (y3 + (wmul p)~0~0~0~0)%positive
  | xI (xI (xO (xI p))) => (y11 + (wmul p)~0~0~0~0)%positive
  | xI (xI (xI (xO p))) => (y7 + (wmul p)~0~0~0~0)%positive
  | xI (xI (xI (xI p))) => (y15 + (wmul p)~0~0~0~0)%positive
  end.
End Window.
Definition pmul (x y : positive) : positive :=
  let y2 := xO y in
  let y3 := (y + y2)%positive in
  let y5 := (y3 + y2)%positive in
  let y7 := (y5 + y2)%positive in
  let y9 := (y7 + y2)%positive in
  let y11 := (y9 + y2)%positive in
  let y13 := (y11 + y2)%positive in
  let y15 := (y13 + y2)%positive in
  wmul y y3 y5 y7 y9 y11 y13 y15 x.
Definition zmul (x y : Z) : Z :=
  match x, y with
  | Zpos p, Zpos q => Zpos (pmul p q)
  | Zpos p, Zneg q => Zneg (pmul p q)
  | Zneg p, Zpos q => Zneg (pmul p q)
  | Zneg p, Zneg q => Zpos (pmul p q)
  | _, _ => 0
  end.
Lemma wmul_spec : forall y n x, (Pos.size_nat x <= n)%nat ->
  Zpos (wmul y (3 * y) (5 * y) (7 * y) (9 * y) (11 * y) (13 * y) (15 * y) x) = Zpos x * Zpos y.
Proof.
  intros y. induction n as [|n IH]; intros x Hx; [destruct x; cbn in Hx; lia|].
  destruct x as [x|x|]; cbn [wmul]; [|rewrite Pos2Z.inj_xO, IH by (cbn in Hx; lia); lia|lia].
  destruct x as [[[x|x|]|[x|x|]|]|[[x|x|]|[x|x|]|]|]; try lia;
    (assert (Hs : (Pos.size_nat x <= n)%nat) by (cbn in Hx; lia); specialize (IH x Hs);
     set (w := wmul _ _ _ _ _ _ _ _ x) in *; lia).
Qed.
Lemma pmul_spec : forall x y, pmul x y = (x * y)%positive.
Proof.
  intros x y. apply Pos2Z.inj. rewrite Pos2Z.inj_mul, <- (wmul_spec y (Pos.size_nat x) x (le_n _)).
  unfold pmul. cbv zeta. do 2 f_equal; lia.
Qed.
Lemma zmul_spec : forall x y, zmul x y = x * y.
Proof. intros [|x|x] [|y|y]; cbn [zmul]; rewrite ?pmul_spec; reflexivity. Qed.

(** ** Exponentiation with a given reduction function.  Everything here is arranged so that
    the checks are cheap also for coqchk, which evaluates without the virtual machine: no
    division inside the loop. *)
Definition red_ok (N : Z) (red : Z -> Z) : Prop := forall x, red x mod N = x mod N.
Fixpoint powr (red : Z -> Z) (x : Z) (e : positive) : Z :=
  match e with
  | xH => x
  | xO e' => let r := powr red x e' in red (zmul r r)
  | xI e' => let r := powr red x e' in red (zmul x (red (zmul r r)))
  end.

Lemma powr_spec : forall N red x e, 0 < N -> red_ok N red -> powr red x e mod N = x ^ Zpos e mod N.
Proof.
  intros N red x e HN Hr. induction e as [e IH|e IH|]; cbn [powr]; rewrite ?zmul_spec.
  - rewrite (Z.mul_comm x), Hr, Z.mul_mod, Hr, <- Z.mul_mod by lia.
    rewrite Pos2Z.inj_xI. replace (2 * Z.pos e + 1) with (Z.pos e + Z.pos e + 1) by lia.
    rewrite !Z.pow_add_r, Z.pow_1_r by lia.
    rewrite (Z.mul_mod (powr red x e * powr red x e) x), (Z.mul_mod (powr red x e) (powr red x e)), IH by lia.
    rewrite <- (Z.mul_mod (x ^ Z.pos e)) by lia. rewrite <- Z.mul_mod by lia. reflexivity.
  - rewrite Hr, Z.mul_mod, IH, <- Z.mul_mod by lia.
    rewrite Pos2Z.inj_xO. replace (2 * Z.pos e) with (Z.pos e + Z.pos e) by lia.
    rewrite Z.pow_add_r by lia. reflexivity.
  - rewrite Z.pow_1_r. reflexivity.
Qed.

(** Barrett reduction, mu about 2^(2n+16)/N; correct as a congruence for any n and mu *)
Definition red_barrett (n mu N x : Z) : Z := x - zmul (Z.shiftr (zmul (Z.shiftr x (n - 1)) mu) (n + 17)) N.
Lemma red_barrett_ok : forall n mu N, 0 < N -> red_ok N (red_barrett n mu N).
Proof. intros n mu N HN x. unfold red_barrett. rewrite !zmul_spec. rewrite <- Z.add_opp_r, <- Z.mul_opp_l. apply Z.mod_add. lia. Qed.

(** folding: 2^n = sum of s*2^k over the terms, modulo N; [ones] is 2^n - 1 *)
Fixpoint fold_terms (ts : list (bool * Z)) (h acc : Z) : Z :=
  match ts with
  | [] => acc
  | (true, k) :: ts' => fold_terms ts' h (acc + Z.shiftl h k)
  | (false, k) :: ts' => fold_terms ts' h (acc - Z.shiftl h k)
  end.
Fixpoint red_fold (iter : nat) (n ones : Z) (ts : list (bool * Z)) (x : Z) : Z :=
  match iter with
  | O => x
  | S i => red_fold i n ones ts (fold_terms ts (Z.shiftr x n) (Z.land x ones))
  end.
Fixpoint terms_value (ts : list (bool * Z)) : Z :=
  match ts with
  | [] => 0
  | (true, k) :: ts' => 2 ^ k + terms_value ts'
  | (false, k) :: ts' => terms_value ts' - 2 ^ k
  end.
Definition fold_check (n ones : Z) (ts : list (bool * Z)) (N : Z) : bool :=
  (0 <? N) && (0 <=? n) && (ones =? Z.ones n) && forallb (fun t => 0 <=? snd t) ts &&
  ((2 ^ n - terms_value ts) mod N =? 0).
Lemma fold_terms_value : forall ts h acc, forallb (fun t : bool * Z => 0 <=? snd t) ts = true ->
  fold_terms ts h acc = acc + h * terms_value ts.
Proof.
  induction ts as [|[b k] ts IH]; intros h acc H; cbn [fold_terms terms_value forallb snd] in *; [ring|].
  apply andb_true_iff in H as [H1 H2]. apply Z.leb_le in H1.
  destruct b; rewrite IH, Z.shiftl_mul_pow2 by assumption; ring.
Qed.
Lemma red_fold_ok : forall i n ones ts N, fold_check n ones ts N = true -> red_ok N (red_fold i n ones ts).
Proof.
  intros i n ones ts N H. unfold fold_check in H. rewrite !andb_true_iff, Z.ltb_lt, Z.leb_le, !Z.eqb_eq in H.
  destruct H as [[[[HN Hn] ->] Ht] Hm]. induction i as [|i IH]; intros x; cbn [red_fold]; [reflexivity|].
  rewrite IH, fold_terms_value by exact Ht. rewrite Z.land_ones, Z.shiftr_div_pow2 by lia.
  assert (P : 0 < 2 ^ n) by (apply Z.pow_pos_nonneg; lia).
  apply Z.mod_divide in Hm; [|lia]. destruct Hm as [c Hc].
  rewrite (Z.div_mod x (2 ^ n)) at 3 by lia.
  replace (2 ^ n * (x / 2 ^ n) + x mod 2 ^ n) with (x mod 2 ^ n + x / 2 ^ n * terms_value ts + (x / 2 ^ n * c) * N).
  - symmetry. apply Z.mod_add. lia.
  - generalize (x / 2 ^ n) (x mod 2 ^ n). intros u v. assert (E : 2 ^ n = c * N + terms_value ts) by lia. rewrite E. ring.
Qed.

(** ** The checker: a tree of prime powers of N - 1, one base for all of them.  At a node the
    given b is a^((N-1)/product of the tree). *)
Inductive ftree := Leaf (q e : Z) | Node (l r : ftree).
Fixpoint prod_t (t : ftree) : Z := match t with Leaf q e => q ^ e | Node l r => prod_t l * prod_t r end.
Fixpoint primes_t (t : ftree) : Prop := match t with Leaf q _ => prime q | Node l r => primes_t l /\ primes_t r end.
Definition powz (red : Z -> Z) (a e : Z) : Z := match e with Zpos p => powr red a p | _ => 1 end.
Fixpoint check_t (red : Z -> Z) (N : Z) (t : ftree) (b : Z) : bool :=
  match t with
  | Leaf q e =>
      let y := powz red b (q ^ (e - 1)) in
      (0 <? e) && (powz red y q mod N =? 1) && (Z.gcd (y mod N - 1) N =? 1)
  | Node l r =>
      let pl := prod_t l in
      let pr := prod_t r in
      (Z.gcd pl pr =? 1) && check_t red N l (powz red b pr) && check_t red N r (powz red b pl)
  end.
Definition pock_check (red : Z -> Z) (N a : Z) (t : ftree) : bool :=
  let F := prod_t t in
  (1 <? N) && (0 <? F) && ((N - 1) mod F =? 0) && (N <=? F * F) && check_t red N t (powz red a ((N - 1) / F)).

Lemma powz_spec : forall red N a e, 0 < N -> 0 < e -> red_ok N red -> powz red a e mod N = a ^ e mod N.
Proof. intros red N a [|e|e] HN He Hr; try lia. cbn [powz]. apply powr_spec; auto. Qed.

Lemma prod_t_pos : forall t red N b, primes_t t -> check_t red N t b = true -> 0 < prod_t t.
Proof.
  induction t as [q e|l IHl r IHr]; intros red N b Hp H; cbn [prod_t primes_t check_t] in *; cbv zeta in H.
  - rewrite !andb_true_iff, Z.ltb_lt in H. pose proof (prime_ge_2 _ Hp). apply Z.pow_pos_nonneg; lia.
  - rewrite !andb_true_iff in H. destruct H as [[_ H1] H2]. destruct Hp as [P1 P2].
    specialize (IHl _ _ _ P1 H1). specialize (IHr _ _ _ P2 H2). nia.
Qed.

Lemma pow_congr : forall N x y e, 0 < N -> x mod N = y mod N -> x ^ e mod N = y ^ e mod N.
Proof. intros N x y e HN H. rewrite (Zpower_mod x), (Zpower_mod y), H by lia. reflexivity. Qed.

Lemma check_t_sound : forall red N a, red_ok N red -> 1 < N -> forall t b c, primes_t t ->
  N - 1 = c * prod_t t -> 0 < c -> b mod N = a ^ c mod N -> check_t red N t b = true ->
  forall r, prime r -> (r | N) -> (prod_t t | r - 1).
Proof.
  intros red N a Hred HN. induction t as [q e|l IHl r' IHr]; intros b c Hp Hc C0 Hb H r Pr Dr.
  - cbn [prod_t primes_t check_t] in *. cbv zeta in H. rewrite !andb_true_iff, Z.ltb_lt, !Z.eqb_eq in H.
    destruct H as [[He H1] H2]. pose proof (prime_ge_2 _ Hp) as Q2.
    set (y := powz red b (q ^ (e - 1))) in *.
    assert (Qp : 0 < q ^ (e - 1)) by (apply Z.pow_pos_nonneg; lia).
    assert (Qe : q ^ e = q ^ (e - 1) * q).
    { replace e with (e - 1 + 1) at 1 by lia. rewrite Z.pow_add_r, Z.pow_1_r by lia. reflexivity. }
    assert (Y : y mod N = a ^ ((N - 1) / q) mod N).
    { unfold y. rewrite (powz_spec red N b) by (auto; lia). rewrite (pow_congr N b (a ^ c)) by (auto; lia).
      rewrite <- Z.pow_mul_r by lia. f_equal. f_equal. rewrite Hc, Qe, Z.mul_assoc, Z.div_mul by lia. reflexivity. }
    apply (pocklington_divisor N q e a r); auto.
    + exists c. lia.
    + rewrite (powz_spec red N y) in H1 by (auto; lia). etransitivity; [|exact H1].
      rewrite (pow_congr N y (a ^ ((N - 1) / q))) by (auto; lia).
      assert (E : (N - 1) / q = c * q ^ (e - 1)) by (rewrite Hc, Qe, Z.mul_assoc, Z.div_mul by lia; reflexivity).
      rewrite <- Z.pow_mul_r by (try lia; rewrite E; nia). f_equal. f_equal. rewrite E, Hc, Qe. ring.
    + set (z := a ^ ((N - 1) / q)) in *. etransitivity; [|exact H2].
      rewrite Y. rewrite Z.gcd_comm, (Z.gcd_comm (z mod N - 1)).
      replace (Z.gcd N (z - 1)) with (Z.gcd N (z mod N - 1 + z / N * N)).
      * apply Z.gcd_add_mult_diag_r.
      * f_equal. pose proof (Z.div_mod z N ltac:(lia)). lia.
  - cbn [prod_t primes_t check_t] in *. cbv zeta in H. rewrite !andb_true_iff, Z.eqb_eq in H.
    destruct H as [[G H1] H2]. destruct Hp as [P1 P2].
    pose proof (prod_t_pos _ _ _ _ P1 H1) as L0. pose proof (prod_t_pos _ _ _ _ P2 H2) as R0.
    assert (D1 : (prod_t l | r - 1)).
    { apply (IHl (powz red b (prod_t r')) (c * prod_t r')); auto; try nia.
      rewrite (powz_spec red N b) by (auto; lia). rewrite (pow_congr N b (a ^ c)) by (auto; lia).
      rewrite <- Z.pow_mul_r by lia. reflexivity. }
    assert (D2 : (prod_t r' | r - 1)).
    { apply (IHr (powz red b (prod_t l)) (c * prod_t l)); auto; try nia.
      rewrite (powz_spec red N b) by (auto; lia). rewrite (pow_congr N b (a ^ c)) by (auto; lia).
      rewrite <- Z.pow_mul_r by lia. reflexivity. }
    destruct D1 as [u Hu]. rewrite Hu in D2 |- *. rewrite (Z.mul_comm u) in D2. apply Gauss in D2.
    + destruct D2 as [w Hw]. exists w. rewrite Hw. ring.
    + apply rel_prime_sym. apply Zgcd_1_rel_prime. exact G.
Qed.

Theorem pock_sound : forall red N a t, red_ok N red -> pock_check red N a t = true -> primes_t t -> prime N.
Proof.
  intros red N a t Hred H Ht. unfold pock_check in H. cbv zeta in H.
  rewrite !andb_true_iff, !Z.ltb_lt, Z.eqb_eq, Z.leb_le in H. destruct H as [[[[HN HF] Hd] HNF] H].
  set (F := prod_t t) in *. apply Z.mod_divide in Hd; [|lia]. destruct Hd as [c Hc].
  assert (C0 : 0 < c) by nia.
  assert (Hr : forall r, prime r -> (r | N) -> (F | r - 1)).
  { apply (check_t_sound red N a Hred HN t (powz red a ((N - 1) / F)) c); auto.
    rewrite Hc, Z.div_mul by lia. apply powz_spec; auto; lia. }
  destruct (prime_dec N) as [P|P]; [exact P|]. exfalso.
  apply not_prime_divide in P; [|lia]. destruct P as (d & Hd & [k Hk]).
  assert (G : forall x, 1 < x -> (x | N) -> F < x).
  { intros x Hx Dx. destruct (exists_prime_divisor x Hx) as (r & Pr & Dr).
    pose proof (prime_ge_2 _ Pr). destruct (Hr r Pr (Z.divide_trans _ _ _ Dr Dx)) as [c' Hc'].
    assert (r <= x) by (apply Z.divide_pos_le; [lia|exact Dr]).
    assert (0 < c') by nia. nia. }
  assert (F < d) by (apply G; [lia|exists k; lia]).
  assert (F < k) by (apply G; [nia|exists d; lia]).
  nia.
Qed.
