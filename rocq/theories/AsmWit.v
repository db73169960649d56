(** * AsmWit: a point whose multiple by 4 comes out off the curve *)
From Coq Require Import ZArith Znumtheory Zpow_facts String List Bool Lia.
From Verif Require Import Base BaseFacts Curves NumTheory Primes1 Primes3 Spec_Group CurveZ CurveSub CurveSM2 P256 Spec_P256 Spec_P256b P256Booth P256Inv P256Sched Prop_P256b P256Sched2 P256Point P256PointFacts Prop_P256d AsmVal AsmEq Spec_AsmClean AsmFix AsmSim.
Import ListNotations.
Open Scope Z_scope.

(** ** Scalars below 16: one table entry *)
Section Small.
Variable A : prims.
Hypothesis Hdbl : forall p, length (a_dbl A p) = 12%nat.
Hypothesis Hadd : forall p q, length (a_add A p q) = 12%nat.
Hypothesis Hmov : a_mov A = a_mov asm_prims.
Hypothesis Hsel : a_select A = a_select asm_prims.
Hypothesis Hneg0 : a_neg A (repeat 0 4) 0 = repeat 0 4.
Lemma small_table p : length p = 12%nat -> sub (scalar_table A p) 12 12 = a_dbl A p /\ sub (scalar_table A p) 36 12 = a_dbl A (a_dbl A p).
Proof.
  intros Lp. unfold scalar_table. cbv zeta. change (repeat 0 192) with (repeat 0 (12 * 16)). rewrite concat_zeros.
  set (Z12 := repeat 0 12) in *. assert (LZ : length Z12 = 12%nat) by reflexivity. clearbody Z12. cbn [repeat].
  repeat (rewrite put_concat; [cbn [set_nth]|unfold blocks; repeat (constructor; try solve [assumption | apply Hdbl | apply Hadd])|
    solve [assumption | apply Hdbl | apply Hadd]|cbn [length]; lia]).
  split; [change 12%nat with (12 * 1)%nat at 1|change 36%nat with (12 * 3)%nat];
    (rewrite (sub_concat 12 _ _ []); [reflexivity|unfold blocks; repeat (constructor; try solve [assumption | apply Hdbl | apply Hadd])|cbn [length]; lia]).
Qed.
Lemma round_zero t p : scalar_round A t p 0 0 = (repeat 0 12, 0).
Proof.
  unfold scalar_round. cbv zeta. change (boothW5 0) with (0, 0). cbv beta iota. rewrite Hmov, Hsel. 
  change (a_select asm_prims t 0) with (repeat 0 12). change (sub (repeat 0 12) 4 4) with (repeat 0 4). rewrite Hneg0. reflexivity.
Qed.
Lemma loop_zero t s : forall n, (forall i, (i < n)%nat -> window s 0x3f (4 + 5 * Z.of_nat i) = 0) ->
  scalar_loop A n t s (repeat 0 12) 0 (4 + 5 * Z.of_nat n) = Val (repeat 0 12, 0).
Proof.
  induction n as [|n IH]; intros W; [reflexivity|]. cbn [scalar_loop].
  destruct (Z.gtb_spec (4 + 5 * Z.of_nat (S n)) 4); [|lia].
  replace (4 + 5 * Z.of_nat (S n) - 5) with (4 + 5 * Z.of_nat n) by lia. rewrite W by lia. rewrite round_zero. apply IH. intros i Hi. apply W. lia.
Qed.
Lemma small_scalar p s j : (forall i, (i < 51)%nat -> window s 0x3f (4 + 5 * Z.of_nat i) = 0) -> boothW5 (window0 s 0x3f) = (j, 0) -> 0 < j <= 16 ->
  p256ScalarMult A p s = Val (let e := sub (scalar_table A p) (12 * (Z.to_nat j - 1)) 12 in put_at 4 (a_neg A (sub e 4 4) 0) e).
Proof.
  intros W E J. unfold p256ScalarMult. set (T := scalar_table A p). clearbody T. cbv zeta.
  change 254 with (4 + 5 * Z.of_nat 50). rewrite W by lia. change (boothW5 0) with (0, 0). cbv beta iota.
  rewrite Hsel. change (a_select asm_prims T 0) with (repeat 0 12). rewrite loop_zero by (intros i Hi; apply W; lia). cbn [bind].
  unfold scalar_round. rewrite E. cbv zeta. cbn [Z.lor]. rewrite Hmov, Hsel, asm_select_ok by lia.
  destruct (Z.eqb_spec j 0); [lia|]. cbn [a_mov asm_prims]. change (0 mod 2 ^ 32 =? 0) with true. cbv iota. reflexivity.
Qed.
End Small.
Lemma put_back w : length w = 12%nat -> put_at 4 (sub w 4 4) w = w.
Proof.
  intros L. do 12 (destruct w as [|? w]; [discriminate L|]). destruct w; [|discriminate L]. reflexivity.
Qed.
Lemma windows_small s : forallb (fun i => window s 0x3f (4 + 5 * Z.of_nat i) =? 0) (seq 0 51) = true ->
  forall i, (i < 51)%nat -> window s 0x3f (4 + 5 * Z.of_nat i) = 0.
Proof. intros H i Hi. apply Z.eqb_eq. rewrite forallb_forall in H. apply H. apply in_seq. lia. Qed.
Lemma asm_four p : length p = 12%nat -> p256ScalarMult asm_prims p [4; 0; 0; 0] = Val (a_dbl asm_prims (a_dbl asm_prims p)).
Proof.
  intros L. rewrite (small_scalar asm_prims eq_refl eq_refl eq_refl p [4; 0; 0; 0] 4 (windows_small [4; 0; 0; 0] eq_refl) eq_refl ltac:(lia)).
  cbv zeta. change (12 * (Z.to_nat 4 - 1))%nat with 36%nat.
  rewrite (proj2 (small_table asm_prims (fun _ => eq_refl) (fun _ _ => eq_refl) p L)). rewrite asm_neg0, put_back by reflexivity. reflexivity.
Qed.

(** ** The affine result is on the curve only if the Jacobian equation holds *)
Definition jac (b vx vy vz : Z) : Z := vy * vy - (vx * vx * vx - 3 * vx * (vz * vz * (vz * vz)) + b * (vz * vz * vz * (vz * vz * vz))).
Lemma jac_on p b vx vy vz i xa ya : (p | i * vz - 1) -> (p | vx * i ^ 2 - xa) -> (p | vy * i ^ 3 - ya) ->
  (p | ya * ya - (xa * xa * xa - 3 * xa + b)) -> (p | jac b vx vy vz).
Proof.
  intros [ki I'] [kx Dx] [ky Dy] [ko O].
  assert (Ex : (p | xa * (vz * vz) - vx)).
  { exists (vx * ki * (i * vz + 1) - kx * (vz * vz)). 
    replace (xa * (vz * vz) - vx) with (vx * (i * vz - 1) * (i * vz + 1) - (vx * i ^ 2 - xa) * (vz * vz)) by ring. rewrite I', Dx. ring. }
  assert (Ey : (p | ya * (vz * vz * vz) - vy)).
  { exists (vy * ki * ((i * vz) * (i * vz) + i * vz + 1) - ky * (vz * vz * vz)). 
    replace (ya * (vz * vz * vz) - vy) with (vy * (i * vz - 1) * ((i * vz) * (i * vz) + i * vz + 1) - (vy * i ^ 3 - ya) * (vz * vz * vz)) by ring. rewrite I', Dy. ring. }
  destruct Ex as [ex Ex]. destruct Ey as [ey Ey].
  assert (Vx : vx = xa * (vz * vz) - ex * p) by lia. assert (Vy : vy = ya * (vz * vz * vz) - ey * p) by lia.
  clear Ex Ey Dx Dy I'.
  assert (Q : jac b vx vy vz = (ya * ya - (xa * xa * xa - 3 * xa + b)) * vz ^ 6 +
    ((- 2 * ya * vz ^ 3 * ey + ey * ey * p) - (- 3 * xa * vz ^ 2 * xa * vz ^ 2 * ex + 3 * xa * vz ^ 2 * ex * ex * p - ex * ex * ex * p * p + 3 * ex * vz ^ 4)) * p).
  { unfold jac. rewrite Vx, Vy. ring. }
  rewrite Q, O. apply Z.divide_add_r; [|apply Z.divide_mul_r, Z.divide_refl]. apply Z.divide_mul_l, Z.divide_mul_r, Z.divide_refl.
Qed.
Lemma mod_div u : (cP | u - u mod cP).
Proof. exists (u / cP). pose proof (Z.div_mod u cP nzP). lia. Qed.
Lemma inv_div v : ~ (cP | v) -> (cP | v ^ (cP - 2) * v - 1).
Proof. intros N. apply Z.mod_divide; [exact nzP|]. rewrite Zminus_mod, (inv_unit v N). reflexivity. Qed.
Lemma affine_on x y z : is_words 4 x -> is_words 4 y -> is_words 4 z -> ~ (cP | lval z * RinvP) ->
  on_sm2 (fst (p256PointToAffine asm_prims (x ++ y ++ z))) (snd (p256PointToAffine asm_prims (x ++ y ++ z))) ->
  (cP | jac (c_B SM2P256V1) (lval x * RinvP) (lval y * RinvP) (lval z * RinvP)).
Proof.
  intros Wx Wy Wz NZ. rewrite affine_fixed.
  rewrite (to_affine sm2_E fixed fixed_ok x y z _ _ _ (words_montr x Wx) (words_montr y Wy) (words_montr z Wz)). 
  generalize dependent (lval z * RinvP). intros vz NZ. generalize (inv_div vz NZ). generalize (vz ^ (cP - 2)). intros i I. cbn [fst snd]. intros O.
  exact (jac_on _ _ _ _ _ i _ _ I (mod_div _) (mod_div _) O).
Qed.

(** ** The point *)
Definition witX : Z := 0xbfa9a069ac862fe543218108742ea184afaa917f7e2cb296a3f703b60aac0bae.
Definition witY : Z := 0xb04e89b2c1efe21590a3570cd3cd660a33861afed1248c7f7a3e5cf24d3f0c74.
Definition wit1 : words := words_of 4 0xe323d99e1bda61cfed27a45873fd267820f8111361b53fae617e0af8af4b97af ++
  words_of 4 0x29d4ec58a5c486c88454d90812dd67e7e817a760e5ef5d76c7d69919a5b8fc9b ++ one_mont.
Definition wit2 : words := words_of 4 0x5812dbc695980cc2846dd4d6d2ae8d8b94d47950691dad7502cff3322bd26c1c ++
  words_of 4 (2 ^ 256 - 1) ++ words_of 4 0x53a9d8b14b890d9108a9b21025bacfcfd02f4ec1cbdebaed8fad32334b71f936.
Definition wit4x : words := words_of 4 0xb00386026795e12fb87ad6f28e907ef5d10be21aa2eb280886cc83c1c8ab106f.
Definition wit4y : words := words_of 4 0x0437fc8442319843ef89f6929ac904006bd265c720988829107a48116b918374.
Definition wit4z : words := words_of 4 0xe6198a948f5292cbcec607ecfc400776d2463185532b43e03660f09d61e7c099.
Lemma wit_on : on_sm2 witX witY.
Proof. unfold on_sm2. apply Z.mod_divide; [exact nzP|]. vm_compute. reflexivity. Qed.
Lemma wit_load : load_point asm_prims witX witY = Val wit1.
Proof. vm_compute. reflexivity. Qed.
Lemma wit_dbl1 : a_dbl asm_prims wit1 = wit2.
Proof. vm_compute. reflexivity. Qed.
Lemma wit_dbl2 : a_dbl asm_prims wit2 = wit4x ++ wit4y ++ wit4z.
Proof. vm_compute. reflexivity. Qed.
Lemma wit_run : ScalarMult asm_prims witX witY [4] = Val (p256PointToAffine asm_prims (wit4x ++ wit4y ++ wit4z)).
Proof.
  unfold ScalarMult. change (p256GetScalar [4]) with (Val [4; 0; 0; 0]). cbn [bind]. rewrite wit_load. cbn [bind].
  rewrite (asm_four wit1 eq_refl). cbn [bind]. rewrite wit_dbl1, wit_dbl2. reflexivity.
Qed.
Lemma wit_off : ~ (cP | jac (c_B SM2P256V1) (lval wit4x * RinvP) (lval wit4y * RinvP) (lval wit4z * RinvP)).
Proof. intros D. apply Z.mod_divide in D; [|exact nzP]. vm_compute in D. discriminate D. Qed.
Lemma wit_z : ~ (cP | lval wit4z * RinvP).
Proof. intros D. apply Z.mod_divide in D; [|exact nzP]. vm_compute in D. discriminate D. Qed.
Lemma wit_affine : ~ on_sm2 (fst (p256PointToAffine asm_prims (wit4x ++ wit4y ++ wit4z))) (snd (p256PointToAffine asm_prims (wit4x ++ wit4y ++ wit4z))).
Proof. intros O. exact (wit_off (affine_on wit4x wit4y wit4z (words_of_ok _ _) (words_of_ok _ _) (words_of_ok _ _) wit_z O)). Qed.
Theorem wit_wrong : exists x y, ScalarMult asm_prims witX witY [4] = Val (x, y) /\ ~ on_sm2 x y.
Proof.
  rewrite wit_run. generalize wit_affine. destruct (p256PointToAffine asm_prims (wit4x ++ wit4y ++ wit4z)) as [x y]. cbn [fst snd].
  intros H. exists x, y. split; [reflexivity|exact H].
Qed.
