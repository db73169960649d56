(** * AsmFacts: reasoning about the instructions of AsmX86, one at a time

    [wp c Q st]: the code [c] runs to its end from [st] and the state it ends in satisfies [Q].  Each lemma
    replaces an instruction by an equation over the integers between the words it reads and writes. *)
From Coq Require Import ZArith List Bool Lia.
From Verif Require Import AsmX86.
Import ListNotations.
Open Scope Z_scope.

Definition u64 (x : Z) : Prop := 0 <= x < W64.
Definition bit (x : Z) : Prop := 0 <= x <= 1.
(** an equation put aside *)
Definition kept (P : Prop) : Prop := P.
Lemma keep (P : Prop) : P -> kept P. Proof. exact (fun x => x). Qed.

Lemma W64_val : W64 = 18446744073709551616. Proof. reflexivity. Qed.

Lemma u64_ok x : (0 <=? x) && (x <? W64) = true -> u64 x.
Proof. unfold u64. intros H. apply andb_prop in H. destruct H as [H1 H2]. apply Z.leb_le in H1. apply Z.ltb_lt in H2. lia. Qed.
Lemma bit_0 : bit 0. Proof. unfold bit; lia. Qed.
Lemma bit_1 : bit 1. Proof. unfold bit; lia. Qed.

Definition wp (c : list instr) (Q : state -> Prop) (st : state) : Prop :=
  exists st', exec c st = Some st' /\ Q st'.

Lemma wp_nil (Q : state -> Prop) st : Q st -> wp [] Q st.
Proof. intros H. exists st. split; [reflexivity|exact H]. Qed.

Lemma wp_step i c (Q : state -> Prop) st st' : step i st = Some st' -> wp c Q st' -> wp (i :: c) Q st.
Proof. intros E (s & H1 & H2). exists s. split; [|exact H2]. cbn [exec]. rewrite E. exact H1. Qed.

Lemma exec_app c1 c2 st : exec (c1 ++ c2) st = match exec c1 st with Some s => exec c2 s | None => None end.
Proof. revert st. induction c1 as [|i c1 IH]; intros st; [reflexivity|]. cbn [app exec]. destruct (step i st); [apply IH|reflexivity]. Qed.

Lemma wp_app c1 c2 (Q : state -> Prop) st : wp c1 (fun s => wp c2 Q s) st -> wp (c1 ++ c2) Q st.
Proof. intros (s1 & E1 & s2 & E2 & H). exists s2. split; [|exact H]. rewrite exec_app, E1. exact E2. Qed.

Lemma wp_mono c (Q Q' : state -> Prop) st : (forall s, Q s -> Q' s) -> wp c Q st -> wp c Q' st.
Proof. intros HQ (s & E & H). exists s. split; [exact E|apply HQ, H]. Qed.

Lemma bound_mod x : 0 <= x mod W64 < W64.
Proof. apply Z.mod_pos_bound. reflexivity. Qed.
Lemma div_mod64 x : x = W64 * (x / W64) + x mod W64.
Proof. apply Z.div_mod. discriminate. Qed.

Ltac ar64 := unfold u64, bit in *; change W64 with 18446744073709551616 in *; lia.

Section Instr.
Variables (c : list instr) (Q : state -> Prop).
Variables (rg : list val) (xm : list (option (Z * Z))) (h : heap) (al : nat -> Z) (fr ar : list val).

Definition svl (s : src) : val := match s with R r => nth r rg U | K z => I z end.

Lemma arith_svl s d cf zf a b f r k : svl s = I a -> nth d rg U = I b -> f a b = Some (r, k) ->
  arith (St rg xm cf zf h al fr ar) s d f = Some (St (upd rg d (I r)) xm (Some k) (Some (r =? 0)) h al fr ar).
Proof.
  intros Es Ed Ef. unfold arith, rdi, rd. cbn [AsmX86.rg]. rewrite Ed.
  destruct s as [q|z]; cbn [svl] in Es; cbn [sv]; unfold rdi, rd; cbn [AsmX86.rg].
  - rewrite Es, Ef. reflexivity.
  - injection Es as ->. rewrite Ef. reflexivity.
Qed.

Lemma wp_ADD s d cf zf a b : svl s = I a -> nth d rg U = I b -> u64 a -> u64 b ->
  (forall r k, u64 r -> bit k -> r + W64 * k = a + b ->
     wp c Q (St (upd rg d (I r)) xm (Some k) (Some (r =? 0)) h al fr ar)) ->
  wp (ADD s d :: c) Q (St rg xm cf zf h al fr ar).
Proof.
  intros Es Ed Ha Hb H. pose proof (bound_mod (a + b)) as Hr. pose proof (div_mod64 (a + b)) as Hd.
  unfold u64, bit in *.
  eapply wp_step; [|apply (H ((a + b) mod W64) ((a + b) / W64))]; [|ar64|ar64|ar64].
  cbn [step]. unfold rd at 1. cbn [AsmX86.rg]. rewrite Ed. eapply arith_svl; [exact Es|exact Ed|reflexivity].
Qed.

Lemma wp_ADC s d zf a b i : svl s = I a -> nth d rg U = I b -> u64 a -> u64 b -> bit i ->
  (forall r k, u64 r -> bit k -> r + W64 * k = a + b + i ->
     wp c Q (St (upd rg d (I r)) xm (Some k) (Some (r =? 0)) h al fr ar)) ->
  wp (ADC s d :: c) Q (St rg xm (Some i) zf h al fr ar).
Proof.
  intros Es Ed Ha Hb Hi H. pose proof (bound_mod (a + b + i)) as Hr. pose proof (div_mod64 (a + b + i)) as Hd.
  unfold u64, bit in *.
  eapply wp_step; [|apply (H ((a + b + i) mod W64) ((a + b + i) / W64))]; [|ar64|ar64|ar64].
  cbn [step]. eapply arith_svl; [exact Es|exact Ed|reflexivity].
Qed.

Lemma wp_SUB s d cf zf a b : svl s = I a -> nth d rg U = I b -> u64 a -> u64 b ->
  (forall r k, u64 r -> bit k -> r - W64 * k = b - a ->
     wp c Q (St (upd rg d (I r)) xm (Some k) (Some (r =? 0)) h al fr ar)) ->
  wp (SUB s d :: c) Q (St rg xm cf zf h al fr ar).
Proof.
  intros Es Ed Ha Hb H. pose proof (bound_mod (b - a)) as Hr. pose proof (div_mod64 (b - a)) as Hd.
  unfold u64, bit in *.
  eapply wp_step; [|apply (H ((b - a) mod W64) (- ((b - a) / W64)))]; [|ar64|ar64|ar64].
  cbn [step]. eapply arith_svl; [exact Es|exact Ed|reflexivity].
Qed.

Lemma wp_SBB s d zf a b i : svl s = I a -> nth d rg U = I b -> u64 a -> u64 b -> bit i ->
  (forall r k, u64 r -> bit k -> r - W64 * k = b - a - i ->
     wp c Q (St (upd rg d (I r)) xm (Some k) (Some (r =? 0)) h al fr ar)) ->
  wp (SBB s d :: c) Q (St rg xm (Some i) zf h al fr ar).
Proof.
  intros Es Ed Ha Hb Hi H. pose proof (bound_mod (b - a - i)) as Hr. pose proof (div_mod64 (b - a - i)) as Hd.
  unfold u64, bit in *.
  eapply wp_step; [|apply (H ((b - a - i) mod W64) (- ((b - a - i) / W64)))]; [|ar64|ar64|ar64].
  cbn [step]. eapply arith_svl; [exact Es|exact Ed|reflexivity].
Qed.

Lemma wp_MUL s cf zf a b : svl s = I a -> nth AX rg U = I b -> u64 a -> u64 b ->
  (forall lo hi, u64 lo -> u64 hi -> lo + W64 * hi = a * b -> lo + W64 * hi <= (W64 - 1) * (W64 - 1) ->
     wp c Q (St (upd (upd rg AX (I lo)) DX (I hi)) xm None None h al fr ar)) ->
  wp (MUL s :: c) Q (St rg xm cf zf h al fr ar).
Proof.
  intros Es Ed Ha Hb H. pose proof (bound_mod (a * b)) as Hr. pose proof (div_mod64 (a * b)) as Hd.
  unfold u64 in *.
  assert (0 <= a * b <= (W64 - 1) * (W64 - 1)) by (split; [apply Z.mul_nonneg_nonneg; lia|apply Z.mul_le_mono_nonneg; lia]).
  change ((W64 - 1) * (W64 - 1)) with 340282366920938463426481119284349108225 in *. rewrite W64_val in *.
  eapply wp_step; [|apply (H ((a * b) mod W64) ((a * b) / W64)); rewrite ?W64_val; lia].
  cbn [step]. unfold rdi, rd. cbn [AsmX86.rg]. rewrite Ed.
  destruct s as [q|z]; cbn [svl] in Es; cbn [sv]; unfold rdi, rd; cbn [AsmX86.rg].
  - rewrite Es. reflexivity.
  - injection Es as ->. reflexivity.
Qed.

Lemma wp_LD b off d cf zf r o x : nth b rg U = Ptr r o -> h r (o + off) = Some x ->
  wp c Q (St (upd rg d (I x)) xm cf zf h al fr ar) -> wp (LD b off d :: c) Q (St rg xm cf zf h al fr ar).
Proof. intros Eb Eh H. eapply wp_step; [|exact H]. cbn [step]. unfold rd. cbn [AsmX86.rg hp]. rewrite Eb, Eh. reflexivity. Qed.

Lemma wp_STO s b off cf zf r o v y : nth b rg U = Ptr r o -> nth s rg U = I v -> h r (o + off) = Some y ->
  wp c Q (St rg xm cf zf (store h r (o + off) v) al fr ar) -> wp (STO s b off :: c) Q (St rg xm cf zf h al fr ar).
Proof.
  intros Eb Es Eh H. eapply wp_step; [|exact H]. cbn [step]. unfold rdi, rd. cbn [AsmX86.rg hp]. rewrite Eb, Es, Eh. reflexivity.
Qed.

(** the shifts by 32 of the reduction steps; [SHR] and [SHL] see the same two halves *)
Lemma wp_SHL32 d cf zf a : nth d rg U = I a -> u64 a ->
  (forall r q l, u64 r -> 0 <= q < 2 ^ 32 -> 0 <= l < 2 ^ 32 -> a = q * 2 ^ 32 + l -> r = l * 2 ^ 32 ->
     wp c Q (St (upd rg d (I r)) xm None None h al fr ar)) ->
  wp (SHL 32 d :: c) Q (St rg xm cf zf h al fr ar).
Proof.
  intros Ed Ha H. unfold u64 in Ha. rewrite W64_val in Ha.
  pose proof (Z.div_mod a (2 ^ 32) ltac:(discriminate)) as D. pose proof (Z.mod_pos_bound a (2 ^ 32) eq_refl) as M.
  change (2 ^ 32) with 4294967296 in *.
  eapply wp_step; [|apply (H ((a mod 4294967296) * 4294967296) (a / 4294967296) (a mod 4294967296)); unfold u64; rewrite ?W64_val; lia].
  cbn [step]. unfold rdi, rd. cbn [AsmX86.rg]. rewrite Ed. unfold set_f, set_r. cbn [AsmX86.rg AsmX86.xm hp AsmX86.al AsmX86.fr AsmX86.ar].
  do 4 f_equal. rewrite W64_val. change (2 ^ 32) with 4294967296. change 18446744073709551616 with (4294967296 * 4294967296).
  apply Z.mul_mod_distr_r; discriminate.
Qed.

Lemma wp_SHR32 d cf zf a : nth d rg U = I a -> u64 a ->
  (forall r l, u64 r -> 0 <= r < 2 ^ 32 -> 0 <= l < 2 ^ 32 -> a = r * 2 ^ 32 + l ->
     wp c Q (St (upd rg d (I r)) xm None None h al fr ar)) ->
  wp (SHR 32 d :: c) Q (St rg xm cf zf h al fr ar).
Proof.
  intros Ed Ha H. unfold u64 in Ha. rewrite W64_val in Ha.
  pose proof (Z.div_mod a (2 ^ 32) ltac:(discriminate)) as D. pose proof (Z.mod_pos_bound a (2 ^ 32) eq_refl) as M.
  change (2 ^ 32) with 4294967296 in *.
  eapply wp_step; [|apply (H (a / 4294967296) (a mod 4294967296)); unfold u64; rewrite ?W64_val; lia].
  cbn [step]. unfold rdi, rd. cbn [AsmX86.rg]. rewrite Ed. reflexivity.
Qed.

Lemma wp_CMOVCS s d zf k a b : nth s rg U = I a -> nth d rg U = I b -> bit k -> u64 a -> u64 b ->
  (forall r, u64 r -> r = (if k =? 0 then b else a) ->
     wp c Q (St (upd rg d (I r)) xm (Some k) zf h al fr ar)) ->
  wp (CMOVCS s d :: c) Q (St rg xm (Some k) zf h al fr ar).
Proof.
  intros Es Ed Hk Ha Hb H. eapply wp_step; [|apply H; [|reflexivity]; destruct (k =? 0); assumption].
  cbn [step AsmX86.cf]. unfold cmov, rdi, rd. cbn [AsmX86.rg]. rewrite Es, Ed. destruct (k =? 0); reflexivity.
Qed.

Lemma wp_CMOVNE s d cf (z : bool) a b : nth s rg U = I a -> nth d rg U = I b -> u64 a -> u64 b ->
  (forall r, u64 r -> r = (if z then b else a) ->
     wp c Q (St (upd rg d (I r)) xm cf (Some z) h al fr ar)) ->
  wp (CMOVNE s d :: c) Q (St rg xm cf (Some z) h al fr ar).
Proof.
  intros Es Ed Ha Hb H. eapply wp_step; [|apply H; [|reflexivity]; destruct z; assumption].
  cbn [step AsmX86.zf]. unfold cmov, rdi, rd. cbn [AsmX86.rg]. rewrite Es, Ed. destruct z; reflexivity.
Qed.

Lemma wp_CMOVEQ s d cf (z : bool) a b : nth s rg U = I a -> nth d rg U = I b -> u64 a -> u64 b ->
  (forall r, u64 r -> r = (if z then a else b) ->
     wp c Q (St (upd rg d (I r)) xm cf (Some z) h al fr ar)) ->
  wp (CMOVEQ s d :: c) Q (St rg xm cf (Some z) h al fr ar).
Proof.
  intros Es Ed Ha Hb H. eapply wp_step; [|apply H; [|reflexivity]; destruct z; assumption].
  cbn [step AsmX86.zf]. unfold cmov, rdi, rd. cbn [AsmX86.rg]. rewrite Es, Ed. destruct z; reflexivity.
Qed.
End Instr.

(** stores *)
Lemma store_same h r o v : store h r o v r o = Some v.
Proof. unfold store. rewrite Nat.eqb_refl, Z.eqb_refl. reflexivity. Qed.
Lemma store_other h r o v r' o' : (r' <> r \/ o' <> o) -> store h r o v r' o' = h r' o'.
Proof.
  unfold store. intros H. destruct (Nat.eqb r' r) eqn:E; [|reflexivity].
  apply Nat.eqb_eq in E. destruct (o' =? o) eqn:F; [|reflexivity]. apply Z.eqb_eq in F. destruct H; contradiction.
Qed.
Lemma store_def h r o v r' o' y : h r' o' = Some y -> exists y', store h r o v r' o' = Some y'.
Proof. intros H. unfold store. destruct (Nat.eqb r' r && (o' =? o)); eauto. Qed.

(** four words at an address, and their value *)
Definition v4 (a b c d : Z) : Z := a + W64 * (b + W64 * (c + W64 * d)).
Definition quad (h : heap) (r : nat) (o : Z) (a b c d : Z) : Prop :=
  h r (o + 0) = Some a /\ h r (o + 8) = Some b /\ h r (o + 16) = Some c /\ h r (o + 24) = Some d.
Definition store4 (h : heap) (r : nat) (o : Z) (a b c d : Z) : heap :=
  store (store (store (store h r (o + 0) a) r (o + 8) b) r (o + 16) c) r (o + 24) d.

(** tactics: normalise the register list; one instruction; drop words that are no longer mentioned *)
Ltac rng := first [assumption | apply bit_0 | apply bit_1 | apply u64_ok; reflexivity].
Ltac nrm := cbn [upd firstn skipn app AX BX CX DX SI DI BP R8 R9 R10 R11 R12 R13 R14 R15].
Ltac heapv := first [eassumption | (rewrite ?store_other by (right; lia)); eassumption].
Ltac det := eapply wp_step; [cbn; reflexivity|].
Ltac ins :=
  match goal with
  | |- wp [] _ _ => apply wp_nil
  | |- wp (?i :: _) _ _ =>
    match i with
    | MOV _ _ => eapply wp_step; [reflexivity|]; unfold set_r, rd; cbn [rg xm cf zf hp al fr ar nth]; nrm
    | LDA _ _ => eapply wp_step; [reflexivity|]; unfold set_r; cbn [rg xm cf zf hp al fr ar]; nrm
    | XOR (R ?a) ?a => eapply wp_step; [reflexivity|]; unfold set_f, set_r; cbn [rg xm cf zf hp al fr ar]; nrm
    | LD _ _ _ => eapply wp_LD; [reflexivity|heapv|]; nrm
    | STO _ _ _ => eapply wp_STO; [reflexivity|reflexivity|heapv|]; nrm
    | ADD _ _ => eapply wp_ADD; [reflexivity|reflexivity|rng|rng|]; intros ? ? ? ? ?; nrm
    | ADC _ _ => eapply wp_ADC; [reflexivity|reflexivity|rng|rng|rng|]; intros ? ? ? ? ?; nrm
    | SUB _ _ => eapply wp_SUB; [reflexivity|reflexivity|rng|rng|]; intros ? ? ? ? ?; nrm
    | SBB _ _ => eapply wp_SBB; [reflexivity|reflexivity|rng|rng|rng|]; intros ? ? ? ? ?; nrm
    | MUL _ => eapply wp_MUL; [reflexivity|reflexivity|rng|rng|]; intros ? ? ? ? ? ?; nrm
    | SHL 32 _ => eapply wp_SHL32; [reflexivity|rng|]; intros ? ? ? ? ? ? ? ?; nrm
    | SHR 32 _ => eapply wp_SHR32; [reflexivity|rng|]; intros ? ? ? ? ? ?; nrm
    | CMOVCS _ _ => eapply wp_CMOVCS; [reflexivity|reflexivity|rng|rng|rng|]; intros ? ? ?; nrm
    | CMOVNE _ _ => eapply wp_CMOVNE; [reflexivity|reflexivity|rng|rng|]; intros ? ? ?; nrm
    | CMOVEQ _ _ => eapply wp_CMOVEQ; [reflexivity|reflexivity|rng|rng|]; intros ? ? ?; nrm
    end
  end.
Ltac sweep := repeat match goal with H : u64 ?x |- _ => is_var x; clear H x | H : bit ?x |- _ => is_var x; clear H x | x : Z |- _ => clear x end.
