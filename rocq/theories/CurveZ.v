(** * CurveZ: elliptic curves y^2 = x^3 + a x + b over the integers modulo a prime, as groups *)
From Coq Require Import ZArith Znumtheory Ring Field Field_theory Bool Lia.
From Verif Require Import NumTheory Spec_Group CurveLaw.
Open Scope Z_scope.

Section CurveZ.
Variable p : Z.
Hypothesis p_prime : prime p.
Hypothesis p_odd : 2 < p.
Variables ca cb : Z.
Hypothesis disc : ~ (p | 4 * ca ^ 3 + 27 * cb ^ 2).

(** ** The field *)
Notation F := (zm p).
Definition fz (z : Z) : F := zm_of p p_prime z.
Definition val (x : F) : Z := proj1_sig x.
Definition fadd (x y : F) : F := fz (val x + val y).
Definition fmul (x y : F) : F := fz (val x * val y).
Definition fsub (x y : F) : F := fz (val x - val y).
Definition fopp (x : F) : F := fz (- val x).
Definition finv (x : F) : F := fz (val x ^ (p - 2)).
Definition fdiv (x y : F) : F := fmul x (finv y).
Lemma p_pos : 0 < p. Proof. lia. Qed.
Lemma p_nz : p <> 0. Proof. lia. Qed.
Lemma val_fz : forall z, val (fz z) = z mod p.
Proof. reflexivity. Qed.
Lemma val_range : forall x, 0 <= val x < p.
Proof. intros. apply (zm_range p p_prime). Qed.
Lemma val_mod : forall x, val x mod p = val x.
Proof. intros. apply Z.mod_small, val_range. Qed.
Lemma val_inj : forall x y : F, val x = val y -> x = y.
Proof. intros. apply zm_eq. assumption. Qed.
Lemma fz_val : forall x, fz (val x) = x.
Proof. intros. apply val_inj. rewrite val_fz. apply val_mod. Qed.
Lemma fz_eq : forall u v, fz u = fz v <-> u mod p = v mod p.
Proof.
  intros. split; intros E; [apply (f_equal val) in E; exact E|]. apply val_inj. exact E.
Qed.
Lemma fz_0 : forall u, fz u = fz 0 <-> (p | u).
Proof.
  intros. rewrite fz_eq, Z.mod_0_l by apply p_nz. split; intros E; [apply Z.mod_divide; [apply p_nz|exact E]|apply Z.mod_divide; [apply p_nz|exact E]].
Qed.
Lemma fz_add : forall u v, fadd (fz u) (fz v) = fz (u + v).
Proof. intros. apply val_inj. unfold fadd. rewrite !val_fz. symmetry. apply Z.add_mod, p_nz. Qed.
Lemma fz_mul : forall u v, fmul (fz u) (fz v) = fz (u * v).
Proof. intros. apply val_inj. unfold fmul. rewrite !val_fz. symmetry. apply Z.mul_mod, p_nz. Qed.
Lemma fz_sub : forall u v, fsub (fz u) (fz v) = fz (u - v).
Proof. intros. apply val_inj. unfold fsub. rewrite !val_fz. symmetry. apply Zminus_mod. Qed.
Lemma fz_opp : forall u, fopp (fz u) = fz (- u).
Proof.
  intros. apply val_inj. unfold fopp. rewrite !val_fz. rewrite <- (Z.sub_0_l (u mod p)), <- (Z.sub_0_l u). apply Zminus_mod_idemp_r.
Qed.
Lemma fz_rep : forall x : F, exists z, x = fz z.
Proof. intros x. exists (val x). symmetry. apply fz_val. Qed.
Ltac reps := repeat match goal with x : F |- _ => destruct (fz_rep x) as [? ->] end.
Lemma F_ring : ring_theory (fz 0) (fz 1) fadd fmul fsub fopp (@eq F).
Proof.
  constructor; intros; reps; rewrite ?fz_sub, ?fz_opp, ?fz_add, ?fz_mul, ?fz_add, ?fz_mul, ?fz_add, ?fz_mul, ?fz_opp, ?fz_add; f_equal; ring.
Qed.
Lemma F_field : field_theory (fz 0) (fz 1) fadd fmul fsub fopp fdiv finv (@eq F).
Proof.
  constructor; [apply F_ring|intros C; apply fz_eq in C; rewrite Z.mod_0_l, Z.mod_1_l in C by lia; discriminate|reflexivity|].
  intros x H. destruct (fz_rep x) as [z ->]. unfold finv. rewrite val_fz, fz_mul. apply fz_eq.
  assert (D : ~ (p | z mod p)).
  { intros C. apply H. apply fz_0. apply Z.mod_divide in C; [|apply p_nz]. rewrite Z.mod_mod in C by apply p_nz.
    apply Z.mod_divide; [apply p_nz|exact C]. }
  rewrite <- Z.mul_mod_idemp_r by apply p_nz. set (w := z mod p) in *.
  replace (w ^ (p - 2) * w) with (w ^ (p - 1)); [rewrite (fermat_unit p w p_prime D), Z.mod_1_l by lia; reflexivity|].
  replace (p - 1) with (Z.succ (p - 2)) by lia. rewrite Z.pow_succ_r by lia. ring.
Qed.
Definition feq_dec (x y : F) : {x = y} + {x <> y}.
Proof.
  destruct (Z.eq_dec (val x) (val y)) as [E|E]; [left; apply val_inj, E|right; intros C; apply E; rewrite C; reflexivity].
Defined.
Lemma two_nz : fadd (fz 1) (fz 1) <> fz 0.
Proof. rewrite fz_add. intros C. apply fz_0 in C. apply Z.divide_pos_le in C; lia. Qed.
Lemma not_sing : forall x, fadd (fadd (fmul (fmul x x) x) (fmul (fz ca) x)) (fz cb) = fz 0 ->
  fadd (fmul (fmul (fadd (fadd (fz 1) (fz 1)) (fz 1)) x) x) (fz ca) <> fz 0.
Proof.
  intros x E C. destruct (fz_rep x) as [z ->]. repeat rewrite ?fz_add, ?fz_mul in E; repeat rewrite ?fz_add, ?fz_mul in C.
  apply fz_0 in E. apply fz_0 in C. apply disc.
  replace (4 * ca ^ 3 + 27 * cb ^ 2) with
    ((z * z * z + ca * z + cb) * (27 * (cb - z * z * z - ca * z)) +
     ((1 + 1 + 1) * z * z + ca) * (9 * z ^ 4 + 15 * ca * z ^ 2 + 4 * ca ^ 2)) by ring.
  apply Z.divide_add_r; apply Z.divide_mul_l; assumption.
Qed.

(** ** The group of points; the point at infinity is None *)
Notation cadd := (padd F (fz 0) (fz 1) fadd fmul fsub finv feq_dec (fz ca)).
Notation cneg := (pneg F fopp).
Notation con := (pon F fadd fmul (fz ca) (fz cb)).
Definition onb (P : option (F * F)) : bool :=
  match P with None => true | Some (x, y) => if feq_dec (fmul y y) (fadd (fadd (fmul (fmul x x) x) (fmul (fz ca) x)) (fz cb)) then true else false end.
Lemma onb_on : forall P, onb P = true <-> con P.
Proof.
  intros [[x y]|]; cbn; [|tauto]. unfold on. destruct (feq_dec _ _); split; intros; congruence || reflexivity.
Qed.
Definition cpoint : Type := { P : option (F * F) | onb P = true }.
Lemma cpoint_eq : forall P Q : cpoint, proj1_sig P = proj1_sig Q -> P = Q.
Proof.
  intros [x Hx] [y Hy] E. cbn in E. subst y. f_equal. apply Eqdep_dec.UIP_dec. apply Bool.bool_dec.
Qed.
Lemma cpoint_on : forall P : cpoint, con (proj1_sig P).
Proof. intros [P H]. apply onb_on. exact H. Qed.
Lemma add_ok : forall P Q : cpoint, onb (cadd (proj1_sig P) (proj1_sig Q)) = true.
Proof.
  intros P Q. apply onb_on.
  apply (padd_on F (fz 0) (fz 1) fadd fmul fsub fopp fdiv finv F_field feq_dec (fz ca) (fz cb)); apply cpoint_on.
Qed.
Lemma neg_ok : forall P : cpoint, onb (cneg (proj1_sig P)) = true.
Proof. intros P. apply onb_on. apply (pneg_on F (fz 0) (fz 1) fadd fmul fsub fopp fdiv finv F_field). apply cpoint_on. Qed.
Definition curve_group : cgroup.
Proof.
  refine (mkGroup cpoint (exist _ None eq_refl)
    (fun P Q => exist _ (cadd (proj1_sig P) (proj1_sig Q)) (add_ok P Q))
    (fun P => exist _ (cneg (proj1_sig P)) (neg_ok P)) _ _ _ _); intros; apply cpoint_eq; cbn [proj1_sig].
  - apply (padd_assoc F (fz 0) (fz 1) fadd fmul fsub fopp fdiv finv F_field feq_dec two_nz (fz ca) (fz cb) not_sing); apply cpoint_on.
  - apply (padd_comm F (fz 0) (fz 1) fadd fmul fsub fopp fdiv finv F_field feq_dec (fz ca) (fz cb)); apply cpoint_on.
  - apply padd_O.
  - apply (padd_neg F (fz 0) (fz 1) fadd fmul fsub fopp fdiv finv F_field).
Defined.

(** ** The group in terms of integer coordinates *)
Definition at_ (P : pt curve_group) (x y : Z) : Prop := proj1_sig P = Some (fz x, fz y).
Lemma at_not_O : forall P x y, at_ P x y -> P <> gO.
Proof. intros P x y A C. subst P. discriminate A. Qed.
Lemma at_exists : forall P : pt curve_group, P <> gO -> exists x y, at_ P x y /\ 0 <= x < p /\ 0 <= y < p.
Proof.
  intros P N. destruct P as [[[x y]|] H]; [|exfalso; apply N; apply cpoint_eq; reflexivity].
  exists (val x), (val y). split; [|split; apply val_range]. unfold at_. cbn [proj1_sig]. rewrite !fz_val. reflexivity.
Qed.
Lemma at_inj : forall P Q x y, at_ P x y -> at_ Q x y -> P = Q.
Proof. intros P Q x y A B. apply cpoint_eq. unfold at_ in *. congruence. Qed.
Lemma at_cong : forall P x y x' y', at_ P x y -> (p | x' - x) -> (p | y' - y) -> at_ P x' y'.
Proof.
  intros P x y x' y' A X Y. unfold at_ in *. rewrite A. f_equal. f_equal; apply fz_eq.
  - symmetry. replace x' with (x + (x' - x)) by ring. destruct X as [k ->]. rewrite Z.mod_add by apply p_nz. reflexivity.
  - symmetry. replace y' with (y + (y' - y)) by ring. destruct Y as [k ->]. rewrite Z.mod_add by apply p_nz. reflexivity.
Qed.
Lemma mod_eq_divide : forall u v, u mod p = v mod p <-> (p | u - v).
Proof.
  intros u v. split; intros H.
  - apply Z.mod_divide; [apply p_nz|]. rewrite Zminus_mod, H, Z.sub_diag. apply Z.mod_0_l, p_nz.
  - destruct H as [k H]. replace u with (v + k * p) by lia. apply Z.mod_add, p_nz.
Qed.
Lemma fz_div : forall u v, fz u = fz v <-> (p | u - v).
Proof. intros. rewrite fz_eq. apply mod_eq_divide. Qed.
Lemma at_same : forall P x y x' y', at_ P x y -> at_ P x' y' -> (p | x - x') /\ (p | y - y').
Proof.
  intros P x y x' y' A B. unfold at_ in *. rewrite A in B. injection B as X Y.
  split; [apply mod_eq_divide; exact X|apply mod_eq_divide; exact Y].
Qed.
Lemma at_on : forall P x y, at_ P x y -> (p | y * y - (x * x * x + ca * x + cb)).
Proof.
  intros P x y A. pose proof (cpoint_on P) as H. unfold at_ in A. rewrite A in H. cbn [pon] in H. unfold on in H.
  repeat rewrite ?fz_mul, ?fz_add in H. apply fz_div in H. exact H.
Qed.
Lemma at_make : forall x y, (p | y * y - (x * x * x + ca * x + cb)) -> exists P, at_ P x y.
Proof.
  intros x y H. assert (O : onb (Some (fz x, fz y)) = true).
  { apply onb_on. cbn [pon]. unfold on. repeat rewrite ?fz_mul, ?fz_add. apply fz_div. exact H. }
  exists (exist (fun P => onb P = true) _ O). reflexivity.
Qed.
Lemma at_neg : forall P x y, at_ P x y -> at_ (gneg P) x (- y).
Proof. intros P x y A. unfold at_ in *. cbn [gneg curve_group proj1_sig]. rewrite A. cbn [pneg]. rewrite fz_opp. reflexivity. Qed.
Lemma fz_ne : forall u v, ~ (p | u - v) -> fz u <> fz v.
Proof. intros u v H C. apply H. apply fz_div. exact C. Qed.
Notation line' := (line F fadd fmul fsub (fz ca)).
Lemma at_line : forall P Q x1 y1 x2 y2 l, at_ P x1 y1 -> at_ Q x2 y2 -> ~ ((p | x1 - x2) /\ (p | y1 + y2)) ->
  (p | (y2 - y1) - l * (x2 - x1)) -> (p | l * (y1 + y2) - (x1 * x1 + x1 * x2 + x2 * x2 + ca)) ->
  at_ (gadd P Q) (l * l - x1 - x2) (l * (x1 - (l * l - x1 - x2)) - y1).
Proof.
  intros P Q x1 y1 x2 y2 l A B N L1 L2. pose proof (cpoint_on P) as H1. pose proof (cpoint_on Q) as H2.
  unfold at_ in *. rewrite A in H1. rewrite B in H2. cbn [gadd curve_group proj1_sig]. rewrite A, B.
  rewrite (padd_by_line F (fz 0) (fz 1) fadd fmul fsub fopp fdiv finv F_field feq_dec (fz ca) (fz cb) _ _ _ _ (fz l) H1 H2).
  - repeat rewrite ?fz_mul, ?fz_sub. reflexivity.
  - intros [E1 E2]. apply N. rewrite fz_add in E2. split; [apply fz_div, E1|apply fz_0, E2].
  - split; repeat rewrite ?fz_mul, ?fz_sub, ?fz_add; apply fz_div; assumption.
Qed.
Lemma at_chord : forall P Q x1 y1 x2 y2 l, at_ P x1 y1 -> at_ Q x2 y2 -> ~ (p | x2 - x1) ->
  (p | (y2 - y1) - l * (x2 - x1)) -> at_ (gadd P Q) (l * l - x1 - x2) (l * (x1 - (l * l - x1 - x2)) - y1).
Proof.
  intros P Q x1 y1 x2 y2 l A B N L. apply (at_line P Q x1 y1 x2 y2 l A B); [|exact L|].
  - intros [C _]. apply N. replace (x2 - x1) with (- (x1 - x2)) by ring. apply Z.divide_opp_r. exact C.
  - apply at_on in A. apply at_on in B.
    assert (D : (p | (x2 - x1) * (l * (y1 + y2) - (x1 * x1 + x1 * x2 + x2 * x2 + ca)))).
    { replace ((x2 - x1) * (l * (y1 + y2) - (x1 * x1 + x1 * x2 + x2 * x2 + ca))) with
        ((y2 * y2 - (x2 * x2 * x2 + ca * x2 + cb)) - (y1 * y1 - (x1 * x1 * x1 + ca * x1 + cb)) -
         (y1 + y2) * ((y2 - y1) - l * (x2 - x1))) by ring.
      apply Z.divide_sub_r; [apply Z.divide_sub_r; assumption|]. apply Z.divide_mul_r. exact L. }
    apply (prime_mult p p_prime) in D. tauto.
Qed.
Lemma at_tangent : forall P x y l, at_ P x y -> ~ (p | y) -> (p | l * (2 * y) - (3 * x * x + ca)) ->
  at_ (gadd P P) (l * l - x - x) (l * (x - (l * l - x - x)) - y).
Proof.
  intros P x y l A N L. apply (at_line P P x y x y l A A).
  - intros [_ C]. replace (y + y) with (2 * y) in C by ring. apply (prime_mult p p_prime) in C as [C|C]; [|contradiction].
    apply Z.divide_pos_le in C; lia.
  - replace (y - y - l * (x - x)) with 0 by ring. apply Z.divide_0_r.
  - replace (l * (y + y) - (x * x + x * x + x * x + ca)) with (l * (2 * y) - (3 * x * x + ca)) by ring. exact L.
Qed.
Lemma at_opp : forall P Q x1 y1 x2 y2, at_ P x1 y1 -> at_ Q x2 y2 -> (p | x1 - x2) -> (p | y1 + y2) -> gadd P Q = gO.
Proof.
  intros P Q x1 y1 x2 y2 A B X Y. assert (Q = gneg P) as ->; [|apply gadd_neg].
  apply (at_inj _ _ x1 (- y1)); [|apply at_neg, A]. apply (at_cong Q x2 y2); [exact B|exact X|].
  replace (- y1 - y2) with (- (y1 + y2)) by ring. apply Z.divide_opp_r. exact Y.
Qed.
(** equal first coordinates: equal or opposite points *)
Lemma at_same_x : forall P Q x1 y1 x2 y2, at_ P x1 y1 -> at_ Q x2 y2 -> (p | x1 - x2) -> P = Q \/ P = gneg Q.
Proof.
  intros P Q x1 y1 x2 y2 A B X. pose proof (at_on _ _ _ A) as HA. pose proof (at_on _ _ _ B) as HB.
  assert (D : (p | (y1 - y2) * (y1 + y2))).
  { replace ((y1 - y2) * (y1 + y2)) with ((y1 * y1 - (x1 * x1 * x1 + ca * x1 + cb)) - (y2 * y2 - (x2 * x2 * x2 + ca * x2 + cb)) +
      (x1 - x2) * (x1 * x1 + x1 * x2 + x2 * x2 + ca)) by ring.
    apply Z.divide_add_r; [apply Z.divide_sub_r; assumption|apply Z.divide_mul_l; exact X]. }
  apply (prime_mult p p_prime) in D as [D|D].
  - left. apply (at_inj P Q x1 y1 A). apply (at_cong Q x2 y2 _ _ B X D).
  - right. apply (at_inj P _ x1 y1 A). apply (at_cong _ _ _ _ _ (at_neg _ _ _ B) X).
    replace (y1 - - y2) with (y1 + y2) by ring. exact D.
Qed.

(** ** Affine coordinates, (0, 0) for infinity *)
Definition acoords (P : pt curve_group) : Z * Z :=
  match proj1_sig P with None => (0, 0) | Some (x, y) => (val x, val y) end.
Lemma acoords_at : forall P x y, at_ P x y -> acoords P = (x mod p, y mod p).
Proof. intros P x y A. unfold acoords. rewrite A. reflexivity. Qed.
Lemma at_acoords : forall P : pt curve_group, P <> gO -> at_ P (fst (acoords P)) (snd (acoords P)).
Proof.
  intros P N. destruct (at_exists P N) as (x & y & A & Hx & Hy). rewrite (acoords_at P x y A). cbn [fst snd].
  rewrite !Z.mod_small by assumption. exact A.
Qed.
Lemma acoords_range : forall P, 0 <= fst (acoords P) < p /\ 0 <= snd (acoords P) < p.
Proof.
  intros [[[x y]|] H]; unfold acoords; cbn [proj1_sig fst snd]; [split; apply val_range|lia].
Qed.
Hypothesis cb_nz : ~ (p | cb).
Lemma acoords_inj : forall P Q, acoords P = acoords Q -> P = Q.
Proof.
  assert (Z0 : forall P x y, at_ P x y -> acoords P <> (0, 0)).
  { intros P x y A C. rewrite (acoords_at P x y A) in C. apply pair_equal_spec in C as [X Y]. apply at_on in A.
    apply Z.mod_divide in X; [|apply p_nz]. apply Z.mod_divide in Y; [|apply p_nz]. apply cb_nz.
    replace cb with (y * y - x * (x * x + ca) - (y * y - (x * x * x + ca * x + cb))) by ring.
    apply Z.divide_sub_r; [|exact A]. apply Z.divide_sub_r; apply Z.divide_mul_l; assumption. }
  intros P Q E. apply cpoint_eq.
  destruct P as [[[x y]|] HP], Q as [[[x' y']|] HQ]; unfold acoords in E; cbn [proj1_sig] in *.
  - apply pair_equal_spec in E as [X Y]. f_equal. f_equal; apply val_inj; assumption.
  - exfalso. refine (Z0 (exist (fun P => onb P = true) _ HP) (val x) (val y) _ E). unfold at_. cbn [proj1_sig]. rewrite !fz_val. reflexivity.
  - exfalso. refine (Z0 (exist (fun P => onb P = true) _ HQ) (val x') (val y') _ (eq_sym E)). unfold at_. cbn [proj1_sig]. rewrite !fz_val. reflexivity.
  - reflexivity.
Qed.
End CurveZ.
