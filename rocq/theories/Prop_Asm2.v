(** * Prop_Asm2: C67 and C68, the SM2 multiplications with the routines of the amd64 assembly

    C67: what depends on clean calls only is right.  C68: a multiplication that is wrong. *)
From Coq Require Import ZArith Znumtheory Zpow_facts String List Bool Lia.
From Verif Require Import Base BaseFacts Curves NumTheory Primes1 Primes3 Spec_Group CurveZ CurveSub CurveSM2 P256 Spec_P256 Spec_P256b P256Booth P256Inv P256Sched Prop_P256b P256Sched2 Prop_P256c P256Point P256PointFacts Prop_P256d AsmX86 AsmSM2 AsmFacts AsmMul AsmInt AsmOrd AsmMisc Spec_Asm AsmRun AsmSel AsmVal AsmPoint AsmAff AsmLink AsmEq Prop_Asm Spec_AsmClean AsmFix AsmSim AsmWit.
Import ListNotations.
Open Scope Z_scope.

(** ** The point routines, run on memory *)
Theorem C67_double : forall h al r1 r2 o1 o2 l1 l2 l3 l4 x y z (P : pt (eg sm2_E)), rep sm2_E x y z P ->
  holds h r2 o2 (x ++ y ++ z) -> room h r1 o1 12 -> clean_dbl (x ++ y ++ z) = true ->
  exists w, returns sm2PointDoubleAsm sm2PointDoubleAsm_frame h al (slice r1 o1 l1 l2 ++ slice r2 o2 l3 l4) r1 o1 w /\ rep12 sm2_E w (gadd P P).
Proof.
  intros h al r1 r2 o1 o2 l1 l2 l3 l4 x y z P R H Hr C. pose proof R as (Wx & Wy & Wz & _).
  exists (dbl_f asm_fops x y z). split; [apply C64_point_double; assumption|].
  pose proof (clean_dbl_ok (x ++ y ++ z) P (ex_intro _ x (ex_intro _ y (ex_intro _ z (conj eq_refl R)))) C) as G.
  cbn [a_dbl asm_prims] in G. rewrite sub12_0, sub12_4, sub12_8 in G by (apply Wx || apply Wy || apply Wz). exact G.
Qed.
Print Assumptions C67_double.
Theorem C67_add : forall h al r1 r2 r3 o1 o2 o3 l1 l2 l3 l4 l5 l6 x y z x' y' z' (P Q : pt (eg sm2_E)), rep sm2_E x y z P -> rep sm2_E x' y' z' Q ->
  holds h r2 o2 (x ++ y ++ z) -> holds h r3 o3 (x' ++ y' ++ z') -> room h r1 o1 12 -> clean_add (x ++ y ++ z) (x' ++ y' ++ z') = true ->
  exists w, returns sm2PointAddAsm sm2PointAddAsm_frame h al (slice r1 o1 l1 l2 ++ slice r2 o2 l3 l4 ++ slice r3 o3 l5 l6) r1 o1 w /\
    (P <> gO -> Q <> gO -> P <> Q -> rep12 sm2_E w (gadd P Q)) /\
    (P = gO \/ Q = gO \/ P = Q -> rep12 sm2_E w gO).
Proof.
  intros h al r1 r2 r3 o1 o2 o3 l1 l2 l3 l4 l5 l6 x y z x' y' z' P Q R R' H H' Hr C.
  pose proof R as (Wx & Wy & Wz & _). pose proof R' as (Wx' & Wy' & Wz' & _).
  exists (add_f asm_fops x y z x' y' z'). split; [apply C64_point_add; assumption|].
  assert (RP : rep12 sm2_E (x ++ y ++ z) P) by (exists x, y, z; split; [reflexivity|exact R]).
  assert (RQ : rep12 sm2_E (x' ++ y' ++ z') Q) by (exists x', y', z'; split; [reflexivity|exact R']).
  assert (E : add_f asm_fops x y z x' y' z' = a_add asm_prims (x ++ y ++ z) (x' ++ y' ++ z')).
  { cbn [a_add asm_prims]. rewrite !sub12_0, !sub12_4, !sub12_8 by (apply Wx || apply Wy || apply Wz || apply Wx' || apply Wy' || apply Wz'). reflexivity. }
  rewrite E. split.
  - intros NP NQ N. apply clean_add_ok; assumption.
  - intros D. apply (clean_add_degenerate _ _ P Q); assumption.
Qed.
Print Assumptions C67_add.
Theorem C67_add_affine : forall h al r1 r2 r3 o1 o2 o3 l1 l2 l3 l4 l5 l6 x y z x' y' sign sel zero (P Q : pt (eg sm2_E)),
  rep sm2_E x y z P -> arep sm2_E x' y' Q -> holds h r2 o2 (x ++ y ++ z) -> holds h r3 o3 (x' ++ y') -> room h r1 o1 12 ->
  0 <= sign <= 1 -> 0 < sel <= 64 -> 0 < zero < 128 -> P <> gO -> P <> signed sm2_E sign Q -> P <> gneg (signed sm2_E sign Q) ->
  clean_addaff (x ++ y ++ z) (x' ++ y') sign sel zero = true ->
  exists w, returns sm2PointAddAffineAsm sm2PointAddAffineAsm_frame h al
      (slice r1 o1 l1 l2 ++ slice r2 o2 l3 l4 ++ slice r3 o3 l5 l6 ++ [I sign; I sel; I zero]) r1 o1 w /\
    rep12 sm2_E w (gadd P (signed sm2_E sign Q)).
Proof.
  intros h al r1 r2 r3 o1 o2 o3 l1 l2 l3 l4 l5 l6 x y z x' y' sign sel zero P Q R R' H H' Hr Sg Se Ze NP N1 N2 C.
  pose proof R as (Wx & Wy & Wz & _). pose proof R' as (_ & [[Wx' _] _] & [[Wy' _] _]).
  eexists. split; [apply (C64_point_add_affine h al r1 r2 r3 o1 o2 o3 l1 l2 l3 l4 l5 l6 x y z x' y' sign sel zero); try assumption; lia|].
  assert (RP : rep12 sm2_E (x ++ y ++ z) P) by (exists x, y, z; split; [reflexivity|exact R]).
  assert (RQ : arep8 sm2_E (x' ++ y') Q) by (exists x', y'; split; [reflexivity|exact R']).
  pose proof (clean_addaff_ok _ _ sign sel zero P Q RP RQ Sg Se Ze NP N1 N2 C) as G. cbn [a_addaff asm_prims] in G. cbv zeta in G.
  rewrite !sub12_0, !sub12_4, !sub12_8 in G by (apply Wx || apply Wy || apply Wz). rewrite sub8_0, sub8_4 in G by (apply Wx' || apply Wy').
  rewrite !Z.mod_small in G by lia. cbn [f_sub asm_fops]. change (lval (words_of 4 cP)) with PP. exact G.
Qed.
Print Assumptions C67_add_affine.

(** ** The multiplications *)
Theorem C67_base : forall k, wf_bytes k -> clean_base_mult k = true ->
  ScalarBaseMult asm_prims k = Val (ecoords (gmul (be2z k) (eG (e := sm2_E)))).
Proof.
  intros k W C. rewrite (clean_base_same k C). exact (C61_base sm2_E fixed fixed_ok sm2_coords_ok sm2_E_N sm2_E_G k W).
Qed.
Print Assumptions C67_base.
Theorem C67_scalar : forall k X Y, wf_bytes k -> 0 <= X -> 0 <= Y -> on_sm2 X Y -> clean_scalar_mult X Y k = true ->
  exists P : pt (eg sm2_E), eat P X Y /\
    ScalarMult asm_prims X Y k = Val (if be2z k mod cN =? cN - 6 then (0, 0) else ecoords (gmul (be2z k) P)).
Proof.
  intros k X Y W HX HY O C. destruct (sm2_point X Y O) as [P A]. exists P. split; [exact A|]. rewrite (clean_scalar_same X Y k C).
  apply (C61_scalar sm2_E fixed fixed_ok sm2_coords_ok k X Y P W); try assumption.
  - exact (eat_not_O P X Y A).
  - apply killed.
  - exact (eat_of P X Y A).
Qed.
Print Assumptions C67_scalar.
Theorem C67_combined : forall s t X Y, wf_bytes s -> wf_bytes t -> 0 <= X -> 0 <= Y -> on_sm2 X Y -> be2z s mod cN <> 0 ->
  clean_combined_mult X Y s t = true ->
  exists P : pt (eg sm2_E), eat P X Y /\
  (be2z t mod cN <> 0 -> be2z t mod cN <> cN - 6 -> gmul (be2z s) eG <> gmul (be2z t) P ->
     CombinedMult asm_prims X Y s t = Val (ecoords (gadd (gmul (be2z s) eG) (gmul (be2z t) P)))) /\
  (be2z t mod cN = 0 \/ be2z t mod cN = cN - 6 \/ gmul (be2z s) eG = gmul (be2z t) P -> CombinedMult asm_prims X Y s t = Val (0, 0)).
Proof.
  intros s t X Y Ws Wt HX HY O S C. destruct (sm2_point X Y O) as [P A]. exists P. split; [exact A|]. rewrite (clean_combined_same X Y s t C).
  apply (C61_combined sm2_E fixed fixed_ok sm2_coords_ok sm2_E_N sm2_E_G s t X Y P Ws Wt); try assumption.
  - exact (eat_not_O P X Y A).
  - apply killed.
  - exact (eat_of P X Y A).
Qed.
Print Assumptions C67_combined.

(** ** The wrong multiplication: a point of the curve with coordinates below p, and the scalar 4 *)
Theorem C68_scalar_mult_wrong : exists X Y k, 0 <= X < cP /\ 0 <= Y < cP /\ on_sm2 X Y /\ wf_bytes k /\ be2z k = 4 /\
  exists x y, ScalarMult asm_prims X Y k = Val (x, y) /\ ~ on_sm2 x y /\
    forall P : pt (eg sm2_E), eat P X Y -> ecoords (gmul (be2z k) P) <> (x, y).
Proof.
  exists witX, witY, [4]. split; [split; [discriminate|reflexivity]|]. split; [split; [discriminate|reflexivity]|]. split; [exact wit_on|].
  split; [apply Forall_cons; [split; [discriminate|reflexivity]|apply Forall_nil]|]. split; [reflexivity|].
  destruct wit_wrong as (x & y & E & N). exists x, y. split; [exact E|]. split; [exact N|].
  intros P A C. change (be2z [4]) with 4 in C. assert (NO : gmul 4 P <> gO).
  { intros G. apply (gmul_zero_iff _ cN 4 P prime_c_N_SM2P256V1 (killed P) (eat_not_O P _ _ A)) in G. discriminate G. }
  apply N. pose proof (eat_coords (gmul 4 P) NO) as Z. rewrite C in Z. exact (on_of_at _ _ _ Z).
Qed.
Print Assumptions C68_scalar_mult_wrong.

(** ** Examples

    2 * G is a clean run: the table entry is one doubling, the rest of the table is not used *)
Definition pG : words := sub basePoint 0 12.
Example G_load : load_point careful_prims (c_Gx SM2P256V1) (c_Gy SM2P256V1) = Val pG. Proof. vm_compute. reflexivity. Qed.
Lemma careful_dbl_length p : length (a_dbl careful_prims p) = 12%nat.
Proof. cbn [a_dbl careful_prims]. unfold mark. destruct (_ || _); [rewrite map_length|]; reflexivity. Qed.
Lemma careful_add_length p q : length (a_add careful_prims p q) = 12%nat.
Proof. cbn [a_add careful_prims]. unfold mark. destruct (_ || _); [rewrite map_length|]; reflexivity. Qed.
Lemma careful_two p : length p = 12%nat -> p256ScalarMult careful_prims p [2; 0; 0; 0] =
  Val (put_at 4 (a_neg careful_prims (sub (a_dbl careful_prims p) 4 4) 0) (a_dbl careful_prims p)).
Proof.
  intros L. rewrite (small_scalar careful_prims eq_refl eq_refl eq_refl p [2; 0; 0; 0] 2 (windows_small [2; 0; 0; 0] eq_refl) eq_refl ltac:(lia)).
  cbv zeta. change (12 * (Z.to_nat 2 - 1))%nat with 12%nat.
  rewrite (proj1 (small_table careful_prims careful_dbl_length careful_add_length p L)). reflexivity.
Qed.
Example two_clean : clean_scalar_mult (c_Gx SM2P256V1) (c_Gy SM2P256V1) [2] = true.
Proof.
  unfold clean_scalar_mult, scalar_point. change (p256GetScalar [2]) with (Val [2; 0; 0; 0]). cbn [bind]. rewrite G_load. cbn [bind].
  rewrite (careful_two pG eq_refl). cbn [unmarked].
  assert (D : a_dbl careful_prims pG = a_dbl asm_prims pG) by (vm_compute; reflexivity). rewrite D. vm_compute. reflexivity.
Qed.
Example two_ok : exists P : pt (eg sm2_E), eat P (c_Gx SM2P256V1) (c_Gy SM2P256V1) /\
  ScalarMult asm_prims (c_Gx SM2P256V1) (c_Gy SM2P256V1) [2] = Val (ecoords (gmul 2 P)).
Proof.
  destruct (C67_scalar [2] (c_Gx SM2P256V1) (c_Gy SM2P256V1)) as (P & (A & E)); [repeat constructor; discriminate|discriminate|discriminate| |exact two_clean|].
  - exact (on_of_at sm2_GT _ _ sm2_G_at).
  - exists P. split; [exact A|]. rewrite E. reflexivity.
Qed.

(** 1 * G and G + 2 * G are clean: they use the first entry of the first row of the table only *)
Section One.
Variable A : prims.
Definition norm (p : words) : words :=
  let zInv := p256Inverse A (sub p 8 4) in
  let zInvSq := a_sqr A zInv in
  sub (a_mul A (sub p 0 4) zInvSq ++ a_mul A (sub p 4 4) (a_mul A zInv zInvSq) ++ sub basePoint 8 4) 0 8.
Definition first8 (e : words) (t : list words) : Prop := sub (nth 0 t []) 0 8 = e /\ (8 <= length (nth 0 t []))%nat.
Lemma put_later j ws (l : words) : (8 <= j)%nat -> (8 <= length l)%nat -> sub (put_at j ws l) 0 8 = sub l 0 8 /\ (8 <= length (put_at j ws l))%nat.
Proof.
  intros J L. unfold put_at, sub. cbn [skipn]. split.
  - rewrite firstn_app, firstn_firstn, firstn_length. replace (Nat.min 8 j) with 8%nat by lia.
    replace (8 - Nat.min j (length l))%nat with 0%nat by lia. apply app_nil_r.
  - rewrite app_length, firstn_length. lia.
Qed.
Lemma inner_first e j st i : first8 e (fst st) -> (0 < i \/ 0 < j)%nat -> first8 e (fst (init_inner A j st i)).
Proof.
  destruct st as [t t1]. cbn [fst]. intros H C. unfold init_inner. cbv zeta. cbn [fst].
  match goal with |- first8 _ (set_nth _ (put_at _ ?w _) _) => generalize w end. intros w. unfold first8. destruct i as [|i].
  - destruct t as [|r t]; [destruct H as [_ H]; cbn in H; lia|]. cbn [set_nth nth]. destruct H as [H L]. cbn [nth] in H, L.
    destruct (put_later (j * 8) w r ltac:(lia) L) as [P Q]. rewrite P. split; assumption.
  - destruct t as [|r t]; exact H.
Qed.
Lemma inner_fold e j l : forall st, first8 e (fst st) -> (forall i, In i l -> (0 < i \/ 0 < j)%nat) -> first8 e (fst (fold_left (init_inner A j) l st)).
Proof.
  induction l as [|i l IH]; intros st H C; [exact H|]. cbn [fold_left]. apply IH; [|intros k K; apply C; right; exact K].
  apply inner_first; [exact H|apply C; left; reflexivity].
Qed.
Lemma outer_step e st j : first8 e (fst st) -> (0 < j)%nat -> first8 e (fst (init_outer A st j)).
Proof.
  destruct st as [t t2]. intros H J. unfold init_outer. generalize (seq 0 37). intros l.
  assert (I : first8 e (fst (fold_left (init_inner A j) l (t, t2)))) by (apply inner_fold; [exact H|intros i _; right; exact J]).
  revert I. destruct (fold_left (init_inner A j) l (t, t2)) as [t' u]. intros I. exact I.
Qed.
Lemma outer_fold e l : forall st, first8 e (fst st) -> (forall j, In j l -> (0 < j)%nat) -> first8 e (fst (fold_left (init_outer A) l st)).
Proof.
  induction l as [|j l IH]; intros st H C; [exact H|]. cbn [fold_left]. apply IH; [|intros k K; apply C; right; exact K].
  apply outer_step; [exact H|apply C; left; reflexivity].
Qed.
Hypothesis Hmul : forall a b, length (a_mul A a b) = 4%nat.
Lemma put_start (w : words) : length w = 8%nat -> sub (put_at 0 w (repeat 0 512)) 0 8 = w /\ (8 <= length (put_at 0%nat w (repeat 0%Z 512)))%nat.
Proof.
  intros L. generalize (repeat 0 512). intros r. unfold put_at, sub. change (firstn 0 r) with (@nil Z). cbn [app]. generalize (skipn (0 + length w) r). clear r. intros r. change (skipn 0 (w ++ r)) with (w ++ r). split.
  - rewrite firstn_app, <- L, firstn_all, Nat.sub_diag. cbn [firstn]. apply app_nil_r.
  - rewrite app_length. lia.
Qed.
Lemma norm_length p : length (norm p) = 8%nat.
Proof. unfold norm, sub at 1. cbv zeta. cbn [skipn]. rewrite firstn_length, !app_length, !Hmul. reflexivity. Qed.
Lemma table_step t p l : (0 < length t)%nat -> nth 0 t [] = repeat 0 512 -> (forall i, In i l -> (0 < i)%nat) ->
  first8 (norm p) (fst (fold_left (init_inner A 0) (0%nat :: l) (t, p))).
Proof.
  intros L N C. cbn [fold_left]. apply inner_fold; [|intros i J; left; apply C, J].
  unfold init_inner. cbn [Nat.eqb fst]. cbv zeta. fold (norm p). generalize (norm_length p).
  generalize (norm p). intros w W. unfold first8. destruct t as [|r t]; [cbn in L; lia|]. cbn [nth] in N. subst r. cbn [set_nth nth Nat.mul]. exact (put_start w W).
Qed.
Lemma outer0 t p n : (0 < length t)%nat -> nth 0 t [] = repeat 0 512 -> n = 36%nat ->
  first8 (norm p) (fst (init_outer A (t, p) 0)).
Proof.
  intros L N E. unfold init_outer. change 37%nat with (S 36). rewrite <- E. change (seq 0 (S n)) with (0%nat :: seq 1 n). clear E.
  assert (I : first8 (norm p) (fst (fold_left (init_inner A 0) (0%nat :: seq 1 n) (t, p)))).
  { apply table_step; [exact L|exact N|]. intros i J. apply in_seq in J. lia. }
  revert I. destruct (fold_left (init_inner A 0) (0%nat :: seq 1 n) (t, p)) as [t' u]. intros I. exact I.
Qed.
Lemma fold_cons (f : list words * words -> nat -> list words * words) (Q : list words -> Prop) n st :
  Q (fst (fold_left f (seq 1 n) (f st 0%nat))) -> Q (fst (fold_left f (seq 0 (S n)) st)).
Proof. intros H. exact H. Qed.
Lemma table_rows m n t : (0 < length t)%nat -> nth 0 t [] = repeat 0 512 -> m = S n ->
  first8 (norm basePoint) (fst (fold_left (init_outer A) (seq 0 m) (t, basePoint))).
Proof.
  intros L N ->. apply (fold_cons (init_outer A) (first8 (norm basePoint)) n (t, basePoint)).
  apply outer_fold; [exact (outer0 t basePoint 36 L N eq_refl)|intros j J; apply in_seq in J; lia].
Qed.
Lemma rows_zero : (0 < length (repeat (repeat 0%Z 512) 37))%nat. Proof. cbn. lia. Qed.
Lemma table_first : first8 (norm basePoint) (initTable A).
Proof. exact (table_rows 64 63 (repeat (repeat 0 512) 37) rows_zero eq_refl eq_refl). Qed.
Hypothesis Hsel : a_selbase A = a_selbase asm_prims.
Hypothesis Hone : forall p q sign, a_addaff A p q sign 0 1 = p.
Hypothesis Hneg : forall w, length w = 4%nat -> tainted w = false -> a_neg A w 0 = w.
Lemma steps_one t : forall n i p ix, (forall k, (k < n)%nat -> window [1; 0; 0; 0] 0xff (ix + 7 * Z.of_nat k) = 0) ->
  fst (fst (fold_left (base_step A t [1; 0; 0; 0]) (seq i n) (p, ix, 1))) = p.
Proof.
  induction n as [|n IH]; intros i p ix W; [reflexivity|]. cbn [seq fold_left]. unfold base_step at 2.
  specialize (W 0%nat ltac:(lia)) as W0. replace (ix + 7 * Z.of_nat 0) with ix in W0 by lia. rewrite W0. change (boothW7 0) with (0, 0). cbv beta iota zeta.
  rewrite Hone. change (Z.lor 1 0) with 1. apply IH. intros k K. replace (ix + 7 + 7 * Z.of_nat k) with (ix + 7 * Z.of_nat (S k)) by lia. apply W. lia.
Qed.
Lemma base_one : tainted (norm basePoint) = false -> p256BaseMult A (initTable A) [1; 0; 0; 0] = norm basePoint ++ one_mont.
Proof.
  intros T. destruct table_first as [F _]. revert F. generalize (initTable A). intros t F. unfold p256BaseMult.
  change (boothW7 (window0 [1; 0; 0; 0] 0xff)) with (1, 0). cbv beta iota zeta.
  rewrite steps_one.
  - rewrite Hsel. cbn [a_selbase asm_prims]. change (1 mod 2 ^ 32) with 1. cbn [Z.leb Z.compare andb Pos.compare Pos.compare_cont].
    change (8 * (Z.to_nat 1 - 1))%nat with 0%nat. rewrite F. pose proof (norm_length basePoint) as L. revert T L. generalize (norm basePoint). intros w T L.
    do 8 (destruct w as [|? w]; [discriminate L|]). destruct w; [|discriminate L]. rewrite Hneg; [reflexivity|reflexivity|].
    unfold sub, tainted in *. cbn [skipn firstn existsb] in *. repeat (apply orb_false_iff in T; destruct T as [? T]).
    repeat (apply orb_false_iff; split; [assumption|]). reflexivity.
  - intros k K. assert (H : forallb (fun k => window [1; 0; 0; 0] 0xff (6 + 7 * Z.of_nat k) =? 0) (seq 0 36) = true) by (vm_compute; reflexivity).
    rewrite forallb_forall in H. apply Z.eqb_eq. apply H. apply in_seq. lia.
Qed.
End One.

Lemma careful_mul_length a b : length (a_mul careful_prims a b) = 4%nat.
Proof. cbn [a_mul careful_prims]. unfold mark. destruct (_ || _); [rewrite map_length|]; reflexivity. Qed.
Lemma careful_neg0 w : length w = 4%nat -> tainted w = false -> a_neg careful_prims w 0 = w.
Proof. intros L T. cbn [a_neg careful_prims]. unfold mark. rewrite T. apply asm_neg0; assumption. Qed.
Example norm_G : norm careful_prims basePoint = sub basePoint 0 8. Proof. vm_compute. reflexivity. Qed.
Lemma careful_one : p256BaseMult careful_prims (initTable careful_prims) [1; 0; 0; 0] = basePoint.
Proof.
  rewrite (base_one careful_prims careful_mul_length eq_refl (fun _ _ _ => eq_refl) careful_neg0); rewrite norm_G; reflexivity.
Qed.
Example one_clean : clean_base_mult [1] = true.
Proof.
  unfold clean_base_mult, base_point. change (p256GetScalar [1]) with (Val [1; 0; 0; 0]). cbn [bind]. rewrite careful_one. reflexivity.
Qed.
Example one_ok : ScalarBaseMult asm_prims [1] = Val (c_Gx SM2P256V1, c_Gy SM2P256V1).
Proof.
  rewrite (C67_base [1]); [|repeat constructor; discriminate|exact one_clean]. change (be2z [1]) with 1. rewrite gmul_1, sm2_E_G. reflexivity.
Qed.
Lemma dbl_G_clean : a_dbl careful_prims pG = a_dbl asm_prims pG. Proof. vm_compute. reflexivity. Qed.
Lemma combined_12 A X Y p r b : load_point A X Y = Val p -> p256ScalarMult A p [2; 0; 0; 0] = Val r ->
  p256BaseMult A (initTable A) [1; 0; 0; 0] = b -> combined_point A X Y [1] [2] = Val (a_add A b r).
Proof.
  intros L R B. unfold combined_point. change (p256GetScalar [1]) with (Val [1; 0; 0; 0]). change (p256GetScalar [2]) with (Val [2; 0; 0; 0]).
  cbn [bind]. rewrite L. cbn [bind]. rewrite R. cbn [bind]. rewrite B. reflexivity.
Qed.
Example three_clean : clean_combined_mult (c_Gx SM2P256V1) (c_Gy SM2P256V1) [1] [2] = true.
Proof.
  unfold clean_combined_mult. rewrite (combined_12 careful_prims _ _ _ _ _ G_load (careful_two pG eq_refl) careful_one), dbl_G_clean. vm_compute. reflexivity.
Qed.
Example three_ok : CombinedMult asm_prims (c_Gx SM2P256V1) (c_Gy SM2P256V1) [1] [2] = Val (ecoords (gmul 3 (eG (e := sm2_E)))).
Proof.
  destruct (C67_combined [1] [2] (c_Gx SM2P256V1) (c_Gy SM2P256V1)) as (P & A & E & _);
    [repeat constructor; discriminate|repeat constructor; discriminate|discriminate|discriminate|exact (on_of_at sm2_GT _ _ sm2_G_at)|discriminate|exact three_clean|].
  assert (PG : P = eG (e := sm2_E)).
  { apply (ecoords_inj sm2_E). rewrite (eat_of P _ _ A), sm2_E_G. reflexivity. }
  change (be2z [1]) with 1 in E. change (be2z [2]) with 2 in E. rewrite PG in E. rewrite E; [|discriminate|discriminate|].
  - rewrite <- gmul_add. reflexivity.
  - intros C. assert (Z : gmul (2 - 1) (eG (e := sm2_E)) = gO) by (rewrite gmul_sub, <- C; apply gadd_neg).
    apply (gmul_zero_iff _ cN _ eG prime_c_N_SM2P256V1 (killed _) (eG_nonzero sm2_E)) in Z. discriminate Z.
Qed.
(** the point routines: G doubled, G plus twice G, and G subtracted from twice G *)
Example pG_rep : rep sm2_E (sub basePoint 0 4) (sub basePoint 4 4) one_mont (eG (e := sm2_E)).
Proof.
  apply arep_rep. split; [exact (eG_nonzero sm2_E)|]. rewrite sm2_E_G. cbn [fst snd].
  destruct C63_constants as (_ & _ & _ & _ & _ & _ & _ & _ & _ & _ & _ & _ & X & Y & _). split; assumption.
Qed.
Example pG_clean : clean_dbl pG && clean_add pG (a_dbl asm_prims pG) && clean_addaff (a_dbl asm_prims pG) (sub basePoint 0 8) 1 1 1 = true.
Proof. vm_compute. reflexivity. Qed.
Example twice_ok : exists w, returns sm2PointDoubleAsm sm2PointDoubleAsm_frame (objs [repeat 0 12; pG]) (fun _ => 0) (slice 0 0 (I 12) (I 12) ++ slice 1 0 (I 12) (I 12)) 0 0 w /\
  rep12 sm2_E w (gmul 2 (eG (e := sm2_E))).
Proof.
  change (gmul 2 (eG (e := sm2_E))) with (gmul (1 + 1) (eG (e := sm2_E))). rewrite gmul_add, gmul_1.
  apply (C67_double _ (fun _ => 0) 0 1 0 0 (I 12) (I 12) (I 12) (I 12) _ _ _ _ pG_rep).
  - intros i Hi. change (length (sub basePoint 0 4 ++ sub basePoint 4 4 ++ one_mont)) with 12%nat in Hi.
    do 12 (destruct i as [|i]; [reflexivity|]). lia.
  - intros i Hi. do 12 (destruct i as [|i]; [exists 0; reflexivity|]). lia.
  - vm_compute. reflexivity.
Qed.
(** the run of C68 is not clean: the first doubling is not, it leaves Y = 2^256 - 1 *)
Example wit_unclean : clean_dbl wit1 = false /\ lval (sub (a_dbl asm_prims wit1) 4 4) = 2 ^ 256 - 1.
Proof. split; vm_compute; reflexivity. Qed.
