(** * Prop_MemObj: property C90, what decoded keys and signatures share with the buffer they were read from; SM4 on overlapping buffers *)
From Coq Require Import ZArith String List Bool Lia.
From Verif Require Import Base BaseFacts Curves ECKey Keypair Signature SigFacts KeyFacts ECFacts2 SM4 AES VRF Mem MemObj Prop_Mem Prop_Sig Prop_SM4.
Import ListNotations.
Open Scope Z_scope.

(** ** Specification *)
(** What the caller can do after a call that led from hp to hp1: write to the arrays that existed before (arrays keep their length)
    and make new ones.  Arrays made by the call are reached only through its result. *)
Definition caller_wrote (hp hp1 hp2 : heap) : Prop :=
  (forall i, (i < length hp)%nat -> length (nth i hp2 []) = length (nth i hp [])) /\
  (forall i, (length hp <= i < length hp1)%nat -> nth i hp2 [] = nth i hp1 []).
(** no array that existed was written *)
Definition untouched (hp hp1 : heap) : Prop := forall i, (i < length hp)%nat -> nth i hp1 [] = nth i hp [].
(** the byte strings whose signature shares the buffer: an ECDSA scheme and 65 bytes *)
Definition shared_sig (b : bytes) : Prop := exists sch l, b = sch :: l /\ 0 <= sch <= 8 /\ length l = 65%nat.

(** ** Slices *)
Lemma view_tail : forall hp s i, (i <= s_len s)%nat -> view hp (tail_of s i) = skipn i (view hp s).
Proof.
  intros hp s i L. unfold view, tail_of. cbn [s_arr s_off s_len]. rewrite skipn_firstn_comm. f_equal.
  rewrite <- skipn_skipn_add. reflexivity.
Qed.
Lemma fits_tail : forall hp s i, fits hp s -> (i <= s_len s)%nat -> fits hp (tail_of s i).
Proof. intros hp s i (A & B & C) L. unfold fits, tail_of. cbn [s_arr s_off s_len s_cap]. split; [exact A|]. lia. Qed.
Lemma view_fresh : forall hp bs hp1 s, fresh hp bs = (hp1, s) -> view hp1 s = bs /\ untouched hp hp1 /\ s_arr s = length hp /\ (length hp < length hp1)%nat /\ fits hp1 s.
Proof.
  intros hp bs hp1 s E. unfold fresh in E. injection E as <- <-. unfold view, array, untouched. cbn [s_arr s_off s_len].
  rewrite app_nth2, Nat.sub_diag by lia. cbn. rewrite firstn_all. split; [reflexivity|]. rewrite app_length. cbn.
  split; [intros i Hi; apply app_nth1; exact Hi|]. split; [reflexivity|]. split; [lia|].
  unfold fits. cbn [s_arr s_off s_len s_cap]. rewrite app_length, app_nth2, Nat.sub_diag by lia. cbn. lia.
Qed.
Lemma fits_later : forall hp hp1 hp2 s, fits hp s -> caller_wrote hp hp1 hp2 -> length (view hp2 s) = s_len s.
Proof.
  intros hp hp1 hp2 s (A & B & C) [W _]. unfold view, array. rewrite firstn_length, skipn_length, (W _ A). lia.
Qed.
Lemma zlen_view : forall hp s, fits hp s -> zlen (view hp s) = Z.of_nat (s_len s).
Proof. intros hp s F. unfold zlen. rewrite view_length by exact F. reflexivity. Qed.
Lemma find_zero_ge : forall d i, i <= find_zero d i.
Proof. induction d as [|b d IH]; intros i; cbn; [lia|]. destruct (b =? 0); [lia|]. specialize (IH (i + 1)). lia. Qed.

(** ** Signatures *)
Lemma data_value : forall hp sch data, fits hp data ->
  match deserialize_dataM hp sch data with
  | Val (hp1, r) => untouched hp hp1 /\ deserialize_data sch (view hp data) = Val (match r with Ok m => Ok (sig_now hp1 m) | Err e => Err e end) /\
      match r with
      | Err _ => True
      | Ok m => ms_Scheme m = sch /\
          match ms_Value m with
          | MOwn v => ~ (0 <= sch <= 8 /\ s_len data = 65%nat) /\ (forall b, v <> VBytes b)
          | MSlice s => (0 <= sch <= 8 /\ s_len data = 65%nat /\ s = data /\ hp1 = hp) \/
                        (~ 0 <= sch <= 8 /\ s_arr s = length hp /\ (length hp < length hp1)%nat /\ fits hp1 s)
          end
      end
  | Panic w => deserialize_data sch (view hp data) = Panic w
  | OutOfFuel => deserialize_data sch (view hp data) = OutOfFuel
  end.
Proof.
  intros hp sch data F. unfold deserialize_dataM, deserialize_data. rewrite (zlen_view hp data F).
  assert (U : untouched hp hp) by (intros i _; reflexivity).
  destruct (ecdsa_scheme sch) eqn:ES.
  - apply ecdsa_scheme_iff in ES. destruct (Z.eqb_spec (Z.of_nat (s_len data)) 65) as [L|L].
    + split; [exact U|]. split; [reflexivity|]. split; [reflexivity|]. left. cbn. repeat split; lia || reflexivity.
    + destruct (deserializeDSA (view hp data)) as [[[R Sv]|e]|w|]; cbn [bind]; try reflexivity.
      * split; [exact U|]. split; [reflexivity|]. split; [reflexivity|]. cbn. split; [lia|discriminate].
      * split; [exact U|]. split; [reflexivity|exact I].
  - apply ecdsa_scheme_false in ES. destruct (sch =? SM3withSM2).
    + pose proof (find_zero_ge (view hp data) 0) as FZ. set (i := find_zero (view hp data) 0) in *. rewrite Z.geb_leb. destruct (Z.leb_spec (Z.of_nat (s_len data)) i) as [L|L].
      { split; [exact U|]. split; [reflexivity|exact I]. }
      rewrite (slice_ok _ (view hp data) 0 i) by (rewrite ?(zlen_view hp data F); lia). cbn [bind].
      rewrite (slice_ok _ (view hp data) (i + 1)) by (rewrite ?(zlen_view hp data F); lia). cbn [bind].
      rewrite view_tail by lia. rewrite (firstn_all2 (n := Z.to_nat (Z.of_nat (s_len data) - (i + 1)))) by (rewrite skipn_length, (view_length hp data F); lia).
      destruct (deserializeDSA _) as [[[R Sv]|e]|w|]; cbn [bind]; try reflexivity.
      * split; [exact U|]. split; [reflexivity|]. split; [reflexivity|]. cbn. split; [tauto|discriminate].
      * split; [exact U|]. split; [reflexivity|exact I].
    + destruct (sch =? SHA512withEDDSA); [|destruct (sch =? KECCAK256WithECDSA)]; cbn [orb].
      3:{ split; [exact U|]. split; [reflexivity|exact I]. }
      all: destruct (fresh hp (view hp data)) as [hp1 s] eqn:E; destruct (view_fresh _ _ _ _ E) as (V & U1 & A & L & FS);
        split; [exact U1|]; split; [unfold sig_now; cbn; rewrite V; reflexivity|]; split; [reflexivity|]; right; auto.
Qed.
(** Deserialize writes to no array of the caller; its result is that of the model on values; later it changes with the buffer exactly
    for the 65 bytes of a compact ECDSA signature *)
Theorem C90_signature : forall hp buf, fits hp buf -> exists hp1 r, DeserializeM hp buf = Val (hp1, r) /\ untouched hp hp1 /\
  Deserialize (view hp buf) = Val (match r with Ok m => Ok (sig_now hp1 m) | Err e => Err e end) /\
  forall m, r = Ok m -> forall hp2, caller_wrote hp hp1 hp2 ->
    (shared_sig (view hp buf) -> sig_now hp2 m = {| sg_Scheme := nth 0 (view hp buf) 0; sg_Value := VBytes (skipn 1 (view hp2 buf)) |}) /\
    (~ shared_sig (view hp buf) -> sig_now hp2 m = sig_now hp1 m).
Proof.
  intros hp buf F. pose proof (view_length hp buf F) as VL.
  assert (FIN : forall sch data, fits hp data -> Deserialize (view hp buf) = deserialize_data sch (view hp data) -> DeserializeM hp buf = deserialize_dataM hp sch data ->
    (0 <= sch <= 8 /\ s_len data = 65%nat <-> shared_sig (view hp buf)) ->
    (shared_sig (view hp buf) -> nth 0 (view hp buf) 0 = sch /\ forall hp2, view hp2 data = skipn 1 (view hp2 buf)) ->
    exists hp1 r, DeserializeM hp buf = Val (hp1, r) /\ untouched hp hp1 /\
  Deserialize (view hp buf) = Val (match r with Ok m => Ok (sig_now hp1 m) | Err e => Err e end) /\
  forall m, r = Ok m -> forall hp2, caller_wrote hp hp1 hp2 ->
    (shared_sig (view hp buf) -> sig_now hp2 m = {| sg_Scheme := nth 0 (view hp buf) 0; sg_Value := VBytes (skipn 1 (view hp2 buf)) |}) /\
    (~ shared_sig (view hp buf) -> sig_now hp2 m = sig_now hp1 m)).
  { intros sch data Fd DP DM SH SV. destruct (C32_deserialize_total (view hp buf)) as [r0 TOT]. pose proof (data_value hp sch data Fd) as DV. rewrite DM. rewrite DP in TOT |- *.
    destruct (deserialize_dataM hp sch data) as [[hp1 r]|w|]; [|rewrite DV in TOT; discriminate|rewrite DV in TOT; discriminate].
    destruct DV as (U & E & K). exists hp1, r. split; [reflexivity|]. split; [exact U|]. split; [exact E|].
    intros m -> hp2 W. destruct K as [KS K]. unfold sig_now. rewrite KS. destruct (ms_Value m) as [v|s].
    - split; [intros S; exfalso; apply (proj1 K), SH, S|reflexivity].
    - destruct K as [(K1 & K2 & -> & ->)|(K1 & K2 & K3 & _)].
      + split; [|intros S; exfalso; apply S, SH; split; assumption]. intros S. destruct (SV S) as [-> EV]. rewrite EV. reflexivity.
      + split; [intros S; apply SH in S; tauto|]. intros _. do 2 f_equal. unfold view, array. rewrite K2. destruct W as [_ W]. rewrite W by lia. reflexivity. }
  destruct (Z.ltb_spec (Z.of_nat (s_len buf)) 2) as [L2|L2].
  { exists hp. eexists (Err _). split; [unfold DeserializeM; rewrite (proj2 (Z.ltb_lt _ _) L2); reflexivity|]. split; [intros i _; reflexivity|]. split; [|discriminate].
    unfold Deserialize. rewrite (zlen_view hp buf F), (proj2 (Z.ltb_lt _ _) L2). reflexivity. }
  destruct (Z.eqb_spec (Z.of_nat (s_len buf)) 64) as [L64|L64].
  - apply (FIN SHA256withECDSA buf F).
    + unfold Deserialize. rewrite (zlen_view hp buf F), (proj2 (Z.ltb_ge _ _) L2), L64. reflexivity.
    + unfold DeserializeM. rewrite (proj2 (Z.ltb_ge _ _) L2), L64. reflexivity.
    + split; [lia|]. intros (sch & l & E & _ & Ll). rewrite E in VL. cbn in VL. lia.
    + intros (sch & l & E & _ & Ll). rewrite E in VL. cbn in VL. lia.
  - destruct (view hp buf) as [|b0 l] eqn:EV; [cbn in VL; lia|]. cbn [length] in VL. assert (T1 : view hp (tail_of buf 1) = l) by (rewrite view_tail, EV by lia; reflexivity).
    apply (FIN b0 (tail_of buf 1) (fits_tail hp buf 1 F ltac:(lia))).
    + unfold Deserialize. rewrite T1. assert (ZL : zlen (b0 :: l) = Z.of_nat (s_len buf)) by (rewrite <- EV; apply zlen_view, F). rewrite ZL, (proj2 (Z.ltb_ge _ _) L2), (proj2 (Z.eqb_neq _ _) L64), <- ZL.
      rewrite slice_tail1. cbn [bind]. rewrite index_cons0. reflexivity.
    + unfold DeserializeM. rewrite (proj2 (Z.ltb_ge _ _) L2), (proj2 (Z.eqb_neq _ _) L64), EV, index_cons0. reflexivity.
    + cbn [tail_of s_len]. split.
      * intros [R Ls]. exists b0, l. split; [reflexivity|]. split; [exact R|lia].
      * intros (sch & l' & E & R & Ll). injection E as <- <-. split; [exact R|lia].
    + intros _. split; [reflexivity|]. intros hp2. apply view_tail. lia.
Qed.

(** ** ConvertToEthCompatible *)
Lemma view_split : forall hp s, fits hp s -> exists x y, nth (s_arr s) hp [] = x ++ view hp s ++ y /\ length x = s_off s.
Proof.
  intros hp s (A & B & C). unfold view, array. set (a := nth (s_arr s) hp []) in *. exists (firstn (s_off s) a), (skipn (s_len s) (skipn (s_off s) a)).
  rewrite firstn_skipn, firstn_skipn. split; [reflexivity|]. rewrite firstn_length. lia.
Qed.
Lemma view_store : forall hp s i bs, fits hp s -> (i + length bs = s_len s)%nat -> view (store hp (s_arr s) (s_off s + i) bs) s = firstn i (view hp s) ++ bs.
Proof.
  intros hp s i bs F L. destruct (view_split hp s F) as (x & y & E & Lx). pose proof (view_length hp s F) as VL. destruct F as (A & _ & _).
  unfold view at 1, array, store. unfold array. rewrite nth_set_same by exact A. rewrite E. rewrite <- (firstn_skipn i (view hp s)) at 1 2.
  assert (Lf : length (firstn i (view hp s)) = i) by (rewrite firstn_length; lia). assert (Ls : length (skipn i (view hp s)) = length bs) by (rewrite skipn_length; lia).
  set (f := firstn i (view hp s)) in *. set (g := skipn i (view hp s)) in *.
  replace (x ++ (f ++ g) ++ y) with ((x ++ f) ++ g ++ y) by (rewrite !app_assoc; reflexivity).
  rewrite (firstn_app_l _ (x ++ f)) by (rewrite app_length; lia).
  rewrite app_assoc. rewrite (app_assoc (x ++ f) g y). rewrite (skipn_app_l _ ((x ++ f) ++ g)) by (rewrite !app_length; lia).
  rewrite <- !app_assoc. rewrite (skipn_app_l _ x) by lia. rewrite app_assoc. apply firstn_app_l. rewrite app_length. lia.
Qed.
Lemma store_fits : forall hp i p bs s, (i < length hp)%nat -> (p + length bs <= length (nth i hp []))%nat -> fits hp s -> fits (store hp i p bs) s.
Proof.
  intros hp i p bs s Hi Hp (A & B & C). unfold fits. rewrite store_len by assumption. split; [|split; assumption].
  unfold store. rewrite set_nth_length. exact A.
Qed.
Lemma store_other : forall hp i p bs s, s_arr s <> i -> view (store hp i p bs) s = view hp s.
Proof. intros hp i p bs s N. unfold view, array, store. rewrite nth_set_other by auto. reflexivity. Qed.
(** the rotation in place *)
Lemma rotated : forall hp t v l w, fits hp t -> view hp t = v :: l -> length l = 64%nat ->
  let hp' := store (store hp (s_arr t) (s_off t) (view hp (tail_of t 1))) (s_arr t) (s_off t + 64) [w] in
  fits hp' t /\ view hp' t = l ++ [w] /\ (forall i p, ~ (i = s_arr t /\ (s_off t <= p < s_off t + 65)%nat) -> cell hp' i p = cell hp i p).
Proof.
  intros hp t v l w F V L hp'. pose proof (view_length hp t F) as VL. rewrite V in VL. cbn in VL. rewrite L in VL.
  assert (T1 : view hp (tail_of t 1) = l) by (rewrite view_tail, V by lia; reflexivity). subst hp'. rewrite T1. pose proof F as (A & B & C).
  set (h1 := store hp (s_arr t) (s_off t) l). assert (F1 : fits h1 t).
  { apply store_fits; [exact A| |exact F].
    apply (fun H => Nat.le_trans _ _ _ H C). rewrite L. lia. }
  pose proof F1 as (A1 & B1 & C1).
  assert (Lw : (s_off t + 64 + Datatypes.length [w] <= Datatypes.length (nth (s_arr t) h1 []))%nat) by (apply (fun H => Nat.le_trans _ _ _ H C1); change (Datatypes.length [w]) with 1%nat; lia).
  split; [apply store_fits; [exact A1|exact Lw|exact F1]|]. split.
  - rewrite view_store by (exact F1 || (cbn; lia)). f_equal. set (s := {| s_arr := s_arr t; s_off := s_off t; s_len := 64; s_cap := s_cap t |}).
    assert (Fs : fits hp s) by (unfold fits; cbn; split; [exact A|lia]). replace (firstn 64 (view h1 t)) with (view h1 s).
    + unfold h1. rewrite <- (Nat.add_0_r (s_off t)). exact (view_store hp s 0 l Fs L).
    + unfold view. cbn [s s_arr s_off s_len]. rewrite firstn_firstn. f_equal. lia.
  - intros i p N. rewrite (store_cell_out h1); [|exact A1|exact Lw|intros [-> Hp]; apply N; split; [reflexivity|change (Datatypes.length [w]) with 1%nat in Hp; lia]].
    apply store_cell_out; [exact A|apply (fun H => Nat.le_trans _ _ _ H C); rewrite L; lia|]. intros [-> Hp]. apply N. rewrite L in Hp. split; [reflexivity|lia].
Qed.
Lemma desM_slice : forall hp sig, fits hp sig -> exists hp1 r, DeserializeM hp sig = Val (hp1, r) /\ untouched hp hp1 /\
  Deserialize (view hp sig) = Val (match r with Ok m => Ok (sig_now hp1 m) | Err e => Err e end) /\
  forall m, r = Ok m -> match ms_Value m with
    | MOwn v => forall b, v <> VBytes b
    | MSlice s => (0 <= ms_Scheme m <= 8 /\ s = tail_of sig 1 /\ hp1 = hp /\ s_len s = 65%nat /\ s_len sig = 66%nat) \/
                  (~ 0 <= ms_Scheme m <= 8 /\ s_arr s = length hp /\ (length hp < length hp1)%nat /\ fits hp1 s) end.
Proof.
  intros hp sig F. destruct (C90_signature hp sig F) as (hp1 & r & E & U & D & _). exists hp1, r. do 3 (split; [assumption|]). intros m ->.
  unfold DeserializeM in E. destruct (Z.of_nat (s_len sig) <? 2); [discriminate|]. destruct (Z.eqb_spec (Z.of_nat (s_len sig)) 64) as [L64|L64].
  - pose proof (data_value hp SHA256withECDSA sig F) as DV. rewrite E in DV. destruct DV as (_ & _ & KS & K). destruct (ms_Value m); [apply K|].
    destruct K as [(_ & K & _)|(K & _)]; [lia|exfalso; apply K; vm_compute; split; discriminate].
  - destruct (index (view hp sig) 0) as [b0|w|] eqn:I0; try discriminate. cbn [bind] in E.
    assert (L1 : (1 <= s_len sig)%nat). { destruct (s_len sig) eqn:Z0; [|lia]. exfalso. unfold index in I0. rewrite (zlen_view hp sig F), Z0 in I0. discriminate I0. }
    pose proof (data_value hp b0 (tail_of sig 1) (fits_tail hp sig 1 F L1)) as DV. rewrite E in DV. destruct DV as (_ & _ & KS & K). destruct (ms_Value m); [apply K|]. rewrite KS.
    destruct K as [(K1 & K2 & -> & ->)|K]; [left|right; exact K]. cbn in K2. cbn. repeat split; (lia || reflexivity).
Qed.
(** The conversion on the heap: the result and the new contents of the argument are those of the model on values (C41), and no other byte that
    existed is changed *)
Theorem C90_convert : forall hp sig, fits hp sig -> exists hp1 r, ConvertToEthCompatibleM hp sig = Val (hp1, r) /\
  ConvertToEthCompatible (view hp sig) = Val (match r with Ok t => Ok (view hp1 t) | Err e => Err e end, view hp1 sig) /\
  forall i p, (i < length hp)%nat -> ~ (i = s_arr sig /\ (s_off sig <= p < s_off sig + s_len sig)%nat) -> cell hp1 i p = cell hp i p.
Proof.
  intros hp sig F. destruct (desM_slice hp sig F) as (hp0 & r & E & U & D & K). unfold ConvertToEthCompatibleM, ConvertToEthCompatible. rewrite E, D. cbn [bind].
  pose proof F as (FA & _ & _).
  assert (V0 : view hp0 sig = view hp sig) by (unfold view, array; rewrite U by exact FA; reflexivity).
  assert (C0 : forall i p, (i < length hp)%nat -> cell hp0 i p = cell hp i p) by (intros i p Hi; unfold cell; rewrite U by exact Hi; reflexivity).
  assert (ERR : forall e, exists hp1 r, Val (hp0, @Err sl e) = Val (hp1, r) /\ Val (@Err bytes e, view hp sig) = Val (match r with Ok t => Ok (view hp1 t) | Err e => Err e end, view hp1 sig) /\
    forall i p, (i < length hp)%nat -> ~ (i = s_arr sig /\ (s_off sig <= p < s_off sig + s_len sig)%nat) -> cell hp1 i p = cell hp i p).
  { intros e. exists hp0, (Err e). split; [reflexivity|]. rewrite V0. split; [reflexivity|]. intros i p Hi _. apply C0, Hi. }
  destruct r as [m|e]; [|apply ERR]. specialize (K m eq_refl). cbn [sig_now sg_Value sg_Scheme]. destruct (ms_Value m) as [v|t].
  { destruct v; try apply ERR. exfalso. exact (K _ eq_refl). }
  assert (Ft : fits hp0 t). { destruct K as [(_ & -> & -> & K4 & K5)|(_ & _ & _ & K)]; [apply fits_tail; [exact F|lia]|exact K]. }
  rewrite (zlen_view hp0 t Ft). destruct (Z.eqb_spec (Z.of_nat (s_len t)) 65) as [L|L]; [|apply ERR]. cbn [negb].
  pose proof (view_length hp0 t Ft) as VL. destruct (view hp0 t) as [|v l] eqn:EV; [cbn in VL; lia|]. cbn in VL. assert (Ll : length l = 64%nat) by lia.
  rewrite index_cons0. cbn [bind]. assert (S1 : slice (v :: l) 1 65 = Val l). { replace 65 with (zlen (v :: l)) by (rewrite zlen_cons; unfold zlen; rewrite Ll; reflexivity). apply slice_tail1. }
  rewrite S1. cbn [bind]. pose proof (rotate_copy v l (u8 (v - 27)) ltac:(intros ->; discriminate)) as RC. rewrite Ll in RC. rewrite RC. clear RC. destruct (rotated hp0 t v l (u8 (v - 27)) Ft EV Ll) as (Fh & Vh & Ch).
  set (hp1 := store (store hp0 _ _ _) _ _ _) in *. exists hp1, (Ok t). 
  assert (B0 : exists b0, index (view hp sig) 0 = Val b0).
  { destruct (index (view hp sig) 0) as [b0|w|] eqn:I0; [eauto|exfalso|exfalso].
    all: unfold DeserializeM in E; rewrite I0 in E; destruct (Z.of_nat (s_len sig) <? 2) eqn:E2; [discriminate|]; pose proof (view_length hp sig F) as W; apply Z.ltb_ge in E2;
      destruct (view hp sig); [cbn in W; lia|]; rewrite index_cons0 in I0; discriminate. }
  destruct B0 as [b0 I0]. rewrite I0. cbn [bind]. split; [reflexivity|]. rewrite Vh. destruct K as [(K1 & -> & -> & K4 & K5)|(K1 & K2 & K3 & K4)].
  - rewrite (proj2 (ecdsa_scheme_iff _) K1). split.
    + do 2 f_equal.
      assert (H0 : nth_error (view hp1 sig) 0 = Some b0).
        { pose proof (view_length hp sig F) as W0. assert (C1 : cell hp1 (s_arr sig) (s_off sig) = cell hp (s_arr sig) (s_off sig)) by (apply Ch; cbn; lia).
          assert (NV : forall h, (1 <= s_len sig)%nat -> nth_error (view h sig) 0 = cell h (s_arr sig) (s_off sig)).
          { intros h L1. unfold view, cell, array. destruct (s_len sig); [lia|]. generalize (s_off sig) (nth (s_arr sig) h []). intros o a. revert a. induction o as [|o IH]; intros [|x a]; cbn; auto. apply IH. }
          rewrite NV, C1, <- NV by lia. unfold index in I0. destruct ((0 <=? 0) && (0 <? zlen (view hp sig))); [|discriminate]. change (Z.to_nat 0) with 0%nat in I0.
          destruct (nth_error (view hp sig) 0); [congruence|discriminate]. }
        destruct (view hp1 sig) as [|c r] eqn:ES; [discriminate|]. cbn in H0. injection H0 as ->. f_equal.
        rewrite <- Vh. rewrite view_tail by lia. rewrite ES. reflexivity.
    + intros i p Hi N. apply Ch. cbn. intros [-> Hp]. apply N. split; [reflexivity|lia].
  - rewrite (proj2 (ecdsa_scheme_false _) K1). split.
    + do 2 f_equal. unfold hp1. rewrite !store_other by lia. symmetry. exact V0.
    + intros i p Hi N. rewrite Ch by lia. apply C0, Hi.
Qed.
(** a signature object read from the buffer before the conversion changes with it *)
Theorem C90_convert_corrupts : forall hp buf sch v rs, fits hp buf -> view hp buf = sch :: v :: rs -> 0 <= sch <= 8 -> length rs = 64%nat ->
  exists m hp1 t, DeserializeM hp buf = Val (hp, Ok m) /\ sig_now hp m = {| sg_Scheme := sch; sg_Value := VBytes (v :: rs) |} /\
    ConvertToEthCompatibleM hp buf = Val (hp1, Ok t) /\ sig_now hp1 m = {| sg_Scheme := sch; sg_Value := VBytes (rs ++ [(v - 27) mod 256]) |}.
Proof.
  intros hp buf sch v rs F V HS L. destruct (desM_slice hp buf F) as (hp0 & r & E & U & D & K). destruct (C90_convert hp buf F) as (hp1 & r1 & E1 & D1 & C1).
  rewrite V in D, D1. rewrite C41_ecdsa in D1 by assumption. rewrite Deserialize_cons in D by (discriminate || (cbn [Datatypes.length]; lia)). rewrite des_bytes in D by (exact HS || (cbn [Datatypes.length]; lia)).
  destruct r as [m|e]; [|discriminate]. specialize (K m eq_refl). destruct r1 as [t|e]; [|discriminate]. unfold sig_now in D. injection D as DS DB.
  destruct (ms_Value m) as [w|s] eqn:EM; [exfalso; exact (K _ (eq_sym DB))|]. injection DB as DB. destruct K as [(K1 & K2 & K3 & _)|(K1 & _)]; [|exfalso; apply K1; rewrite <- DS; exact HS].
  subst hp0 s. exists m, hp1, t. split; [exact E|]. unfold sig_now. rewrite EM, <- DS, <- DB. split; [reflexivity|]. split; [exact E1|]. injection D1 as _ D1.
  pose proof (view_length hp buf F) as VL. rewrite V in VL. cbn in VL. rewrite view_tail, <- D1 by lia. reflexivity.
Qed.

(** ** Private keys *)
Section Keys.
Variable sbm : curve -> bytes -> Z * Z.
Lemma ed_value : forall rng hp data, fits hp data ->
  DeserializePrivateKey sbm rng (view hp data) =
  (let* r := DeserializePrivateKeyM sbm rng hp data in Val (match r with Ok (Some k) => Ok (Some (key_now hp k)) | Ok None => Ok None | Err e => Err e end)).
Proof.
  intros rng hp data F. unfold DeserializePrivateKeyM. unfold DeserializePrivateKey at 1. destruct (index (view hp data) 0) as [t|w|] eqn:I0; try reflexivity. cbn [bind].
  destruct (Z.eqb_spec t PK_EDDSA) as [->|NE].
  - change ((PK_EDDSA =? PK_ECDSA) || (PK_EDDSA =? PK_SM2)) with false. cbv iota. destruct (index (view hp data) 1) as [l|w|]; try reflexivity. cbn [bind].
    destruct (l =? L_ED25519); [|reflexivity]. rewrite (zlen_view hp data F). destruct (Z.ltb_spec (Z.of_nat (s_len data)) (2 + 64)) as [L|L]; [reflexivity|].
    rewrite slice_ok by (rewrite ?(zlen_view hp data F); lia). cbn [bind key_now]. rewrite view_tail by lia. rewrite firstn_all2; [reflexivity|]. rewrite skipn_length, (view_length hp data F). lia.
  - unfold DeserializePrivateKey. rewrite I0. cbn [bind]. rewrite (proj2 (Z.eqb_neq _ _) NE).
    match goal with |- ?x = _ => destruct x as [[[k|]|e]|w|] end; reflexivity.
Qed.
(** The result is that of the model on values.  An Ed25519 key is the rest of the buffer itself: whatever is written there later becomes the
    key.  Every other key keeps its value. *)
Theorem C90_private : forall rng hp data, fits hp data ->
  DeserializePrivateKey sbm rng (view hp data) =
    (let* r := DeserializePrivateKeyM sbm rng hp data in Val (match r with Ok (Some k) => Ok (Some (key_now hp k)) | Ok None => Ok None | Err e => Err e end)) /\
  forall k, DeserializePrivateKeyM sbm rng hp data = Val (Ok (Some k)) -> forall hp2, caller_wrote hp hp hp2 ->
    (nth 0 (view hp data) 0 = PK_EDDSA -> key_now hp2 k = SkEd (skipn 2 (view hp2 data))) /\
    (nth 0 (view hp data) 0 <> PK_EDDSA -> key_now hp2 k = key_now hp k).
Proof.
  intros rng hp data F. split; [apply ed_value, F|]. intros k E hp2 W. unfold DeserializePrivateKeyM in E.
  destruct (index (view hp data) 0) as [t|w|] eqn:I0; try discriminate. cbn [bind] in E.
  assert (N0 : nth 0 (view hp data) 0 = t).
  { unfold index in I0. destruct ((0 <=? 0) && (0 <? zlen (view hp data))); [|discriminate]. change (Z.to_nat 0) with 0%nat in I0. destruct (view hp data); [discriminate|]. cbn in *. congruence. }
  rewrite N0. destruct (Z.eqb_spec t PK_EDDSA) as [->|NE].
  - destruct (index (view hp data) 1) as [l|w|]; try discriminate. cbn [bind] in E. destruct (l =? L_ED25519); [|discriminate].
    destruct (Z.ltb_spec (Z.of_nat (s_len data)) (2 + 64)) as [L|L]; [discriminate|]. injection E as <-. split; [|congruence]. intros _. cbn [key_now]. rewrite view_tail by lia. reflexivity.
  - destruct (DeserializePrivateKey sbm rng (view hp data)) as [[[k'|]|e]|w|]; try discriminate. cbn [bind] in E. injection E as <-. split; [congruence|reflexivity].
Qed.
(** clearing the buffer clears the key; all keys become the same; reading a second key into the buffer replaces the first *)
Theorem C90_private_reused : forall rng hp data k b seed, fits hp data -> DeserializePrivateKeyM sbm rng hp data = Val (Ok (Some k)) -> nth 0 (view hp data) 0 = PK_EDDSA ->
  key_now (store hp (s_arr data) (s_off data) (repeat b (s_len data))) k = SkEd (repeat b (s_len data - 2)) /\
  ((2 + length seed)%nat = s_len data -> key_now (store hp (s_arr data) (s_off data) (PK_EDDSA :: L_ED25519 :: seed)) k = SkEd seed).
Proof.
  intros rng hp data k b seed F E T. pose proof F as (FA & FB & FC).
  assert (W : forall bs, length bs = s_len data -> caller_wrote hp hp (store hp (s_arr data) (s_off data) bs) /\ view (store hp (s_arr data) (s_off data) bs) data = bs).
  { intros bs L. split.
    - split; [|lia]. intros i Hi. apply store_len; [exact FA|]. apply (fun H => Nat.le_trans _ _ _ H FC). rewrite L. lia.
    - rewrite <- (Nat.add_0_r (s_off data)). exact (view_store hp data 0 bs F L). }
  split.
  - destruct (W (repeat b (s_len data)) (repeat_length _ _)) as [W1 V1]. destruct (C90_private rng hp data F) as [_ P]. destruct (P k E _ W1) as [P1 _]. rewrite (P1 T), V1. f_equal.
    generalize (s_len data). clear. intros [|[|n]]; cbn; try reflexivity. f_equal. lia.
  - intros L. destruct (W (PK_EDDSA :: L_ED25519 :: seed) L) as [W1 V1]. destruct (C90_private rng hp data F) as [_ P]. destruct (P k E _ W1) as [P1 _]. rewrite (P1 T), V1. reflexivity.
Qed.
End Keys.
(** ** Public keys: never shared *)
Theorem C90_public : forall rng hp data, fits hp data ->
  match DeserializePublicKeyM rng hp data with
  | Val (hp1, r) => untouched hp hp1 /\ DeserializePublicKey rng (view hp data) = Val (match r with Ok k => Ok (pub_now hp1 k) | Err e => Err e end) /\
      forall k, r = Ok k -> forall hp2, caller_wrote hp hp1 hp2 -> pub_now hp2 k = pub_now hp1 k
  | Panic w => DeserializePublicKey rng (view hp data) = Panic w
  | OutOfFuel => DeserializePublicKey rng (view hp data) = OutOfFuel
  end.
Proof.
  intros rng hp data F. unfold DeserializePublicKeyM. destruct (DeserializePublicKey rng (view hp data)) as [[k|e]|w|]; cbn [bind]; try reflexivity.
  2:{ split; [intros i _; reflexivity|]. split; [reflexivity|discriminate]. }
  destruct k as [a k|b|k|g]; try (split; [intros i _; reflexivity|]; split; [reflexivity|]; intros k0 E hp2 _; injection E as <-; reflexivity).
  destruct (fresh hp b) as [hp1 s] eqn:E. destruct (view_fresh _ _ _ _ E) as (V & U & A & L & _). split; [exact U|]. split; [cbn; rewrite V; reflexivity|].
  intros k0 E0 hp2 [_ W]. injection E0 as <-. cbn. f_equal. unfold view, array. rewrite A, W by lia. reflexivity.
Qed.

(** ** SM4 *)
Lemma put_ok : forall bs hp dst j hp' e, fits hp dst -> put_bytes hp dst j bs = (hp', e) ->
  fits hp' dst /\ (e = None <-> (j + length bs <= s_len dst)%nat \/ bs = []) /\
  (forall q, (q < length bs)%nat -> (j + q < s_len dst)%nat -> cell hp' (s_arr dst) (s_off dst + j + q) = nth_error bs q) /\
  (forall i p, ~ (i = s_arr dst /\ (s_off dst + j <= p < s_off dst + Nat.min (s_len dst) (j + length bs))%nat) -> cell hp' i p = cell hp i p).
Proof.
  induction bs as [|b bs IH]; intros hp dst j hp' e F E; cbn [put_bytes] in E.
  - injection E as <- <-. split; [exact F|]. split; [split; [intros _; right; reflexivity|reflexivity]|]. split; [cbn; intros; lia|reflexivity].
  - destruct (Nat.ltb_spec j (s_len dst)) as [L|L].
    + pose proof F as (FA & FB & FC). assert (RM : (s_off dst + j + Datatypes.length [b] <= Datatypes.length (nth (s_arr dst) hp []))%nat).
      { apply (fun H => Nat.le_trans _ _ _ H FC). change (Datatypes.length [b]) with 1%nat. lia. }
      pose proof (store_fits hp (s_arr dst) (s_off dst + j) [b] dst FA RM F) as F1. destruct (IH _ dst (S j) hp' e F1 E) as (H1 & H2 & H3 & H4). split; [exact H1|]. cbn [Datatypes.length]. split; [|split].
      * rewrite H2. split; [intros [H| ->]; left; cbn; lia|]. intros [H|H]; [left; lia|discriminate].
      * intros q Q1 Q2. destruct q as [|q].
        -- rewrite H4 by lia. rewrite Nat.add_0_r. rewrite <- (Nat.add_0_r (s_off dst + j)) at 2. rewrite store_cell_in; [reflexivity|exact FA|exact RM|cbn; lia].
        -- cbn [nth_error]. rewrite <- (H3 q) by lia. f_equal. lia.
      * intros i p N. rewrite H4 by lia. apply store_cell_out; [exact FA|exact RM|]. change (Datatypes.length [b]) with 1%nat. lia.
    + injection E as <- <-. split; [exact F|]. split; [split; [discriminate|intros [H|H]; [cbn in H; lia|discriminate]]|]. split; [intros; lia|reflexivity].
Qed.
(** However source and destination overlap: the bytes stored are those of the model on values, in the first 16 bytes of the destination, and
    nothing else changes.  A destination of n < 16 bytes has received the first n of them when the panic comes. *)
Theorem C90_sm4_memory : forall sk hp dst src decrypt, fits hp dst -> fits hp src -> (16 <= s_len src)%nat ->
  exists out hp1 e, length out = 16%nat /\ (forall d, length d = 16%nat -> cryptBlock sk d (view hp src) decrypt = Val out) /\
    cryptBlockM sk hp dst src decrypt = (hp1, e) /\ (e = None <-> (16 <= s_len dst)%nat) /\
    (forall q, (q < 16)%nat -> (q < s_len dst)%nat -> cell hp1 (s_arr dst) (s_off dst + q) = nth_error out q) /\
    (forall i p, ~ (i = s_arr dst /\ (s_off dst <= p < s_off dst + Nat.min 16 (s_len dst))%nat) -> cell hp1 i p = cell hp i p) /\
    ((16 <= s_len dst)%nat -> cryptBlock sk (view hp dst) (view hp src) decrypt = Val (view hp1 dst)).
Proof.
  intros sk hp dst src dec Fd Fs L. unfold cryptBlockM, cryptBlock. rewrite (zlen_view hp src Fs). destruct (Z.ltb_spec (Z.of_nat (s_len src)) 16); [lia|]. destruct (Nat.ltb_spec (s_len src) 16); [lia|]. cbv zeta.
  set (m := fold_left _ _ _). assert (LO : length (store_words m) = 16%nat) by (destruct m as [[[a b] c] d]; reflexivity). set (out := store_words m) in *. clearbody out.
  destruct (put_bytes hp dst 0 out) as [hp1 e] eqn:E. destruct (put_ok out hp dst 0 hp1 e Fd E) as (F1 & P1 & P2 & P3). rewrite LO in P1, P2, P3. exists out, hp1, e.
  split; [exact LO|]. split.
  { intros d Ld. unfold zlen. rewrite Ld. cbn [Z.of_nat]. change (Z.of_nat 16 <? 16) with false. cbv iota. rewrite skipn_all2 by lia. rewrite app_nil_r. reflexivity. }
  split; [reflexivity|]. assert (PE : e = None <-> (16 <= s_len dst)%nat).
  { rewrite P1. split; [intros [H1| ->]; [lia|discriminate LO]|intros; left; lia]. }
  split; [exact PE|]. assert (PC : forall q, (q < 16)%nat -> (q < s_len dst)%nat -> cell hp1 (s_arr dst) (s_off dst + q) = nth_error out q).
  { intros q Q1 Q2. rewrite <- (P2 q Q1 ltac:(lia)). f_equal. lia. }
  split; [exact PC|]. split; [intros i p N; apply P3; lia|].
  intros L16. rewrite (zlen_view hp dst Fd). destruct (Z.ltb_spec (Z.of_nat (s_len dst)) 16); [lia|]. f_equal.
  assert (NV : forall h, fits h dst -> forall q, (q < s_len dst)%nat -> nth_error (view h dst) q = cell h (s_arr dst) (s_off dst + q)).
  { intros h (A & B & C) q Q. unfold view, cell, array. set (a := nth (s_arr dst) h []) in *. rewrite <- (firstn_skipn (s_off dst) a) at 2.
    rewrite nth_error_app2 by (rewrite firstn_length; lia). rewrite firstn_length, Nat.min_l by lia. replace (s_off dst + q - s_off dst)%nat with q by lia.
    rewrite <- (firstn_skipn (s_len dst) (skipn (s_off dst) a)) at 2. rewrite nth_error_app1; [reflexivity|]. rewrite firstn_length, skipn_length. lia. }
  assert (EXT : forall a b : bytes, length a = length b -> (forall q, (q < length a)%nat -> nth_error a q = nth_error b q) -> a = b).
  { clear. induction a as [|x a IH]; intros [|y b] Le Q; cbn in Le; try lia; [reflexivity|]. pose proof (Q 0%nat ltac:(cbn; lia)) as Q0. cbn in Q0. injection Q0 as ->. f_equal. apply IH; [lia|]. intros q Hq. exact (Q (S q) ltac:(cbn; lia)). }
  apply EXT; [rewrite app_length, skipn_length, LO, !view_length by assumption; lia|]. rewrite app_length, skipn_length, LO, view_length by assumption. intros q Hq.
  rewrite NV by (assumption || lia). destruct (Nat.lt_ge_cases q 16) as [Q|Q].
  - rewrite nth_error_app1 by lia. symmetry. apply PC; lia.
  - rewrite nth_error_app2, LO by lia. rewrite P3 by lia. rewrite <- NV by (assumption || lia). rewrite <- (firstn_skipn 16 (view hp dst)) at 2.
    rewrite nth_error_app2; rewrite firstn_length, (view_length hp dst Fd); [f_equal; lia|lia].
Qed.
(** in place: encrypting a block where it lies and decrypting it there restores every byte of the memory *)
Theorem C90_sm4_in_place : forall key hp s, length key = 16%nat -> fits hp s -> s_len s = 16%nat -> Forall (fun b => 0 <= b < 256) (view hp s) ->
  exists c hp1 hp2, NewCipher key = inl c /\ cryptBlockM c hp s s false = (hp1, None) /\ cryptBlockM c hp1 s s true = (hp2, None) /\
    view hp2 s = view hp s /\ forall i p, ~ (i = s_arr s /\ (s_off s <= p < s_off s + 16)%nat) -> cell hp2 i p = cell hp i p.
Proof.
  intros key hp s Lk F Ls O. pose proof (view_length hp s F) as VL. rewrite Ls in VL. destruct (C04_sm4_round_trip key (view hp s) (view hp s) (view hp s) Lk VL O VL VL) as (c & NC & (ct & E1 & Lc & E2) & _).
  destruct (C90_sm4_memory c hp s s false F F ltac:(lia)) as (o1 & hp1 & e1 & _ & _ & M1 & P1 & _ & C1 & V1). exists c, hp1. assert (e1 = None) as -> by (apply P1; lia).
  assert (F1 : fits hp1 s).
  { unfold cryptBlockM in M1. destruct (s_len s <? 16)%nat; [discriminate|]. cbv zeta in M1. exact (proj1 (put_ok _ _ _ _ _ _ F M1)). }
  destruct (C90_sm4_memory c hp1 s s true F1 F1 ltac:(lia)) as (o2 & hp2 & e2 & _ & D2 & M2 & P2 & _ & C2 & V2). exists hp2. assert (e2 = None) as -> by (apply P2; lia).
  split; [exact NC|]. split; [exact M1|]. split; [exact M2|]. specialize (V1 ltac:(lia)). specialize (V2 ltac:(lia)). unfold Encrypt, Decrypt in *. rewrite E1 in V1. injection V1 as V1. split.
  - pose proof (view_length hp1 s F1) as VL1. rewrite Ls in VL1. rewrite (D2 _ VL1) in V2. rewrite <- V1 in D2. rewrite (D2 _ VL) in E2. congruence.
  - intros i p N. rewrite C2, C1 by (rewrite Ls; cbn; exact N). reflexivity.
Qed.
Print Assumptions C90_signature.
Print Assumptions C90_convert.
Print Assumptions C90_convert_corrupts.
Print Assumptions C90_private.
Print Assumptions C90_private_reused.
Print Assumptions C90_public.
Print Assumptions C90_sm4_memory.
Print Assumptions C90_sm4_in_place.

(** ** Examples *)
(** a compact signature inside a larger array *)
Definition ex_hp : heap := [[9; 9] ++ (1 :: 28 :: repeat 5 63 ++ [6]) ++ [7]].
Definition ex_buf : sl := {| s_arr := 0; s_off := 2; s_len := 66; s_cap := 67 |}.
Example C90_signature_example : fits ex_hp ex_buf /\ shared_sig (view ex_hp ex_buf) /\
  (exists m, DeserializeM ex_hp ex_buf = Val (ex_hp, Ok m) /\ sig_now ex_hp m = {| sg_Scheme := 1; sg_Value := VBytes (28 :: repeat 5 63 ++ [6]) |} /\
     sig_now (store ex_hp 0 3 [99]) m = {| sg_Scheme := 1; sg_Value := VBytes (99 :: repeat 5 63 ++ [6]) |}) /\
  exists hp1 t, ConvertToEthCompatibleM ex_hp ex_buf = Val (hp1, Ok t) /\ hp1 = [[9; 9; 1] ++ repeat 5 63 ++ [6; 1; 7]].
Proof.
  split; [unfold fits; cbn; lia|]. split; [exists 1; eexists; split; [reflexivity|]; split; [lia|reflexivity]|]. split.
  - eexists. split; [reflexivity|]. split; vm_compute; reflexivity.
  - do 2 eexists. split; [reflexivity|]. vm_compute. reflexivity.
Qed.
(** an Ethereum signature of 65 bytes and one of 64 bytes are not shared *)
Example C90_signature_not_shared : ~ shared_sig (11 :: repeat 1 65) /\ ~ shared_sig (repeat 1 64).
Proof. split; intros (sch & l & E & R & L); [injection E as <- _; lia|]. apply (f_equal (@Datatypes.length Z)) in E. cbn in E. lia. Qed.
(** an Ed25519 key and its buffer *)
Definition ex_key_hp : heap := [PK_EDDSA :: L_ED25519 :: repeat 3 64].
Definition ex_key_sl : sl := {| s_arr := 0; s_off := 0; s_len := 66; s_cap := 66 |}.
Example C90_private_example : forall sbm, exists k, fits ex_key_hp ex_key_sl /\ DeserializePrivateKeyM sbm [] ex_key_hp ex_key_sl = Val (Ok (Some k)) /\
  key_now ex_key_hp k = SkEd (repeat 3 64) /\ key_now (store ex_key_hp 0 0 (repeat 0 66)) k = SkEd (repeat 0 64).
Proof. intros sbm. eexists. split; [unfold fits; cbn; lia|]. split; [reflexivity|]. split; vm_compute; reflexivity. Qed.
(** a public key and its buffer *)
Definition ex_pub_hp : heap := [PK_EDDSA :: L_ED25519 :: repeat 3 32].
Definition ex_pub_sl : sl := {| s_arr := 0; s_off := 0; s_len := 34; s_cap := 34 |}.
Example C90_public_example : exists hp1 k, fits ex_pub_hp ex_pub_sl /\ DeserializePublicKeyM [] ex_pub_hp ex_pub_sl = Val (hp1, Ok k) /\
  pub_now (store hp1 0 0 (repeat 0 34)) k = PkEd (repeat 3 32) /\ caller_wrote ex_pub_hp hp1 (store hp1 0 0 (repeat 0 34)).
Proof.
  do 2 eexists. split; [unfold fits; cbn; lia|]. split; [reflexivity|]. split; [vm_compute; reflexivity|]. split.
  - intros [|i] Hi; [reflexivity|cbn in Hi; lia].
  - intros [|[|i]] Hi; cbn in Hi; [lia|reflexivity|lia].
Qed.
(** the block of the standard's example, encrypted to a place four bytes further on; and to a destination of three bytes *)
Definition ex_block : bytes := [0x01; 0x23; 0x45; 0x67; 0x89; 0xAB; 0xCD; 0xEF; 0xFE; 0xDC; 0xBA; 0x98; 0x76; 0x54; 0x32; 0x10].
Definition ex_sm4_hp : heap := [ex_block ++ [1; 2; 3; 4; 5]].
Example C90_sm4_example : exists c, NewCipher ex_block = inl c /\
  cryptBlockM c ex_sm4_hp {| s_arr := 0; s_off := 4; s_len := 16; s_cap := 17 |} {| s_arr := 0; s_off := 0; s_len := 16; s_cap := 21 |} false =
    ([[0x01; 0x23; 0x45; 0x67] ++ [0x68; 0x1E; 0xDF; 0x34; 0xD2; 0x06; 0x96; 0x5E; 0x86; 0xB3; 0xE9; 0x4F; 0x53; 0x6E; 0x42; 0x46] ++ [5]], None) /\
  cryptBlockM c ex_sm4_hp {| s_arr := 0; s_off := 18; s_len := 3; s_cap := 3 |} {| s_arr := 0; s_off := 0; s_len := 16; s_cap := 21 |} false =
    ([ex_block ++ [1; 2; 0x68; 0x1E; 0xDF]], Some "index out of range"%string).
Proof. eexists. split; [reflexivity|]. split; vm_compute; reflexivity. Qed.
