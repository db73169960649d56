(** * Prop_Mem: C59, append on slices that belong to the caller *)
From Coq Require Import ZArith String List Bool Lia.
From Verif Require Import Base BaseFacts Curves ECKey Keypair AES VRF Mem.
Import ListNotations.
Open Scope Z_scope.

(** ** Specification: memory as a function from (array, position) to bytes *)
Definition cell (hp : heap) (i p : nat) : option Z := nth_error (nth i hp []) p.
(** a slice inside its array *)
Definition fits (hp : heap) (s : sl) : Prop :=
  (s_arr s < length hp)%nat /\ (s_len s <= s_cap s)%nat /\ (s_off s + s_cap s <= length (nth (s_arr s) hp []))%nat.
(** position p of array i lies in the first n bytes of the spare capacity of s *)
Definition in_spare (s : sl) (n i p : nat) : Prop :=
  i = s_arr s /\ (s_off s + s_len s <= p < s_off s + s_len s + n)%nat.
(** a slice with no byte there *)
Definition clear_of (s : sl) (n : nat) (t : sl) : Prop :=
  forall p, (s_off t <= p < s_off t + s_len t)%nat -> ~ in_spare s n (s_arr t) p.

Lemma skipn_past : forall A (a b : list A) n, length a = n -> skipn n (a ++ b) = b.
Proof. intros A a b n <-. rewrite skipn_app, skipn_all, Nat.sub_diag. reflexivity. Qed.
Lemma set_nth_length : forall A i (v : A) l, length (set_nth i v l) = length l.
Proof. induction i; intros v [|x l]; cbn; auto. Qed.
Lemma nth_set_same : forall A i (v d : A) l, (i < length l)%nat -> nth i (set_nth i v l) d = v.
Proof. induction i; intros v d [|x l] H; cbn in *; try lia; auto. apply IHi. lia. Qed.
Lemma nth_set_other : forall A i j (v d : A) l, i <> j -> nth j (set_nth i v l) d = nth j l d.
Proof.
  induction i; intros j v d [|x l] H; cbn; auto; destruct j; try lia; auto.
Qed.
Lemma view_length : forall hp s, fits hp s -> length (view hp s) = s_len s.
Proof. intros hp s (H1 & H2 & H3). unfold view, array. rewrite firstn_length, skipn_length. lia. Qed.
Lemma view_cells : forall (hp hp' : heap) s s', s_len s = s_len s' -> fits hp s ->
  (s_off s' + s_len s' <= length (nth (s_arr s') hp' []))%nat ->
  (forall q, (q < s_len s)%nat -> cell hp (s_arr s) (s_off s + q) = cell hp' (s_arr s') (s_off s' + q)) ->
  view hp s = view hp' s'.
Proof.
  intros hp hp' s s' L F B C. unfold view, array.
  assert (X : forall (l l' : bytes) n, (n <= length l)%nat -> (n <= length l')%nat ->
    (forall q, (q < n)%nat -> nth_error l q = nth_error l' q) -> firstn n l = firstn n l').
  { clear. induction l as [|x l IH]; intros [|y l'] n L L' E; destruct n; cbn in *; try lia; auto.
    pose proof (E 0%nat ltac:(lia)) as E0. cbn in E0. injection E0 as ->. f_equal. apply IH; try lia.
    intros q Hq. exact (E (S q) ltac:(lia)). }
  assert (NS : forall (l : bytes) k q, nth_error (skipn k l) q = nth_error l (k + q)).
  { clear. induction l; intros [|k] q; cbn; auto; destruct q; auto. }
  rewrite <- L. destruct F as (F1 & F2 & F3).
  apply X.
  { rewrite skipn_length. lia. }
  { rewrite skipn_length. lia. }
  intros q Hq. rewrite !NS. apply C. exact Hq.
Qed.

(** what an in-place store changes *)
Lemma store_cell_out : forall (hp : heap) i p (bs : bytes) j q, (i < length hp)%nat -> (p + length bs <= length (nth i hp []))%nat ->
  ~ (j = i /\ (p <= q < p + length bs)%nat) -> cell (store hp i p bs) j q = cell hp j q.
Proof.
  intros hp i p bs j q Hi Hp N. unfold cell, store, array. destruct (Nat.eq_dec i j) as [<-|D].
  2:{ rewrite nth_set_other by exact D. reflexivity. }
  rewrite nth_set_same by exact Hi. set (a := nth i hp []) in *.
  assert (L : length (firstn p a) = p) by (rewrite firstn_length; lia).
  destruct (Nat.lt_ge_cases q p) as [Q|Q].
  - rewrite nth_error_app1 by lia. rewrite <- (firstn_skipn p a) at 2. rewrite nth_error_app1 by lia. reflexivity.
  - rewrite nth_error_app2, L by lia. assert (Q2 : (p + length bs <= q)%nat) by lia.
    rewrite nth_error_app2 by lia. rewrite <- (firstn_skipn (p + length bs) a) at 2.
    rewrite (nth_error_app2 (firstn (p + length bs) a)) by (rewrite firstn_length; lia).
    f_equal. rewrite firstn_length. lia.
Qed.
Lemma store_cell_in : forall (hp : heap) i p (bs : bytes) q, (i < length hp)%nat -> (p + length bs <= length (nth i hp []))%nat ->
  (q < length bs)%nat -> cell (store hp i p bs) i (p + q) = nth_error bs q.
Proof.
  intros hp i p bs q Hi Hp Q. unfold cell, store, array. rewrite nth_set_same by exact Hi.
  assert (L : length (firstn p (nth i hp [])) = p) by (rewrite firstn_length; lia).
  rewrite nth_error_app2, L by lia. rewrite nth_error_app1 by lia. f_equal. lia.
Qed.
Lemma store_len : forall (hp : heap) i p (bs : bytes) j, (i < length hp)%nat -> (p + length bs <= length (nth i hp []))%nat ->
  length (nth j (store hp i p bs) []) = length (nth j hp []).
Proof.
  intros hp i p bs j Hi Hp. unfold store, array. destruct (Nat.eq_dec i j) as [<-|D].
  - rewrite nth_set_same by exact Hi. rewrite !app_length, firstn_length, skipn_length. lia.
  - rewrite nth_set_other by exact D. reflexivity.
Qed.

(** ** The builtin *)
(** the result always shows the old contents followed by the appended bytes *)
Theorem C59_append_value : forall slack hp s bs hp' s', fits hp s -> append slack hp s bs = (hp', s') ->
  view hp' s' = view hp s ++ bs.
Proof.
  intros slack hp s bs hp' s' F E. pose proof F as (F1 & F2 & F3). unfold append in E.
  destruct (Nat.leb_spec (s_len s + length bs) (s_cap s)) as [L|L]; injection E as <- <-.
  - unfold view at 1. cbn [s_arr s_off s_len]. unfold store, array at 1. rewrite nth_set_same by exact F1.
    unfold array, view, array. set (a := nth (s_arr s) hp []) in *.
    assert (L1 : length (firstn (s_off s + s_len s) a) = (s_off s + s_len s)%nat) by (rewrite firstn_length; lia).
    rewrite skipn_app, L1. replace (s_off s - (s_off s + s_len s))%nat with 0%nat by lia. cbn [skipn].
    rewrite firstn_app. rewrite skipn_length, L1. replace (s_len s + length bs - (s_off s + s_len s - s_off s))%nat with (length bs) by lia.
    rewrite (firstn_app_l _ bs) by reflexivity. f_equal.
    rewrite firstn_all2 by (rewrite skipn_length, L1; lia).
    rewrite skipn_firstn_comm. f_equal. lia.
  - unfold view at 1, array. cbn [s_arr s_off s_len skipn]. rewrite app_nth2, Nat.sub_diag by lia. cbn [nth skipn].
    rewrite app_assoc. apply firstn_app_l. rewrite app_length, view_length by exact F. reflexivity.
Qed.
(** the caller's own view never changes *)
Theorem C59_append_keeps_slice : forall slack hp s bs hp' s', fits hp s -> append slack hp s bs = (hp', s') ->
  view hp' s = view hp s.
Proof.
  intros slack hp s bs hp' s' F E. pose proof (C59_append_value slack hp s bs hp' s' F E) as V.
  pose proof F as (F1 & F2 & F3). unfold append in E.
  destruct (Nat.leb_spec (s_len s + length bs) (s_cap s)) as [L|L]; injection E as <- <-.
  - unfold view in *. cbn [s_arr s_off s_len] in V. apply (f_equal (firstn (s_len s))) in V.
    rewrite firstn_firstn, Nat.min_l in V by lia. rewrite V.
    apply firstn_app_l. symmetry. exact (view_length hp s F).
  - unfold view, array. rewrite app_nth1 by exact F1. reflexivity.
Qed.
(** exactly the spare capacity that is needed is overwritten, if it is there; otherwise nothing *)
Theorem C59_append_frame : forall slack hp s bs hp' s', fits hp s -> append slack hp s bs = (hp', s') ->
  forall i p, (i < length hp)%nat ->
  ((s_len s + length bs <= s_cap s)%nat -> in_spare s (length bs) i p ->
     cell hp' i p = nth_error bs (p - (s_off s + s_len s))) /\
  ((s_cap s < s_len s + length bs)%nat \/ ~ in_spare s (length bs) i p -> cell hp' i p = cell hp i p).
Proof.
  intros slack hp s bs hp' s' F E i p Hi. pose proof F as (F1 & F2 & F3). unfold append in E.
  destruct (Nat.leb_spec (s_len s + length bs) (s_cap s)) as [L|L]; injection E as <- <-; split.
  - intros _ [-> P]. rewrite <- (store_cell_in hp (s_arr s) (s_off s + s_len s) bs (p - (s_off s + s_len s))) by lia.
    f_equal. lia.
  - intros [C|C]; [lia|]. apply store_cell_out; [exact F1|lia|]. intros [-> P]. apply C. split; [reflexivity|lia].
  - lia.
  - intros _. unfold cell. rewrite app_nth1 by exact Hi. reflexivity.
Qed.
Lemma append_other : forall slack hp s bs hp' s' t, fits hp s -> fits hp t -> append slack hp s bs = (hp', s') ->
  ((s_cap s < s_len s + length bs)%nat \/ clear_of s (length bs) t) -> view hp' t = view hp t.
Proof.
  intros slack hp s bs hp' s' t F T E C. symmetry. pose proof T as (T1 & T2 & T3). apply view_cells; auto.
  - pose proof F as (F1 & F2 & F3). unfold append in E.
    destruct (Nat.leb_spec (s_len s + length bs) (s_cap s)) as [L|L]; injection E as <- <-.
    + rewrite store_len by lia. lia.
    + rewrite app_nth1 by exact T1. lia.
  - intros q Hq. symmetry. apply (C59_append_frame slack hp s bs hp' s' F E); [exact T1|].
    destruct C as [C|C]; [left; exact C|right]. apply C. lia.
Qed.
Lemma append_fits_other : forall slack hp s bs hp' s' t, fits hp s -> fits hp t -> append slack hp s bs = (hp', s') -> fits hp' t.
Proof.
  intros slack hp s bs hp' s' t F T E. pose proof F as (F1 & F2 & F3). destruct T as (T1 & T2 & T3). unfold append in E.
  destruct (Nat.leb_spec (s_len s + length bs) (s_cap s)) as [L|L]; injection E as <- <-; unfold fits.
  - rewrite store_len by lia. unfold store. rewrite set_nth_length. auto.
  - rewrite app_nth1, app_length by exact T1. cbn [length]. split; [lia|auto].
Qed.

Definition onfst {A B C : Type} (f : A -> C) (m : go (B * A)) : go C :=
  match m with Val (_, x) => Val (f x) | Panic w => Panic w | OutOfFuel => OutOfFuel end.

(** ** aes.AesEncrypt *)
(** the result is that of the pure function on the memory before the call, except that the IV is
    read after the padding has been written *)
Definition pad_len (s : sl) : nat := (16 - s_len s mod 16)%nat.
Definition padded_heap (slack : nat) (hp : heap) (s : sl) : heap :=
  fst (append slack hp s (repeat (Z.of_nat (pad_len s)) (pad_len s))).
Lemma pad_eq : forall slack hp s, PKCS5PaddingM slack hp s 16 = Val (append slack hp s (repeat (Z.of_nat (pad_len s)) (pad_len s))).
Proof.
  intros slack hp s. unfold PKCS5PaddingM. change (16 =? 0) with false. cbv iota zeta.
  assert (R : Z.rem (Z.of_nat (s_len s)) 16 = Z.of_nat (s_len s mod 16)).
  { rewrite Z.rem_mod_nonneg by lia. rewrite Nat2Z.inj_mod by lia. reflexivity. }
  pose proof (Nat.mod_upper_bound (s_len s) 16 ltac:(lia)) as U. rewrite R.
  destruct (Z.ltb_spec (16 - Z.of_nat (s_len s mod 16)) 0); [lia|]. unfold pad_len.
  assert (Q : 16 - Z.of_nat (s_len s mod 16) = Z.of_nat (16 - s_len s mod 16)) by lia. rewrite Q.
  rewrite Nat2Z.id. unfold u8. rewrite Z.mod_small by lia. reflexivity.
Qed.
Theorem C59_aes_result : forall slack bc hp plaintext key iv, fits hp plaintext ->
  onfst (fun r => r) (AesEncryptM slack bc hp plaintext key iv) =
  AesEncrypt bc (view hp plaintext) (view hp key) (view (padded_heap slack hp plaintext) iv).
Proof.
  intros slack bc hp plaintext key iv F. unfold AesEncryptM, AesEncrypt. cbv zeta.
  destruct (negb (aes_key_ok (view hp key))); [reflexivity|].
  change aes_block_size with 16. rewrite pad_eq. unfold padded_heap.
  destruct (append slack hp plaintext _) as [hp' p'] eqn:E. cbn [bind fst].
  pose proof (C59_append_value _ _ _ _ _ _ F E) as V.
  assert (P : PKCS5Padding (view hp plaintext) 16 = Val (view hp' p')).
  { rewrite V. pose proof (pad_eq slack hp plaintext) as Q. unfold PKCS5PaddingM in Q. unfold PKCS5Padding.
    change (16 =? 0) with false in *. cbv iota zeta in *. unfold zlen. rewrite view_length by exact F.
    destruct (_ <? 0); [discriminate|].
    assert (R : Z.rem (Z.of_nat (s_len plaintext)) 16 = Z.of_nat (s_len plaintext mod 16)).
    { rewrite Z.rem_mod_nonneg by lia. rewrite Nat2Z.inj_mod by lia. reflexivity. }
    pose proof (Nat.mod_upper_bound (s_len plaintext) 16 ltac:(lia)) as U. rewrite R. unfold pad_len.
    assert (S : 16 - Z.of_nat (s_len plaintext mod 16) = Z.of_nat (16 - s_len plaintext mod 16)) by lia. rewrite S.
    rewrite Nat2Z.id. unfold u8. rewrite Z.mod_small by lia. reflexivity. }
  rewrite P. cbn [bind]. destruct (negb (zlen (view hp' iv) =? 16)); [reflexivity|].
  destruct (negb (Z.rem (zlen (view hp' p')) 16 =? 0)); reflexivity.
Qed.
Theorem C59_aes_result_clear : forall slack bc hp plaintext key iv, fits hp plaintext -> fits hp iv ->
  (s_cap plaintext < s_len plaintext + pad_len plaintext)%nat \/ clear_of plaintext (pad_len plaintext) iv ->
  onfst (fun r => r) (AesEncryptM slack bc hp plaintext key iv) = AesEncrypt bc (view hp plaintext) (view hp key) (view hp iv).
Proof.
  intros slack bc hp plaintext key iv F FI C. rewrite C59_aes_result by exact F. f_equal.
  unfold padded_heap. destruct (append slack hp plaintext _) as [hp' p'] eqn:E. cbn [fst].
  apply (append_other _ _ _ _ _ _ iv F FI E). rewrite repeat_length. exact C.
Qed.
(** nothing but the spare capacity of the plaintext is written *)
Theorem C59_aes_frame : forall slack bc hp plaintext key iv hp' r, fits hp plaintext ->
  AesEncryptM slack bc hp plaintext key iv = Val (hp', r) -> forall i p, (i < length hp)%nat ->
  (s_cap plaintext < s_len plaintext + pad_len plaintext)%nat \/ ~ in_spare plaintext (pad_len plaintext) i p ->
  cell hp' i p = cell hp i p.
Proof.
  intros slack bc hp plaintext key iv hp' r F E i p Hi C. unfold AesEncryptM in E. cbv zeta in E.
  destruct (negb (aes_key_ok (view hp key))); [injection E as <- _; reflexivity|].
  change aes_block_size with 16 in E. rewrite pad_eq in E.
  destruct (append slack hp plaintext _) as [hp2 p'] eqn:A. cbn [bind] in E.
  assert (hp' = hp2) as ->.
  { destruct (negb (zlen (view hp2 iv) =? 16)); [discriminate|].
    destruct (negb (Z.rem (zlen (view hp2 p')) 16 =? 0)); [discriminate|]. congruence. }
  apply (C59_append_frame _ _ _ _ _ _ F A); [exact Hi|]. rewrite repeat_length. exact C.
Qed.
(** one buffer holding plaintext and IV one after the other: for a plaintext of whole blocks the
    IV that is used is the constant 16, 16, ..., 16, whatever the caller put there *)
Theorem C59_aes_iv_overwritten : forall slack bc hp i off len cap key,
  let plaintext := {| s_arr := i; s_off := off; s_len := len; s_cap := cap |} in
  let iv := {| s_arr := i; s_off := off + len; s_len := 16; s_cap := 16 |} in
  fits hp plaintext -> (len mod 16 = 0)%nat -> (len + 16 <= cap)%nat ->
  onfst (fun r => r) (AesEncryptM slack bc hp plaintext key iv) =
  AesEncrypt bc (view hp plaintext) (view hp key) (repeat 16 16).
Proof.
  intros slack bc hp i off len cap key plaintext iv F M C. rewrite C59_aes_result by exact F. f_equal.
  assert (PL : pad_len plaintext = 16%nat) by (unfold pad_len; cbn [s_len plaintext]; rewrite M; reflexivity).
  unfold padded_heap. rewrite PL. destruct (append slack hp plaintext _) as [hp' p'] eqn:E. cbn [fst].
  pose proof (C59_append_value _ _ _ _ _ _ F E) as V. pose proof (view_length hp plaintext F) as LV.
  unfold append in E. rewrite repeat_length in E. cbn [s_arr s_off s_len s_cap plaintext] in E.
  destruct (Nat.leb_spec (len + 16) cap) as [_|]; [|lia].
  assert (E' : p' = {| s_arr := i; s_off := off; s_len := len + 16; s_cap := cap |}) by congruence.
  rewrite E' in V. unfold view at 1 in V. cbn [s_arr s_off s_len] in V.
  unfold view. cbn [s_arr s_off s_len iv].
  apply (f_equal (skipn len)) in V. rewrite (skipn_past _ (view hp plaintext)) in V by (rewrite LV; reflexivity).
  change (Z.of_nat 16) with 16 in V. rewrite <- V. rewrite skipn_firstn_comm.
  replace (len + 16 - len)%nat with 16%nat by lia. f_equal.
  clear. generalize (array hp' i). intros l. revert off. induction l as [|x l IH]; intros [|off]; cbn; auto.
  - destruct len; reflexivity.
Qed.

(** ** vrf.Verify *)
Lemma hashed_len : forall c h, getHash c = Some h -> 0 <= byteLen c.
Proof.
  intros c h G. unfold byteLen. apply Z.shiftr_nonneg. unfold getHash in G.
  destruct (Z.eqb_spec (c_bits c) 224); [lia|]. destruct (Z.eqb_spec (c_bits c) 256); [lia|].
  destruct (Z.eqb_spec (c_bits c) 384); [lia|discriminate].
Qed.
Section Vrf.
Variable hash : hkind -> bytes -> bytes.
Variable sha256 : bytes -> bytes.
Variable sbm : curve -> bytes -> Z * Z.
Variable sm : curve -> Z * Z -> bytes -> Z * Z.
Variable add : curve -> Z * Z -> Z * Z -> Z * Z.
Variable onCurve : curve -> Z * Z -> bool.
Notation Verify := (Verify hash sha256 sbm sm add onCurve).
Notation VerifyM := (VerifyM hash sha256 sbm sm add onCurve).
Definition appended (slack : nat) (hp : heap) (nizk vrf : sl) : heap := fst (append slack hp nizk (view hp vrf)).

Lemma verifyM_cases : forall slack fuel rng hp pub msg vrf nizk, fits hp vrf -> fits hp nizk ->
  VerifyM slack fuel rng hp pub msg vrf nizk =
  (let hp' := match pub with
    | PkEC _ k => match getHash (pk_curve k) with
        | Some _ => if negb (Z.of_nat (s_len vrf) =? byteLen (pk_curve k) * 2 + 1) || negb (Z.of_nat (s_len nizk) =? byteLen (pk_curve k) * 2)
                    then hp else appended slack hp nizk vrf
        | None => hp end
    | _ => hp end in
   let* r := Verify fuel rng pub (view hp' msg) (view hp vrf) (view hp nizk) in Val (hp', r)).
Proof.
  intros slack fuel rng hp pub msg vrf nizk FV FN. unfold Mem.VerifyM, VRF.Verify. cbv zeta.
  destruct pub as [alg k| | |]; try reflexivity. destruct (getHash (pk_curve k)) as [h|]; [|reflexivity].
  unfold zlen. rewrite !view_length by assumption.
  destruct (negb _ || negb _); [reflexivity|]. unfold appended.
  destruct (append slack hp nizk (view hp vrf)) as [hp' p] eqn:E. cbn [fst].
  rewrite (C59_append_value _ _ _ _ _ _ FN E).
  destruct (ProofToHash _ _ _ _ _ _ _ _ _ _ _ _) as [[x|x]| |]; reflexivity.
Qed.
(** the verdict is that of the pure function, on the message as it is after the append *)
Theorem C59_verify_result : forall slack fuel rng hp alg k h msg vrf nizk, fits hp vrf -> fits hp nizk ->
  getHash (pk_curve k) = Some h ->
  Z.of_nat (s_len vrf) = byteLen (pk_curve k) * 2 + 1 -> Z.of_nat (s_len nizk) = byteLen (pk_curve k) * 2 ->
  VerifyM slack fuel rng hp (PkEC alg k) msg vrf nizk =
  (let* r := Verify fuel rng (PkEC alg k) (view (appended slack hp nizk vrf) msg) (view hp vrf) (view hp nizk) in
   Val (appended slack hp nizk vrf, r)).
Proof.
  intros slack fuel rng hp alg k h msg vrf nizk FV FN G L1 L2. rewrite verifyM_cases, G by assumption. cbv zeta.
  rewrite L1, L2, !Z.eqb_refl. reflexivity.
Qed.
Theorem C59_verify_result_clear : forall slack fuel rng hp pub msg vrf nizk, fits hp msg -> fits hp vrf -> fits hp nizk ->
  (s_cap nizk < s_len nizk + s_len vrf)%nat \/ clear_of nizk (s_len vrf) msg ->
  onfst (fun r => r) (VerifyM slack fuel rng hp pub msg vrf nizk) = Verify fuel rng pub (view hp msg) (view hp vrf) (view hp nizk).
Proof.
  intros slack fuel rng hp pub msg vrf nizk FM FV FN C. rewrite verifyM_cases by assumption. cbv zeta.
  assert (V : view (appended slack hp nizk vrf) msg = view hp msg).
  { unfold appended. destruct (append slack hp nizk (view hp vrf)) as [hp' p] eqn:E. cbn [fst].
    apply (append_other _ _ _ _ _ _ msg FN FM E). rewrite view_length by exact FV. exact C. }
  match goal with |- context [view ?h msg] => assert (W : view h msg = view hp msg) end.
  { destruct pub as [alg k| | |]; try reflexivity. destruct (getHash (pk_curve k)); [|reflexivity].
    destruct (_ || _); [reflexivity|exact V]. }
  rewrite W. destruct (Verify fuel rng pub (view hp msg) (view hp vrf) (view hp nizk)); reflexivity.
Qed.
(** and nothing but the spare capacity of nizk is written *)
Theorem C59_verify_frame : forall slack fuel rng hp pub msg vrf nizk hp' r, fits hp vrf -> fits hp nizk ->
  VerifyM slack fuel rng hp pub msg vrf nizk = Val (hp', r) ->
  forall i p, (i < length hp)%nat ->
  (s_cap nizk < s_len nizk + s_len vrf)%nat \/ ~ in_spare nizk (s_len vrf) i p -> cell hp' i p = cell hp i p.
Proof.
  intros slack fuel rng hp pub msg vrf nizk hp' r FV FN E i p Hi C. rewrite verifyM_cases in E by assumption. cbv zeta in E.
  match type of E with bind ?m _ = _ => destruct m as [r'| |]; [|discriminate|discriminate] end.
  cbn [bind] in E. injection E as E _.
  assert (A : cell (appended slack hp nizk vrf) i p = cell hp i p).
  { unfold appended. destruct (append slack hp nizk (view hp vrf)) as [hp2 q] eqn:A. cbn [fst].
    apply (C59_append_frame _ _ _ _ _ _ FN A); [exact Hi|]. rewrite view_length by exact FV. exact C. }
  rewrite <- E. destruct pub as [alg k| | |]; try reflexivity. destruct (getHash (pk_curve k)); [|reflexivity].
  destruct (_ || _); [reflexivity|exact A].
Qed.
(** Vrf returns both results as slices of one new array, nizk with room for vrf behind it *)
Definition joined (n : nat) (vrf nizk : sl) : Prop :=
  s_arr vrf = s_arr nizk /\ s_len nizk = (2 * n)%nat /\ s_len vrf = (2 * n + 1)%nat /\
  s_off vrf = (s_off nizk + s_len nizk)%nat /\ (s_len nizk + s_len vrf <= s_cap nizk)%nat.
Theorem C59_vrf_slices : forall spare fuel rng r hp alg D k msg hp' vrf nizk,
  Mem.VrfM hash sha256 sbm sm spare fuel rng r hp (SkEC alg D k) msg = Val (hp', Ok (vrf, nizk)) ->
  Vrf hash sha256 sbm sm fuel rng r (SkEC alg D k) (view hp msg) = Val (Ok (view hp' vrf, view hp' nizk)) /\
  joined (Z.to_nat (byteLen (pk_curve k))) vrf nizk /\ fits hp' vrf /\ fits hp' nizk /\
  ~ (s_arr nizk < length hp)%nat /\ (forall i p, (i < length hp)%nat -> cell hp' i p = cell hp i p).
Proof.
  intros spare fuel rng r hp alg D k msg hp' vrf nizk E. unfold Mem.VrfM in E. unfold Vrf.
  destruct (getHash (pk_curve k)) as [h|] eqn:G; [|discriminate]. cbv zeta in *.
  pose proof (hashed_len _ _ G) as N0.
  destruct (Evaluate _ _ _ _ _ _ _ _ _ _ _) as [[[ix proof]|]| |]; try discriminate. cbn [bind] in *.
  destruct (Z.ltb_spec (zlen proof) (2 * byteLen (pk_curve k) + 2 * byteLen (pk_curve k) + 1)) as [|L]; [discriminate|].
  set (n := byteLen (pk_curve k)) in *. unfold zlen in L.
  assert (EE : hp' = hp ++ [proof ++ spare] /\
    vrf = {| s_arr := length hp; s_off := 2 * Z.to_nat n; s_len := 2 * Z.to_nat n + 1; s_cap := length proof + length spare - 2 * Z.to_nat n |} /\
    nizk = {| s_arr := length hp; s_off := 0; s_len := 2 * Z.to_nat n; s_cap := length proof + length spare |})
    by (repeat split; congruence).
  destruct EE as (-> & -> & ->). clear E.
  assert (AR : nth (length hp) (hp ++ [proof ++ spare]) [] = proof ++ spare)
    by (rewrite app_nth2, Nat.sub_diag by lia; reflexivity).
  split; [|split; [|split; [|split; [|split]]]].
  - rewrite (slice_ok _ proof 0 (2 * n)) by (unfold zlen; lia). cbn [bind].
    rewrite (slice_ok _ proof (2 * n)) by (unfold zlen; lia). cbn [bind].
    unfold view, array. cbn [s_arr s_off s_len]. rewrite AR. f_equal. f_equal. f_equal.
    + rewrite skipn_app. rewrite firstn_app. rewrite skipn_length.
      replace (2 * Z.to_nat n + 1 - (length proof - 2 * Z.to_nat n))%nat with 0%nat by lia. rewrite firstn_O, app_nil_r.
      f_equal; [lia|]. f_equal. lia.
    + change (Z.to_nat 0) with 0%nat. cbn [skipn]. rewrite firstn_app.
      replace (2 * Z.to_nat n - length proof)%nat with 0%nat by lia. rewrite firstn_O, app_nil_r. f_equal. lia.
  - unfold joined. cbn [s_arr s_off s_len s_cap]. repeat split; lia.
  - unfold fits. cbn [s_arr s_off s_len s_cap]. rewrite AR, !app_length. cbn [length]. lia.
  - unfold fits. cbn [s_arr s_off s_len s_cap]. rewrite AR, !app_length. cbn [length]. lia.
  - cbn [s_arr]. lia.
  - intros i p Hi. unfold cell. rewrite app_nth1 by exact Hi. reflexivity.
Qed.
(** verifying what Vrf returned changes nothing in memory and gives the verdict of the pure function *)
Lemma joined_view : forall hp hp' slack n vrf nizk bs p, joined n vrf nizk -> fits hp nizk -> length bs = (2 * n + 1)%nat ->
  append slack hp nizk bs = (hp', p) -> view hp' vrf = bs.
Proof.
  intros hp hp' slack n vrf nizk bs p (J1 & J2 & J3 & J4 & J5) FN L A.
  pose proof (C59_append_value _ _ _ _ _ _ FN A) as V. pose proof (view_length hp nizk FN) as LN.
  unfold append in A. destruct (Nat.leb_spec (s_len nizk + length bs) (s_cap nizk)) as [_|]; [|lia].
  assert (P : p = {| s_arr := s_arr nizk; s_off := s_off nizk; s_len := s_len nizk + length bs; s_cap := s_cap nizk |}) by congruence.
  rewrite P in V. unfold view at 1 in V. cbn [s_arr s_off s_len] in V.
  apply (f_equal (skipn (s_len nizk))) in V. rewrite (skipn_past _ (view hp nizk)) in V by exact LN.
  rewrite <- V. unfold view. rewrite J1, J3, J4, skipn_firstn_comm, <- L.
  replace (s_len nizk + length bs - s_len nizk)%nat with (length bs) by lia. f_equal.
  rewrite Nat.add_comm. generalize (s_len nizk) as x. generalize (s_off nizk) as y. generalize (array hp' (s_arr nizk)).
  clear. intros l y x. revert y. induction l as [|z l IH]; intros [|y]; try rewrite Nat.add_0_r; cbn [skipn].
  - destruct x; reflexivity.
  - destruct x; reflexivity.
  - reflexivity.
  - rewrite Nat.add_succ_r. cbn [skipn]. apply IH.
Qed.
Theorem C59_verify_own_output : forall slack fuel rng hp alg k h msg vrf nizk,
  joined (Z.to_nat (byteLen (pk_curve k))) vrf nizk -> fits hp msg -> fits hp vrf -> fits hp nizk ->
  getHash (pk_curve k) = Some h ->
  (forall hp' r, VerifyM slack fuel rng hp (PkEC alg k) msg vrf nizk = Val (hp', r) ->
     forall i p, (i < length hp)%nat -> cell hp' i p = cell hp i p) /\
  onfst (fun r => r) (VerifyM slack fuel rng hp (PkEC alg k) msg vrf nizk) =
    Verify fuel rng (PkEC alg k) (view hp msg) (view hp vrf) (view hp nizk).
Proof.
  intros slack fuel rng hp alg k h msg vrf nizk J FM FV FN G.
  pose proof (hashed_len _ _ G) as N0.
  pose proof J as (J1 & J2 & J3 & J4 & J5).
  pose proof (view_length hp vrf FV) as LV.
  assert (SAME : forall i p, (i < length hp)%nat -> cell (appended slack hp nizk vrf) i p = cell hp i p).
  { intros i p Hi. unfold appended. destruct (append slack hp nizk (view hp vrf)) as [hp2 q] eqn:A. cbn [fst].
    destruct (C59_append_frame _ _ _ _ _ _ FN A i p Hi) as [B C]. rewrite LV in B, C.
    destruct (Nat.eq_dec i (s_arr nizk)) as [->|D]; [|apply C; right; intros [Q _]; exact (D Q)].
    destruct (Nat.le_gt_cases (s_off nizk + s_len nizk) p) as [P1|P1]; [|apply C; right; intros [_ Q]; lia].
    destruct (Nat.lt_ge_cases p (s_off nizk + s_len nizk + s_len vrf)) as [P2|P2]; [|apply C; right; intros [_ Q]; lia].
    rewrite B; [|exact J5|split; [reflexivity|lia]]. unfold cell. rewrite <- J1. rewrite <- J4 in *.
    unfold view, array. set (l := nth (s_arr vrf) hp []).
    replace p with (s_off vrf + (p - s_off vrf))%nat at 2 by lia.
    assert (Q : (p - s_off vrf < s_len vrf)%nat) by lia. revert Q. generalize (p - s_off vrf)%nat as q0. generalize (s_len vrf) as m.
    generalize (s_off vrf) as o. clear. induction l as [|x l IH]; intros o m q Q.
    - rewrite skipn_nil, firstn_nil. destruct q, (o + _)%nat; reflexivity.
    - destruct o as [|o]; [|exact (IH o m q Q)]. cbn [skipn Nat.add].
      destruct m as [|m]; [lia|]. destruct q as [|q]; [reflexivity|]. cbn [firstn nth_error].
      specialize (IH 0%nat m q ltac:(lia)). exact IH. }
  assert (L1 : Z.of_nat (s_len vrf) = byteLen (pk_curve k) * 2 + 1) by (rewrite J3; lia).
  assert (L2 : Z.of_nat (s_len nizk) = byteLen (pk_curve k) * 2) by (rewrite J2; lia).
  rewrite (C59_verify_result slack fuel rng hp alg k h msg vrf nizk FV FN G L1 L2). split.
  - intros hp' r E. destruct (Verify _ _ _ _ _ _); [|discriminate|discriminate]. cbn [bind] in E. injection E as <- _. exact SAME.
  - replace (view (appended slack hp nizk vrf) msg) with (view hp msg).
    2:{ pose proof FM as (M1 & M2 & M3). apply view_cells; auto.
        - assert (FM' : fits (appended slack hp nizk vrf) msg).
          { unfold appended. destruct (append slack hp nizk (view hp vrf)) as [hp2 q] eqn:A.
            exact (append_fits_other _ _ _ _ _ _ msg FN FM A). }
          destruct FM' as (_ & _ & Q). lia.
        - intros q _. symmetry. apply SAME. exact M1. }
    destruct (Verify _ _ _ _ _ _); reflexivity.
Qed.
(** verifying a different value against the nizk that Vrf returned replaces the caller's vrf by it *)
Theorem C59_verify_overwrites_vrf : forall slack fuel rng hp alg k h msg vrf nizk vrf' hp' r,
  joined (Z.to_nat (byteLen (pk_curve k))) vrf nizk -> fits hp nizk -> fits hp vrf' -> s_len vrf' = s_len vrf ->
  getHash (pk_curve k) = Some h ->
  VerifyM slack fuel rng hp (PkEC alg k) msg vrf' nizk = Val (hp', r) ->
  view hp' vrf = view hp vrf'.
Proof.
  intros slack fuel rng hp alg k h msg vrf nizk vrf' hp' r J FN FV L G E.
  pose proof (hashed_len _ _ G) as N0.
  pose proof J as (J1 & J2 & J3 & J4 & J5).
  rewrite (C59_verify_result slack fuel rng hp alg k h msg vrf' nizk FV FN G) in E; [|rewrite L, J3; lia|rewrite J2; lia].
  destruct (Verify _ _ _ _ _ _) as [r'| |]; [|discriminate|discriminate]. cbn [bind] in E.
  assert (EH : hp' = appended slack hp nizk vrf') by congruence. rewrite EH.
  unfold appended. destruct (append slack hp nizk (view hp vrf')) as [hp2 p] eqn:A. cbn [fst].
  apply (joined_view hp hp2 slack _ vrf nizk _ p J FN); [|exact A]. rewrite view_length by exact FV. lia.
Qed.
End Vrf.
Print Assumptions C59_append_value.
Print Assumptions C59_append_keeps_slice.
Print Assumptions C59_append_frame.
Print Assumptions C59_aes_result.
Print Assumptions C59_aes_result_clear.
Print Assumptions C59_aes_iv_overwritten.
Print Assumptions C59_verify_result.
Print Assumptions C59_verify_result_clear.
Print Assumptions C59_aes_frame.
Print Assumptions C59_verify_frame.
Print Assumptions C59_vrf_slices.
Print Assumptions C59_verify_own_output.
Print Assumptions C59_verify_overwrites_vrf.

(** ** Examples *)
Definition ex_heap : heap := [[1; 2; 3; 4; 5]; [8]].
Definition ex_slice : sl := {| s_arr := 0; s_off := 1; s_len := 2; s_cap := 4 |}.
Example C59_append_in_place : fits ex_heap ex_slice /\
  append 3 ex_heap ex_slice [9] = ([[1; 2; 3; 9; 5]; [8]], {| s_arr := 0; s_off := 1; s_len := 3; s_cap := 4 |}).
Proof. split; [cbv; lia|reflexivity]. Qed.
Example C59_append_moves : append 1 ex_heap ex_slice [9; 9; 9] =
  ([[1; 2; 3; 4; 5]; [8]; [2; 3; 9; 9; 9; 0]], {| s_arr := 2; s_off := 0; s_len := 5; s_cap := 6 |}).
Proof. reflexivity. Qed.

(** a block cipher that is the identity, and one buffer with 16 bytes of plaintext and an IV *)
Definition ex_bc : block_cipher := {| bc_enc := fun _ b => b; bc_dec := fun _ b => b |}.
Definition ex_buf (iv : bytes) : heap := [repeat 1 16 ++ iv; repeat 7 16].
Definition ex_plain : sl := {| s_arr := 0; s_off := 0; s_len := 16; s_cap := 32 |}.
Definition ex_iv : sl := {| s_arr := 0; s_off := 16; s_len := 16; s_cap := 16 |}.
Definition ex_key : sl := {| s_arr := 1; s_off := 0; s_len := 16; s_cap := 16 |}.
Example C59_aes_example : forall slack,
  onfst (fun r => r) (AesEncryptM slack ex_bc (ex_buf (repeat 5 16)) ex_plain ex_key ex_iv) =
  AesEncrypt ex_bc (repeat 1 16) (repeat 7 16) (repeat 16 16) /\
  onfst (fun r => r) (AesEncryptM slack ex_bc (ex_buf (repeat 5 16)) ex_plain ex_key ex_iv) <>
  AesEncrypt ex_bc (repeat 1 16) (repeat 7 16) (repeat 5 16).
Proof.
  intros slack. assert (F : fits (ex_buf (repeat 5 16)) ex_plain) by (cbv; lia).
  pose proof (C59_aes_iv_overwritten slack ex_bc (ex_buf (repeat 5 16)) 0 0 16 32 ex_key F eq_refl (le_n _)) as Q.
  unfold ex_plain, ex_iv. cbv zeta in Q. cbn [Nat.add] in Q. rewrite Q. split; [reflexivity|]. vm_compute. discriminate.
Qed.
(** with the IV in another array the call is the pure function *)
Example C59_aes_clear_example : forall slack,
  onfst (fun r => r) (AesEncryptM slack ex_bc (ex_buf (repeat 5 16)) ex_plain ex_key ex_key) =
  AesEncrypt ex_bc (repeat 1 16) (repeat 7 16) (repeat 7 16).
Proof.
  intros slack. refine (C59_aes_result_clear slack ex_bc (ex_buf (repeat 5 16)) ex_plain ex_key ex_key _ _ _).
  - cbv; lia.
  - cbv; lia.
  - right. intros p _ [Q _]. discriminate Q.
Qed.

(** a proof of 129 bytes in array 0 as Vrf returns it, 65 other bytes in array 1 *)
Definition ex_proofs : heap := [repeat 7 129; repeat 0 65].
Definition ex_nizk : sl := {| s_arr := 0; s_off := 0; s_len := 64; s_cap := 129 |}.
Definition ex_vrf : sl := {| s_arr := 0; s_off := 64; s_len := 65; s_cap := 65 |}.
Definition ex_other : sl := {| s_arr := 1; s_off := 0; s_len := 65; s_cap := 65 |}.
Definition ex_pub : ecpub := {| pk_curve := P256; pk_X := 1; pk_Y := 2 |}.
Example C59_joined_example : joined (Z.to_nat (byteLen (pk_curve ex_pub))) ex_vrf ex_nizk /\
  fits ex_proofs ex_nizk /\ fits ex_proofs ex_vrf /\ fits ex_proofs ex_other.
Proof. repeat split; cbv; lia. Qed.
Example C59_overwrite_example : forall hash sha256 sbm sm add onCurve slack rng msg,
  exists hp', VerifyM hash sha256 sbm sm add onCurve slack 0 rng ex_proofs (PkEC 1 ex_pub) msg ex_other ex_nizk = Val (hp', (false, None)) /\
  view ex_proofs ex_vrf = repeat 7 65 /\ view hp' ex_vrf = repeat 0 65.
Proof.
  intros. destruct C59_joined_example as (J & F1 & F2 & F3).
  assert (E : VerifyM hash sha256 sbm sm add onCurve slack 0 rng ex_proofs (PkEC 1 ex_pub) msg ex_other ex_nizk =
    Val ([repeat 7 64 ++ repeat 0 65; repeat 0 65], (false, None))) by reflexivity.
  eexists. split; [exact E|]. split; [reflexivity|].
  exact (C59_verify_overwrites_vrf hash sha256 sbm sm add onCurve slack 0 rng ex_proofs 1 ex_pub HSHA256 msg
    ex_vrf ex_nizk ex_other _ _ J F1 F3 eq_refl eq_refl E).
Qed.
(** a message stored behind nizk is not the message that is verified *)
Example C59_message_example : forall slack,
  let msg := {| s_arr := 0; s_off := 64; s_len := 3; s_cap := 3 |} in
  view ex_proofs msg = [7; 7; 7] /\ view (appended slack ex_proofs ex_nizk ex_other) msg = [0; 0; 0].
Proof. intros slack. split; reflexivity. Qed.
