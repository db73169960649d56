(** * WIFMemFacts: the WIF functions on a heap *)
From Coq Require Import ZArith String List Bool Lia.
From Verif Require Import Base BaseFacts Curves ECKey Keypair Mem Prop_Mem WIFMem.
Import ListNotations.
Open Scope Z_scope.

Lemma set_nth_same : forall A i (l : list A) d, set_nth i (nth i l d) l = l.
Proof. induction i; intros [|x l] d; cbn; auto. f_equal. apply IHi. Qed.
Lemma firstn_set_nth : forall A i n (v : A) l, (n <= i)%nat -> firstn n (set_nth i v l) = firstn n l.
Proof.
  induction i; intros [|n] v [|x l] H; cbn; auto; try lia. f_equal. apply IHi. lia.
Qed.
Lemma set_nth_app_l : forall A i (v : A) l l', (i < length l)%nat -> set_nth i v (l ++ l') = set_nth i v l ++ l'.
Proof. induction i; intros v [|x l] l' H; cbn in *; try lia; auto. f_equal. apply IHi. lia. Qed.
Lemma set_set : forall A i (v w : A) l, set_nth i v (set_nth i w l) = set_nth i v l.
Proof. induction i; intros v w [|x l]; cbn; auto. f_equal. apply IHi. Qed.
Lemma set_nth_last : forall A (v w : A) l, set_nth (length l) v (l ++ [w]) = l ++ [v].
Proof. induction l; cbn; auto. f_equal. exact IHl. Qed.
Lemma nth_last : forall A (d w : A) l, nth (length l) (l ++ [w]) d = w.
Proof. intros A d w l. rewrite app_nth2, Nat.sub_diag by lia. reflexivity. Qed.

(** ** clearBytes writes zeros *)
Lemma clear_from_eq : forall n i hp s a b, (s_arr s < length hp)%nat -> array hp (s_arr s) = a ++ b -> length a = (s_off s + i)%nat ->
  (n <= length b)%nat -> clear_from n i hp s = @set_nth bytes (s_arr s) (a ++ repeat 0 n ++ skipn n b) hp.
Proof.
  induction n as [|n IH]; intros i hp s a b L A LA LB.
  - cbn [clear_from repeat app skipn]. rewrite <- A. symmetry. apply set_nth_same.
  - destruct b as [|x b]; [cbn in LB; lia|]. cbn [clear_from].
    assert (ST : store hp (s_arr s) (s_off s + i) [0] = @set_nth bytes (s_arr s) ((a ++ [0]) ++ b) hp).
    { unfold store. rewrite A. f_equal. rewrite <- LA, firstn_app_l by reflexivity.
      rewrite <- app_assoc. f_equal. cbn [app length]. f_equal.
      replace (length a + 1)%nat with (length (a ++ [x])) by (rewrite app_length; reflexivity).
      replace (a ++ x :: b) with ((a ++ [x]) ++ b) by (rewrite <- app_assoc; reflexivity). apply skipn_past. reflexivity. }
    rewrite ST. rewrite (IH (S i) _ s (a ++ [0]) b).
    + rewrite set_set. f_equal. rewrite <- app_assoc. reflexivity.
    + rewrite set_nth_length. exact L.
    + unfold array. apply nth_set_same. exact L.
    + rewrite app_length. cbn. lia.
    + cbn in LB. lia.
Qed.
Lemma clear_eq : forall hp s a v b, (s_arr s < length hp)%nat -> array hp (s_arr s) = a ++ v ++ b -> length a = s_off s ->
  length v = s_len s -> clearBytes hp s = @set_nth bytes (s_arr s) (a ++ repeat 0 (length v) ++ b) hp.
Proof.
  intros hp s a v b L A LA LV. unfold clearBytes. rewrite (clear_from_eq (s_len s) 0 hp s a (v ++ b) L A); [|lia|rewrite app_length; lia].
  do 3 f_equal; [congruence|]. apply skipn_past. exact LV.
Qed.

(** ** bytes.Buffer: an array that holds what was written, then zeros *)
Definition binv (n0 : nat) (hp : heap) (b : sl) (v : bytes) : Prop :=
  (n0 <= length hp)%nat /\
  ((v = [] /\ b = nil_sl) \/
   (n0 <= s_arr b < length hp)%nat /\ s_off b = 0%nat /\ s_len b = length v /\ (s_len b <= s_cap b)%nat /\
   array hp (s_arr b) = v ++ repeat 0 (s_cap b - s_len b)).
Definition apart (b : sl) (j : nat) : Prop := b = nil_sl \/ s_arr b <> j.

Lemma binv_view : forall n0 hp b v, binv n0 hp b v -> view hp b = v.
Proof.
  intros n0 hp b v [_ [[-> ->]|(R & O0 & L & C & A)]]; [reflexivity|].
  unfold view. rewrite A, O0, L. cbn [skipn]. apply firstn_app_l. reflexivity.
Qed.
Lemma binv_len : forall n0 hp b v, binv n0 hp b v -> s_len b = length v.
Proof. intros n0 hp b v [_ [[-> ->]|(R & O0 & L & C & A)]]; [reflexivity|exact L]. Qed.
Lemma binv_fits : forall n0 hp b v, binv n0 hp b v -> v <> [] -> fits hp b.
Proof.
  intros n0 hp b v [_ [[-> ->]|(R & O0 & L & C & A)]] N; [congruence|]. unfold fits. fold (array hp (s_arr b)). rewrite A, app_length, repeat_length. lia.
Qed.
Lemma repeat_skip : forall A (x : A) n m, skipn m (repeat x n) = repeat x (n - m).
Proof. induction n; intros [|m]; cbn; auto. Qed.

Lemma bwrite_in : forall pol n0 hp b v bs, binv n0 hp b v -> b <> nil_sl -> (s_len b + length bs <= s_cap b)%nat ->
  bwrite pol hp b bs = (@set_nth bytes (s_arr b) (v ++ bs ++ repeat 0 (s_cap b - (s_len b + length bs))) hp,
    {| s_arr := s_arr b; s_off := 0; s_len := s_len b + length bs; s_cap := s_cap b |}).
Proof.
  intros pol n0 hp b v bs [_ [[_ ->]|(R & O0 & L & C & A)]] N F; [congruence|]. unfold bwrite, append.
  destruct (Nat.leb_spec (s_len b + length bs) (s_cap b)) as [_|X]; [|lia]. f_equal; [|rewrite O0; reflexivity].
  unfold store. rewrite A, O0. cbn [Nat.add]. rewrite L, firstn_app_l by reflexivity. f_equal. f_equal. f_equal.
  rewrite skipn_app, skipn_all2 by lia. cbn [app]. rewrite repeat_skip. f_equal. lia.
Qed.
Lemma bwrite_new : forall pol n0 hp b v bs, binv n0 hp b v -> (s_cap b < s_len b + length bs)%nat ->
  bwrite pol hp b bs = (@app bytes hp [v ++ bs ++ repeat 0 (pol (s_cap b) (s_len b) (length bs))],
    {| s_arr := length hp; s_off := 0; s_len := s_len b + length bs;
       s_cap := s_len b + length bs + pol (s_cap b) (s_len b) (length bs) |}).
Proof.
  intros pol n0 hp b v bs I F. unfold bwrite, append.
  destruct (Nat.leb_spec (s_len b + length bs) (s_cap b)) as [X|_]; [lia|]. rewrite (binv_view _ _ _ _ I). reflexivity.
Qed.
Lemma bwrite_nothing : forall pol hp, bwrite pol hp nil_sl [] = (hp, nil_sl).
Proof.
  intros pol hp. unfold bwrite, append, nil_sl. cbn. f_equal. destruct hp; reflexivity.
Qed.
Lemma nil_dec : forall b, {b = nil_sl} + {b <> nil_sl}.
Proof.
  intros [a o l c]. unfold nil_sl. destruct (Nat.eq_dec a 0), (Nat.eq_dec o 0), (Nat.eq_dec l 0), (Nat.eq_dec c 0); subst; auto; right; intros E; inversion E; contradiction.
Qed.
Lemma bwrite_ok : forall pol n0 hp b v bs hp' b', binv n0 hp b v -> bwrite pol hp b bs = (hp', b') ->
  binv n0 hp' b' (v ++ bs) /\ firstn n0 hp' = firstn n0 hp /\ (length hp <= length hp')%nat /\
  forall j, (j < length hp)%nat -> apart b j -> array hp' j = array hp j /\ apart b' j.
Proof.
  intros pol n0 hp b v bs hp' b' I E. destruct (Nat.le_gt_cases (s_len b + length bs) (s_cap b)) as [F|F].
  - destruct (nil_dec b) as [->|N].
    + assert (bs = []) by (destruct bs; [reflexivity|cbn in F; lia]). subst bs. rewrite bwrite_nothing in E. injection E as <- <-.
      rewrite app_nil_r. split; [exact I|]. split; [reflexivity|]. split; [lia|]. intros j Hj Aj. auto.
    + rewrite (bwrite_in pol n0 hp b v bs I N F) in E. pose proof I as [L0 [[_ X]|(R & O0 & L & C & A)]]; [congruence|].
      injection E as <- <-. split; [|split; [|split]].
      * split; [rewrite set_nth_length; exact L0|right]. cbn [s_arr s_off s_len s_cap]. rewrite set_nth_length.
        split; [exact R|]. split; [reflexivity|]. split; [rewrite app_length; lia|]. split; [exact F|].
        unfold array. rewrite nth_set_same by exact (proj2 R). rewrite app_assoc. reflexivity.
      * apply firstn_set_nth. lia.
      * rewrite set_nth_length. lia.
      * intros j Hj [X|X]; [congruence|]. split; [unfold array; apply nth_set_other; exact X|right; exact X].
  - rewrite (bwrite_new pol n0 hp b v bs I F) in E. pose proof I as [L0 I2]. injection E as <- <-. split; [|split; [|split]].
    + split; [rewrite app_length; cbn; lia|right]. cbn [s_arr s_off s_len s_cap]. rewrite app_length. cbn [length].
      split; [lia|]. split; [reflexivity|]. split; [rewrite app_length; pose proof (binv_len _ _ _ _ I); lia|]. split; [lia|].
      unfold array. rewrite nth_last. rewrite app_assoc. do 2 f_equal. lia.
    + rewrite firstn_app. replace (n0 - length hp)%nat with 0%nat by lia. apply app_nil_r.
    + rewrite app_length. lia.
    + intros j Hj _. split; [unfold array; apply app_nth1; exact Hj|right]. cbn [s_arr]. lia.
Qed.
Lemma bzeros_ok : forall pol n n0 hp b v hp' b', binv n0 hp b v -> bzeros pol n hp b = (hp', b') ->
  binv n0 hp' b' (v ++ repeat 0 n) /\ firstn n0 hp' = firstn n0 hp /\ (length hp <= length hp')%nat /\
  forall j, (j < length hp)%nat -> apart b j -> array hp' j = array hp j /\ apart b' j.
Proof.
  induction n as [|n IH]; intros n0 hp b v hp' b' I E; cbn [bzeros repeat] in *.
  - injection E as <- <-. rewrite app_nil_r. auto.
  - destruct (bwrite pol hp b [0]) as [h1 b1] eqn:E1. destruct (bwrite_ok _ _ _ _ _ _ _ _ I E1) as (I1 & F1 & L1 & A1).
    destruct (IH _ _ _ _ _ _ I1 E) as (I2 & F2 & L2 & A2). rewrite <- app_assoc in I2. cbn [app] in I2.
    split; [exact I2|]. split; [congruence|]. split; [lia|]. intros j Hj Aj. destruct (A1 j Hj Aj) as [X1 Y1].
    destruct (A2 j ltac:(lia) Y1) as [X2 Y2]. split; [congruence|exact Y2].
Qed.
Lemma binv_alloc : forall n0 hp b v a, binv n0 hp b v -> binv n0 (hp ++ [a]) b v.
Proof.
  intros n0 hp b v a [L0 [[-> ->]|(R & O0 & L & C & A)]]; (split; [rewrite app_length; lia|]); [left; auto|right].
  split; [rewrite app_length; lia|]. repeat split; auto. unfold array. rewrite app_nth1 by lia. exact A.
Qed.
Lemma binv_apart_last : forall n0 hp b v, binv n0 hp b v -> apart b (length hp).
Proof. intros n0 hp b v [L0 [[_ ->]|(R & _)]]; [left; reflexivity|right; lia]. Qed.
Lemma binv_nil : forall hp, binv (length hp) hp nil_sl [].
Proof. intros hp. split; [lia|left; auto]. Qed.
Lemma view_big : forall hp hp' z s, allocBig hp z = (hp', s) -> view hp' s = big_bytes z.
Proof.
  intros hp hp' z s E. unfold allocBig in E. set (pad := ((8 - length (big_bytes z) mod 8) mod 8)%nat) in *. clearbody pad.
  injection E as <- <-. unfold view, array. cbn [s_arr s_off s_len].
  rewrite nth_last, skipn_past by (apply repeat_length). apply firstn_all.
Qed.
Lemma view_alloc : forall hp hp' bs s, alloc hp bs = (hp', s) -> view hp' s = bs.
Proof.
  intros hp hp' bs s E. unfold alloc in E. injection E as <- <-. unfold view, array. cbn [s_arr s_off s_len].
  rewrite nth_last. apply firstn_all.
Qed.

(** the array of D.Bytes() *)
Definition big_array (z : Z) : bytes := repeat 0 ((8 - length (big_bytes z) mod 8) mod 8) ++ big_bytes z.

(** ** SerializePrivateKey *)
Lemma serialize_ok : forall pol hp key hp' r, SerializePrivateKeyM pol hp key = (hp', r) ->
  firstn (length hp) hp' = hp /\ (length hp <= length hp')%nat /\
  match r with
  | Val b => exists v, SerializePrivateKey key = Val v /\ binv (length hp) hp' b v /\
      forall alg d k, key = SkEC alg d k ->
        exists j, (length hp <= j < length hp')%nat /\ apart b j /\ array hp' j = big_array d
  | Panic w => SerializePrivateKey key = Panic w
  | OutOfFuel => SerializePrivateKey key = OutOfFuel
  end.
Proof.
  intros pol hp key hp' r E. destruct key as [alg d k|b|d k|t]; cbn [SerializePrivateKeyM SerializePrivateKey] in *.
  - set (pre := if alg =? ECDSA then [PK_ECDSA] else if alg =? SM2 then [PK_SM2] else []).
    assert (exists h1 b1, (if alg =? ECDSA then bwrite pol hp nil_sl [PK_ECDSA] else if alg =? SM2 then bwrite pol hp nil_sl [PK_SM2] else (hp, nil_sl)) = (h1, b1) /\
      binv (length hp) h1 b1 pre /\ firstn (length hp) h1 = hp /\ (length hp <= length h1)%nat) as (h1 & b1 & E1 & I1 & F1 & L1).
    { unfold pre. destruct (alg =? ECDSA); [|destruct (alg =? SM2)].
      - destruct (bwrite pol hp nil_sl [PK_ECDSA]) as [h b] eqn:X. destruct (bwrite_ok _ _ _ _ _ _ _ _ (binv_nil hp) X) as (I & F & L & _).
        rewrite firstn_all in F. exists h, b. auto.
      - destruct (bwrite pol hp nil_sl [PK_SM2]) as [h b] eqn:X. destruct (bwrite_ok _ _ _ _ _ _ _ _ (binv_nil hp) X) as (I & F & L & _).
        rewrite firstn_all in F. exists h, b. auto.
      - exists hp, nil_sl. split; [reflexivity|]. split; [apply binv_nil|]. rewrite firstn_all. auto. }
    rewrite E1 in E. clear E1. destruct (GetCurveLabel (pk_curve k)) as [label|e].
    2:{ injection E as <- <-. auto. }
    destruct (bwrite pol h1 b1 [label]) as [h2 b2] eqn:E2. destruct (bwrite_ok _ _ _ _ _ _ _ _ I1 E2) as (I2 & F2 & L2 & _).
    destruct (allocBig h2 d) as [h3 dB] eqn:E3. pose proof (view_big _ _ _ _ E3) as V3.
    assert (H3 : h3 = h2 ++ [big_array d] /\ s_arr dB = length h2 /\ s_len dB = length (big_bytes d)).
    { unfold allocBig in E3. unfold big_array. injection E3 as <- <-. auto. }
    destruct H3 as (H3 & A3 & LD).
    pose proof (binv_alloc _ _ _ _ (big_array d) I2) as I3. rewrite <- H3 in I3.
    pose proof (binv_apart_last _ _ _ _ I2) as P3.
    assert (D3 : array h3 (length h2) = big_array d) by (rewrite H3; unfold array; apply nth_last).
    assert (J3 : (length h2 < length h3)%nat) by (rewrite H3, app_length; cbn; lia).
    set (n := Z.to_nat (byte_size (pk_curve k) - Z.of_nat (s_len dB))) in E.
    destruct (bzeros pol n h3 b2) as [h4 b4] eqn:E4. destruct (bzeros_ok _ _ _ _ _ _ _ _ I3 E4) as (I4 & F4 & L4 & A4).
    destruct (A4 _ J3 P3) as [D4 P4].
    assert (V4 : view h4 dB = big_bytes d) by (rewrite <- V3; unfold view; rewrite A3, D4; reflexivity).
    rewrite V4 in E. destruct (bwrite pol h4 b4 (big_bytes d)) as [h5 b5] eqn:E5.
    destruct (bwrite_ok _ _ _ _ _ _ _ _ I4 E5) as (I5 & F5 & L5 & A5). destruct (A5 (length h2) ltac:(lia) P4) as [D5 P5].
    assert (F5' : firstn (length hp) h5 = hp).
    { rewrite F5, F4, H3, firstn_app. replace (length hp - length h2)%nat with 0%nat by lia. cbn [firstn]. rewrite app_nil_r. congruence. }
    destruct (EncodePublicKey k true) as [e|w|]; cbn [bind].
    2:{ injection E as <- <-. split; [exact F5'|]. split; [lia|reflexivity]. }
    2:{ injection E as <- <-. split; [exact F5'|]. split; [lia|reflexivity]. }
    destruct (bwrite pol h5 b5 e) as [h6 b6] eqn:E6. destruct (bwrite_ok _ _ _ _ _ _ _ _ I5 E6) as (I6 & F6 & L6 & A6).
    destruct (A6 (length h2) ltac:(lia) P5) as [D6 P6]. injection E as <- <-. split; [congruence|]. split; [lia|].
    eexists. split; [reflexivity|]. split.
    + replace (pre ++ [label] ++ padded_big_bytes d (byte_size (pk_curve k)) ++ e) with
        (((((pre ++ [label]) ++ repeat 0 n) ++ big_bytes d) ++ e)); [exact I6|].
      unfold padded_big_bytes, zeros. rewrite <- !app_assoc. unfold n. rewrite LD. reflexivity.
    + intros alg' d' k' Q. injection Q as _ <- _. exists (length h2). split; [lia|]. split; [exact P6|]. congruence.
  - destruct (bwrite pol hp nil_sl [PK_EDDSA]) as [h1 b1] eqn:E1. destruct (bwrite_ok _ _ _ _ _ _ _ _ (binv_nil hp) E1) as (I1 & F1 & L1 & _).
    destruct (bwrite pol h1 b1 [L_ED25519]) as [h2 b2] eqn:E2. destruct (bwrite_ok _ _ _ _ _ _ _ _ I1 E2) as (I2 & F2 & L2 & _).
    destruct (bwrite pol h2 b2 b) as [h3 b3] eqn:E3. destruct (bwrite_ok _ _ _ _ _ _ _ _ I2 E3) as (I3 & F3 & L3 & _).
    injection E as <- <-. rewrite firstn_all in F1. split; [congruence|]. split; [lia|]. eexists. split; [reflexivity|]. split; [exact I3|]. discriminate.
  - destruct (bwrite pol hp nil_sl [PK_ETHECDSA]) as [h1 b1] eqn:E1. destruct (bwrite_ok _ _ _ _ _ _ _ _ (binv_nil hp) E1) as (I1 & F1 & L1 & _).
    destruct (alloc h1 (eth_FromECDSA d k)) as [h2 t] eqn:E2. rewrite (view_alloc _ _ _ _ E2) in E.
    assert (H2 : h2 = h1 ++ [eth_FromECDSA d k]) by (unfold alloc in E2; injection E2 as <- _; reflexivity).
    pose proof (binv_alloc _ _ _ _ (eth_FromECDSA d k) I1) as I2. rewrite <- H2 in I2.
    destruct (bwrite pol h2 b1 (eth_FromECDSA d k)) as [h3 b3] eqn:E3. destruct (bwrite_ok _ _ _ _ _ _ _ _ I2 E3) as (I3 & F3 & L3 & _).
    injection E as <- <-. rewrite firstn_all in F1. assert (length h2 = S (length h1)) by (rewrite H2, app_length; cbn; lia).
    split.
    { rewrite F3, H2, firstn_app. replace (length hp - length h1)%nat with 0%nat by lia. cbn [firstn]. rewrite app_nil_r. exact F1. }
    split; [lia|]. eexists. split; [reflexivity|]. split; [exact I3|]. discriminate.
  - injection E as <- <-. rewrite firstn_all. auto.
Qed.
