(** * ScryptFacts: the word-wise scrypt of Scrypt.v and the octet-wise one of Spec_Scrypt.v *)
From Coq Require Import ZArith String List Bool Lia.
From Verif Require Import Base BaseFacts Words Scrypt Spec_Scrypt.
Import ListNotations.
Open Scope Z_scope.

(** ** lists *)
Lemma skipn_flat : forall (A B : Type) (f : A -> list B) n, (forall a, length (f a) = n) ->
  forall i l, skipn (i * n) (flat_map f l) = flat_map f (skipn i l).
Proof.
  intros A B f n L i. induction i as [|i IH]; intros l; [reflexivity|]. destruct l as [|a l].
  - cbn [flat_map]. rewrite !skipn_nil. reflexivity.
  - cbn [flat_map skipn]. rewrite skipn_app, L. replace (S i * n - n)%nat with (i * n)%nat by lia.
    rewrite skipn_all2 by (rewrite L; lia). exact (IH l).
Qed.
Lemma firstn_flat : forall (A B : Type) (f : A -> list B) n, (forall a, length (f a) = n) ->
  forall i l, firstn (i * n) (flat_map f l) = flat_map f (firstn i l).
Proof.
  intros A B f n L i. induction i as [|i IH]; intros l; [reflexivity|]. destruct l as [|a l].
  - cbn [flat_map]. rewrite !firstn_nil. reflexivity.
  - cbn [flat_map firstn]. rewrite firstn_app, L. replace (S i * n - n)%nat with (i * n)%nat by lia.
    rewrite firstn_all2 by (rewrite L; lia). rewrite IH. reflexivity.
Qed.
Lemma flat_len : forall (A B : Type) (f : A -> list B) n, (forall a, length (f a) = n) -> forall l, length (flat_map f l) = (length l * n)%nat.
Proof. intros A B f n L. induction l as [|a l IH]; [reflexivity|]. cbn [flat_map length]. rewrite app_length, IH, L. lia. Qed.
Lemma flat_len_in : forall (A B : Type) (f : A -> list B) n l, (forall a, In a l -> length (f a) = n) -> length (flat_map f l) = (length l * n)%nat.
Proof.
  intros A B f n. induction l as [|a l IH]; intros L; [reflexivity|]. cbn [flat_map length].
  rewrite app_length, IH, L; [lia|left; reflexivity|intros b Hb; apply L; right; exact Hb].
Qed.
Lemma flat_ext_in : forall (A B : Type) (f g : A -> list B) l, (forall a, In a l -> f a = g a) -> flat_map f l = flat_map g l.
Proof.
  intros A B f g. induction l as [|a l IH]; intros H; [reflexivity|]. cbn [flat_map].
  rewrite (H a) by (left; reflexivity). rewrite IH; [reflexivity|]. intros b Hb. apply H. right. exact Hb.
Qed.
Lemma flat_flat : forall (A B C : Type) (f : B -> list C) (g : A -> list B) l, flat_map f (flat_map g l) = flat_map (fun a => flat_map f (g a)) l.
Proof. intros A B C f g. induction l as [|a l IH]; [reflexivity|]. cbn [flat_map]. rewrite flat_map_app, IH. reflexivity. Qed.
Lemma flat_nth : forall (A : Type) (d : A) n l, (n <= length l)%nat -> map (fun i => nth i l d) (seq 0 n) = firstn n l.
Proof.
  intros A d. induction n as [|n IH]; intros l H; [reflexivity|]. destruct l as [|a l]; [cbn in H; lia|].
  cbn [seq map firstn nth]. f_equal. rewrite <- seq_shift, map_map. apply IH. cbn in H. lia.
Qed.
Lemma sub_len : forall l k n, (k + n <= length l)%nat -> length (sub l k n) = n.
Proof. intros l k n H. unfold sub. rewrite firstn_length, skipn_length. lia. Qed.
Lemma put_at : forall p a q b, length a = length b -> put (p ++ a ++ q) (length p) b = p ++ b ++ q.
Proof.
  intros p a q b H. unfold put. rewrite firstn_app, Nat.sub_diag, firstn_all, app_nil_r. f_equal. f_equal.
  rewrite skipn_app. rewrite skipn_all2 by lia. replace (length p + length b - length p)%nat with (length a) by lia.
  cbn [app]. rewrite skipn_app, skipn_all, Nat.sub_diag. reflexivity.
Qed.

(** ** words *)
Lemma xor_eq : forall a b, xor_bytes a b = xor a b.
Proof. reflexivity. Qed.
Lemma xor_len : forall a b, length a = length b -> length (xor_bytes a b) = length a.
Proof. intros a b H. unfold xor_bytes. rewrite map_length, combine_length. lia. Qed.
Lemma xor_u32 : forall a b, Forall is_u32 a -> Forall is_u32 b -> Forall is_u32 (xor_bytes a b).
Proof.
  induction a as [|x a IH]; intros b Ha Hb; [constructor|]. destruct b as [|y b]; [constructor|].
  inversion Ha; inversion Hb; subst. constructor; [apply u32_lxor; assumption|apply IH; assumption].
Qed.
Lemma word_bytes_le : forall w, word_bytes w = le_word w.
Proof.
  intros w. unfold word_bytes, le_word, u8, shr32. rewrite !Z.shiftr_div_pow2 by lia. reflexivity.
Qed.
Lemma le_word_value : forall w, is_u32 w -> le_value (le_word w) = w.
Proof.
  intros w [H0 H1]. unfold le_word. cbn [le_value].
  assert (A := Z.div_mod w 256 ltac:(lia)). assert (B := Z.div_mod (w / 256) 256 ltac:(lia)).
  assert (C := Z.div_mod (w / 65536) 256 ltac:(lia)).
  rewrite Z.div_div in B, C by lia. change (256 * 256) with 65536 in B. change (65536 * 256) with 16777216 in C.
  assert (D : w / 16777216 mod 256 = w / 16777216).
  { apply Z.mod_small. split; [apply Z.div_pos; lia|apply Z.div_lt_upper_bound; lia]. }
  rewrite D. lia.
Qed.
Lemma lxor_mod : forall a b n, 0 <= n -> Z.lxor (a mod 2 ^ n) (b mod 2 ^ n) = Z.lxor a b mod 2 ^ n.
Proof.
  intros a b n H. apply Z.bits_inj'. intros i Hi. rewrite Z.lxor_spec. destruct (Z.lt_ge_cases i n).
  - rewrite !Z.mod_pow2_bits_low by lia. rewrite Z.lxor_spec. reflexivity.
  - rewrite !Z.mod_pow2_bits_high by lia. reflexivity.
Qed.
Lemma xor_le_word : forall a b, xor (le_word a) (le_word b) = le_word (Z.lxor a b).
Proof.
  intros a b. rewrite <- !word_bytes_le. unfold word_bytes, u8, shr32, xor. cbn [combine map fst snd].
  rewrite !lxor_mod by lia. rewrite !Z.shiftr_lxor. reflexivity.
Qed.

Definition oct (ws : list Z) : list Z := flat_map le_word ws.
Lemma oct_bytes : forall ws, flat_map word_bytes ws = oct ws.
Proof. intros ws. apply flat_ext_in. intros w _. apply word_bytes_le. Qed.
Lemma oct_len : forall ws, length (oct ws) = (length ws * 4)%nat.
Proof. apply flat_len. reflexivity. Qed.
Lemma oct_xor : forall a b, oct (xor_bytes a b) = xor (oct a) (oct b).
Proof.
  induction a as [|x a IH]; intros b; [reflexivity|]. destruct b as [|y b].
  - unfold oct, xor_bytes, xor. cbn [combine map flat_map]. destruct (le_word x ++ flat_map le_word a); reflexivity.
  - change (oct (xor_bytes (x :: a) (y :: b))) with (le_word (Z.lxor x y) ++ oct (xor_bytes a b)). rewrite IH, <- xor_le_word. reflexivity.
Qed.
Lemma oct_inj : forall a b, Forall is_u32 a -> Forall is_u32 b -> oct a = oct b -> a = b.
Proof.
  induction a as [|x a IH]; intros b Ha Hb E; destruct b as [|y b]; try discriminate E; [reflexivity|].
  inversion Ha; inversion Hb; subst. unfold oct in E. cbn [flat_map] in E.
  assert (E1 : le_word x = le_word y) by exact (f_equal (firstn 4) E).
  assert (E2 : oct a = oct b) by exact (f_equal (skipn 4) E).
  f_equal; [|apply IH; assumption]. rewrite <- (le_word_value x), <- (le_word_value y) by assumption. rewrite E1. reflexivity.
Qed.
Lemma piece_oct : forall ws k i, piece (k * 4) (oct ws) i = oct (sub ws (i * k) k).
Proof.
  intros ws k i. unfold piece, oct, sub. rewrite Nat.mul_assoc.
  rewrite (skipn_flat _ _ le_word 4) by reflexivity. apply (firstn_flat _ _ le_word 4). reflexivity.
Qed.
Lemma piece64 : forall ws i, piece 64 (oct ws) i = oct (sub ws (16 * i) 16).
Proof. intros ws i. rewrite (Nat.mul_comm 16 i). exact (piece_oct ws 16 i). Qed.
Lemma sub1 : forall ws i, (i < length ws)%nat -> sub ws i 1 = [nth i ws 0].
Proof.
  unfold sub. induction ws as [|w ws IH]; intros i H; [cbn in H; lia|]. destruct i as [|i]; [reflexivity|].
  cbn [skipn nth]. apply IH. cbn in H. lia.
Qed.
Lemma words_oct : forall ws n, (n <= length ws)%nat -> Forall is_u32 ws -> map (fun i => le_value (piece 4 (oct ws) i)) (seq 0 n) = firstn n ws.
Proof.
  intros ws n H W. rewrite <- (flat_nth _ 0 n ws H). apply map_ext_in. intros i Hi. apply in_seq in Hi.
  change (piece 4 (oct ws) i) with (piece (1 * 4) (oct ws) i). rewrite (piece_oct ws 1 i). rewrite Nat.mul_1_r, sub1 by lia. unfold oct. cbn [flat_map]. rewrite app_nil_r.
  apply le_word_value. rewrite Forall_forall in W. apply W. apply nth_In. lia.
Qed.

(** ** Salsa20/8 *)
Lemma rotl_rot : forall a b n, 0 <= n < 32 -> rotl (add32 a b) n = rot n ((a + b) mod M).
Proof. intros a b n H. unfold rotl. rewrite rot_arith; [reflexivity|apply u32_mod|exact H]. Qed.

Lemma dr_ok : forall x, length x = 16%nat -> fold_left stmt double_round x = doubleround x.
Proof.
  intros x L. do 16 (destruct x as [|? x]; [discriminate L|]). destruct x; [|discriminate L]. clear L.
  assert (Q : forall x0 x1 x2 x3, exists z0 z1 z2 z3, quarter (x0, x1, x2, x3) = (z0, z1, z2, z3) /\
     z1 = Z.lxor x1 (rotl (add32 x0 x3) 7) /\ z2 = Z.lxor x2 (rotl (add32 z1 x0) 9) /\
     z3 = Z.lxor x3 (rotl (add32 z2 z1) 13) /\ z0 = Z.lxor x0 (rotl (add32 z3 z2) 18)).
  { intros. do 4 eexists. split; [reflexivity|]. rewrite !rotl_rot by lia. repeat split. }
  unfold doubleround, columnround. cbn [nth].
  repeat match goal with |- context [quarter (?a, ?b, ?c, ?d)] =>
    let z0 := fresh "u" in let z1 := fresh "u" in let z2 := fresh "u" in let z3 := fresh "u" in let E := fresh "E" in
    destruct (Q a b c d) as (z0 & z1 & z2 & z3 & E & ? & ? & ? & ?); rewrite E; clear E end.
  unfold rowround. cbn [nth].
  repeat match goal with |- context [quarter (?a, ?b, ?c, ?d)] =>
    let z0 := fresh "u" in let z1 := fresh "u" in let z2 := fresh "u" in let z3 := fresh "u" in let E := fresh "E" in
    destruct (Q a b c d) as (z0 & z1 & z2 & z3 & E & ? & ? & ? & ?); rewrite E; clear E end.
  unfold double_round.
  assert (AC : forall a b, add32 a b = add32 b a) by (intros; unfold add32; rewrite Z.add_comm; reflexivity).
  assert (FC : forall s q y, fold_left stmt (s :: q) y = fold_left stmt q (stmt y s)) by reflexivity.
  repeat (rewrite FC; match goal with |- fold_left stmt ?q (stmt ?l ?s) = _ =>
    let t := eval cbn [stmt set_nth nth] in (stmt l s) in change (stmt l s) with t end;
    first [ match goal with H : ?z = Z.lxor ?a (rotl ?w ?n) |- context [Z.lxor ?a (rotl ?w ?n)] => rewrite <- H end
          | match goal with H : ?z = Z.lxor ?a (rotl (add32 ?c ?d) ?n) |- context [Z.lxor ?a (rotl (add32 ?d ?c) ?n)] => rewrite (AC d c), <- H end ]).
  reflexivity.
Qed.
Lemma stmt_len : forall x q, length (stmt x q) = length x.
Proof. intros x [[[a b] c] n]. unfold stmt. apply set_nth_length. Qed.
Lemma stmts_len : forall qs x, length (fold_left stmt qs x) = length x.
Proof. induction qs as [|q qs IH]; intros x; [reflexivity|]. cbn [fold_left]. rewrite IH. apply stmt_len. Qed.

(** the 16 words that salsaXOR computes from the exclusive or *)
Definition core (w : list Z) : list Z := map (fun p => add32 (fst p) (snd p)) (combine (Nat.iter 4 doubleround w) w).
Lemma dr_len : forall x, length x = 16%nat -> length (doubleround x) = 16%nat.
Proof. intros x L. rewrite <- dr_ok by exact L. rewrite stmts_len. exact L. Qed.
Lemma four_times : forall (A : Type) (f : A -> A) x, fold_left (fun x (_ : Z) => f x) [0; 2; 4; 6] x = f (f (f (f x))).
Proof. reflexivity. Qed.
Lemma salsaXOR_core : forall tmp inp, length tmp = 16%nat -> length inp = 16%nat -> salsaXOR tmp inp = core (xor_bytes tmp inp).
Proof.
  intros tmp inp L1 L2. assert (L : length (xor_bytes tmp inp) = 16%nat) by (rewrite xor_len; lia).
  unfold salsaXOR, core. cbv zeta. revert L. generalize (xor_bytes tmp inp). intros w L.
  rewrite (four_times _ (fun x => fold_left stmt double_round x) w). cbv beta.
  rewrite (dr_ok w L), (dr_ok (doubleround w)) by (apply dr_len; exact L).
  rewrite (dr_ok (doubleround (doubleround w))) by (apply dr_len, dr_len; exact L).
  rewrite (dr_ok (doubleround (doubleround (doubleround w)))) by (apply dr_len, dr_len, dr_len; exact L). reflexivity.
Qed.
Lemma core_len : forall w, length w = 16%nat -> length (core w) = 16%nat.
Proof.
  intros w L. unfold core. rewrite map_length, combine_length. cbn [Nat.iter nat_rect].
  rewrite (dr_len (doubleround (doubleround (doubleround w)))) by (do 3 apply dr_len; exact L). rewrite L. reflexivity.
Qed.
Lemma core_u32 : forall w, Forall is_u32 (core w).
Proof. intros w. unfold core. apply Forall_forall. intros x H. apply in_map_iff in H. destruct H as (p & <- & _). apply u32_mod. Qed.
Lemma core_ok : forall w, length w = 16%nat -> Forall is_u32 w -> Salsa (oct w) = oct (core w).
Proof.
  intros w L W. unfold Salsa. cbv zeta. rewrite words_oct by (try lia; exact W). rewrite <- L at 1 2. rewrite firstn_all.
  unfold core, oct. rewrite !flat_map_concat_map, map_map. reflexivity.
Qed.

(** ** blockMix *)
Fixpoint yw (r : nat) (inp : list Z) (i : nat) : list Z :=
  match i with
  | O => core (xor_bytes (sub inp (16 * (2 * r - 1)) 16) (sub inp (16 * 0) 16))
  | S j => core (xor_bytes (yw r inp j) (sub inp (16 * S j) 16))
  end.
Definition bm (r : nat) (inp : list Z) : list Z := flat_map (fun i => yw r inp (2 * i)) (seq 0 r) ++ flat_map (fun i => yw r inp (2 * i + 1)) (seq 0 r).

Lemma Forall_sub : forall (P : Z -> Prop) l k n, Forall P l -> Forall P (sub l k n).
Proof.
  intros P l k n H. apply Forall_forall. intros x Hx. rewrite Forall_forall in H. apply H. unfold sub in Hx.
  assert (In x (skipn k l)) by (rewrite <- (firstn_skipn n (skipn k l)); apply in_or_app; left; exact Hx).
  rewrite <- (firstn_skipn k l). apply in_or_app. right. assumption.
Qed.
Section Mix.
Variables (r : nat) (inp : list Z).
Hypothesis r_pos : (0 < r)%nat.
Hypothesis L : length inp = (32 * r)%nat.
Lemma yw_len : forall i, (i < 2 * r)%nat -> length (yw r inp i) = 16%nat.
Proof.
  induction i as [|i IH]; intros H; cbn [yw]; apply core_len; rewrite xor_len.
  - apply sub_len. lia.
  - rewrite !sub_len by lia. reflexivity.
  - apply IH. lia.
  - rewrite IH by lia. rewrite sub_len by lia. reflexivity.
Qed.
Lemma yw_u32 : forall i, Forall is_u32 (yw r inp i).
Proof. intros [|i]; apply core_u32. Qed.
Lemma yw_ok : Forall is_u32 inp -> forall i, (i < 2 * r)%nat -> Y r (oct inp) i = oct (yw r inp i).
Proof.
  intros W. induction i as [|i IH]; intros H; cbn [yw Y].
  - rewrite !piece64, <- oct_xor. apply core_ok; [rewrite xor_len; rewrite !sub_len; lia|apply xor_u32; apply Forall_sub; exact W].
  - rewrite IH by lia. rewrite piece64, <- oct_xor. apply core_ok; [|apply xor_u32; [apply yw_u32|apply Forall_sub; exact W]].
    rewrite xor_len; [apply yw_len; lia|]. rewrite yw_len by lia. rewrite sub_len by lia. reflexivity.
Qed.
Lemma half_len : forall a n, (forall i, (i < n)%nat -> (2 * i + a < 2 * r)%nat) -> length (flat_map (fun i => yw r inp (2 * i + a)) (seq 0 n)) = (16 * n)%nat.
Proof.
  intros a n H. rewrite (flat_len_in _ _ _ 16).
  - rewrite seq_length. lia.
  - intros i Hi. apply in_seq in Hi. apply yw_len. apply H. lia.
Qed.
Definition evens n := flat_map (fun i => yw r inp (2 * i)) (seq 0 n).
Definition odds n := flat_map (fun i => yw r inp (2 * i + 1)) (seq 0 n).
Lemma evens_len : forall n, (n <= r)%nat -> length (evens n) = (16 * n)%nat.
Proof.
  intros n H. unfold evens. rewrite <- (half_len 0 n) by (intros; lia). f_equal. apply flat_ext_in. intros i _. f_equal. lia.
Qed.
Lemma odds_len : forall n, (n <= r)%nat -> length (odds n) = (16 * n)%nat.
Proof. intros n H. apply half_len. intros. lia. Qed.
Lemma bm_len : length (bm r inp) = (32 * r)%nat.
Proof. unfold bm. rewrite app_length. change (length (evens r) + length (odds r) = 32 * r)%nat. rewrite evens_len, odds_len by lia. lia. Qed.
Lemma bm_u32 : Forall is_u32 (bm r inp).
Proof.
  unfold bm. apply Forall_app. split; apply Forall_flat_map, Forall_forall; intros i _; apply yw_u32.
Qed.
Lemma bm_ok : Forall is_u32 inp -> BlockMix r (oct inp) = oct (bm r inp).
Proof.
  intros W. unfold BlockMix, bm. unfold oct at 3. rewrite flat_map_app, !flat_flat.
  f_equal; apply flat_ext_in; intros i Hi; apply in_seq in Hi; apply yw_ok; solve [exact W|lia].
Qed.
Lemma snoc_flat : forall (f : nat -> list Z) n, flat_map f (seq 0 (S n)) = flat_map f (seq 0 n) ++ f n.
Proof. intros f n. rewrite seq_S, flat_map_app. cbn [flat_map plus]. rewrite app_nil_r. reflexivity. Qed.
Lemma split_at : forall (A : list Z) n, (n <= length A)%nat -> exists A1 A2, A = A1 ++ A2 /\ length A1 = n /\ length A2 = (length A - n)%nat.
Proof. intros A n H. exists (firstn n A), (skipn n A). rewrite firstn_skipn, firstn_length, skipn_length. repeat split; lia. Qed.
Lemma mix_inv : forall out, length out = (32 * r)%nat -> forall t, (t <= r)%nat -> exists tmp A C,
  fold_left (mix_step r inp) (seq 0 t) (sub inp ((2 * r - 1) * 16) 16, out) = (tmp, evens t ++ A ++ odds t ++ C) /\
  length A = (16 * (r - t))%nat /\ length C = (16 * (r - t))%nat /\
  tmp = match t with O => sub inp (16 * (2 * r - 1)) 16 | S t' => yw r inp (2 * t' + 1) end.
Proof.
  intros out Lo. induction t as [|t IH]; intros H.
  - destruct (split_at out (16 * r)) as (A & C & E & L1 & L2); [lia|]. exists (sub inp ((2 * r - 1) * 16) 16), A, C.
    repeat split; try lia.
    + cbn [seq fold_left evens odds flat_map app]. rewrite <- E. reflexivity.
    + f_equal. lia.
  - destruct (IH ltac:(lia)) as (tmp & A & C & E & LA & LC & ET). rewrite seq_S, fold_left_app, E. cbn [fold_left plus mix_step].
    assert (T1 : salsaXOR tmp (sub inp (32 * t) 16) = yw r inp (2 * t)).
    { rewrite salsaXOR_core.
      - rewrite ET. destruct t as [|t']; [reflexivity|]. replace (2 * S t')%nat with (S (2 * t' + 1)) by lia. cbn [yw].
        f_equal. f_equal. f_equal. lia.
      - rewrite ET. destruct t as [|t']; [apply sub_len; lia|apply yw_len; lia].
      - apply sub_len. lia. }
    rewrite T1.
    assert (T2 : salsaXOR (yw r inp (2 * t)) (sub inp (32 * t + 16) 16) = yw r inp (2 * t + 1)).
    { rewrite salsaXOR_core; [|apply yw_len; lia|apply sub_len; lia]. replace (2 * t + 1)%nat with (S (2 * t)) by lia. cbn [yw].
      f_equal. f_equal. f_equal. lia. }
    rewrite T2.
    destruct (split_at A 16) as (A1 & A2 & -> & LA1 & LA2); [lia|]. destruct (split_at C 16) as (C1 & C2 & -> & LC1 & LC2); [lia|].
    rewrite !app_length in *. exists (yw r inp (2 * t + 1)), A2, C2. split; [|split; [lia|split; [lia|reflexivity]]]. f_equal.
    assert (P1 : put (evens t ++ (A1 ++ A2) ++ odds t ++ C1 ++ C2) (16 * t) (yw r inp (2 * t)) = evens (S t) ++ A2 ++ odds t ++ C1 ++ C2).
    { rewrite <- (evens_len t) by lia. rewrite <- app_assoc. rewrite put_at by (rewrite yw_len by lia; exact LA1).
      unfold evens. rewrite snoc_flat, <- !app_assoc. reflexivity. }
    rewrite P1.
    replace (16 * t + 16 * r)%nat with (length (evens (S t) ++ A2 ++ odds t)) by (rewrite !app_length, evens_len, odds_len by lia; lia).
    replace (evens (S t) ++ A2 ++ odds t ++ C1 ++ C2) with ((evens (S t) ++ A2 ++ odds t) ++ C1 ++ C2) by (rewrite <- !app_assoc; reflexivity).
    rewrite put_at by (rewrite yw_len by lia; exact LC1).
    unfold odds. rewrite snoc_flat, <- !app_assoc. reflexivity.
Qed.
Lemma blockMix_bm : forall out, length out = (32 * r)%nat -> blockMix inp out r = bm r inp.
Proof.
  intros out Lo. unfold blockMix. destruct (mix_inv out Lo r (le_n r)) as (tmp & A & C & E & LA & LC & _).
  rewrite E. cbn [snd]. rewrite Nat.sub_diag in LA, LC. destruct A; [|discriminate LA]. destruct C; [|discriminate LC].
  rewrite app_nil_r. reflexivity.
Qed.
End Mix.

(** ** smix *)
Lemma firstn_plus : forall (A : Type) (l : list A) a b, firstn (a + b) l = firstn a l ++ firstn b (skipn a l).
Proof.
  intros A l a. revert l. induction a as [|a IH]; intros l b; [reflexivity|]. destruct l as [|x l].
  - rewrite skipn_nil, !firstn_nil. reflexivity.
  - cbn [plus firstn skipn app]. rewrite IH. reflexivity.
Qed.
Lemma skipn_plus : forall (A : Type) (l : list A) a b, skipn a (skipn b l) = skipn (b + a) l.
Proof.
  intros A l a b. revert l. induction b as [|b IH]; intros l; [reflexivity|]. destruct l as [|x l]; [rewrite !skipn_nil; reflexivity|].
  cbn [plus skipn]. apply IH.
Qed.
Lemma pieces : forall n b k, flat_map (piece n b) (seq 0 k) = firstn (k * n) b.
Proof.
  intros n b. induction k as [|k IH]; [reflexivity|]. rewrite snoc_flat, IH. replace (S k * n)%nat with (k * n + n)%nat by lia.
  rewrite firstn_plus. reflexivity.
Qed.
Lemma le_value_app : forall a b, le_value (a ++ b) = le_value a + 256 ^ Z.of_nat (length a) * le_value b.
Proof.
  induction a as [|x a IH]; intros b; [cbn [app le_value length]; change (Z.of_nat 0) with 0; lia|].
  cbn [app le_value length]. rewrite IH, Nat2Z.inj_succ, Z.pow_succ_r by lia. ring.
Qed.
Lemma byte_word_le : forall a b c d, is_byte a -> is_byte b -> is_byte c -> is_byte d ->
  Z.lor a (Z.lor (shl32 b 8) (Z.lor (shl32 c 16) (shl32 d 24))) = d * 2 ^ 24 + c * 2 ^ 16 + b * 2 ^ 8 + a.
Proof.
  intros a b c d A B C D. rewrite <- byte_word by assumption. rewrite Z.lor_comm. f_equal. rewrite Z.lor_comm. f_equal. apply Z.lor_comm.
Qed.
Lemma le_word_bytes : forall a b c d, is_byte a -> is_byte b -> is_byte c -> is_byte d ->
  le_word (d * 2 ^ 24 + c * 2 ^ 16 + b * 2 ^ 8 + a) = [a; b; c; d].
Proof.
  unfold is_byte. intros a b c d A B C D. unfold le_word. change (2 ^ 24) with 16777216. change (2 ^ 16) with 65536. change (2 ^ 8) with 256.
  set (w := d * 16777216 + c * 65536 + b * 256 + a).
  assert (E0 : w mod 256 = a) by (symmetry; apply (Z.mod_unique _ _ (d * 65536 + c * 256 + b)); unfold w; lia).
  assert (E1 : w / 256 = d * 65536 + c * 256 + b) by (symmetry; apply (Z.div_unique _ _ _ a); unfold w; lia).
  assert (E2 : w / 65536 = d * 256 + c) by (symmetry; apply (Z.div_unique _ _ _ (b * 256 + a)); unfold w; lia).
  assert (E3 : w / 16777216 = d) by (symmetry; apply (Z.div_unique _ _ _ (c * 65536 + b * 256 + a)); unfold w; lia).
  rewrite E0, E1, E2, E3.
  replace ((d * 65536 + c * 256 + b) mod 256) with b by (apply (Z.mod_unique _ _ (d * 256 + c)); lia).
  replace ((d * 256 + c) mod 256) with c by (apply (Z.mod_unique _ _ d); lia).
  replace (d mod 256) with d by (symmetry; apply Z.mod_small; lia). reflexivity.
Qed.
Lemma nth_byte : forall b i, Forall is_byte b -> is_byte (nth i b 0).
Proof.
  intros b i H. destruct (Nat.lt_ge_cases i (length b)) as [A|A].
  - rewrite Forall_forall in H. apply H. apply nth_In. exact A.
  - rewrite nth_overflow by exact A. unfold is_byte. lia.
Qed.
Lemma piece4 : forall b i, (4 * i + 4 <= length b)%nat -> piece 4 b i = [nth (4 * i) b 0; nth (4 * i + 1) b 0; nth (4 * i + 2) b 0; nth (4 * i + 3) b 0].
Proof.
  intros b i. unfold piece. rewrite (Nat.mul_comm i 4). generalize (4 * i)%nat. clear i. induction b as [|x b IH]; intros k H; [cbn in H; lia|].
  destruct k as [|k].
  - cbn in H. do 3 (destruct b as [|? b]; [cbn in H; lia|]). reflexivity.
  - cbn [skipn plus nth]. apply IH. cbn in H. lia.
Qed.
Lemma word_at_ok : forall b i, Forall is_byte b -> (4 * i + 4 <= length b)%nat -> le_word (word_at b i) = piece 4 b i.
Proof.
  intros b i W H. rewrite piece4 by exact H. unfold word_at. rewrite byte_word_le by (apply nth_byte; exact W).
  apply le_word_bytes; apply nth_byte; exact W.
Qed.
Lemma word_at_u32 : forall b i, Forall is_byte b -> is_u32 (word_at b i).
Proof. intros b i W. unfold word_at. rewrite byte_word_le by (apply nth_byte; exact W). apply word_range; apply nth_byte; exact W. Qed.
Lemma read_ok : forall b n, Forall is_byte b -> (4 * n <= length b)%nat -> oct (map (word_at b) (seq 0 n)) = firstn (n * 4) b.
Proof.
  intros b n W H. rewrite <- pieces. unfold oct. rewrite !flat_map_concat_map, map_map. f_equal. apply map_ext_in. intros i Hi.
  apply in_seq in Hi. apply word_at_ok; [exact W|lia].
Qed.
Lemma le_word_byte : forall w, Forall is_byte (le_word w).
Proof. intros w. unfold le_word, is_byte. repeat constructor; apply Z.mod_pos_bound; lia. Qed.
Lemma oct_byte : forall ws, Forall is_byte (oct ws).
Proof. intros ws. apply Forall_flat_map, Forall_forall. intros w _. apply le_word_byte. Qed.

Lemma set_nth_same : forall (A : Type) (d v : A) l i, (i < length l)%nat -> nth i (set_nth i v l) d = v.
Proof. intros A d v. induction l as [|x l IH]; intros i H; [cbn in H; lia|]. destruct i; [reflexivity|]. cbn [set_nth nth]. apply IH. cbn in H. lia. Qed.
Lemma set_nth_other : forall (A : Type) (d v : A) l i j, i <> j -> nth j (set_nth i v l) d = nth j l d.
Proof.
  intros A d v. induction l as [|x l IH]; intros i j H; [destruct i; reflexivity|]. destruct i, j; try reflexivity; [congruence|].
  cbn [set_nth nth]. apply IH. congruence.
Qed.

Lemma iter_S : forall (A : Type) (f : A -> A) n x, Nat.iter (S n) f x = f (Nat.iter n f x).
Proof. reflexivity. Qed.

Section Smix.
Variable r : nat.
Hypothesis r_pos : (0 < r)%nat.
Definition good (x : list Z) : Prop := length x = (32 * r)%nat /\ Forall is_u32 x.
Lemma good_bm : forall x, good x -> good (bm r x).
Proof. intros x [L W]. split; [apply bm_len; assumption|apply bm_u32]. Qed.
Lemma good_iter : forall n x, good x -> good (Nat.iter n (bm r) x).
Proof. induction n as [|n IH]; intros x G; [exact G|]. rewrite iter_S. apply good_bm, IH, G. Qed.
Lemma good_xor : forall x y, good x -> good y -> good (xor_bytes x y).
Proof. intros x y [L W] [L' W']. split; [rewrite xor_len; congruence|apply xor_u32; assumption]. Qed.
Lemma iter_ok : forall n x, good x -> Nat.iter n (BlockMix r) (oct x) = oct (Nat.iter n (bm r) x).
Proof.
  induction n as [|n IH]; intros x G; [reflexivity|]. rewrite !iter_S, IH by exact G.
  apply bm_ok; try assumption; apply (good_iter n x G).
Qed.

Lemma integer_ok : forall x k, good x -> 0 <= k < 64 ->
  Z.land (integer x r) (u64 (2 ^ k - 1)) = le_value (piece 64 (oct x) (2 * r - 1)) mod 2 ^ k.
Proof.
  intros x k [L W] K. rewrite piece64. unfold integer. cbv zeta. replace ((2 * r - 1) * 16)%nat with (16 * (2 * r - 1))%nat by lia.
  set (j := (16 * (2 * r - 1))%nat). assert (Hj : (j + 16 = length x)%nat) by (unfold j; lia).
  assert (S16 : sub x j 16 = nth j x 0 :: nth (j + 1) x 0 :: sub x (j + 2) 14).
  { change (sub x j 16) with (firstn (1 + (1 + 14)) (skipn j x)). rewrite !firstn_plus, !skipn_plus.
    change (firstn 1 (skipn j x)) with (sub x j 1). rewrite sub1 by lia.
    change (firstn 1 (skipn (j + 1) x)) with (sub x (j + 1) 1). rewrite sub1 by lia.
    cbn [app]. unfold sub. replace (j + 1 + 1)%nat with (j + 2)%nat by lia. reflexivity. }
  rewrite S16. assert (W0 : is_u32 (nth j x 0)) by (rewrite Forall_forall in W; apply W, nth_In; lia).
  assert (W1 : is_u32 (nth (j + 1) x 0)) by (rewrite Forall_forall in W; apply W, nth_In; lia).
  revert W0 W1. generalize (nth j x 0) (nth (j + 1) x 0) (sub x (j + 2) 14). intros w0 w1 rest W0 W1.
  unfold oct. cbn [flat_map]. rewrite le_value_app, le_value_app, !le_word_value by assumption. change (256 ^ Z.of_nat (length (le_word w0))) with (2 ^ 32).
  change (256 ^ Z.of_nat (length (le_word w1))) with (2 ^ 32).
  set (q := le_value (flat_map le_word rest)). unfold is_u32 in W0, W1.
  assert (P : 0 < 2 ^ k) by (apply Z.pow_pos_nonneg; lia).
  assert (P' : 2 ^ k < 2 ^ 64) by (apply Z.pow_lt_mono_r; lia).
  unfold u64. rewrite (Z.mod_small (2 ^ k - 1)) by lia. replace (2 ^ k - 1) with (Z.ones k) by (rewrite Z.ones_equiv; lia).
  rewrite Z.land_ones by lia. rewrite Z.shiftl_mul_pow2 by lia. rewrite (Z.mod_small (w1 * 2 ^ 32)) by lia.
  rewrite Z.lor_comm, lor_shift_add by lia.
  replace (w0 + 2 ^ 32 * (w1 + 2 ^ 32 * q)) with (w1 * 2 ^ 32 + w0 + q * 2 ^ (64 - k) * 2 ^ k).
  - rewrite Z.mod_add by lia. reflexivity.
  - rewrite <- Z.mul_assoc, <- Z.pow_add_r by lia. replace (64 - k + k) with 64 by lia. change (2 ^ 64) with (2 ^ 32 * 2 ^ 32). ring.
Qed.

Variable N : nat.
Variable k : Z.
Hypothesis k_range : 1 <= k < 64.
Hypothesis N_pow : Z.of_nat N = 2 ^ k.
Definition half : nat := Z.to_nat (Z.of_nat N / 2).
Lemma half_two : N = (2 * half)%nat.
Proof.
  unfold half. assert (E : Z.of_nat N = 2 * 2 ^ (k - 1)) by (rewrite N_pow, <- Z.pow_succ_r by lia; f_equal; lia).
  rewrite E. rewrite (Z.mul_comm 2), Z.div_mul by lia. assert (0 < 2 ^ (k - 1)) by (apply Z.pow_pos_nonneg; lia). lia.
Qed.
Lemma fill_inv : forall x y v, good x -> length y = (32 * r)%nat -> length v = N -> forall t, (t <= half)%nat ->
  exists y' v', fold_left (fill_step r) (seq 0 t) (x, y, v) = (Nat.iter (2 * t) (bm r) x, y', v') /\ length y' = (32 * r)%nat /\
    length v' = N /\ forall j, (j < 2 * t)%nat -> nth j v' [] = Nat.iter j (bm r) x.
Proof.
  intros x y v G Ly Lv. assert (HN := half_two). induction t as [|t IH]; intros H.
  - exists y, v. repeat split; try assumption. intros j Hj. lia.
  - destruct (IH ltac:(lia)) as (y' & v' & E & Ly' & Lv' & V). rewrite seq_S, fold_left_app, E. cbn [fold_left plus fill_step].
    set (X := Nat.iter (2 * t) (bm r) x) in *. assert (GX : good X) by (apply good_iter; exact G).
    rewrite (blockMix_bm r X r_pos (proj1 GX) y' Ly').
    rewrite (blockMix_bm r (bm r X) r_pos (proj1 (good_bm X GX)) X (proj1 GX)).
    do 2 eexists. split; [|split; [|split]].
    + replace (2 * S t)%nat with (S (S (2 * t))) by lia. rewrite !iter_S. fold X. reflexivity.
    + apply (good_bm X GX).
    + rewrite !set_nth_length. exact Lv'.
    + intros j Hj. destruct (Nat.eq_dec j (2 * t + 1)) as [->|N1].
      * rewrite set_nth_same by (rewrite set_nth_length; lia). replace (2 * t + 1)%nat with (S (2 * t)) by lia. rewrite iter_S. reflexivity.
      * rewrite set_nth_other by lia. destruct (Nat.eq_dec j (2 * t)) as [->|N2].
        -- rewrite set_nth_same by lia. reflexivity.
        -- rewrite set_nth_other by lia. apply V. lia.
Qed.
Section Use.
Variable x0 : list Z.
Variable v : list (list Z).
Hypothesis G0 : good x0.
Hypothesis V : forall j, (j < N)%nat -> nth j v [] = Nat.iter j (bm r) x0.
Definition uw (x : list Z) : list Z := bm r (xor_bytes x (nth (pick x r (Z.of_nat N)) v [])).
Definition us (X : list Z) : list Z := BlockMix r (xor X (Nat.iter (Z.to_nat (le_value (piece 64 X (2 * r - 1)) mod Z.of_nat N)) (BlockMix r) (oct x0))).
Lemma pick_ok : forall x, good x -> pick x r (Z.of_nat N) = Z.to_nat (le_value (piece 64 (oct x) (2 * r - 1)) mod Z.of_nat N) /\ (pick x r (Z.of_nat N) < N)%nat.
Proof.
  intros x G. assert (E : pick x r (Z.of_nat N) = Z.to_nat (le_value (piece 64 (oct x) (2 * r - 1)) mod Z.of_nat N)).
  { unfold pick. rewrite N_pow, integer_ok by (try exact G; lia). reflexivity. }
  split; [exact E|]. rewrite E. assert (P : 0 < Z.of_nat N) by (rewrite N_pow; apply Z.pow_pos_nonneg; lia).
  assert (B := Z.mod_pos_bound (le_value (piece 64 (oct x) (2 * r - 1))) _ P). lia.
Qed.
Lemma good_pick : forall x, good x -> good (xor_bytes x (nth (pick x r (Z.of_nat N)) v [])).
Proof. intros x G. apply good_xor; [exact G|]. rewrite V by (apply pick_ok; exact G). apply good_iter. exact G0. Qed.
Lemma uw_good : forall x, good x -> good (uw x).
Proof. intros x G. apply good_bm, good_pick, G. Qed.
Lemma uw_ok : forall x, good x -> us (oct x) = oct (uw x).
Proof.
  intros x G. unfold us, uw. destruct (pick_ok x G) as [E B]. rewrite <- E, iter_ok by exact G0. rewrite <- V by exact B.
  rewrite <- oct_xor. destruct (good_pick x G) as [L W]. apply bm_ok; assumption.
Qed.
Lemma use_inv : forall n x y, good x -> length y = (32 * r)%nat -> exists y',
  fold_left (fun st (_ : nat) => use_step r (Z.of_nat N) v st) (seq 0 n) (x, y) = (Nat.iter (2 * n) uw x, y') /\ length y' = (32 * r)%nat /\ good (Nat.iter (2 * n) uw x).
Proof.
  induction n as [|n IH]; intros x y G Ly; [exists y; repeat split; try exact Ly; apply G|].
  destruct (IH x y G Ly) as (y' & E & Ly' & GX). rewrite seq_S, fold_left_app, E. cbn [fold_left plus use_step].
  replace (2 * S n)%nat with (S (S (2 * n))) by lia. rewrite !iter_S. set (X := Nat.iter (2 * n) uw x) in *.
  assert (G1 := uw_good X GX). rewrite (blockMix_bm r _ r_pos (proj1 (good_pick X GX)) y' Ly'). fold (uw X).
  assert (P2 := good_pick (uw X) G1).
  assert (LX : length (xor_bytes X (nth (pick X r (Z.of_nat N)) v [])) = (32 * r)%nat) by apply (good_pick X GX).
  rewrite (blockMix_bm r _ r_pos (proj1 P2) _ LX). fold (uw (uw X)).
  eexists. split; [reflexivity|]. split; [exact (proj1 P2)|]. apply uw_good, G1.
Qed.
Lemma uses_ok : forall n x, good x -> Nat.iter n us (oct x) = oct (Nat.iter n uw x) /\ good (Nat.iter n uw x).
Proof.
  induction n as [|n IH]; intros x G; [split; [reflexivity|exact G]|]. rewrite !iter_S. destruct (IH x G) as [E GX]. rewrite E.
  split; [apply uw_ok; exact GX|apply uw_good; exact GX].
Qed.
End Use.
Lemma smix_ok : forall b v y, Forall is_byte b -> (128 * r <= length b)%nat -> length v = N -> length y = (32 * r)%nat ->
  exists v' y', smix b r (Z.of_nat N) v y = (ROMix r N (firstn (128 * r) b), v', y') /\ length v' = N /\ length y' = (32 * r)%nat /\
    length (ROMix r N (firstn (128 * r) b)) = (128 * r)%nat /\ Forall is_byte (ROMix r N (firstn (128 * r) b)).
Proof.
  intros b v y W Lb Lv Ly. unfold smix. cbv zeta. fold half. set (x := map (word_at b) (seq 0 (32 * r))).
  assert (G : good x).
  { split; [unfold x; rewrite map_length, seq_length; reflexivity|]. apply Forall_forall. intros w Hw. apply in_map_iff in Hw.
    destruct Hw as (i & <- & _). apply word_at_u32. exact W. }
  assert (Ex : oct x = firstn (128 * r) b).
  { unfold x. rewrite read_ok by (try exact W; lia). f_equal. lia. }
  destruct (fill_inv x y v G Ly Lv half (le_n _)) as (y1 & v1 & -> & Ly1 & Lv1 & V). rewrite <- half_two in *.
  destruct (use_inv x v1 G V half (Nat.iter N (bm r) x) y1 (good_iter N x G) Ly1) as (y2 & E2 & Ly2 & G2).
  change (fold_left (fun (st : list Z * list Z) (_ : nat) => use_step r (Z.of_nat N) v1 st) (seq 0 half) (Nat.iter N (bm r) x, y1)
     = (Nat.iter (2 * half) (uw v1) (Nat.iter N (bm r) x), y2)) in E2. rewrite E2.
  assert (R : ROMix r N (firstn (128 * r) b) = oct (Nat.iter N (uw v1) (Nat.iter N (bm r) x))).
  { unfold ROMix. cbv zeta. rewrite <- Ex, iter_ok by exact G.
    destruct (uses_ok x v1 G V N (Nat.iter N (bm r) x) (good_iter N x G)) as [E _]. exact E. }
  rewrite R. rewrite <- half_two in G2. exists v1, y2. rewrite oct_bytes, <- half_two.
  split; [reflexivity|]. split; [exact Lv1|]. split; [exact Ly2|]. split; [|apply oct_byte].
  rewrite oct_len. rewrite (proj1 G2). lia.
Qed.
End Smix.
