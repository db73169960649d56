(** * AsmTrace: an analysis of assembly code that shows it oblivious

    For each register, frame word and argument: is its value the same in both runs? *)
From Coq Require Import ZArith List Bool Lia Arith.
From Verif Require Import AsmX86 Spec_AsmTrace.
Import ListNotations.
Open Scope Z_scope.

Record pub := Pb { p_r : list bool; p_z : bool; p_f : list bool; p_a : list bool }.
Definition pr (a : pub) (r : nat) : bool := nth r (p_r a) false.
Definition ps (a : pub) (s : src) : bool := match s with R r => pr a r | K _ => true end.
Definition pset (a : pub) (d : nat) (b : bool) : option pub :=
  if (d <? length (p_r a))%nat then Some (Pb (upd (p_r a) d b) (p_z a) (p_f a) (p_a a)) else None.
Definition pz (b : bool) (a : pub) : pub := Pb (p_r a) b (p_f a) (p_a a).
Definition pframe (a : pub) (off : Z) (b : bool) : option pub :=
  if (fidx off <? length (p_f a))%nat then Some (Pb (p_r a) (p_z a) (upd (p_f a) (fidx off) b) (p_a a)) else None.
Definition omap {A B} (f : A -> B) (o : option A) : option B := match o with Some a => Some (f a) | None => None end.
Definition only (c : bool) (a : pub) : option pub := if c then Some a else None.
Definition pstep (i : instr) (a : pub) : option pub :=
  match i with
  | MOV s d => pset a d (ps a s)
  | LD b _ d => if pr a b then pset a d false else None
  | STO _ b _ => only (pr a b) a
  | LDA off d => pset a d (nth (fidx off) (p_a a) false)
  | LDF off d => pset a d (nth (fidx off) (p_f a) false)
  | STF s off => pframe a off (ps a s)
  | LDF32 _ d => pset a d false
  | STF32 _ off => pframe a off false
  | ADD s d | SUB s d | AND s d => let b := ps a s && pr a d in omap (pz b) (pset a d b)
  | XOR s d => let b := ps a s && pr a d || match s with R r => Nat.eqb r d | _ => false end in omap (pz b) (pset a d b)
  | ADC _ d | SBB _ d | SHL _ d | SHR _ d | SHRD _ d _ => omap (pz false) (pset a d false)
  | MUL _ => match pset a AX false with Some a => omap (pz false) (pset a DX false) | None => None end
  | TEST s d => Some (pz (ps a s && pr a d) a)
  | CMOVCS _ d | CMOVEQ _ d | CMOVNE _ d | BSWAP d => pset a d false
  | DEC d => omap (pz (pr a d)) (pset a d (pr a d))
  | XLD b _ _ | XST _ b _ | PANDNM b _ _ => only (pr a b) a
  | XSTF _ off => match pframe a off false with Some a => pframe a (off + 8) false | None => None end
  | XLDF _ _ | XLDK _ _ _ | XMOV _ _ | XLDA _ _ | XMOVL _ _ | PXOR _ _ | PAND _ _ | PANDN _ _ | PCMPEQL _ _ | PADDL _ _ | PSUBL _ _ | PSHUFD0 _ _ => Some a
  end.
Fixpoint pexec (c : list instr) (a : pub) : option pub :=
  match c with [] => Some a | i :: c' => match pstep i a with Some a' => pexec c' a' | None => None end end.
Fixpoint lands (l m : list bool) : list bool :=
  match l, m with x :: l', y :: m' => (x && y) :: lands l' m' | _, _ => [] end.
Definition meet (a b : pub) : pub := Pb (lands (p_r a) (p_r b)) (p_z a && p_z b) (lands (p_f a) (p_f b)) (lands (p_a a) (p_a b)).
Fixpoint leqs (l m : list bool) : bool :=
  match l, m with [], [] => true | x :: l', y :: m' => implb x y && leqs l' m' | _, _ => false end.
(** what [a] claims, [b] claims too *)
Definition leq (a b : pub) : bool := leqs (p_r a) (p_r b) && implb (p_z a) (p_z b) && leqs (p_f a) (p_f b) && leqs (p_a a) (p_a b).
(** an invariant of the loop below [a], and what holds after the body *)
Fixpoint ploop (n : nat) (c : list instr) (a : pub) : option pub :=
  match n with
  | O => None
  | S n' => match pexec c a with
            | Some a' => if leq a a' then only (p_z a') a' else ploop n' c (meet a a')
            | None => None end
  end.
Definition pitem (it : item) (a : pub) : option pub :=
  match it with Do i => pstep i a | Call c => pexec c a | Loop c => ploop 20 c a end.
Fixpoint prun (c : list item) (a : pub) : option pub :=
  match c with [] => Some a | it :: c' => match pitem it a with Some a' => prun c' a' | None => None end end.

(** ** Soundness *)
Definition low (a : pub) (s t : state) : Prop :=
  (length (rg s) = length (p_r a) /\ length (rg t) = length (p_r a)) /\
  (length (fr s) = length (p_f a) /\ length (fr t) = length (p_f a)) /\
  (forall r, pr a r = true -> rd s r = rd t r) /\
  (p_z a = true -> zf s = zf t) /\
  (forall k, nth k (p_f a) false = true -> nth k (fr s) U = nth k (fr t) U) /\
  (forall k, nth k (p_a a) false = true -> nth_error (ar s) k = nth_error (ar t) k).
Lemma upd_len {A} (l : list A) n a : (n < length l)%nat -> length (upd l n a) = length l.
Proof. intros H. unfold upd. rewrite app_length, firstn_length. cbn [length]. rewrite skipn_length. lia. Qed.
Lemma nth_upd {A} (l : list A) n a d k : (n < length l)%nat -> nth k (upd l n a) d = if Nat.eqb k n then a else nth k l d.
Proof.
  unfold upd. revert n k. induction l as [|x l IH]; intros [|n] [|k] H; cbn [length] in H; try lia; try reflexivity.
  change (nth k (firstn n l ++ a :: skipn (S n) l) d = if Nat.eqb k n then a else nth k l d). apply IH. lia.
Qed.
Lemma low_r a s t d b v w a' : low a s t -> pset a d b = Some a' -> (b = true -> v = w) -> low a' (set_r s d v) (set_r t d w).
Proof.
  unfold pset. intros ([L1 L2] & [L3 L4] & Hr & Hz & Hf & Ha) E V. destruct (Nat.ltb_spec d (length (p_r a))) as [D|]; [|discriminate E].
  injection E as <-. unfold low, pr, rd. cbn [rg fr zf ar set_r p_r p_z p_f p_a]. rewrite !upd_len by lia.
  split; [lia|]. split; [split; assumption|]. split.
  - intros r. rewrite !nth_upd by lia. destruct (Nat.eqb r d); [exact V|apply Hr].
  - split; [exact Hz|]. split; assumption.
Qed.
Lemma low_f a s t off b v w a' : low a s t -> pframe a off b = Some a' -> (b = true -> v = w) -> low a' (wrf s off v) (wrf t off w).
Proof.
  unfold pframe. intros ([L1 L2] & [L3 L4] & Hr & Hz & Hf & Ha) E V. destruct (Nat.ltb_spec (fidx off) (length (p_f a))) as [D|]; [|discriminate E].
  injection E as <-. unfold low, pr, rd, wrf, set_fr. cbn [rg fr zf ar p_r p_z p_f p_a]. rewrite !upd_len by lia.
  split; [split; assumption|]. split; [lia|]. split; [exact Hr|]. split; [exact Hz|]. split; [|exact Ha].
  intros k. rewrite !nth_upd by lia. destruct (Nat.eqb k (fidx off)); [exact V|apply Hf].
Qed.
Lemma low_z a s t b c d z y : low a s t -> (b = true -> z = y) -> low (pz b a) (set_f s c z) (set_f t d y).
Proof. intros (L1 & L2 & Hr & Hz & Hf & Ha) V. unfold low, pz, pr, rd. cbn [rg fr zf ar set_f p_r p_z p_f p_a]. repeat (split; [assumption|]). assumption. Qed.
Lemma low_x a s t x v w : low a s t -> low a (set_x s x v) (set_x t x w).
Proof. intros H. exact H. Qed.
Lemma low_h a s t h g : low a s t -> low a (set_h s h) (set_h t g).
Proof. intros H. exact H. Qed.
Lemma low_sv a s t x : low a s t -> ps a x = true -> sv s x = sv t x.
Proof. intros (_ & _ & Hr & _) P. destruct x as [r|z]; [|reflexivity]. cbn [sv ps] in *. unfold rdi. rewrite (Hr r P). reflexivity. Qed.
Lemma low_rd a s t r : low a s t -> pr a r = true -> rd s r = rd t r.
Proof. intros (_ & _ & Hr & _). apply Hr. Qed.
Lemma low_rdi a s t r : low a s t -> pr a r = true -> rdi s r = rdi t r.
Proof. intros L P. unfold rdi. rewrite (low_rd a s t r L P). reflexivity. Qed.
Lemma leqs_nth l : forall m k, leqs l m = true -> nth k l false = true -> nth k m false = true.
Proof.
  induction l as [|x l IH]; intros [|y m] k H N; try discriminate H; [exact N|].
  cbn [leqs] in H. apply andb_true_iff in H. destruct H as [H1 H2]. destruct k as [|k]; [|exact (IH m k H2 N)].
  cbn [nth] in *. rewrite N in H1. exact H1.
Qed.
Lemma leqs_len l : forall m, leqs l m = true -> length l = length m.
Proof.
  induction l as [|x l IH]; intros [|y m] H; try discriminate H; [reflexivity|]. cbn [leqs] in H. apply andb_true_iff in H. cbn [length]. f_equal. apply IH, H.
Qed.
Lemma leq_low a b s t : leq a b = true -> low b s t -> low a s t.
Proof.
  unfold leq. rewrite !andb_true_iff. intros [[[A1 A2] A3] A4] (L1 & L2 & Hr & Hz & Hf & Ha). unfold low.
  rewrite (leqs_len _ _ A1), (leqs_len _ _ A3). split; [exact L1|]. split; [exact L2|]. unfold pr in *.
  split; [intros r P; apply Hr, (leqs_nth _ _ _ A1 P)|]. split; [intros P; rewrite P in A2; apply Hz, A2|].
  split; [intros k P; apply Hf, (leqs_nth _ _ _ A3 P)|intros k P; apply Ha, (leqs_nth _ _ _ A4 P)].
Qed.
Lemma arith_low a s t x d f g s' t' a' b : low a s t -> (b = true -> ps a x = true /\ pr a d = true) -> (b = true -> f = g) ->
  omap (pz b) (pset a d b) = Some a' -> arith s x d f = Some s' -> arith t x d g = Some t' -> low a' s' t'.
Proof.
  intros L B F P S T. unfold arith in S, T. destruct (pset a d b) as [a1|] eqn:E; [|discriminate P]. injection P as <-.
  destruct (sv s x) as [u|] eqn:U1; [|discriminate S]. destruct (rdi s d) as [v|] eqn:V1; [|discriminate S].
  destruct (sv t x) as [u'|] eqn:U2; [|discriminate T]. destruct (rdi t d) as [v'|] eqn:V2; [|discriminate T].
  destruct (f u v) as [[r c]|] eqn:F1; [|discriminate S]. destruct (g u' v') as [[r' c']|] eqn:F2; [|discriminate T].
  injection S as <-. injection T as <-.
  assert (RR : b = true -> r = r').
  { intros Hb. destruct (B Hb) as [B1 B2]. specialize (F Hb). subst g. pose proof (low_sv a s t x L B1). pose proof (low_rdi a s t d L B2).
    assert (u = u') by congruence. assert (v = v') by congruence. subst. congruence. }
  apply low_z; [|intros Hb; rewrite (RR Hb); reflexivity]. apply (low_r a s t d b _ _ a1 L E). intros Hb. rewrite (RR Hb). reflexivity.
Qed.
Ltac pub_case := match goal with
  | H : Some _ = Some _ |- _ => injection H as <-
  | H : None = Some _ |- _ => discriminate H
  | H : only ?c _ = Some _ |- _ => unfold only in H; destruct c eqn:?
  | H : omap _ ?o = Some _ |- _ => destruct o eqn:?; cbn [omap] in H
  | H : (if ?c then _ else _) = Some _ |- _ => destruct c eqn:?
  | H : match ?x with _ => _ end = Some _ |- _ => destruct x eqn:?
  end.
Lemma and_true b c : b && c = true -> b = true /\ c = true. Proof. apply andb_true_iff. Qed.
Lemma step_low i a s t s' t' a' : low a s t -> pstep i a = Some a' -> step i s = Some s' -> step i t = Some t' -> low a' s' t'.
Proof.
  intros L P S T. destruct i; cbn [pstep] in P; cbn [step] in S, T.
  - (* MOV *) destruct s0 as [r|z]; injection S as <-; injection T as <-.
    + apply (low_r a s t d _ _ _ a' L P). intros Hb. apply (low_rd a s t r L Hb).
    + apply (low_r a s t d _ _ _ a' L P). reflexivity.
  - repeat pub_case; eapply low_r; eauto; discriminate.
  - repeat pub_case; exact L.
  - repeat pub_case. eapply low_r; eauto. intros Hb. destruct L as (_ & _ & _ & _ & _ & Ha). specialize (Ha _ Hb). congruence.
  - repeat pub_case. eapply low_r; eauto. intros Hb. destruct L as (_ & _ & _ & _ & Hf & _). apply (Hf _ Hb).
  - destruct s0 as [r|z]; injection S as <-; injection T as <-; (eapply low_f; [exact L|exact P|]).
    + intros Hb. apply (low_rd a s t r L Hb).
    + reflexivity.
  - destruct (halves (rdf s off)), (halves (rdf t off)). repeat pub_case; eapply low_r; eauto; discriminate.
  - destruct (halves (rdf s off)), (halves (rdf t off)). repeat pub_case; eapply low_f; eauto; discriminate.
  - (* ADD *) set (b := ps a s0 && pr a d) in *. destruct b eqn:B; subst b.
    + apply and_true in B. destruct B as [B1 B2]. pose proof (low_rd a s t d L B2) as E. rewrite <- E in T.
      destruct (rd s d) as [z|r o|lo hi] eqn:D.
      * eapply (arith_low a s t s0 d _ _ s' t' a' true); [exact L|split; assumption|reflexivity|exact P|exact S|exact T].
      * destruct s0 as [r0|z]; [eapply (arith_low a s t (R r0) d _ _ s' t' a' true); [exact L|split; assumption|reflexivity|exact P|exact S|exact T]|]. cbn [omap] in P. repeat pub_case. apply low_z; [|reflexivity].
        eapply low_r; eauto.
      * eapply (arith_low a s t s0 d _ _ s' t' a' true); [exact L|split; assumption|reflexivity|exact P|exact S|exact T].
    + assert (G : forall (s : state) s', match rd s d, s0 with Ptr r o, K z => Some (set_f (set_r s d (Ptr r (o + z))) None None)
         | _, _ => arith s s0 d (fun a b => Some ((a + b) mod W64, (a + b) / W64)) end = Some s' -> exists v c z, s' = set_f (set_r s d v) c z).
      { clear. intros s s' H. unfold arith in H. repeat pub_case; eauto. }
      apply G in S. apply G in T. destruct S as (v & c & z & ->). destruct T as (v' & c' & z' & ->).
      destruct (pset a d false) eqn:E; [|discriminate P]. injection P as <-. apply low_z; [|discriminate]. eapply low_r; eauto. discriminate.
  - refine (arith_low a s t s0 d _ _ s' t' a' false L _ _ P S T); discriminate.
  - refine (arith_low a s t s0 d _ _ s' t' a' (ps a s0 && pr a d) L _ _ P S T); [apply and_true|reflexivity].
  - refine (arith_low a s t s0 d _ _ s' t' a' false L _ _ P S T); discriminate.
  - (* MUL *) repeat pub_case. apply low_z; [|discriminate]. eapply low_r; [eapply low_r; [exact L|eassumption|discriminate]|eassumption|discriminate].
  - (* XOR *) destruct s0 as [r|z].
    + destruct (Nat.eqb r d).
      * rewrite orb_true_r in P. repeat pub_case. apply low_z; [|reflexivity]. eapply low_r; eauto.
      * rewrite orb_false_r in P. refine (arith_low a s t (R r) d _ _ s' t' a' (ps a (R r) && pr a d) L _ _ P S T); [apply and_true|reflexivity].
    + rewrite orb_false_r in P. refine (arith_low a s t (K z) d _ _ s' t' a' (ps a (K z) && pr a d) L _ _ P S T); [apply and_true|reflexivity].
  - refine (arith_low a s t s0 d _ _ s' t' a' (ps a s0 && pr a d) L _ _ P S T); [apply and_true|reflexivity].
  - (* TEST *) destruct (sv s s0) as [u|] eqn:U1; [|discriminate S]. destruct (rdi s d) as [v|] eqn:V1; [|discriminate S].
    destruct (sv t s0) as [u'|] eqn:U2; [|discriminate T]. destruct (rdi t d) as [v'|] eqn:V2; [|discriminate T].
    injection S as <-. injection T as <-. injection P as <-. apply low_z; [exact L|]. intros B. apply and_true in B. destruct B as [B1 B2].
    pose proof (low_sv a s t s0 L B1). pose proof (low_rdi a s t d L B2). congruence.
  - repeat pub_case. apply low_z; [|discriminate]. eapply low_r; eauto. discriminate.
  - repeat pub_case. apply low_z; [|discriminate]. eapply low_r; eauto. discriminate.
  - repeat pub_case. apply low_z; [|discriminate]. eapply low_r; eauto. discriminate.
  - unfold cmov in S, T. repeat pub_case; eapply low_r; eauto; discriminate.
  - unfold cmov in S, T. repeat pub_case; eapply low_r; eauto; discriminate.
  - unfold cmov in S, T. repeat pub_case; eapply low_r; eauto; discriminate.
  - repeat pub_case. eapply low_r; eauto. discriminate.
  - (* DEC *) destruct (rdi s d) as [v|] eqn:V1; [|discriminate S]. destruct (rdi t d) as [v'|] eqn:V2; [|discriminate T].
    cbv zeta in S, T. repeat pub_case.
    assert (RR : pr a d = true -> v = v') by (intros Hb; pose proof (low_rdi a s t d L Hb); congruence).
    apply low_z; [|intros Hb; rewrite (RR Hb); reflexivity]. eapply low_r; eauto. intros Hb. rewrite (RR Hb). reflexivity.
  - repeat pub_case; exact L.
  - repeat pub_case; exact L.
  - repeat pub_case; exact L.
  - (* XSTF *) repeat pub_case; (eapply low_f; [eapply low_f; [exact L|eassumption|discriminate]|eassumption|discriminate]).
  - repeat pub_case; exact L.
  - repeat pub_case; exact L.
  - repeat pub_case; exact L.
  - repeat pub_case; exact L.
  - unfold vec in S, T. repeat pub_case; exact L.
  - unfold vec in S, T. repeat pub_case; exact L.
  - unfold vec in S, T. repeat pub_case; exact L.
  - repeat pub_case; exact L.
  - unfold vec in S, T. repeat pub_case; exact L.
  - unfold vec in S, T. repeat pub_case; exact L.
  - unfold vec in S, T. repeat pub_case; exact L.
  - repeat pub_case; exact L.
Qed.
Lemma acc_low i a s t a' : low a s t -> pstep i a = Some a' -> accesses i s = accesses i t.
Proof.
  intros L P.
  assert (G : forall b offs, pr a b = true -> at_ptr s b offs = at_ptr t b offs).
  { intros b offs H. unfold at_ptr. rewrite (low_rd a s t b L H). reflexivity. }
  destruct i; cbn [pstep accesses] in *; try reflexivity;
    (apply G; unfold only in P; destruct (pr a b); [reflexivity|discriminate P]).
Qed.
Lemma exec_low c : forall a s t s' t' a', low a s t -> pexec c a = Some a' -> exec c s = Some s' -> exec c t = Some t' ->
  low a' s' t' /\ trace_exec c s = trace_exec c t.
Proof.
  induction c as [|i c IH]; intros a s t s' t' a' L P S T; cbn [pexec exec trace_exec] in *.
  - injection P as <-. injection S as <-. injection T as <-. split; [exact L|reflexivity].
  - destruct (pstep i a) as [a1|] eqn:P1; [|discriminate P]. destruct (step i s) as [s1|] eqn:S1; [|discriminate S].
    destruct (step i t) as [t1|] eqn:T1; [|discriminate T].
    destruct (IH a1 s1 t1 s' t' a' (step_low i a s t s1 t1 a1 L P1 S1 T1) P S T) as [L' E]. split; [exact L'|].
    rewrite (acc_low i a s t a1 L P1), E. reflexivity.
Qed.
Lemma lands_leqs l : forall m, length l = length m -> leqs (lands l m) l = true.
Proof.
  induction l as [|x l IH]; intros [|y m] H; try discriminate H; [reflexivity|]. cbn [lands leqs]. rewrite IH by (cbn [length] in H; lia). destruct x, y; reflexivity.
Qed.
Lemma leqs_refl l : leqs l l = true.
Proof. induction l as [|x l IH]; [reflexivity|]. cbn [leqs]. rewrite IH. destruct x; reflexivity. Qed.
Lemma leqs_trans l : forall m n, leqs l m = true -> leqs m n = true -> leqs l n = true.
Proof.
  induction l as [|x l IH]; intros [|y m] [|z n] H K; try discriminate H; try discriminate K; [reflexivity|].
  cbn [leqs] in *. apply andb_true_iff in H. apply andb_true_iff in K. destruct H as [H1 H2], K as [K1 K2]. rewrite (IH m n H2 K2).
  destruct x, y, z; try discriminate H1; try discriminate K1; reflexivity.
Qed.
Lemma leq_refl a : leq a a = true.
Proof. unfold leq. rewrite !leqs_refl. destruct (p_z a); reflexivity. Qed.
Lemma leq_trans a b c : leq a b = true -> leq b c = true -> leq a c = true.
Proof.
  unfold leq. rewrite !andb_true_iff. intros [[[A1 A2] A3] A4] [[[B1 B2] B3] B4].
  rewrite (leqs_trans _ _ _ A1 B1), (leqs_trans _ _ _ A3 B3), (leqs_trans _ _ _ A4 B4). destruct (p_z a), (p_z b), (p_z c); try discriminate A2; try discriminate B2; auto.
Qed.
Definition plen (a b : pub) : Prop := length (p_r a) = length (p_r b) /\ length (p_f a) = length (p_f b) /\ length (p_a a) = length (p_a b).
Lemma pset_len a d b a' : pset a d b = Some a' -> plen a' a.
Proof. unfold pset. destruct (Nat.ltb_spec d (length (p_r a))); [|discriminate]. intros E. injection E as <-. unfold plen. cbn [p_r p_f p_a]. rewrite upd_len by assumption. auto. Qed.
Lemma pframe_len a d b a' : pframe a d b = Some a' -> plen a' a.
Proof. unfold pframe. destruct (Nat.ltb_spec (fidx d) (length (p_f a))); [|discriminate]. intros E. injection E as <-. unfold plen. cbn [p_r p_f p_a]. rewrite upd_len by assumption. auto. Qed.
Lemma plen_trans a b c : plen a b -> plen b c -> plen a c.
Proof. unfold plen. intros (A1 & A2 & A3) (B1 & B2 & B3). repeat split; congruence. Qed.
Lemma plen_refl a : plen a a. Proof. repeat split. Qed.
Lemma plen_z b a c : plen a c -> plen (pz b a) c. Proof. intros H. exact H. Qed.
Lemma pstep_len i a a' : pstep i a = Some a' -> plen a' a.
Proof.
  destruct i; cbn [pstep]; cbv zeta; intros P; repeat pub_case; repeat apply plen_z; try apply plen_refl;
    try solve [eapply pset_len; eassumption | eapply pframe_len; eassumption |
      eapply plen_trans; [eapply pset_len; eassumption|eapply pset_len; eassumption] |
      eapply plen_trans; [eapply pframe_len; eassumption|eapply pframe_len; eassumption]].
Qed.
Lemma pexec_len c : forall a a', pexec c a = Some a' -> plen a' a.
Proof.
  induction c as [|i c IH]; intros a a' P; cbn [pexec] in P; [injection P as <-; apply plen_refl|].
  destruct (pstep i a) as [a1|] eqn:P1; [|discriminate P]. exact (plen_trans _ _ _ (IH a1 a' P) (pstep_len i a a1 P1)).
Qed.
Lemma meet_leq a b : plen b a -> leq (meet a b) a = true.
Proof. intros (H1 & H2 & H3). unfold leq, meet. cbn [p_r p_z p_f p_a]. rewrite !lands_leqs by congruence. destruct (p_z a), (p_z b); reflexivity. Qed.
Lemma ploop_inv n : forall c a a', ploop n c a = Some a' -> exists inv, leq inv a = true /\ pexec c inv = Some a' /\ leq inv a' = true /\ p_z a' = true.
Proof.
  induction n as [|n IH]; intros c a a' H; [discriminate H|]. cbn [ploop] in H. destruct (pexec c a) as [a1|] eqn:E; [|discriminate H].
  destruct (leq a a1) eqn:Q.
  - unfold only in H. destruct (p_z a1) eqn:Z; [|discriminate H]. injection H as <-. exists a. repeat split; [apply leq_refl|exact E|exact Q|exact Z].
  - destruct (IH c _ a' H) as (inv & I1 & I2). exists inv. split; [|exact I2]. apply (leq_trans _ _ _ I1). apply meet_leq. exact (pexec_len c a a1 E).
Qed.
Lemma loop_low c inv a' : pexec c inv = Some a' -> leq inv a' = true -> p_z a' = true ->
  forall n s t s' t', low inv s t -> loop n c s = Some s' -> loop n c t = Some t' -> low a' s' t' /\ trace_loop n c s = trace_loop n c t.
Proof.
  intros E Q Z. induction n as [|n IH]; intros s t s' t' L S T; [discriminate S|]. cbn [loop trace_loop] in *.
  destruct (exec c s) as [s1|] eqn:S1; [|discriminate S]. destruct (exec c t) as [t1|] eqn:T1; [|discriminate T].
  destruct (exec_low c inv s t s1 t1 a' L E S1 T1) as [L1 E1]. rewrite E1.
  assert (ZZ : zf s1 = zf t1) by (apply L1; exact Z). rewrite <- ZZ in T. rewrite <- ZZ. destruct (zf s1) as [[|]|]; [| |discriminate S].
  - injection S as <-. injection T as <-. split; [exact L1|reflexivity].
  - destruct (IH s1 t1 s' t' (leq_low _ _ _ _ Q L1) S T) as [L2 E2]. rewrite E2. split; [exact L2|reflexivity].
Qed.
Lemma item_low it a s t s' t' a' : low a s t -> pitem it a = Some a' -> step_item it s = Some s' -> step_item it t = Some t' ->
  low a' s' t' /\ trace_item it s = trace_item it t.
Proof.
  intros L P S T. destruct it as [i|c|c]; cbn [pitem step_item trace_item] in *.
  - split; [exact (step_low i a s t s' t' a' L P S T)|]. rewrite (acc_low i a s t a' L P). reflexivity.
  - destruct (ploop_inv 20 c a a' P) as (inv & I1 & I2 & I3 & I4). exact (loop_low c inv a' I2 I3 I4 200 s t s' t' (leq_low _ _ _ _ I1 L) S T).
  - exact (exec_low c a s t s' t' a' L P S T).
Qed.
Lemma run_low c : forall a s t s' t' a', low a s t -> prun c a = Some a' -> run c s = Some s' -> run c t = Some t' -> trace c s = trace c t.
Proof.
  induction c as [|it c IH]; intros a s t s' t' a' L P S T; cbn [prun run trace] in *; [reflexivity|].
  destruct (pitem it a) as [a1|] eqn:P1; [|discriminate P]. destruct (step_item it s) as [s1|] eqn:S1; [|discriminate S].
  destruct (step_item it t) as [t1|] eqn:T1; [|discriminate T].
  destruct (item_low it a s t s1 t1 a1 L P1 S1 T1) as [L1 E1]. rewrite E1. f_equal. exact (IH a1 s1 t1 s' t' a' L1 P S T).
Qed.
(** the analysis starts with everything undefined, hence equal, and the given arguments *)
Definition pub0 (frame : nat) (public : list nat) : pub :=
  Pb (repeat true 15) true (repeat true frame) (map (fun k => existsb (Nat.eqb k) public) (seq 0 20)).
Theorem analysis_sound frame public code : (exists a, prun code (pub0 frame public) = Some a) -> oblivious frame public code.
Proof.
  intros [a P] h h' al al' args args' st st' HA S T. apply (run_low code (pub0 frame public) _ _ st st' a); [|exact P|exact S|exact T].
  unfold low, pub0, init, rd. cbn [rg fr zf ar p_r p_z p_f p_a]. split; [split; reflexivity|]. split; [rewrite !repeat_length; split; reflexivity|].
  split; [reflexivity|]. split; [reflexivity|]. split; [reflexivity|]. intros k K. apply HA.
  destruct (Nat.ltb_spec k 20) as [L|L].
  - rewrite (nth_indep _ false (existsb (Nat.eqb 0%nat) public)) in K by (rewrite map_length, seq_length; exact L).
    rewrite (map_nth (fun k => existsb (Nat.eqb k) public)), seq_nth in K by exact L. apply existsb_exists in K.
    destruct K as (x & X & E). apply Nat.eqb_eq in E. cbn in E. subst x. exact X.
  - rewrite nth_overflow in K by (rewrite map_length, seq_length; exact L). discriminate K.
Qed.
