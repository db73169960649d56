(** * SM3Hist: histories of operations on an SM3 hash object *)
From Coq Require Import ZArith String List Bool Lia.
From Verif Require Import Base BaseFacts Words SM3 Spec_SM3 SM3Facts.
Import ListNotations.
Open Scope Z_scope.

(** What the user expects to observe: every Sum returns its argument followed
    by the standard hash of the bytes written since the last Reset. *)
Fixpoint expected (m : bytes) (ops : list op) : list obs :=
  match ops with
  | [] => []
  | OpWrite p :: r => ObsWrite (Z.of_nat (length p)) :: expected (m ++ p) r
  | OpSum i :: r => ObsSum (i ++ sm3_hash m) :: expected m r
  | OpReset :: r => ObsReset :: expected [] r
  end.

(** every Write argument is a byte string *)
Fixpoint ops_wf (ops : list op) : Prop :=
  match ops with
  | [] => True
  | OpWrite p :: r => Forall (fun b => 0 <= b < 256) p /\ ops_wf r
  | _ :: r => ops_wf r
  end.

(** at every Sum fewer than 2^61 bytes (2^64 bits) have been written since Reset *)
Fixpoint ops_short (n : Z) (ops : list op) : Prop :=
  match ops with
  | [] => True
  | OpWrite p :: r => ops_short (n + Z.of_nat (length p)) r
  | OpSum _ :: r => n < 2 ^ 61 /\ ops_short n r
  | OpReset :: r => ops_short 0 r
  end.

Lemma run_expected : forall ops d m, repr d m -> ops_wf ops -> ops_short (zlen m) ops ->
  exists d', run d ops = Val (expected m ops, d').
Proof.
  induction ops as [|o ops IH]; intros d m R W S.
  - exists d. reflexivity.
  - destruct o as [p|i|]; cbn [run step expected ops_wf ops_short] in *.
    + destruct W as [W1 W2]. destruct (write_spec d m p R W1) as (d1 & E & R1).
      rewrite E. cbn [bind].
      destruct (IH d1 (m ++ p) R1 W2) as (d2 & E2).
      { rewrite zlen_app. exact S. }
      rewrite E2. cbn [bind]. eexists. reflexivity.
    + destruct S as [S1 S2]. unfold SumMethod. rewrite (checkSum_hash d m R S1). cbn [bind].
      destruct (IH d m R W S2) as (d2 & E2). rewrite E2. cbn [bind]. eexists; reflexivity.
    + destruct (IH (Reset d) [] (repr_reset d (repr_x d m R)) W S) as (d2 & E2).
      cbn [bind]. rewrite E2. cbn [bind]. eexists; reflexivity.
Qed.

(** shape of an observation, without any length bound *)
Definition obs_ok (o : op) (ob : obs) : Prop :=
  match o, ob with
  | OpWrite p, ObsWrite n => n = Z.of_nat (length p)
  | OpSum i, ObsSum out =>
      exists dg, out = i ++ dg /\ length dg = 32%nat /\ Forall (fun b => 0 <= b < 256) dg
  | OpReset, ObsReset => True
  | _, _ => False
  end.

Lemma run_total : forall ops d m, repr d m -> ops_wf ops ->
  exists obs d', run d ops = Val (obs, d') /\ Forall2 obs_ok ops obs.
Proof.
  induction ops as [|o ops IH]; intros d m R W.
  - exists [], d. split; [reflexivity|constructor].
  - destruct o as [p|i|]; cbn [run step ops_wf] in *.
    + destruct W as [W1 W2]. destruct (write_spec d m p R W1) as (d1 & E & R1).
      rewrite E. cbn [bind]. destruct (IH d1 _ R1 W2) as (ob & d2 & E2 & F).
      rewrite E2. cbn [bind]. exists (ObsWrite (zlen p) :: ob), d2.
      split; [reflexivity|constructor; auto; reflexivity].
    + unfold SumMethod. destruct (checkSum_shape d m R) as (out & E & L & Wf). rewrite E. cbn [bind].
      destruct (IH d m R W) as (ob & d2 & E2 & F). rewrite E2. cbn [bind].
      eexists _, d2. split; [reflexivity|]. constructor; auto.
      exists out; auto.
    + cbn [bind]. destruct (IH (Reset d) [] (repr_reset d (repr_x d m R)) W) as (ob & d2 & E2 & F).
      rewrite E2. cbn [bind]. eexists _, d2. split; [reflexivity|constructor; auto; exact I].
Qed.

Lemma expected_writes : forall chunks m prefix,
  expected m (map OpWrite chunks ++ [OpSum prefix])
  = map (fun p => ObsWrite (Z.of_nat (length p))) chunks ++ [ObsSum (prefix ++ sm3_hash (m ++ concat chunks))].
Proof.
  induction chunks as [|c cs IH]; intros; simpl.
  - rewrite app_nil_r. reflexivity.
  - rewrite IH, <- app_assoc. reflexivity.
Qed.

Lemma ops_wf_writes : forall chunks prefix, Forall wf_bytes chunks ->
  ops_wf (map OpWrite chunks ++ [OpSum prefix]).
Proof. induction chunks; simpl; intros; auto. inversion H; subst; split; auto. Qed.
Lemma ops_short_writes : forall chunks prefix n, n + zlen (concat chunks) < 2 ^ 61 ->
  ops_short n (map OpWrite chunks ++ [OpSum prefix]).
Proof.
  induction chunks as [|c cs IH]; intros prefix n H.
  - simpl concat in H. rewrite zlen_nil in H. simpl. split; auto. lia.
  - cbn [map app ops_short]. apply IH. cbn [concat] in H. rewrite zlen_app in H. unfold zlen in *. lia.
Qed.

Lemma writes_sum : forall chunks prefix, Forall wf_bytes chunks -> zlen (concat chunks) < 2 ^ 61 ->
  exists d, run New (map OpWrite chunks ++ [OpSum prefix]) =
    Val (map (fun p => ObsWrite (Z.of_nat (length p))) chunks
           ++ [ObsSum (prefix ++ sm3_hash (concat chunks))], d).
Proof.
  intros. destruct (run_expected (map OpWrite chunks ++ [OpSum prefix]) New [] repr_new) as (d & E).
  - apply ops_wf_writes; auto.
  - apply ops_short_writes. rewrite zlen_nil. lia.
  - exists d. rewrite E, expected_writes. reflexivity.
Qed.

Lemma sum_hash : forall m, wf_bytes m -> zlen m < 2 ^ 61 -> Sum m = Val (sm3_hash m).
Proof.
  intros m W S. unfold Sum.
  destruct (write_spec _ [] m (repr_reset (mkDigest (0, 0, 0, 0, 0, 0, 0, 0) (repeat 0 64) 0 0) eq_refl) W)
    as (d & E & R).
  rewrite E. cbn [bind]. apply (checkSum_hash d m); auto.
Qed.
