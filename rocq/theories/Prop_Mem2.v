(** * Prop_Mem2: the theorems on Vrf with memory, for the group of Prop_VRF3 *)
From Coq Require Import ZArith String List Bool Lia.
From Verif Require Import Base BaseFacts Curves ECKey Keypair VRF Prop_VRF3 Mem Prop_Mem.
Import ListNotations.
Open Scope Z_scope.

Definition m_heap : heap := [[104; 101; 121]].
Definition m_msg : sl := {| s_arr := 0; s_off := 0; s_len := 3; s_cap := 3 |}.
Definition m_nizk : sl := {| s_arr := 1; s_off := 0; s_len := 64; s_cap := 131 |}.
Definition m_vrf : sl := {| s_arr := 1; s_off := 64; s_len := 65; s_cap := 67 |}.
Lemma m_run : forall rng sha, VrfM vhash sha vsbm vsm [6; 6] 1 rng (Ok vr) m_heap (SkEC 1 5 vkey) m_msg =
  Val (m_heap ++ [(vproof ++ vout) ++ [6; 6]], Ok (m_vrf, m_nizk)).
Proof.
  intros rng sha. unfold VrfM. change (getHash (pk_curve vkey)) with (Some HSM3). cbv iota beta zeta.
  unfold Evaluate. cbv zeta. change (negb (byteLen (pk_curve vkey) =? hSize HSM3)) with false. cbv iota.
  change (Marshal (pk_curve vkey) (pk_X vkey, pk_Y vkey)) with (Val vout). cbn [bind].
  change (pk_curve vkey) with SM2P256V1. rewrite v_curve. cbn [bind]. vm_compute. reflexivity.
Qed.
Lemma inj_res : forall A B (a a' : A) (b b' : B), Val (Ok (a, b)) = Val (Ok (a', b')) -> a = a' /\ b = b'.
Proof. intros. split; congruence. Qed.
Example C59_vrf_example : forall (rng rng' : Z -> list Z) sha slack,
  let hp := m_heap ++ [(vproof ++ vout) ++ [6; 6]] in
  view hp m_nizk = vproof /\ view hp m_vrf = vout /\
  exists hp', VerifyM vhash sha vsbm vsm vadd von slack 1 rng' hp (PkEC 1 vkey) m_msg m_vrf m_nizk = Val (hp', (true, None)) /\
  forall i p, (i < 2)%nat -> cell hp' i p = cell hp i p.
Proof.
  intros rng rng' sha slack hp.
  destruct (C59_vrf_slices vhash sha vsbm vsm [6; 6] 1 rng (Ok vr) m_heap 1 5 vkey m_msg _ _ _ (m_run rng sha)) as (V & J & F1 & F2 & _).
  fold hp in V, F1, F2. rewrite v_vrf in V. apply inj_res in V as [V1 V2]. split; [symmetry; exact V2|]. split; [symmetry; exact V1|].
  destruct (C59_verify_own_output vhash sha vsbm vsm vadd von slack 1 rng' hp 1 vkey HSM3 m_msg m_vrf m_nizk J) as [S R]; auto.
  - unfold fits. cbn. lia.
  - rewrite <- V1, <- V2, (C52_example rng rng') in R.
    destruct (VerifyM _ _ _ _ _ _ _ _ _ _ _ _ _ _) as [[hp' r]| |]; [|discriminate|discriminate].
    cbn [onfst] in R. exists hp'. split; [congruence|]. exact (S hp' r eq_refl).
Qed.
