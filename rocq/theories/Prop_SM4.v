(** * Prop_SM4: properties C04, C05, C06 *)
From Coq Require Import ZArith String List Lia.
From Verif Require Import Base SM4 Spec_SM4 SM4Facts.
Import ListNotations.
Open Scope Z_scope.

(** C04: for every key and block, decryption undoes encryption and conversely. *)
Theorem C04_sm4_round_trip : forall key block buf buf' : list Z,
  length key = 16%nat ->
  length block = 16%nat -> Forall (fun b => 0 <= b < 256) block ->
  length buf = 16%nat -> length buf' = 16%nat ->
  exists c, NewCipher key = inl c /\
    (exists ct, Encrypt c buf block = Val ct /\ length ct = 16%nat /\ Decrypt c buf' ct = Val block) /\
    (exists pt, Decrypt c buf block = Val pt /\ length pt = 16%nat /\ Encrypt c buf' pt = Val block).
Proof.
  intros key block buf buf' Hk Hb Hw H1 H2. exists (generateSubkeys key).
  split. { unfold NewCipher, zlen. rewrite Hk. reflexivity. }
  assert (L : length (generateSubkeys key) = 32%nat) by apply generateSubkeys_length.
  destruct (crypt_inverse (generateSubkeys key) buf buf' block false L Hb Hw H1) as (ct & A & B & _ & C); [lia|].
  destruct (crypt_inverse (generateSubkeys key) buf buf' block true L Hb Hw H1) as (pt & A' & B' & _ & C'); [lia|].
  rewrite skipn_all2, app_nil_r in C by lia. rewrite skipn_all2, app_nil_r in C' by lia.
  split; [exists ct|exists pt]; auto.
Qed.
Print Assumptions C04_sm4_round_trip.

Example C04_example :
  let key := map Z.of_nat (seq 3 16) in let block := map Z.of_nat (seq 240 16) in
  length key = 16%nat /\ length block = 16%nat /\ Forall (fun b => 0 <= b < 256) block.
Proof. cbv zeta. split; [reflexivity|]. split; [reflexivity|]. cbn. repeat constructor; lia. Qed.

(** C05: the code computes the cipher of GB/T 32907 (algebraic S-box). *)
Theorem C05_sm4_conforms : forall key block dst : list Z,
  length key = 16%nat -> Forall (fun b => 0 <= b < 256) key ->
  length block = 16%nat -> Forall (fun b => 0 <= b < 256) block ->
  (16 <= length dst)%nat ->
  exists c, NewCipher key = inl c /\
    Encrypt c dst block = Val (sm4_encrypt key block ++ skipn 16 dst) /\
    Decrypt c dst block = Val (sm4_decrypt key block ++ skipn 16 dst).
Proof.
  intros key block dst Hk Hwk Hb Hwb Hd. exists (generateSubkeys key).
  split. { unfold NewCipher, zlen. rewrite Hk. reflexivity. }
  split; [apply (sm4_conform key block dst false)|apply (sm4_conform key block dst true)]; auto.
Qed.
Print Assumptions C05_sm4_conforms.

(** the standard's own vector, executed by the model *)
Example C05_example :
  let k := [0x01; 0x23; 0x45; 0x67; 0x89; 0xab; 0xcd; 0xef; 0xfe; 0xdc; 0xba; 0x98; 0x76; 0x54; 0x32; 0x10] in
  match NewCipher k with
  | inl c => Encrypt c (repeat 0 18) k =
     Val [0x68; 0x1e; 0xdf; 0x34; 0xd2; 0x06; 0x96; 0x5e; 0x86; 0xb3; 0xe9; 0x4f; 0x53; 0x6e; 0x42; 0x46; 0; 0]
  | inr _ => False
  end.
Proof. vm_compute. reflexivity. Qed.

(** C06: which arguments are accepted.  A key is accepted iff it has 16 bytes, the
    error reports the length; blocks and buffers under 16 bytes panic; longer
    source blocks use only the first 16 bytes; bytes of dst after 16 are kept. *)
Theorem C06_sm4_arguments : forall key : list Z,
  (length key <> 16%nat -> NewCipher key = inr (Z.of_nat (length key))) /\
  (length key = 16%nat -> exists c, NewCipher key = inl c /\
     (forall dst src, ((length src < 16)%nat \/ (length dst < 16)%nat ->
         (exists w, Encrypt c dst src = Panic w) /\ (exists w, Decrypt c dst src = Panic w)) /\
       ((16 <= length src)%nat -> (16 <= length dst)%nat ->
         (exists out, length out = 16%nat /\ Encrypt c dst src = Val (out ++ skipn 16 dst) /\
             Encrypt c (firstn 16 dst) (firstn 16 src) = Val out) /\
         (exists out, length out = 16%nat /\ Decrypt c dst src = Val (out ++ skipn 16 dst) /\
             Decrypt c (firstn 16 dst) (firstn 16 src) = Val out)))).
Proof.
  intros key. split.
  - intros H. unfold NewCipher, zlen. replace (Z.of_nat (length key) =? 16) with false; auto.
    symmetry; apply Z.eqb_neq; lia.
  - intros H. exists (generateSubkeys key). split. { unfold NewCipher, zlen. rewrite H. reflexivity. }
    intros dst src. split.
    + intros B. split; eexists; apply cryptBlock_panic; auto.
    + intros B1 B2.
      assert (E : forall dec, exists out, length out = 16%nat /\
          cryptBlock (generateSubkeys key) dst src dec = Val (out ++ skipn 16 dst) /\
          cryptBlock (generateSubkeys key) (firstn 16 dst) (firstn 16 src) dec = Val out).
      { intros dec. rewrite cryptBlock_ok by auto. eexists. split; [apply store_words_length|].
        split; [reflexivity|]. rewrite cryptBlock_ok by (rewrite firstn_length; lia).
        rewrite (skipn_all2 (firstn 16 dst)) by (rewrite firstn_length; lia). rewrite app_nil_r.
        rewrite load_firstn; auto. }
      split; [apply (E false)|apply (E true)].
Qed.
Print Assumptions C06_sm4_arguments.

Example C06_example :
  NewCipher (repeat 7 24) = inr 24 /\
  (exists c, NewCipher (repeat 7 16) = inl c /\
     (exists w, Encrypt c (repeat 0 15) (repeat 1 16) = Panic w) /\
     (exists w, Encrypt c (repeat 0 16) (repeat 1 15) = Panic w)).
Proof.
  split; [reflexivity|]. eexists. split; [vm_compute; reflexivity|].
  split; eexists; vm_compute; reflexivity.
Qed.
