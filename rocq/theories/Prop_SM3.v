(** * Prop_SM3: properties C01, C02, C03 *)
From Coq Require Import ZArith String List Lia.
From Verif Require Import Base SM3 Spec_SM3 SM3Hist SM3Facts.
Import ListNotations.
Open Scope Z_scope.

(** C01: chunking independence and conformance with GB/T 32905. *)
Theorem C01_sm3_any_chunking : forall (chunks : list (list Z)) (prefix : list Z),
  Forall (Forall (fun b => 0 <= b < 256)) chunks ->
  Z.of_nat (length (concat chunks)) < 2 ^ 61 ->
  exists d, run New (map OpWrite chunks ++ [OpSum prefix]) =
    Val (map (fun p => ObsWrite (Z.of_nat (length p))) chunks
           ++ [ObsSum (prefix ++ sm3_hash (concat chunks))], d).
Proof. exact writes_sum. Qed.
Print Assumptions C01_sm3_any_chunking.

Theorem C01_sm3_sum_function : forall m : list Z,
  Forall (fun b => 0 <= b < 256) m -> Z.of_nat (length m) < 2 ^ 61 ->
  Sum m = Val (sm3_hash m).
Proof. exact sum_hash. Qed.
Print Assumptions C01_sm3_sum_function.

(** "abc" written as "a", "", "bc". *)
Example C01_example :
  let chunks := [[97]; []; [98; 99]] in
  Forall (Forall (fun b => 0 <= b < 256)) chunks /\
  Z.of_nat (length (concat chunks)) < 2 ^ 61 /\
  concat chunks = [97; 98; 99] /\
  (match run New (map OpWrite chunks ++ [OpSum [7]]) with
   | Val (obs, _) => nth 3 obs ObsReset = ObsSum (7 :: sm3_hash [97; 98; 99])
   | _ => False
   end).
Proof.
  cbv zeta. split; [repeat constructor; lia|]. split; [reflexivity|]. split; [reflexivity|].
  vm_compute. reflexivity.
Qed.

(** C02: observations of any history depend only on what was written since the
    last Reset; Sum has no effect on later observations. *)
Theorem C02_sm3_histories : forall ops : list op,
  ops_wf ops -> ops_short 0 ops ->
  exists d, run New ops = Val (expected [] ops, d).
Proof. intros. apply run_expected; auto. exact repr_new. Qed.
Print Assumptions C02_sm3_histories.

Example C02_example :
  let ops := [OpWrite [1; 2]; OpSum []; OpWrite [3]; OpReset; OpWrite [97]; OpSum [9]; OpWrite [98; 99]; OpSum []] in
  ops_wf ops /\ ops_short 0 ops /\
  nth 7 (expected [] ops) ObsReset = ObsSum (sm3_hash [97; 98; 99]).
Proof. cbn [ops_wf ops_short length]. repeat split; repeat constructor; try lia. Qed.

(** C03: no panic, no length bound; 32-byte digests; Write reports the full length. *)
Theorem C03_sm3_total : forall ops : list op, ops_wf ops ->
  exists obs d, run New ops = Val (obs, d) /\ Forall2 obs_ok ops obs.
Proof. intros. eapply run_total; eauto. exact repr_new. Qed.
Print Assumptions C03_sm3_total.

Example C03_example :
  ops_wf [OpWrite (repeat 255 200); OpSum [1]; OpReset; OpSum []].
Proof. cbn [ops_wf]. repeat split. apply Forall_forall. intros b H. apply repeat_spec in H. lia. Qed.
