(** The vector operations whose lanes do different things, in the specification vocabulary. *)
From Coq Require Import ZArith List Bool Lia.
From Verif Require Import Uop Poly Sym Engine Check Bytes FullTac Simd Simd255 Simd448 Lanes RedTac Moves
  X86 Asm25519 Asm448 Fp25519Full Fp448Full Fp25519Red Fp448Red Fp25519FullProofs Fp448FullProofs Fp25519RedProofs Fp25519RedMore
  Fp25519RedRoot Fp448RedProofs Fp448RedMore Fp448RedRoot FullMore Spec SpecVec RedProps.
Import ListNotations.
Open Scope Z_scope.
Local Opaque call.

Lemma l255 f b a : b = map (fun k => (0, f (limb_index 10 k))) (seq 0 10) -> limbs_below 10 f a -> arr_ok b a.
Proof. intros E H. exact (proj2 (below_ok _ _ _ _ E) H). Qed.
Lemma mixed_ngz_2w st a : lanes 2 10 reduced255 a -> let r := ngz_2w st a in
  eqm P25519 (value255 (lane 2 10 0 r)) (- value255 (lane 2 10 0 a)) /\
  eqm P25519 (value255 (lane 2 10 1 r)) (value255 (lane 2 10 1 a)) /\
  limbs_below 10 unreduced255 (lane 2 10 0 r) /\ limbs_below 10 reduced255 (lane 2 10 1 r).
Proof.
  intros [L H] r. pose proof (H 0%nat ltac:(lia)) as H0. pose proof (H 1%nat ltac:(lia)) as H1.
  rewrite !value255_ok by apply lane_length. rewrite !lane2 in * by lia.
  destruct (ngz_2w_ok st a L (l255 _ _ _ red255_below H0) (l255 _ _ _ red255_below H1)) as (V0 & V1 & B0 & B1).
  split; [exact (cg_eqm _ _ V0)|]. split; [exact (cg_eqm _ _ V1)|].
  split; [exact (proj1 (below_ok _ _ _ _ wide255_below) B0)|exact (proj1 (below_ok _ _ _ _ red255_below) B1)].
Qed.
Lemma mixed_subadd_2w st perm a : lanes 2 10 reduced255 a -> let r := subadd_2w st perm a in
  let x := value255 (lane 2 10 0 a) in let y := value255 (lane 2 10 1 a) in
  eqm P25519 (value255 (lane 2 10 0 r)) (if perm then y - x else x - y) /\
  eqm P25519 (value255 (lane 2 10 1 r)) (x + y) /\
  limbs_below 10 unreduced255 (lane 2 10 0 r) /\ limbs_below 10 unreduced255 (lane 2 10 1 r).
Proof.
  intros [L H] r. pose proof (H 0%nat ltac:(lia)) as H0. pose proof (H 1%nat ltac:(lia)) as H1. cbv zeta.
  rewrite !value255_ok by apply lane_length. rewrite !lane2 in * by lia.
  destruct (subadd_2w_ok st perm a L (l255 _ _ _ red255_below H0) (l255 _ _ _ red255_below H1)) as (V0 & V1 & B0 & B1).
  split; [exact (cg_eqm _ _ V0)|]. split; [exact (cg_eqm _ _ V1)|].
  split; [exact (proj1 (below_ok _ _ _ _ wide255_below) B0)|exact (proj1 (below_ok _ _ _ _ wide255_below) B1)].
Qed.
Lemma mixed_ngz_4w st a : lanes 4 10 reduced255 a -> let r := ngz_4w st a in
  eqm P25519 (value255 (lane 4 10 0 r)) (value255 (lane 4 10 1 a)) /\
  eqm P25519 (value255 (lane 4 10 1 r)) (value255 (lane 4 10 0 a)) /\
  eqm P25519 (value255 (lane 4 10 2 r)) (- value255 (lane 4 10 2 a)) /\
  eqm P25519 (value255 (lane 4 10 3 r)) (value255 (lane 4 10 3 a)) /\
  limbs_below 10 reduced255 (lane 4 10 0 r) /\ limbs_below 10 reduced255 (lane 4 10 1 r) /\
  limbs_below 10 unreduced255 (lane 4 10 2 r) /\ limbs_below 10 reduced255 (lane 4 10 3 r).
Proof.
  intros [L H] r. rewrite !value255_ok by apply lane_length. rewrite !lane4 in *.
  destruct (ngz_4w_ok st a L (fun j Hj => l255 _ _ _ red255_below (H j Hj))) as (V0 & V1 & V2 & V3 & B0 & B1 & B2 & B3).
  split; [exact (cg_eqm _ _ V0)|]. split; [exact (cg_eqm _ _ V1)|]. split; [exact (cg_eqm _ _ V2)|]. split; [exact (cg_eqm _ _ V3)|].
  split; [exact (proj1 (below_ok _ _ _ _ red255_below) B0)|]. split; [exact (proj1 (below_ok _ _ _ _ red255_below) B1)|].
  split; [exact (proj1 (below_ok _ _ _ _ wide255_below) B2)|exact (proj1 (below_ok _ _ _ _ red255_below) B3)].
Qed.

Lemma l448 f b a : b = map (fun k => (0, f (limb_index 16 k))) (seq 0 16) -> limbs_below 16 f a -> arr_ok b a.
Proof. intros E H. exact (proj2 (below_ok _ _ _ _ E) H). Qed.
Lemma mixed_ngz448_2w st a : lanes 2 16 reduced448 a -> let r := ngz448_2w st a in
  eqm P448 (value448 (lane 2 16 0 r)) (- value448 (lane 2 16 0 a)) /\
  eqm P448 (value448 (lane 2 16 1 r)) (value448 (lane 2 16 1 a)) /\
  limbs_below 16 differed448 (lane 2 16 0 r) /\ limbs_below 16 reduced448 (lane 2 16 1 r).
Proof.
  intros [L H] r. pose proof (H 0%nat ltac:(lia)) as H0. pose proof (H 1%nat ltac:(lia)) as H1.
  rewrite !value448_ok by apply lane_length. rewrite !lane2 in * by lia.
  destruct (ngz448_2w_ok st a L (l448 _ _ _ red448_below H0) (l448 _ _ _ red448_below H1)) as (V0 & V1 & B0 & B1).
  split; [exact (cq_eqm _ _ V0)|]. split; [exact (cq_eqm _ _ V1)|].
  split; [exact (proj1 (below_ok _ _ _ _ wide448_below) B0)|exact (proj1 (below_ok _ _ _ _ red448_below) B1)].
Qed.
Lemma mixed_subadd448_2w st perm a : lanes 2 16 reduced448 a -> let r := subadd448_2w st perm a in
  let x := value448 (lane 2 16 0 a) in let y := value448 (lane 2 16 1 a) in
  eqm P448 (value448 (lane 2 16 0 r)) (if perm then y - x else x - y) /\
  eqm P448 (value448 (lane 2 16 1 r)) (x + y) /\
  limbs_below 16 differed448 (lane 2 16 0 r) /\ limbs_below 16 differed448 (lane 2 16 1 r).
Proof.
  intros [L H] r. pose proof (H 0%nat ltac:(lia)) as H0. pose proof (H 1%nat ltac:(lia)) as H1. cbv zeta.
  rewrite !value448_ok by apply lane_length. rewrite !lane2 in * by lia.
  destruct (subadd448_2w_ok st perm a L (l448 _ _ _ red448_below H0) (l448 _ _ _ red448_below H1)) as (V0 & V1 & B0 & B1).
  split; [exact (cq_eqm _ _ V0)|]. split; [exact (cq_eqm _ _ V1)|].
  split; [exact (proj1 (below_ok _ _ _ _ wide448_below) B0)|exact (proj1 (below_ok _ _ _ _ wide448_below) B1)].
Qed.
Lemma mixed_ngz448_4w st a : lanes 4 16 reduced448 a -> let r := ngz448_4w st a in
  eqm P448 (value448 (lane 4 16 0 r)) (value448 (lane 4 16 1 a)) /\
  eqm P448 (value448 (lane 4 16 1 r)) (value448 (lane 4 16 0 a)) /\
  eqm P448 (value448 (lane 4 16 2 r)) (- value448 (lane 4 16 2 a)) /\
  eqm P448 (value448 (lane 4 16 3 r)) (value448 (lane 4 16 3 a)) /\
  limbs_below 16 reduced448 (lane 4 16 0 r) /\ limbs_below 16 reduced448 (lane 4 16 1 r) /\
  limbs_below 16 differed448 (lane 4 16 2 r) /\ limbs_below 16 reduced448 (lane 4 16 3 r).
Proof.
  intros [L H] r. rewrite !value448_ok by apply lane_length. rewrite !lane4 in *.
  destruct (ngz448_4w_ok st a L (fun j Hj => l448 _ _ _ red448_below (H j Hj))) as (V0 & V1 & V2 & V3 & B0 & B1 & B2 & B3).
  split; [exact (cq_eqm _ _ V0)|]. split; [exact (cq_eqm _ _ V1)|]. split; [exact (cq_eqm _ _ V2)|]. split; [exact (cq_eqm _ _ V3)|].
  split; [exact (proj1 (below_ok _ _ _ _ red448_below) B0)|]. split; [exact (proj1 (below_ok _ _ _ _ red448_below) B1)|].
  split; [exact (proj1 (below_ok _ _ _ _ wide448_below) B2)|exact (proj1 (below_ok _ _ _ _ red448_below) B3)].
Qed.
