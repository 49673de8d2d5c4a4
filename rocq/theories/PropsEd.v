(** Property theorems about edwards25519 (C43). *)
From Coq Require Import ZArith List.
From Verif Require Import Uop Engine Bytes SpecVec SpecEd SpecEdVec Edwards255 Verify255 EdProps.
Import ListNotations.
Open Scope Z_scope.

(** ** C43: the point formulas compute the group law, for all points and all representations *)
(** The specification is a commutative group, and coordinates determine the point. *)
Theorem C43_group :
  (forall P Q, on255 P -> on255 Q -> on255 (add255 P Q)) /\ (forall P Q, on255 P -> on255 Q -> add255 P Q = add255 Q P) /\
  (forall P Q R, on255 P -> on255 Q -> on255 R -> add255 P (add255 Q R) = add255 (add255 P Q) R) /\
  (forall P, on255 P -> add255 P (0, 1) = P) /\ (forall P, on255 P -> on255 (neg255 P) /\ add255 P (neg255 P) = (0, 1)) /\
  (forall X Y W T P Q, on255 P -> on255 Q -> reps255 X Y W T P -> reps255 X Y W T Q -> P = Q).
Proof. exact group_law. Qed.
Theorem C43_doubling_1w_full : forall st k p P, point_full255 (cX p) (cY p) (cZ p) (cT p) P ->
  let r := doubling_1w_full st k p in point_full255 (cX r) (cY r) (cZ r) (cT r) (add255 P P).
Proof. exact dblfull_spec. Qed.
Theorem C43_fulladd_1w_full : forall st k p q P Q, point_full255 (cX p) (cY p) (cZ p) (cT p) P -> point_full255 (cX q) (cY q) (cZ q) (cT q) Q ->
  let r := fulladd_1w_full st k p q in point_full255 (cX r) (cY r) (cZ r) (cT r) (add255 P Q).
Proof. exact addfull_spec. Qed.
Theorem C43_mixadd_4way : forall st p e Ps Qs, points255 4 (cX p) (cY p) (cZ p) (cT p) Ps -> entries255 (addYX e) (subYX e) (dYX e) Qs ->
  let r := mixadd_4way st p e in points255 4 (cX r) (cY r) (cZ r) (cT r) (fun j => add255 (Ps j) (Qs j)).
Proof. exact mix4way_spec. Qed.
Theorem C43_fulladd_2way : forall st p q Ps Qs, points255 2 (cX p) (cY p) (cZ p) (cT p) Ps -> points255 2 (cX q) (cY q) (cZ q) (cT q) Qs ->
  let r := fulladd_2way st p q in points255 2 (cX r) (cY r) (cZ r) (cT r) (fun j => add255 (Ps j) (Qs j)).
Proof. exact add2way_spec. Qed.
Theorem C43_doubling_2w : forall st sky p P, point_2w255 (fst p) (snd p) P ->
  point_2w255 (fst (doubling_2w st sky p)) (snd (doubling_2w st sky p)) (add255 P P).
Proof. exact dbl2_spec. Qed.
Theorem C43_fulladd_2w : forall st sky p q P Q, point_2w255 (fst p) (snd p) P -> point_2w255 (fst q) (snd q) Q ->
  point_2w255 (fst (fulladd_2w st sky p q)) (snd (fulladd_2w st sky p q)) (add255 P Q).
Proof. exact add2_spec. Qed.
Theorem C43_mixadd_2w : forall st sky q e Q P, point_2w255 (fst q) (snd q) Q -> entry_2w255 (fst e) (snd e) P ->
  point_2w255 (fst (mixadd_2w st sky q e)) (snd (mixadd_2w st sky q e)) (add255 Q P).
Proof. exact mix2_spec. Qed.
Theorem C43_doubling_4w : forall st q P, point_4w255 q P -> point_4w255 (doubling_4w st q) (add255 P P).
Proof. exact dbl4_spec. Qed.
(** The four-lane mixed addition of verification is wrong for some representations of some points: the constant added to avoid borrows,
    called CONST_2_to_35P_4w, is 2^34 p, half of what is needed. *)
Theorem C43_mixadd_4w_refuted : exists st q e Q P, point_4w255 q Q /\ entry_4w255 e P /\ ~ point_4w255 (mixadd_4w st q e) (add255 Q P).
Proof. exact mix4_refuted. Qed.
(** It is right whenever no limb of (y1-x1)(y2-x2) exceeds that of (y1+x1)(y2+x2) + 2^34 p; the products are those formed by the code. *)
Theorem C43_mixadd_4w_partial : forall st q e Q P, point_4w255 q Q -> entry_4w255 e P ->
  (forall i, (i < 10)%nat -> nth i (lane 4 10 0 (mix_ABCD st q e)) 0 <= nth i (lane 4 10 1 (mix_ABCD st q e)) 0 + nth i limbs_2_34P 0) ->
  point_4w255 (mixadd_4w st q e) (add255 Q P).
Proof. exact mix4_spec. Qed.
(** The base point in 2-way limbs and as a table entry; it is not of order two. *)
Example C43_case : point_2w255 base_XY base_TZ B_ed255 /\ B_ed255 <> neg255 B_ed255 /\ add255 B_ed255 (neg255 B_ed255) = (0, 1) /\
  entries255 (four (limbs255 ((snd B_ed255 + fst B_ed255) mod p_ed255))) (four (limbs255 ((snd B_ed255 - fst B_ed255) mod p_ed255))) (four base_dT) (fun _ => B_ed255).
Proof. split; [exact base_point_2w|]. split; [vm_compute; discriminate|]. split; [exact base_opposite|exact base_entries]. Qed.

Definition C43_all := (C43_group, C43_doubling_1w_full, C43_fulladd_1w_full, C43_mixadd_4way, C43_fulladd_2way, C43_doubling_2w, C43_fulladd_2w,
  C43_mixadd_2w, C43_doubling_4w, C43_mixadd_4w_refuted, C43_mixadd_4w_partial).
Print Assumptions C43_all.
