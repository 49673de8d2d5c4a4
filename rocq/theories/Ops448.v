(** The mixed additions performed by one double-base multiplication of edwards448 (double_point_mult_4w_ed448 and precompute_points_4w_ed448,
    src/edwards448.c:1102-1273 of /repo), as pairs (point, precomputed point), in order. They repeat the control structure of the model in Edwards448.v. *)
From Coq Require Import ZArith List Lia.
From Verif Require Import Uop Engine Bytes Fp448Red Recode Scalar448 Edwards448.
Import ListNotations.
Open Scope Z_scope.
Section Ops.
Variable st0 : store.
Variable junk : list Z.
(** src/edwards448.c:1161-1171, the additions of precompute_points_4w_ed448 *)
Fixpoint entries_ops448 (num : nat) (iP P2 : list Z) : list (list Z * list Z) :=
  match num with O => [] | S num => (iP, P2) :: entries_ops448 num (mixadd448_4w st0 iP P2) P2 end.
(** src/edwards448.c:1246-1267, the at most two additions of an iteration *)
Fixpoint fold_ops448 (es : list (list Z)) (Q : list Z) : list (list Z * list Z) :=
  match es with [] => [] | e :: es => (Q, e) :: fold_ops448 es (mixadd448_4w st0 Q e) end.
(** src/edwards448.c:1243-1268, the additions of the loop *)
Fixpoint loop_ops448 (tableA : list (list Z)) (wr wh : list Z) (n : nat) (Q : list Z) : list (list Z * list Z) :=
  match n with
  | O => []
  | S n =>
    let Q := doubling448_4w st0 Q in
    let es := to_add448 st0 tableA (nth n wr 0) (nth n wh 0) in
    fold_ops448 es Q ++ loop_ops448 tableA wr wh n (fold_left (mixadd448_4w st0) es Q)
  end.
(** src/edwards448.c:1211-1273, all of them *)
Definition mixed_additions448 (s h A : list Z) : list (list Z * list Z) :=
  match wnaf_448bits st0 460 (div4 st0 junk s) 7, wnaf_448bits st0 460 (div4 st0 junk h) 5 with
  | Some wr, Some wh =>
    entries_ops448 7 A (table_entry448 st0 (doubling448_4w st0 A)) ++
    loop_ops448 (precompute_points448_4w st0 A) wr wh (Nat.max (length wr) (length wh)) (neutral448_4w st0)
  | _, _ => []
  end.
End Ops.
