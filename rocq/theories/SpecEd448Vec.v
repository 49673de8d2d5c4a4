(** How arrays of limbs stand for points of edwards448.  The code calculates with the images of the points under the isogeny to the
    twisted curve (SpecIso).  Plain integers and lists; nothing here refers to the model of the code. *)
From Coq Require Import ZArith List.
From Verif Require Import Engine Bytes Spec SpecVec SpecEd SpecIso.
Import ListNotations.
Open Scope Z_scope.

(** Reduced limbs X, Y, Z, T are extended coordinates of the image of the curve point P *)
Definition point448 (X Y Zc T : list Z) (P : Z * Z) : Prop :=
  on448 P /\ limbs_below 16 reduced448 X /\ limbs_below 16 reduced448 Y /\ limbs_below 16 reduced448 Zc /\ limbs_below 16 reduced448 T /\
  reps448 (value448 X) (value448 Y) (value448 Zc) (value448 T) (iso448 P).
(** One point in two 2-way arrays X|Y, T|Z *)
Definition point_2w448 (XY TZ : list Z) (P : Z * Z) : Prop :=
  length XY = 32%nat /\ length TZ = 32%nat /\
  point448 (lane 2 16 0 XY) (lane 2 16 1 XY) (lane 2 16 1 TZ) (lane 2 16 0 TZ) P.
(** One point in a 4-way array X|Y|T|Z *)
Definition point_4w448 (XYTZ : list Z) (P : Z * Z) : Prop :=
  length XYTZ = 64%nat /\ point448 (lane 4 16 0 XYTZ) (lane 4 16 1 XYTZ) (lane 4 16 3 XYTZ) (lane 4 16 2 XYTZ) P.
(** Projective coordinates of the point itself, not of its image *)
Definition projective448 (XY TZ : list Z) (P : Z * Z) : Prop :=
  length XY = 32%nat /\ length TZ = 32%nat /\ on448 P /\
  limbs_below 16 reduced448 (lane 2 16 0 XY) /\ limbs_below 16 reduced448 (lane 2 16 1 XY) /\ limbs_below 16 reduced448 (lane 2 16 1 TZ) /\
  let w := value448 (lane 2 16 1 TZ) in
  w mod p_ed448 <> 0 /\ value448 (lane 2 16 0 XY) mod p_ed448 = (fst P * w) mod p_ed448 /\ value448 (lane 2 16 1 XY) mod p_ed448 = (snd P * w) mod p_ed448.
(** A field element in limbs bounded by f *)
Definition elem448 (f : nat -> Z) (a : list Z) (x : Z) : Prop := limbs_below 16 f a /\ eqm P448 (value448 a) x.
(** Lanes y-x, y+x, 2(d-1)T, 2Z of a multiple by w of the coordinates of the image *)
Definition entry_4w448 (e : list Z) (P : Z * Z) : Prop :=
  let (x, y) := iso448 P in length e = 64%nat /\ on448 P /\
  exists w, w mod p_ed448 <> 0 /\ elem448 reduced448 (lane 4 16 0 e) ((y - x) * w) /\ elem448 reduced448 (lane 4 16 1 e) ((y + x) * w) /\
  elem448 reduced448 (lane 4 16 2 e) (2 * (d_ed448 - 1) * (x * y * w)) /\ elem448 reduced448 (lane 4 16 3 e) (2 * w).
(** Number c (0: y+x, 1: y-x, 2: 2(d-1)xy) of entry m of sub-table i of a comb table, and of entry j of a list of points *)
Definition comb_number448 (table : list Z) (i m c : nat) : Z := val (map (fun w => nth (168 * i + 24 * w + 3 * m + c) table 0) [0; 1; 2; 3; 4; 5; 6]%nat).
Definition list_number448 (table : list Z) (j c : nat) : Z := val (map (fun w => nth (21 * j + 7 * c + w) table 0) [0; 1; 2; 3; 4; 5; 6]%nat).
Definition entry_numbers448 (n : nat -> Z) (P : Z * Z) : Prop :=
  let (x, y) := iso448 P in n 0%nat = (y + x) mod p_ed448 /\ n 1%nat = (y - x) mod p_ed448 /\ n 2%nat = (2 * (d_ed448 - 1) * x * y) mod p_ed448.
