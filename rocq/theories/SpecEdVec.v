(** How arrays of limbs stand for points of edwards25519.  Plain integers and lists;
    nothing here refers to the model of the code. *)
From Coq Require Import ZArith List.
From Verif Require Import Engine Bytes Spec SpecVec SpecEd.
Import ListNotations.
Open Scope Z_scope.

(** Reduced limbs X, Y, Z, T are extended coordinates of the curve point P *)
Definition point255 (X Y Zc T : list Z) (P : Z * Z) : Prop :=
  on255 P /\ limbs_below 10 reduced255 X /\ limbs_below 10 reduced255 Y /\ limbs_below 10 reduced255 Zc /\ limbs_below 10 reduced255 T /\
  reps255 (value255 X) (value255 Y) (value255 Zc) (value255 T) P.
(** One point in two 2-way arrays X|Y, T|Z *)
Definition point_2w255 (XY TZ : list Z) (P : Z * Z) : Prop :=
  length XY = 20%nat /\ length TZ = 20%nat /\
  point255 (lane 2 10 0 XY) (lane 2 10 1 XY) (lane 2 10 1 TZ) (lane 2 10 0 TZ) P.
(** One point in a 4-way array X|Y|T|Z *)
Definition point_4w255 (XYTZ : list Z) (P : Z * Z) : Prop :=
  length XYTZ = 40%nat /\ point255 (lane 4 10 0 XYTZ) (lane 4 10 1 XYTZ) (lane 4 10 3 XYTZ) (lane 4 10 2 XYTZ) P.
(** w points, one per lane: Ps lists them *)
Definition points255 (w : nat) (X Y Zc T : list Z) (Ps : nat -> Z * Z) : Prop :=
  length X = (w * 10)%nat /\ length Y = (w * 10)%nat /\ length Zc = (w * 10)%nat /\ length T = (w * 10)%nat /\
  forall j, (j < w)%nat -> point255 (lane w 10 j X) (lane w 10 j Y) (lane w 10 j Zc) (lane w 10 j T) (Ps j).
(** A point in four full-radix coordinates *)
Definition point_full255 (X Y Zc T : list Z) (P : Z * Z) : Prop :=
  on255 P /\ words 4 X /\ words 4 Y /\ words 4 Zc /\ words 4 T /\ reps255 (val X) (val Y) (val Zc) (val T) P.
(** A field element in limbs bounded by f *)
Definition elem255 (f : nat -> Z) (a : list Z) (x : Z) : Prop := limbs_below 10 f a /\ eqm P25519 (value255 a) x.
(** Table entries: y+x, y-x, 2dxy of an affine point; the last one may have limbs one bit larger *)
Definition twice_canonical255 : nat -> Z := by_parity (2 ^ 27 - 1) (2 ^ 26 - 1).
Definition entries255 (add sub dxy : list Z) (Ps : nat -> Z * Z) : Prop :=
  length add = 40%nat /\ length sub = 40%nat /\ length dxy = 40%nat /\
  forall j, (j < 4)%nat -> let (x, y) := Ps j in
    on255 (x, y) /\ elem255 canonical255 (lane 4 10 j add) (y + x) /\ elem255 canonical255 (lane 4 10 j sub) (y - x) /\
    elem255 twice_canonical255 (lane 4 10 j dxy) (2 * d_ed255 * x * y).
(** Lanes y-x, y+x, 2dT, 2Z of a multiple by w of extended coordinates *)
Definition entry_4w255 (e : list Z) (P : Z * Z) : Prop :=
  let (x, y) := P in length e = 40%nat /\ on255 P /\
  exists w, w mod p_ed255 <> 0 /\ elem255 reduced255 (lane 4 10 0 e) ((y - x) * w) /\ elem255 reduced255 (lane 4 10 1 e) ((y + x) * w) /\
  elem255 reduced255 (lane 4 10 2 e) (2 * d_ed255 * (x * y * w)) /\ elem255 reduced255 (lane 4 10 3 e) (2 * w).
(** The same in two 2-way arrays y-x|y+x, 2dT|2Z *)
Definition entry_2w255 (sa dz : list Z) (P : Z * Z) : Prop :=
  let (x, y) := P in length sa = 20%nat /\ length dz = 20%nat /\ on255 P /\
  exists w, w mod p_ed255 <> 0 /\ elem255 reduced255 (lane 2 10 0 sa) ((y - x) * w) /\ elem255 reduced255 (lane 2 10 1 sa) ((y + x) * w) /\
  elem255 reduced255 (lane 2 10 0 dz) (2 * d_ed255 * (x * y * w)) /\ elem255 reduced255 (lane 2 10 1 dz) (2 * w).
(** The 32-byte encoding of a point: y in 255 bits and the parity of x in the last bit *)
Definition encodes255 (bs : list Z) (P : Z * Z) : Prop := bytes 32 bs /\ le_val bs = snd P + 2 ^ 255 * (fst P mod 2).
(** Number c (0: y+x, 1: y-x, 2: 2dxy) of entry m of half h of sub-table i of a comb table, and of entry j of a list of points *)
Definition comb_number (table : list Z) (i h m c : nat) : Z :=
  val (map (fun w => nth (192 * i + 48 * w + 6 * m + 2 * c + h) table 0) [0; 1; 2; 3]%nat).
Definition list_number (table : list Z) (j c : nat) : Z := val (map (fun w => nth (12 * j + 4 * c + w) table 0) [0; 1; 2; 3]%nat).
Definition entry_numbers (n : nat -> Z) (P : Z * Z) : Prop :=
  let (x, y) := P in n 0%nat = (y + x) mod p_ed255 /\ n 1%nat = (y - x) mod p_ed255 /\ n 2%nat = (2 * d_ed255 * x * y) mod p_ed255.
