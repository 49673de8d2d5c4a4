(** Specification vocabulary of the reduced-radix (vector) properties: how an
    array of 64-bit words stands for one, two or four field elements.  Plain
    integers and lists only; nothing here refers to the model of the code. *)
From Coq Require Import ZArith List Bool.
From Verif Require Import Bytes Spec.
Import ListNotations.
Open Scope Z_scope.

(** Word k of an element of n limbs holds limb k/2 (k even) or n/2 + k/2 (k odd). *)
Definition limb_index (n k : nat) : nat := (k / 2 + n / 2 * (k mod 2))%nat.
(** Element j of an array of w elements of n limbs: a 2-way array is made of
    256-bit vectors with two words of either element, a 4-way array of vectors
    with one word of each. *)
Definition word_index (w j k : nat) : nat :=
  match w with 1 => k | 2 => 4 * (k / 2) + 2 * j + k mod 2 | _ => 4 * k + j end%nat.
Definition lane (w n j : nat) (a : list Z) : list Z := map (fun k => nth (word_index w j k) a 0) (seq 0 n).
(** Value of an element, limb i having weight 2^(pos i). *)
Definition value (n : nat) (pos : nat -> Z) (a : list Z) : Z :=
  fold_right Z.add 0 (map (fun k => 2 ^ pos (limb_index n k) * nth k a 0) (seq 0 n)).
(** Limb i is at most f i. *)
Definition limbs_below (n : nat) (f : nat -> Z) (a : list Z) : Prop :=
  length a = n /\ forall k, (k < n)%nat -> 0 <= nth k a 0 <= f (limb_index n k).
Definition lanes (w n : nat) (f : nat -> Z) (a : list Z) : Prop :=
  length a = (w * n)%nat /\ forall j, (j < w)%nat -> limbs_below n f (lane w n j a).

(** ** 2^255-19: ten limbs of 26 and 25 bits, radix 2^25.5 *)
Definition pos255 (i : nat) : Z := (51 * Z.of_nat i + 1) / 2.
Definition value255 : list Z -> Z := value 10 pos255.
Definition by_parity (x y : Z) (i : nat) : Z := if Nat.even i then x else y.
(** Canonical, reduced, unreduced (the headroom of a multiplication), double-sized limbs. *)
Definition canonical255 : nat -> Z := by_parity (2 ^ 26 - 1) (2 ^ 25 - 1).
Definition reduced255 : nat -> Z := by_parity (2 ^ 26 + 2 ^ 13) (2 ^ 25 + 2 ^ 18).
Definition unreduced255 : nat -> Z := by_parity 226050910 113025455.
Definition double255 : nat -> Z := by_parity (2 ^ 63 - 1) (2 ^ 63 - 1).
(** ** 2^448-2^224-1: sixteen limbs of 28 bits *)
Definition pos448 (i : nat) : Z := 28 * Z.of_nat i.
Definition value448 : list Z -> Z := value 16 pos448.
Definition limb8_apart (x y : Z) (i : nat) : Z := if Nat.eqb i 8 then y else x.
Definition canonical448 : nat -> Z := limb8_apart (2 ^ 28 - 1) (2 ^ 28 - 1).
Definition reduced448 : nat -> Z := limb8_apart (2 ^ 28 + 2 ^ 10) (2 ^ 28 + 2 ^ 10).
(** sums of two reduced elements, squares *)
Definition summed448 : nat -> Z := limb8_apart (2 ^ 29 + 2 ^ 27) (2 ^ 29 + 2 ^ 28 + 2 ^ 10).
(** differences of two reduced elements *)
Definition differed448 : nat -> Z := limb8_apart (2 ^ 29 + 2 ^ 28 + 2 ^ 10) (2 ^ 30 + 2 ^ 28 + 2 ^ 10).
Definition double448 : nat -> Z := limb8_apart (2 ^ 64 - 2 ^ 37) (2 ^ 64 - 2 ^ 37).

(** ** What it means for an operation to compute f modulo p in every lane,
    from operands within limb bounds f1 (and f2) to results within g *)
Section Computes.
  Variables (w n : nat) (pos : nat -> Z) (p : Z).
  Let v j a := value n pos (lane w n j a).
  Definition computes1 (f1 g : nat -> Z) (f : Z -> Z) (op : list Z -> list Z) : Prop :=
    forall a, lanes w n f1 a -> lanes w n g (op a) /\ forall j, (j < w)%nat -> eqm p (v j (op a)) (f (v j a)).
  Definition computes2 (f1 f2 g : nat -> Z) (f : Z -> Z -> Z) (op : list Z -> list Z -> list Z) : Prop :=
    forall a b, lanes w n f1 a -> lanes w n f2 b ->
    lanes w n g (op a b) /\ forall j, (j < w)%nat -> eqm p (v j (op a b)) (f (v j a) (v j b)).
  (** Lane j of the result is a function of lane j of the operands alone. *)
  Definition lanewise1 (op op' : list Z -> list Z) : Prop :=
    forall a a' j j', length a = (w * n)%nat -> length a' = (w * n)%nat -> (j < w)%nat -> (j' < w)%nat ->
    lane w n j a = lane w n j' a' -> lane w n j (op a) = lane w n j' (op' a').
  Definition lanewise2 (op op' : list Z -> list Z -> list Z) : Prop :=
    forall a b a' b' j j', length a = (w * n)%nat -> length b = (w * n)%nat ->
    length a' = (w * n)%nat -> length b' = (w * n)%nat -> (j < w)%nat -> (j' < w)%nat ->
    lane w n j a = lane w n j' a' -> lane w n j b = lane w n j' b' -> lane w n j (op a b) = lane w n j' (op' a' b').
End Computes.

(** ** Straight-line programs, of any length, over field elements: operands of
    products may be sums, differences or opposites of products *)
Inductive rexp : Type :=
| Leaf (a : list Z) | Mul (x y : wexp) | Sqr (x : wexp) | Carry (x : wexp)
with wexp : Type :=
| Red (x : rexp) | Add (x y : rexp) | Sub (x y : rexp) | Neg (x : rexp).
(** Their value, given the value of the leaves. *)
Fixpoint rmeaning (v : list Z -> Z) (e : rexp) : Z :=
  match e with Leaf a => v a | Mul x y => wmeaning v x * wmeaning v y | Sqr x => wmeaning v x ^ 2 | Carry x => wmeaning v x end
with wmeaning (v : list Z -> Z) (e : wexp) : Z :=
  match e with Red x => rmeaning v x | Add x y => rmeaning v x + rmeaning v y
             | Sub x y => rmeaning v x - rmeaning v y | Neg x => - rmeaning v x end.
Fixpoint rleaves (P : list Z -> Prop) (e : rexp) : Prop :=
  match e with Leaf a => P a | Mul x y => wleaves P x /\ wleaves P y | Sqr x => wleaves P x | Carry x => wleaves P x end
with wleaves (P : list Z -> Prop) (e : wexp) : Prop :=
  match e with Red x => rleaves P x | Add x y => rleaves P x /\ rleaves P y
             | Sub x y => rleaves P x /\ rleaves P y | Neg x => rleaves P x end.
(** Their execution by an implementation. *)
Record ops : Type := Ops {
  o_add : list Z -> list Z -> list Z; o_sub : list Z -> list Z -> list Z; o_neg : list Z -> list Z;
  o_mul : list Z -> list Z -> list Z; o_sqr : list Z -> list Z; o_carry : list Z -> list Z }.
Fixpoint rrun (o : ops) (e : rexp) : list Z :=
  match e with Leaf a => a | Mul x y => o_mul o (wrun o x) (wrun o y) | Sqr x => o_sqr o (wrun o x) | Carry x => o_carry o (wrun o x) end
with wrun (o : ops) (e : wexp) : list Z :=
  match e with Red x => rrun o x | Add x y => o_add o (rrun o x) (rrun o y)
             | Sub x y => o_sub o (rrun o x) (rrun o y) | Neg x => o_neg o (rrun o x) end.

(** ** Encodings: element j of a string of encodings of N bytes each *)
Definition part (N j : nat) (buf : list Z) : list Z := firstn N (skipn (N * j) buf).
(** Loading reads every encoding modulo p into limbs within g; storing what was loaded gives the canonical encodings. *)
Definition loads (w n : nat) (pos : nat -> Z) (p : Z) (N : nat) (g : nat -> Z) (unser : list Z -> list Z) : Prop :=
  forall buf, bytes (w * N) buf -> lanes w n g (unser buf) /\
  forall j, (j < w)%nat -> eqm p (value n pos (lane w n j (unser buf))) (le_val (part N j buf)).
Definition stores (w n : nat) (pos : nat -> Z) (p : Z) (N : nat) (f : nat -> Z) (ser : list Z -> list Z) : Prop :=
  forall a, lanes w n f a -> bytes (w * N) (ser a) /\
  forall j, (j < w)%nat -> le_val (part N j (ser a)) = value n pos (lane w n j a) mod p.
