(** Hash to edwards25519 with the 4x64-bit representation, /repo/src/hash255.c: h2c25519_x64 and the
    functions it calls, isOnCurve and areEqual.  The two-lane variants (:38-61, :123-185, :290-406,
    :419-428, :436-440, :520-551) are not modelled here. *)
From Coq Require Import ZArith List Bool.
From Verif Require Import Uop Engine Bytes X86 Asm25519 Fp25519Full Scalar Edwards255 Sha512 Sign255.
Import ListNotations.
Open Scope Z_scope.

(** The constants of elligator2_curve25519, :192-205, and elligator2_edwards25519, :265-272 *)
Definition h_one : list Z := [1; 0; 0; 0].
Definition h_zero : list Z := [0; 0; 0; 0].
Definition h_A : list Z := [486662; 0; 0; 0].
Definition h_c1 : list Z := [0xcc6e04aaff457e06; 0xc5a1d3d14b7d1a82; 0xd27b08dc03fc4f7e; 0xf26edf460a006bb].
Definition h_c2 : list Z := [0xc4ee1b274a0ea0b1; 0x2f431806ad2fe478; 0x2b4d00993dfbd7a7; 0x2b8324804fc1df0b].
Definition h_c3 : list Z := [0xc4ee1b274a0ea0b0; 0x2f431806ad2fe478; 0x2b4d00993dfbd7a7; 0x2b8324804fc1df0b].
(** paramD of isOnCurve, :483-484 *)
Definition h_D : list Z := [0x75eb4dca135978a3; 0x00700a4d4141d8ab; 0x8cc740797779e898; 0x52036cee2b6ffe73].

(** The value of a C comparison *)
Definition int_of (b : bool) : Z := if b then 1 else 0.

Section Hash.
Variable st0 : store.
Variable k : cpu.

(** hash_to_field, :26-36.  [c] is the uninitialised hash context. *)
Definition hash_to_field (c : Sha512.ctx) (prefix : Z) (msg : list Z) : list Z :=
  let h0 := sph_sha512_init c in
  let h0 := sph_sha512 h0 [prefix] in
  let h0 := sph_sha512 h0 msg in
  let h0_msg := fst (sph_sha512_close h0) in
  words_of 4 (reduced_digest st0 h0_msg).

(** expoC4, :63-121: the steps are those of [pow_p58_chain] (invsqrt uses the same ones) *)
Definition expoC4 (x : list Z) : list Z := pow_p58_chain (mul st0 k) (sqr st0 k) x.

(** elligator2_curve25519, :187-258; yields (xn, xd, yn, yd).  cmp reduces its two arguments and sgn its
    argument in place: the reduced values are used from there on. *)
Definition elligator2_curve25519 (u : list Z) : list Z * list Z * list Z * list Z :=
  let tv1 := sqr st0 k (copy u) in
  let tv1 := add st0 k tv1 tv1 in
  let xd := add st0 k tv1 h_one in
  let x1n := neg st0 (copy h_A) in
  let tv2 := sqr st0 k (copy xd) in
  let gxd := mul st0 k tv2 xd in
  let gx1 := mul st0 k h_A tv1 in
  let gx1 := mul st0 k gx1 x1n in
  let gx1 := add st0 k gx1 tv2 in
  let gx1 := mul st0 k gx1 x1n in
  let tv3 := sqr st0 k (copy gxd) in
  let tv2 := sqr st0 k (copy tv3) in
  let tv3 := mul st0 k tv3 gxd in
  let tv3 := mul st0 k tv3 gx1 in
  let tv2 := mul st0 k tv2 tv3 in
  let y11 := expoC4 tv2 in
  let y11 := mul st0 k y11 tv3 in
  let y12 := mul st0 k y11 h_c3 in
  let tv2 := sqr st0 k (copy y11) in
  let tv2 := mul st0 k tv2 gxd in
  let e1 := int_of (cmp st0 tv2 gx1 =? 0) in
  let gx1 := modp st0 gx1 in
  let y1 := cmv st0 e1 y12 y11 in
  let x2n := mul st0 k x1n tv1 in
  let y21 := mul st0 k y11 u in
  let y21 := mul st0 k y21 h_c2 in
  let y22 := mul st0 k y21 h_c3 in
  let gx2 := mul st0 k gx1 tv1 in
  let tv2 := sqr st0 k (copy y21) in
  let tv2 := mul st0 k tv2 gxd in
  let e2 := int_of (cmp st0 tv2 gx2 =? 0) in
  let y2 := cmv st0 e2 y22 y21 in
  let tv2 := sqr st0 k (copy y1) in
  let tv2 := mul st0 k tv2 gxd in
  let e3 := int_of (cmp st0 tv2 gx1 =? 0) in
  let xn := cmv st0 e3 x2n x1n in
  let y := cmv st0 e3 y2 y1 in
  let e4 := sgn st0 y in
  let y := modp st0 y in
  let y3 := neg st0 (copy y) in
  let yn := cmv st0 (Z.lxor e3 e4) y y3 in
  let yd := copy h_one in
  (xn, xd, yn, yd).

(** elligator2_edwards25519, :260-288 *)
Definition elligator2_edwards25519 (u : list Z) : list Z * list Z * list Z * list Z :=
  let '(xMn, xMd, yMn, yMd) := elligator2_curve25519 u in
  let xn := mul st0 k xMn yMd in
  let xn := mul st0 k xn h_c1 in
  let xd := mul st0 k xMd yMn in
  let yn := sub st0 xMn xMd in
  let yd := add st0 k xMn xMd in
  let tv1 := mul st0 k xd yd in
  let e := int_of (cmp st0 tv1 h_zero =? 0) in
  let xn := cmv st0 e xn h_zero in
  let xd := cmv st0 e xd h_one in
  let yn := cmv st0 e yn h_one in
  let yd := cmv st0 e yd h_one in
  (xn, xd, yn, yd).

(** map_to_curve, :408-417 *)
Definition map_to_curve (u : list Z) : point4 :=
  let '(xn, xd, yn, yd) := elligator2_edwards25519 u in
  mkpt (mul st0 k xn yd) (mul st0 k yn xd) (mul st0 k xd yd) (mul st0 k xn yn).

(** clear_cofactor, :430-434 *)
Definition clear_cofactor (P : point4) : point4 :=
  let P := doubling_1w_full st0 k P in
  let P := doubling_1w_full st0 k P in
  doubling_1w_full st0 k P.

(** Point: the two coordinates *)
Definition point : Type := list Z * list Z.
(** toAffine, :442-449 *)
Definition toAffine (P : point4) : point :=
  let invZ := inv st0 k (cZ P) in
  (mul st0 k (cX P) invZ, mul st0 k (cY P) invZ).

(** isOnCurve, :478-497 *)
Definition isOnCurve (P : point) : Z :=
  let x2 := sqr st0 k (copy (fst P)) in
  let y2 := sqr st0 k (copy (snd P)) in
  let dx2y2 := mul st0 k x2 y2 in
  let dx2y2 := mul st0 k dx2y2 h_D in
  let e := sub st0 y2 x2 in
  let e := sub st0 e h_one in
  let e := sub st0 e dx2y2 in
  int_of (cmp st0 e h_zero =? 0).

(** areEqual, :499-502; the second comparison is made only when the first one succeeds *)
Definition areEqual (P Q : point) : Z :=
  int_of ((cmp st0 (fst P) (fst Q) =? 0) && (cmp st0 (snd P) (snd Q) =? 0)).

(** h2c25519_x64, :504-518; [c0] and [c1] are the uninitialised hash contexts *)
Definition h2c25519_x64 (c0 c1 : Sha512.ctx) (msg : list Z) : point :=
  let u0 := hash_to_field c0 0 msg in
  let u1 := hash_to_field c1 1 msg in
  let Q0 := map_to_curve u0 in
  let Q1 := map_to_curve u1 in
  let Q0 := clear_cofactor Q0 in
  let Q1 := clear_cofactor Q1 in
  toAffine (fulladd_1w_full st0 k Q0 Q1).
End Hash.
