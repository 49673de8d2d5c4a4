(** edwards448: the laws of EdPoint.v and IsoPoint.v for this curve. *)
From Coq Require Import ZArith Znumtheory List Lia.
From Verif Require Import Primality FpType EdPoint SpecEd SpecIso IsoPoint CurveInst.
Import ListNotations.
Open Scope Z_scope.

Notation p448 := p_ed448.
Definition e44 : Z := 53931230830471128485834955405575080614406917727690396148695844614693367092499110851330350603979079659962871539650022903565748232560454.
Lemma e44_ns : forall r, fp_mul p44 p44_2 r r <> inF p44 p44_2 (1 - d_ed448).
Proof. apply (nonsquare_by p44 p44_prime p44_2 (-1) 1 (1 - d_ed448) e44 ns44_pow); [vm_compute; reflexivity|vm_compute; discriminate]. Qed.
Definition m44 : Z := 98944233647732219769177004876929019128417576295529901074099889598043702116001257856802131563896515373927712232092845883226922417596214.
Lemma m44_ns : forall r, fp_mul p44 p44_2 r r <> inF p44 p44_2 d_ed448.
Proof. apply (nonsquare_by p44 p44_prime p44_2 (-1) 1 d_ed448 m44 ns44_pow); [vm_compute; reflexivity|vm_compute; discriminate]. Qed.
Lemma s44 : 1 * 1 mod p44 = 1 mod p44. Proof. reflexivity. Qed.

Section L448.
Notation on := on448. Notation "P ++ Q" := (add448 P Q). Notation "k ** P" := (mul448 k P) (at level 40).
Lemma add448_on P Q : on P -> on Q -> on (P ++ Q).
Proof. exact (ed_add_on p44 p44_prime p44_2 1 d_ed448 1 s44 m44_ns P Q). Qed.
Lemma neg448_on P : on P -> on (neg448 P).
Proof. exact (ed_neg_on p44 p44_prime p44_2 1 d_ed448 1 s44 P). Qed.
Lemma zero448_on : on ed_zero.
Proof. exact (ed_zero_on p44 p44_prime p44_2 1 d_ed448 1 s44). Qed.
Lemma mul448_on k P : on P -> on (k ** P).
Proof. exact (ed_mul_on p44 p44_prime p44_2 1 d_ed448 1 s44 m44_ns k P). Qed.
Lemma add448_comm P Q : on P -> on Q -> P ++ Q = Q ++ P.
Proof. exact (ed_add_comm p44 p44_prime p44_2 1 d_ed448 1 s44 m44_ns P Q). Qed.
Lemma add448_assoc P Q R : on P -> on Q -> on R -> (P ++ Q) ++ R = P ++ (Q ++ R).
Proof. exact (ed_add_assoc p44 p44_prime p44_2 1 d_ed448 1 s44 m44_ns P Q R). Qed.
Lemma add448_zero P : on P -> P ++ ed_zero = P.
Proof. exact (ed_add_zero p44 p44_prime p44_2 1 d_ed448 1 s44 m44_ns P). Qed.
Lemma add448_neg P : on P -> P ++ neg448 P = ed_zero.
Proof. exact (ed_add_neg p44 p44_prime p44_2 1 d_ed448 1 s44 m44_ns P). Qed.
Lemma add448_cancel P Q R : on P -> on Q -> on R -> P ++ Q = P ++ R -> Q = R.
Proof. exact (ed_add_cancel p44 p44_prime p44_2 1 d_ed448 1 s44 m44_ns P Q R). Qed.
Lemma mul448_add j k P : on P -> (j + k) ** P = (j ** P) ++ (k ** P).
Proof. exact (ed_mul_add p44 p44_prime p44_2 1 d_ed448 1 s44 m44_ns j k P). Qed.
Lemma mul448_mul j k P : on P -> (j * k) ** P = j ** (k ** P).
Proof. exact (ed_mul_mul p44 p44_prime p44_2 1 d_ed448 1 s44 m44_ns j k P). Qed.
Lemma mul448_padd k P Q : on P -> on Q -> k ** (P ++ Q) = (k ** P) ++ (k ** Q).
Proof. exact (ed_mul_padd p44 p44_prime p44_2 1 d_ed448 1 s44 m44_ns k P Q). Qed.
Lemma mul448_neg k P : on P -> k ** (neg448 P) = neg448 (k ** P).
Proof. exact (ed_mul_neg p44 p44_prime p44_2 1 d_ed448 1 s44 m44_ns k P). Qed.
Lemma neg448_mul k P : on P -> neg448 (k ** P) = (- k) ** P.
Proof. exact (ed_neg_mul p44 p44_prime p44_2 1 d_ed448 1 s44 m44_ns k P). Qed.
Lemma mul448_mod n k P : on P -> 0 < n -> n ** P = ed_zero -> (k mod n) ** P = k ** P.
Proof. exact (ed_mul_mod p44 p44_prime p44_2 1 d_ed448 1 s44 m44_ns n k P). Qed.
Lemma mul448_1 P : 1 ** P = P. Proof. reflexivity. Qed.
Lemma mul448_0 P : 0 ** P = ed_zero. Proof. reflexivity. Qed.
Lemma mul448_2 P : 2 ** P = P ++ P. Proof. reflexivity. Qed.
Lemma reps448_fun X Y W T P Q : on P -> on Q -> reps448 X Y W T P -> reps448 X Y W T Q -> P = Q.
Proof. exact (reps_fun p44 p44_prime p44_2 1 d_ed448 1 s44 X Y W T P Q). Qed.
Lemma reps448_affine X Y W T P : on P -> reps448 X Y W T P ->
  P = ((X * inv_mod p_ed448 W) mod p_ed448, (Y * inv_mod p_ed448 W) mod p_ed448).
Proof. exact (reps_affine p44 p44_prime p44_2 1 d_ed448 1 s44 X Y W T P). Qed.
Lemma reps448_scale c X Y W T P : c mod p44 <> 0 -> reps448 X Y W T P -> reps448 (c * X) (c * Y) (c * W) (c * T) P.
Proof. exact (reps_scale p44 p44_prime p44_2 c X Y W T P). Qed.
Lemma reps448_neg X Y W T P : reps448 X Y W T P -> reps448 (- X) Y W (- T) (neg448 P).
Proof. exact (reps_neg p44 X Y W T P). Qed.
Lemma reps448_eqm X Y W T X' Y' W' T' P : X mod p44 = X' mod p44 -> Y mod p44 = Y' mod p44 -> W mod p44 = W' mod p44 -> T mod p44 = T' mod p44 ->
  reps448 X Y W T P -> reps448 X' Y' W' T' P.
Proof. exact (reps_eqm p44 X Y W T X' Y' W' T' P). Qed.
Lemma reps448_intro P : reps448 (fst P) (snd P) 1 (fst P * snd P) P.
Proof. exact (reps_intro p44 p44_2 P). Qed.
Lemma iso448_add m n X1 Y1 W1 T1 P X2 Y2 W2 T2 Q E' F' G' H' X3 Y3 W3 T3 :
  on P -> on Q -> reps448 X1 Y1 W1 T1 (iso448 P) -> reps448 X2 Y2 W2 T2 (iso448 Q) -> m mod p44 <> 0 -> n mod p44 <> 0 ->
  E' mod p44 = (m * (X1 * Y2 + X2 * Y1)) mod p44 -> G' mod p44 = (m * (W1 * W2 + (d_ed448 - 1) * T1 * T2)) mod p44 ->
  F' mod p44 = (n * (W1 * W2 - (d_ed448 - 1) * T1 * T2)) mod p44 -> H' mod p44 = (n * (Y1 * Y2 + X1 * X2)) mod p44 ->
  X3 mod p44 = (E' * F') mod p44 -> Y3 mod p44 = (G' * H') mod p44 -> W3 mod p44 = (F' * G') mod p44 -> T3 mod p44 = (E' * H') mod p44 ->
  reps448 X3 Y3 W3 T3 (iso448 (P ++ Q)).
Proof. exact (iso_add p44 p44_prime p44_2 d_ed448 m44_ns e44_ns m n X1 Y1 W1 T1 P X2 Y2 W2 T2 Q E' F' G' H' X3 Y3 W3 T3). Qed.
Lemma iso448_dbl m n X1 Y1 W1 T1 P E' F' G' H' X3 Y3 W3 T3 :
  on P -> reps448 X1 Y1 W1 T1 (iso448 P) -> m mod p44 <> 0 -> n mod p44 <> 0 ->
  E' mod p44 = (m * (2 * X1 * Y1)) mod p44 -> G' mod p44 = (m * (Y1 * Y1 - X1 * X1)) mod p44 ->
  F' mod p44 = (n * (2 * W1 * W1 - (Y1 * Y1 - X1 * X1))) mod p44 -> H' mod p44 = (n * (Y1 * Y1 + X1 * X1)) mod p44 ->
  X3 mod p44 = (E' * F') mod p44 -> Y3 mod p44 = (G' * H') mod p44 -> W3 mod p44 = (F' * G') mod p44 -> T3 mod p44 = (E' * H') mod p44 ->
  reps448 X3 Y3 W3 T3 (iso448 (P ++ P)).
Proof. exact (iso_dbl p44 p44_prime p44_2 d_ed448 m44_ns e44_ns m n X1 Y1 W1 T1 P E' F' G' H' X3 Y3 W3 T3). Qed.
Lemma iso448_back m n X1 Y1 W1 T1 P E' F' G' H' X3 Y3 W3 :
  on P -> reps448 X1 Y1 W1 T1 (iso448 P) -> m mod p44 <> 0 -> n mod p44 <> 0 ->
  E' mod p44 = (m * (2 * X1 * Y1)) mod p44 -> H' mod p44 = (m * (Y1 * Y1 + X1 * X1)) mod p44 ->
  G' mod p44 = (n * (Y1 * Y1 - X1 * X1)) mod p44 -> F' mod p44 = (n * (2 * W1 * W1 - (Y1 * Y1 - X1 * X1))) mod p44 ->
  X3 mod p44 = (E' * F') mod p44 -> Y3 mod p44 = (G' * H') mod p44 -> W3 mod p44 = (F' * H') mod p44 ->
  W3 mod p44 <> 0 /\ X3 mod p44 = (fst (4 ** P) * W3) mod p44 /\ Y3 mod p44 = (snd (4 ** P) * W3) mod p44.
Proof. exact (iso_back_ok p44 p44_prime p44_2 d_ed448 m44_ns e44_ns m n X1 Y1 W1 T1 P E' F' G' H' X3 Y3 W3). Qed.
Lemma iso448_neg P : on P -> iso448 (neg448 P) = neg448 (iso448 P).
Proof. exact (iso_neg p44 p44_prime p44_2 d_ed448 e44_ns P). Qed.
Lemma iso448_affine X Y W T x y : on (x, y) ->
  X mod p44 = (2 * x * y * (2 - (x * x + y * y))) mod p44 -> Y mod p44 = ((x * x + y * y) * (y * y - x * x)) mod p44 ->
  W mod p44 = ((y * y - x * x) * (2 - (x * x + y * y))) mod p44 -> T mod p44 = (2 * x * y * (x * x + y * y)) mod p44 ->
  reps448 X Y W T (iso448 (x, y)).
Proof. exact (iso_affine p44 p44_prime p44_2 d_ed448 m44_ns e44_ns X Y W T x y). Qed.
End L448.
