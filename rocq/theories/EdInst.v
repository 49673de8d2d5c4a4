(** edwards25519: the laws of EdPoint.v for this curve. *)
From Coq Require Import ZArith Znumtheory Lia.
From Verif Require Import FpType EdPoint SpecEd CurveInst.
Open Scope Z_scope.

Lemma s25 : i25 * i25 mod p25 = (-1) mod p25. Proof. vm_compute. reflexivity. Qed.
Section L255.
Notation on := on255. Notation "P ++ Q" := (add255 P Q). Notation "k ** P" := (mul255 k P) (at level 40).
Lemma add255_on P Q : on P -> on Q -> on (P ++ Q).
Proof. exact (ed_add_on p25 p25_prime p25_2 (-1) d25 i25 s25 d25_ns P Q). Qed.
Lemma neg255_on P : on P -> on (neg255 P).
Proof. exact (ed_neg_on p25 p25_prime p25_2 (-1) d25 i25 s25 P). Qed.
Lemma zero255_on : on ed_zero.
Proof. exact (ed_zero_on p25 p25_prime p25_2 (-1) d25 i25 s25). Qed.
Lemma mul255_on k P : on P -> on (k ** P).
Proof. exact (ed_mul_on p25 p25_prime p25_2 (-1) d25 i25 s25 d25_ns k P). Qed.
Lemma add255_comm P Q : on P -> on Q -> P ++ Q = Q ++ P.
Proof. exact (ed_add_comm p25 p25_prime p25_2 (-1) d25 i25 s25 d25_ns P Q). Qed.
Lemma add255_assoc P Q R : on P -> on Q -> on R -> (P ++ Q) ++ R = P ++ (Q ++ R).
Proof. exact (ed_add_assoc p25 p25_prime p25_2 (-1) d25 i25 s25 d25_ns P Q R). Qed.
Lemma add255_zero P : on P -> P ++ ed_zero = P.
Proof. exact (ed_add_zero p25 p25_prime p25_2 (-1) d25 i25 s25 d25_ns P). Qed.
Lemma add255_neg P : on P -> P ++ neg255 P = ed_zero.
Proof. exact (ed_add_neg p25 p25_prime p25_2 (-1) d25 i25 s25 d25_ns P). Qed.
Lemma add255_cancel P Q R : on P -> on Q -> on R -> P ++ Q = P ++ R -> Q = R.
Proof. exact (ed_add_cancel p25 p25_prime p25_2 (-1) d25 i25 s25 d25_ns P Q R). Qed.
Lemma mul255_add j k P : on P -> (j + k) ** P = (j ** P) ++ (k ** P).
Proof. exact (ed_mul_add p25 p25_prime p25_2 (-1) d25 i25 s25 d25_ns j k P). Qed.
Lemma mul255_mul j k P : on P -> (j * k) ** P = j ** (k ** P).
Proof. exact (ed_mul_mul p25 p25_prime p25_2 (-1) d25 i25 s25 d25_ns j k P). Qed.
Lemma mul255_padd k P Q : on P -> on Q -> k ** (P ++ Q) = (k ** P) ++ (k ** Q).
Proof. exact (ed_mul_padd p25 p25_prime p25_2 (-1) d25 i25 s25 d25_ns k P Q). Qed.
Lemma mul255_neg k P : on P -> k ** (neg255 P) = neg255 (k ** P).
Proof. exact (ed_mul_neg p25 p25_prime p25_2 (-1) d25 i25 s25 d25_ns k P). Qed.
Lemma neg255_mul k P : on P -> neg255 (k ** P) = (- k) ** P.
Proof. exact (ed_neg_mul p25 p25_prime p25_2 (-1) d25 i25 s25 d25_ns k P). Qed.
Lemma mul255_mod n k P : on P -> 0 < n -> n ** P = ed_zero -> (k mod n) ** P = k ** P.
Proof. exact (ed_mul_mod p25 p25_prime p25_2 (-1) d25 i25 s25 d25_ns n k P). Qed.
Lemma mul255_1 P : 1 ** P = P. Proof. reflexivity. Qed.
Lemma mul255_0 P : 0 ** P = ed_zero. Proof. reflexivity. Qed.
Lemma mul255_2 P : 2 ** P = P ++ P. Proof. reflexivity. Qed.
Lemma reps255_fun X Y W T P Q : on P -> on Q -> reps255 X Y W T P -> reps255 X Y W T Q -> P = Q.
Proof. exact (reps_fun p25 p25_prime p25_2 (-1) d25 i25 s25 X Y W T P Q). Qed.
Lemma reps255_affine X Y W T P : on P -> reps255 X Y W T P ->
  P = ((X * inv_mod p_ed255 W) mod p_ed255, (Y * inv_mod p_ed255 W) mod p_ed255).
Proof. exact (reps_affine p25 p25_prime p25_2 (-1) d25 i25 s25 X Y W T P). Qed.
Lemma reps255_scale c X Y W T P : c mod p25 <> 0 -> reps255 X Y W T P -> reps255 (c * X) (c * Y) (c * W) (c * T) P.
Proof. exact (reps_scale p25 p25_prime p25_2 c X Y W T P). Qed.
Lemma reps255_neg X Y W T P : reps255 X Y W T P -> reps255 (- X) Y W (- T) (neg255 P).
Proof. exact (reps_neg p25 X Y W T P). Qed.
Lemma reps255_eqm X Y W T X' Y' W' T' P : X mod p25 = X' mod p25 -> Y mod p25 = Y' mod p25 -> W mod p25 = W' mod p25 -> T mod p25 = T' mod p25 ->
  reps255 X Y W T P -> reps255 X' Y' W' T' P.
Proof. exact (reps_eqm p25 X Y W T X' Y' W' T' P). Qed.
Lemma reps255_intro P : reps255 (fst P) (snd P) 1 (fst P * snd P) P.
Proof. exact (reps_intro p25 p25_2 P). Qed.
Lemma reps255_add m n X1 Y1 W1 T1 P X2 Y2 W2 T2 Q E' F' G' H' X3 Y3 W3 T3 :
  on P -> on Q -> reps255 X1 Y1 W1 T1 P -> reps255 X2 Y2 W2 T2 Q -> m mod p25 <> 0 -> n mod p25 <> 0 ->
  E' mod p25 = (m * (X1 * Y2 + X2 * Y1)) mod p25 -> G' mod p25 = (m * (W1 * W2 + d25 * T1 * T2)) mod p25 ->
  F' mod p25 = (n * (W1 * W2 - d25 * T1 * T2)) mod p25 -> H' mod p25 = (n * (Y1 * Y2 - (-1) * X1 * X2)) mod p25 ->
  X3 mod p25 = (E' * F') mod p25 -> Y3 mod p25 = (G' * H') mod p25 -> W3 mod p25 = (F' * G') mod p25 -> T3 mod p25 = (E' * H') mod p25 ->
  reps255 X3 Y3 W3 T3 (P ++ Q).
Proof. exact (reps_add p25 p25_prime p25_2 (-1) d25 i25 s25 d25_ns m n X1 Y1 W1 T1 P X2 Y2 W2 T2 Q E' F' G' H' X3 Y3 W3 T3). Qed.
Lemma reps255_dbl m n X1 Y1 W1 T1 P E' F' G' H' X3 Y3 W3 T3 :
  on P -> reps255 X1 Y1 W1 T1 P -> m mod p25 <> 0 -> n mod p25 <> 0 ->
  E' mod p25 = (m * (2 * X1 * Y1)) mod p25 -> G' mod p25 = (m * (Y1 * Y1 + (-1) * X1 * X1)) mod p25 ->
  F' mod p25 = (n * (2 * W1 * W1 - (Y1 * Y1 + (-1) * X1 * X1))) mod p25 -> H' mod p25 = (n * (Y1 * Y1 - (-1) * X1 * X1)) mod p25 ->
  X3 mod p25 = (E' * F') mod p25 -> Y3 mod p25 = (G' * H') mod p25 -> W3 mod p25 = (F' * G') mod p25 -> T3 mod p25 = (E' * H') mod p25 ->
  reps255 X3 Y3 W3 T3 (P ++ P).
Proof. exact (reps_dbl p25 p25_prime p25_2 (-1) d25 i25 s25 d25_ns m n X1 Y1 W1 T1 P E' F' G' H' X3 Y3 W3 T3). Qed.
End L255.
