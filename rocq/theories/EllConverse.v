(** The converse of the rational map: a point (c1 s / t, (s - 1) / (s + 1)) on the Edwards curve comes from a point (s, t) of the
    Montgomery curve.  Mathematics only. *)
From Coq Require Import ZArith Znumtheory Bool Lia Field.
From Verif Require Import Primality FpType FullMore Elligator.
Open Scope Z_scope.

Section Conv.
Variable p : Z.
Hypothesis Pp : prime p.
Hypothesis P2 : 2 < p.
Notation F := (Fp p). Notation I := (inF p P2).
Notation fA := (fp_add p P2). Notation fM := (fp_mul p P2). Notation fS := (fp_sub p P2). Notation fN := (fp_opp p P2).
Notation fD := (fp_div p P2). Notation fI := (fp_inv p P2).
Let Fth := fp_field p Pp P2.
Add Field Fpl : Fth.
Declare Scope fl_scope. Delimit Scope fl_scope with F. Bind Scope fl_scope with Fp.
Infix "+" := fA : fl_scope. Infix "*" := fM : fl_scope. Infix "-" := fS : fl_scope. Infix "/" := fD : fl_scope. Notation "- x" := (fN x) : fl_scope.
Lemma rational_conv (J d c1 s t : F) : (c1 * c1)%F = (- (J + I 1 + I 1))%F -> (d * (J + I 1 + I 1))%F = (I 1 + I 1 - J)%F ->
  s <> I 0 -> t <> I 0 -> (s + I 1)%F <> I 0 ->
  let x := (c1 * s * fI t)%F in let y := ((s - I 1) * fI (s + I 1))%F in
  (- I 1 * x * x + y * y)%F = (I 1 + d * x * x * y * y)%F -> (t * t)%F = (s * s * s + J * s * s + s)%F.
Proof.
  intros C1 DJ Ns T0 S1. cbv zeta. intro On.
  assert (K : ((t * t - (s * s * s + J * s * s + s)) * (s * (I 1 + I 1) * (I 1 + I 1)))%F = I 0).
  { assert (G : (- (c1 * c1 * (s * s) * ((s + I 1) * (s + I 1))) + (s - I 1) * (s - I 1) * (t * t))%F = (t * t * ((s + I 1) * (s + I 1)) + d * (c1 * c1) * (s * s) * ((s - I 1) * (s - I 1)))%F).
    { transitivity ((- I 1 * (c1 * s * fI t) * (c1 * s * fI t) + (s - I 1) * fI (s + I 1) * ((s - I 1) * fI (s + I 1))) * (t * t * ((s + I 1) * (s + I 1))))%F; [field; split; assumption|].
      rewrite On. field. split; assumption. }
    rewrite C1 in G. replace (d * - (J + I 1 + I 1))%F with (- (d * (J + I 1 + I 1)))%F in G by ring. rewrite DJ in G.
    transitivity ((t * t * ((s + I 1) * (s + I 1)) + - (I 1 + I 1 - J) * (s * s) * ((s - I 1) * (s - I 1))) - (- (- (J + I 1 + I 1) * (s * s) * ((s + I 1) * (s + I 1))) + (s - I 1) * (s - I 1) * (t * t)))%F; [ring|].
    rewrite G. ring. }
  apply (ll_sub0 p Pp P2). apply (ll_zero p Pp P2) in K. destruct K as [K|K]; [exact K|]. exfalso. revert K.
  apply (ll_nz p Pp P2); [apply (ll_nz p Pp P2); [exact Ns|]|]; exact (ll_two p P2).
Qed.
End Conv.
