(** The two-element helpers of Fp448 full radix, with their buffers as bounded
    arrays: an access outside a buffer gives [None]. *)
From Coq Require Import ZArith List Lia.
From Verif Require Import Uop Engine Fp25519Full Fp448Full.
Import ListNotations.
Open Scope Z_scope.

(** The n words of buffer [l] at offset [o], if they exist. *)
Definition sub_words (l : list Z) (o n : nat) : option (list Z) :=
  if Nat.leb (o + n) (length l) then Some (firstn n (skipn o l)) else None.
(** Overwrite the words of buffer [l] at offset [o]. *)
Definition put_words (l : list Z) (o : nat) (ws : list Z) : option (list Z) :=
  if Nat.leb (o + length ws) (length l)
  then Some (firstn o l ++ ws ++ skipn (o + length ws) l) else None.
Definition bind {A B} (x : option A) (f : A -> option B) : option B :=
  match x with Some y => f y | None => None end.

(** SIZE_FP448, /repo/include/faz_fp_avx2.h:63: a size in bytes, used as an
    offset in 64-bit words by the functions below. *)
Definition SIZE_FP448 : nat := 56.

(** intmul2, /repo/src/eltfp448_1w_fullradix.c:864-889: all three variants call
    intmul (c,a,b), then intmul (c+2*SIZE_FP448, a+SIZE_FP448, b+SIZE_FP448). *)
Definition intmul2_448 st0 (k : cpu) (c a b : list Z) : option (list Z) :=
  bind (sub_words a 0 7) (fun a0 => bind (sub_words b 0 7) (fun b0 =>
  bind (put_words c 0 (intmul448 st0 k a0 b0)) (fun c =>
  bind (sub_words a SIZE_FP448 7) (fun a1 => bind (sub_words b SIZE_FP448 7) (fun b1 =>
  put_words c (2 * SIZE_FP448) (intmul448 st0 k a1 b1)))))).
(** intsqr2, :891-916 *)
Definition intsqr2_448 st0 (k : cpu) (c a : list Z) : option (list Z) :=
  bind (sub_words a 0 7) (fun a0 =>
  bind (put_words c 0 (intsqr448 st0 k a0)) (fun c =>
  bind (sub_words a SIZE_FP448 7) (fun a1 =>
  put_words c (2 * SIZE_FP448) (intsqr448 st0 k a1)))).
(** reduce2, :918-934 *)
Definition reduce2_448 st0 (k : cpu) (c a : list Z) : option (list Z) :=
  bind (sub_words a 0 14) (fun a0 =>
  bind (put_words c 0 (reduce448 st0 k a0)) (fun c =>
  bind (sub_words a SIZE_FP448 14) (fun a1 =>
  put_words c (2 * SIZE_FP448) (reduce448 st0 k a1)))).

Lemma sub_words_short l o n : (length l < o + n)%nat -> sub_words l o n = None.
Proof. intro H. unfold sub_words. destruct (Nat.leb_spec (o + n) (length l)); auto. lia. Qed.
Lemma bind_none {A B} (x : option A) : bind x (fun _ => @None B) = None.
Proof. destruct x; reflexivity. Qed.
Lemma bind_ext {A B} (x : option A) (f g : A -> option B) : (forall y, f y = g y) -> bind x f = bind x g.
Proof. intro H. destruct x; cbn; auto. Qed.
Lemma intmul2_448_oob st k c a b : (length a < 63)%nat -> intmul2_448 st k c a b = None.
Proof.
  intro H. unfold intmul2_448. rewrite (sub_words_short a SIZE_FP448 7) by exact H. cbn [bind].
  erewrite bind_ext; [apply bind_none|]. intro. erewrite bind_ext; [apply bind_none|]. intro. apply bind_none.
Qed.
Lemma intsqr2_448_oob st k c a : (length a < 63)%nat -> intsqr2_448 st k c a = None.
Proof.
  intro H. unfold intsqr2_448. rewrite (sub_words_short a SIZE_FP448 7) by exact H. cbn [bind].
  erewrite bind_ext; [apply bind_none|]. intro. apply bind_none.
Qed.
Lemma reduce2_448_oob st k c a : (length a < 70)%nat -> reduce2_448 st k c a = None.
Proof.
  intro H. unfold reduce2_448. rewrite (sub_words_short a SIZE_FP448 14) by exact H. cbn [bind].
  erewrite bind_ext; [apply bind_none|]. intro. apply bind_none.
Qed.
