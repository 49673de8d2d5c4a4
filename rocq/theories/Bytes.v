(** Byte strings and word arrays. *)
From Coq Require Import ZArith List Bool Lia.
From Verif Require Import Uop Engine.
Import ListNotations.
Open Scope Z_scope.

(** Little-endian bytes of a word array (casts between byte and word pointers). *)
Definition bytes_of_word (w : Z) : list Z :=
  map (fun i => (w / 2 ^ (8 * i)) mod 256) [0; 1; 2; 3; 4; 5; 6; 7].
Definition bytes_of (ws : list Z) : list Z := flat_map bytes_of_word ws.
Fixpoint word_of_bytes (bs : list Z) : Z :=
  match bs with [] => 0 | b :: bs => b + 256 * word_of_bytes bs end.
Fixpoint words_of (n : nat) (bs : list Z) : list Z :=
  match n with
  | O => []
  | S n => word_of_bytes (firstn 8 bs) :: words_of n (skipn 8 bs)
  end.

(** cmp_bytes, /repo/src/bytestring.c:48-55: OR of the xors of the bytes *)
Fixpoint cmp_bytes (a b : list Z) : Z :=
  match a, b with
  | x :: a, y :: b => Z.lor (Z.lxor x y) (cmp_bytes a b)
  | _, _ => 0
  end.

(** ** Specification: little-endian value of a byte string *)
Definition byte (b : Z) : Prop := 0 <= b < 256.
Definition bytes (n : nat) (bs : list Z) : Prop := length bs = n /\ Forall byte bs.
Fixpoint le_val (bs : list Z) : Z :=
  match bs with [] => 0 | b :: bs => b + 256 * le_val bs end.

Lemma word_of_bytes_le bs : word_of_bytes bs = le_val bs.
Proof. induction bs; cbn [word_of_bytes le_val]; congruence. Qed.
Lemma le_val_bound bs : Forall byte bs -> 0 <= le_val bs < 256 ^ Z.of_nat (length bs).
Proof.
  induction 1 as [|b bs H _ IH]; cbn [le_val length]; [lia|].
  rewrite Nat2Z.inj_succ, Z.pow_succ_r by lia. unfold byte in H. lia.
Qed.
Lemma le_val_app a b : le_val (a ++ b) = le_val a + 256 ^ Z.of_nat (length a) * le_val b.
Proof.
  induction a as [|x a IH]; cbn [app le_val length]; [lia|].
  rewrite Nat2Z.inj_succ, Z.pow_succ_r, IH by lia. ring.
Qed.
Lemma le_val_inj a : forall b, length a = length b -> Forall byte a -> Forall byte b ->
  le_val a = le_val b -> a = b.
Proof.
  induction a as [|x a IH]; intros [|y b] L Ha Hb E; try discriminate; auto.
  inversion Ha; inversion Hb; subst. cbn [le_val] in E. unfold byte in *.
  assert (x = y) by lia. subst y. f_equal. apply IH; auto. lia.
Qed.

Lemma bytes_of_word_ok w : word w -> bytes 8 (bytes_of_word w) /\ le_val (bytes_of_word w) = w.
Proof.
  intro H. split.
  - split; [reflexivity|]. unfold bytes_of_word. rewrite Forall_map. apply Forall_forall. intros i _.
    apply Z.mod_pos_bound. lia.
  - unfold bytes_of_word; cbn [map le_val]. unfold word, W in H.
    change (2 ^ (8 * 0)) with 1. change (2 ^ (8 * 1)) with 256. change (2 ^ (8 * 2)) with (256 * 256).
    change (2 ^ (8 * 3)) with (256 * 256 * 256). change (2 ^ (8 * 4)) with (256 * 256 * 256 * 256).
    change (2 ^ (8 * 5)) with (256 * 256 * 256 * 256 * 256).
    change (2 ^ (8 * 6)) with (256 * 256 * 256 * 256 * 256 * 256).
    change (2 ^ (8 * 7)) with (256 * 256 * 256 * 256 * 256 * 256 * 256).
    rewrite <- !Z.div_div by lia. rewrite Z.div_1_r.
    Z.div_mod_to_equations. lia.
Qed.
Lemma bytes_of_ok n ws : words n ws -> bytes (8 * n) (bytes_of ws) /\ le_val (bytes_of ws) = val ws.
Proof.
  revert ws; induction n; intros [|w ws] [L F]; try discriminate.
  - cbn. repeat constructor.
  - inversion F as [|? ? Hw Hws]; subst. destruct (IHn ws) as [[L1 F1] E]; [split; auto|].
    destruct (bytes_of_word_ok w Hw) as [[L2 F2] E2].
    change (bytes_of (w :: ws)) with (bytes_of_word w ++ bytes_of ws). split.
    + split; [|apply Forall_app; auto]. rewrite app_length, L1, L2. lia.
    + rewrite le_val_app, L2, E, E2. reflexivity.
Qed.
Lemma words_of_ok n bs : bytes (8 * n) bs -> words n (words_of n bs) /\ val (words_of n bs) = le_val bs.
Proof.
  revert bs; induction n; intros bs [L F].
  - destruct bs; [|cbn in L; discriminate]. repeat constructor.
  - cbn [words_of val]. rewrite <- (firstn_skipn 8 bs) in F. apply Forall_app in F as [F1 F2].
    destruct (IHn (skipn 8 bs)) as [[L' F'] E'].
    { split; auto. rewrite skipn_length. lia. }
    assert (L8 : length (firstn 8 bs) = 8%nat) by (rewrite firstn_length; lia).
    split.
    + split; [cbn [length]; auto|]. constructor; auto. rewrite word_of_bytes_le.
      pose proof (le_val_bound _ F1) as B. rewrite L8 in B. exact B.
    + rewrite E', word_of_bytes_le. rewrite <- (firstn_skipn 8 bs) at 3. rewrite le_val_app, L8. reflexivity.
Qed.
Lemma lxor_bound x y : byte x -> byte y -> byte (Z.lxor x y).
Proof.
  intros Hx Hy. unfold byte in *. assert (0 <= Z.lxor x y) by (apply Z.lxor_nonneg; lia).
  split; auto. destruct (Z.eq_dec (Z.lxor x y) 0) as [->|N]; [lia|].
  change 256 with (2 ^ 8). apply Z.log2_lt_pow2; [lia|].
  eapply Z.le_lt_trans; [apply Z.log2_lxor; lia|].
  apply Z.max_lub_lt.
  - destruct (Z.eq_dec x 0) as [->|]; [cbn; lia|]. apply Z.log2_lt_pow2; lia.
  - destruct (Z.eq_dec y 0) as [->|]; [cbn; lia|]. apply Z.log2_lt_pow2; lia.
Qed.
Lemma lor_bound x y : byte x -> byte y -> byte (Z.lor x y).
Proof.
  intros Hx Hy. unfold byte in *. assert (0 <= Z.lor x y) by (apply Z.lor_nonneg; lia).
  split; auto. destruct (Z.eq_dec (Z.lor x y) 0) as [->|N]; [lia|].
  change 256 with (2 ^ 8). apply Z.log2_lt_pow2; [lia|].
  rewrite Z.log2_lor by lia. apply Z.max_lub_lt.
  - destruct (Z.eq_dec x 0) as [->|]; [cbn; lia|]. apply Z.log2_lt_pow2; lia.
  - destruct (Z.eq_dec y 0) as [->|]; [cbn; lia|]. apply Z.log2_lt_pow2; lia.
Qed.
Lemma cmp_bytes_byte a : forall b, Forall byte a -> Forall byte b -> byte (cmp_bytes a b).
Proof.
  induction a as [|x a IH]; intros [|y b] Ha Hb; cbn [cmp_bytes]; try (unfold byte; lia).
  inversion Ha; inversion Hb; subst. apply lor_bound; auto. now apply lxor_bound.
Qed.
Lemma cmp_bytes_0 a : forall b, length a = length b -> cmp_bytes a b = 0 <-> a = b.
Proof.
  induction a as [|x a IH]; intros [|y b] L; try discriminate; cbn [cmp_bytes].
  - tauto.
  - rewrite Z.lor_eq_0_iff, IH by now injection L. rewrite Z.lxor_eq_0_iff. split.
    + now intros [-> ->].
    + intro E; injection E as -> ->. auto.
Qed.
