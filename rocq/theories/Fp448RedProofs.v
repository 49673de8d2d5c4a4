(** Contracts of the reduced-radix vector arithmetic of GF(2^448-2^224-1). *)
From Coq Require Import ZArith List Bool Lia.
From Verif Require Import Uop Poly Sym Engine Check Bytes FullTac Simd Simd448 Lanes RedTac Moves
  X86 Asm448 Fp25519Full Fp448Full Fp25519Red Fp448Red Fp25519RedProofs Fp448FullProofs.
Import ListNotations.
Open Scope Z_scope.

(** Every transcription has a meaning. *)
Lemma simd448_compiles : forallb compiles
  [v448_1w_compress; v448_1w_compressfast; v448_1w_new_compressfast; v448_1w_sqrn1; v448_1w_unser; v448_1w_add; v448_1w_sub;
   v448_1w_addsub; v448_1w_neg; v448_1w_intmul_sb; v448_1w_copy; v448_1w_prime; v448_1w_zero; v448_1w_naddsub;
   v448_2w_copy; v448_2w_zero; v448_2w_inter; v448_2w_deinter; v448_2w_add; v448_2w_sub; v448_2w_subadd0;
   v448_2w_subadd1; v448_2w_ngz; v448_2w_addsub; v448_2w_intmul_karat; v448_2w_intsqr_karat;
   v448_2w_compress; v448_2w_compress2; v448_2w_compressfast; v448_2w_naddsub;
   v448_4w_copy; v448_4w_zero; v448_4w_zip; v448_4w_unzip; v448_4w_add; v448_4w_sub;
   v448_4w_addsub; v448_4w_addsublar; v448_4w_ngz; v448_4w_intmul_karat; v448_4w_intsqr_karat; v448_4w_compress;
   v448_4w_compress2; v448_4w_compressfast; v448_4w_new_compressfast2] = true.
Proof. vm_compute. reflexivity. Qed.

(** Limb held by word k of an element. *)
Definition limb448 (k : nat) : nat := (k / 2 + 8 * (k mod 2))%nat.
Definition wt448 : list Z := Eval vm_compute in map (fun k => 2 ^ (28 * Z.of_nat (limb448 k))) (seq 0 16).
Notation fe448 := (wsum wt448).
(** Bounds: y for limb 8, x for the others. *)
Definition bnd448 (x y : Z) : list (Z * Z) := map (fun k => (0, if Nat.eqb (limb448 k) 8 then y else x)) (seq 0 16).
(** Loaded, reduced, slightly unreduced (a sum of two reduced elements, or a
    1-way square), unreduced (a difference of two reduced elements), and products. *)
Definition canon448 : list (Z * Z) := Eval vm_compute in bnd448 (2 ^ 28 - 1) (2 ^ 28 - 1).
Definition red448 : list (Z * Z) := Eval vm_compute in bnd448 (2 ^ 28 + 2 ^ 10) (2 ^ 28 + 2 ^ 10).
Definition mid448 : list (Z * Z) := Eval vm_compute in bnd448 (2 ^ 29 + 2 ^ 27) (2 ^ 29 + 2 ^ 28 + 2 ^ 10).
Definition wide448 : list (Z * Z) := Eval vm_compute in bnd448 (2 ^ 29 + 2 ^ 28 + 2 ^ 10) (2 ^ 30 + 2 ^ 28 + 2 ^ 10).
Definition big448 : list (Z * Z) := Eval vm_compute in bnd448 (2 ^ 64 - 2 ^ 37) (2 ^ 64 - 2 ^ 37).
Definition lar448 : list (Z * Z) := Eval vm_compute in bnd448 (2 ^ 34 * (2 ^ 28 - 1)) (2 ^ 34 * (2 ^ 28 - 2)).
(** Operands whose sum stays below 2 p limb by limb. *)
Definition low448 : list (Z * Z) := Eval vm_compute in bnd448 (2 ^ 28 - 2) (2 ^ 28 - 2).
Definition c56 : list (Z * Z) := Eval vm_compute in bnd448 (2 ^ 56 - 1) (2 ^ 56 - 1).
Notation is_red448 := (arr_ok red448).
Notation is_mid448 := (arr_ok mid448).
Notation is_wide448 := (arr_ok wide448).
Notation is_big448 := (arr_ok big448).
Lemma canon_red448 a : arr_ok canon448 a -> is_red448 a.
Proof. apply bounds_le_ok. vm_compute. reflexivity. Qed.
Lemma red_mid448 a : is_red448 a -> is_mid448 a.
Proof. apply bounds_le_ok. vm_compute. reflexivity. Qed.
Lemma red_wide448 a : is_red448 a -> is_wide448 a.
Proof. apply bounds_le_ok. vm_compute. reflexivity. Qed.
Lemma mid_wide448 a : is_mid448 a -> is_wide448 a.
Proof. apply bounds_le_ok. vm_compute. reflexivity. Qed.
Lemma wide_big448 a : is_wide448 a -> is_big448 a.
Proof. apply bounds_le_ok. vm_compute. reflexivity. Qed.

Notation Q := p448.
Definition cq (x y : Z) : Prop := (x - y) mod Q = 0.
Lemma cq_refl x : cq x x.
Proof. unfold cq. now rewrite Z.sub_diag. Qed.
Lemma cq_div x y : cq x y <-> (Q | x - y).
Proof. unfold cq. split; intro H; [apply Z.mod_divide in H|apply Z.mod_divide]; auto; discriminate. Qed.
Lemma cq_sym x y : cq x y -> cq y x.
Proof. rewrite !cq_div. intros [k H]. exists (- k). lia. Qed.
Lemma cq_trans x y z : cq x y -> cq y z -> cq x z.
Proof. rewrite !cq_div. intros [k H] [l K]. exists (k + l). lia. Qed.
Lemma cq_mul x y u v : cq x u -> cq y v -> cq (x * y) (u * v).
Proof. rewrite !cq_div. intros [k H] [l K]. exists (k * y + u * l). nia. Qed.
Lemma cq_add x y u v : cq x u -> cq y v -> cq (x + y) (u + v).
Proof. rewrite !cq_div. intros [k H] [l K]. exists (k + l). lia. Qed.
Lemma cq_sub x y u v : cq x u -> cq y v -> cq (x - y) (u - v).
Proof. rewrite !cq_div. intros [k H] [l K]. exists (k - l). lia. Qed.

(** ** One element *)
Section One.
Variable st : store.
Ltac one prog xs out ob e ins := do_one prog wt448 xs out ob Q e ins st.

Lemma add448_1w_ok a b : is_red448 a -> is_red448 b -> 
  cq (fe448 (add448_1w st a b)) (fe448 a + fe448 b) /\ is_mid448 (add448_1w st a b).
Proof. intros. one v448_1w_add [(q2, red448); (q3, red448)] q1 mid448 eAdd [a; b]. Qed.
Lemma sub448_1w_ok a b : is_red448 a -> is_red448 b -> 
  cq (fe448 (sub448_1w st a b)) (fe448 a - fe448 b) /\ is_wide448 (sub448_1w st a b).
Proof. intros. one v448_1w_sub [(q2, red448); (q3, red448)] q1 wide448 eSub [a; b]. Qed.
Lemma neg448_1w_ok a : is_red448 a -> 
  cq (fe448 (neg448_1w st a)) (0 - fe448 a) /\ is_wide448 (neg448_1w st a).
Proof. intros. one v448_1w_neg [(q1, red448)] q1 wide448 eNeg [a]. Qed.
Lemma addsub448_1w_ok1 a b : is_red448 a -> is_red448 b -> 
  cq (fe448 (fst (addsub448_1w st a b))) (fe448 a + fe448 b) /\ is_mid448 (fst (addsub448_1w st a b)).
Proof. intros. one v448_1w_addsub [(q1, red448); (q2, red448)] q1 mid448 eAdd [a; b]. Qed.
Lemma addsub448_1w_ok2 a b : is_red448 a -> is_red448 b -> 
  cq (fe448 (snd (addsub448_1w st a b))) (fe448 a - fe448 b) /\ is_wide448 (snd (addsub448_1w st a b)).
Proof. intros. one v448_1w_addsub [(q1, red448); (q2, red448)] q2 wide448 eSub [a; b]. Qed.
Lemma naddsub448_1w_ok1 a b : arr_ok low448 a -> arr_ok low448 b -> 
  cq (fe448 (fst (naddsub448_1w st a b))) (0 - fe448 a - fe448 b) /\ is_wide448 (fst (naddsub448_1w st a b)).
Proof. intros. one v448_1w_naddsub [(q3, low448); (q4, low448)] q1 wide448 eNegAdd [a; b]. Qed.
Lemma naddsub448_1w_ok2 a b : is_red448 a -> is_red448 b -> 
  cq (fe448 (snd (naddsub448_1w st a b))) (0 - fe448 a + fe448 b) /\ is_wide448 (snd (naddsub448_1w st a b)).
Proof. intros. one v448_1w_naddsub [(q3, red448); (q4, red448)] q2 wide448 eRsub [a; b]. Qed.
Lemma intmul448_1w_ok a b : is_mid448 a -> is_mid448 b -> 
  cq (fe448 (intmul448_1w st a b)) (fe448 a * fe448 b) /\ is_big448 (intmul448_1w st a b).
Proof. intros. one v448_1w_intmul_sb [(q2, mid448); (q3, mid448)] q1 big448 eMul [a; b]. Qed.
Lemma intmul448_1w_wr a b : is_wide448 a -> is_red448 b -> 
  cq (fe448 (intmul448_1w st a b)) (fe448 a * fe448 b) /\ is_big448 (intmul448_1w st a b).
Proof. intros. one v448_1w_intmul_sb [(q2, wide448); (q3, red448)] q1 big448 eMul [a; b]. Qed.
Lemma intmul448_1w_rw a b : is_red448 a -> is_wide448 b -> 
  cq (fe448 (intmul448_1w st a b)) (fe448 a * fe448 b) /\ is_big448 (intmul448_1w st a b).
Proof. intros. one v448_1w_intmul_sb [(q2, red448); (q3, wide448)] q1 big448 eMul [a; b]. Qed.
Lemma compress448_1w_ok a : is_big448 a -> 
  cq (fe448 (compress448_1w st a)) (fe448 a) /\ is_red448 (compress448_1w st a).
Proof. intros. one v448_1w_compress [(q1, big448)] q1 red448 eIn [a]. Qed.
Lemma sqr448_1w_ok a : is_mid448 a -> 
  cq (fe448 (sqr448_1w st a)) (fe448 a * fe448 a) /\ is_mid448 (sqr448_1w st a).
Proof. intros. one v448_1w_sqrn1 [(q1, mid448)] q1 mid448 eSqr [a]. Qed.
Lemma compressfast448_1w_red a : is_wide448 a -> 
  cq (fe448 (compressfast448_1w st a)) (fe448 a) /\ is_red448 (compressfast448_1w st a).
Proof. intros. one v448_1w_compressfast [(q1, wide448)] q1 red448 eIn [a]. Qed.
Lemma new_compressfast448_1w_red a : is_wide448 a -> 
  cq (fe448 (new_compressfast448_1w st a)) (fe448 a) /\ is_red448 (new_compressfast448_1w st a).
Proof. intros. one v448_1w_new_compressfast [(q1, wide448)] q1 red448 eIn [a]. Qed.
Lemma mul448_1w_ok a b : is_mid448 a -> is_mid448 b ->
  cq (fe448 (mul448_1w st a b)) (fe448 a * fe448 b) /\ is_red448 (mul448_1w st a b).
Proof.
  intros Ha Hb. destruct (intmul448_1w_ok a b Ha Hb) as [C B].
  destruct (compress448_1w_ok _ B) as [C' B'].
  exact (conj (cq_trans _ _ _ C' C) B').
Qed.
Lemma mul448_1w_wr a b : is_wide448 a -> is_red448 b ->
  cq (fe448 (mul448_1w st a b)) (fe448 a * fe448 b) /\ is_red448 (mul448_1w st a b).
Proof.
  intros Ha Hb. destruct (intmul448_1w_wr a b Ha Hb) as [C B].
  destruct (compress448_1w_ok _ B) as [C' B'].
  exact (conj (cq_trans _ _ _ C' C) B').
Qed.
Lemma mul448_1w_rw a b : is_red448 a -> is_wide448 b ->
  cq (fe448 (mul448_1w st a b)) (fe448 a * fe448 b) /\ is_red448 (mul448_1w st a b).
Proof.
  intros Ha Hb. destruct (intmul448_1w_rw a b Ha Hb) as [C B].
  destruct (compress448_1w_ok _ B) as [C' B'].
  exact (conj (cq_trans _ _ _ C' C) B').
Qed.
(** The constant stored by prime is not the modulus. *)
Lemma prime448_1w_eq : prime448_1w st =
  [0xfffffff; 0xfffffff; 0xfffffff; 0xfffffff; 0xfffffff; 0xfffffff; 0xfffffff; 0xfffffff;
   0xffffffe; 0xfffffff; 0xfffffff; 0xfffffff; 0xfffffff; 0xfffffff; 0xfffffff; 0xfffffff].
Proof.
  apply (consts_ok (vcode v448_1w_prime) [] q1 
  [0xfffffff; 0xfffffff; 0xfffffff; 0xfffffff; 0xfffffff; 0xfffffff; 0xfffffff; 0xfffffff;
   0xffffffe; 0xfffffff; 0xfffffff; 0xfffffff; 0xfffffff; 0xfffffff; 0xfffffff; 0xfffffff] st).
  vm_compute. reflexivity.
Qed.
Lemma prime448_1w_wrong : fe448 (prime448_1w st) = 2 ^ 448 - 2 ^ 112 - 1.
Proof. rewrite prime448_1w_eq. vm_compute. reflexivity. Qed.
Lemma zero448_1w_ok : zero448_1w st = repeat 0 16.
Proof. apply (consts_ok (vcode v448_1w_zero) [] q1 (repeat 0 16) st). vm_compute. reflexivity. Qed.
Lemma copy448_1w_ok a : length a = 16%nat -> copy448_1w st a = a.
Proof.
  intro H.
  pose proof (moves_ok (vcode v448_1w_copy) [(q2, 16%nat)] q1 16 (fun i => i) 0 (fun i => i) 16 [a] st) as E.
  rewrite !pick_id in E; [| exact H | apply call_length].
  apply E; [vm_compute; reflexivity|]. cbn [map length snd]. now rewrite H.
Qed.
End One.

(** ** Two elements side by side *)
Notation el2q h := (pick (ixh h) 16).
Ltac vmt := vm_compute; reflexivity.
Lemma chkq2_add : duo_check v448_2w_add [q2; q3] q1 16 = true. Proof. vmt. Qed.
Lemma chkq2_sub : duo_check v448_2w_sub [q2; q3] q1 16 = true. Proof. vmt. Qed.
Lemma chkq2_addsub1 : duo_check v448_2w_addsub [q1; q2] q1 16 = true. Proof. vmt. Qed.
Lemma chkq2_addsub2 : duo_check v448_2w_addsub [q1; q2] q2 16 = true. Proof. vmt. Qed.
Lemma chkq2_naddsub1 : duo_check v448_2w_naddsub [q3; q4] q1 16 = true. Proof. vmt. Qed.
Lemma chkq2_naddsub2 : duo_check v448_2w_naddsub [q3; q4] q2 16 = true. Proof. vmt. Qed.
Lemma chkq2_intmul : duo_check v448_2w_intmul_karat [q2; q3] q1 16 = true. Proof. vmt. Qed.
Lemma chkq2_intsqr : duo_check v448_2w_intsqr_karat [q1] q1 16 = true. Proof. vmt. Qed.
Lemma chkq2_compress : duo_check v448_2w_compress [q1] q1 16 = true. Proof. vmt. Qed.
Lemma chkq2_compress21 : duo_check v448_2w_compress2 [q1; q2] q1 16 = true. Proof. vmt. Qed.
Lemma chkq2_compress22 : duo_check v448_2w_compress2 [q1; q2] q2 16 = true. Proof. vmt. Qed.
Lemma chkq2_compressfast : duo_check v448_2w_compressfast [q1] q1 16 = true. Proof. vmt. Qed.
Section Two.
Variable st : store.
Ltac duo chk prog xs out ob e ins h := do_duo chk prog wt448 xs out ob Q e ins st 16%nat h.
Lemma add448_2w_ok a b h : length a = 32%nat -> length b = 32%nat -> is_red448 (el2q h a) -> is_red448 (el2q h b) -> 
  cq (fe448 (el2q h (add448_2w st a b))) (fe448 (el2q h a) + fe448 (el2q h b)) /\ is_mid448 (el2q h (add448_2w st a b)).
Proof. intros. duo chkq2_add v448_2w_add [(q2, red448); (q3, red448)] q1 mid448 eAdd [a; b] h. Qed.
Lemma sub448_2w_ok a b h : length a = 32%nat -> length b = 32%nat -> is_red448 (el2q h a) -> is_red448 (el2q h b) -> 
  cq (fe448 (el2q h (sub448_2w st a b))) (fe448 (el2q h a) - fe448 (el2q h b)) /\ is_wide448 (el2q h (sub448_2w st a b)).
Proof. intros. duo chkq2_sub v448_2w_sub [(q2, red448); (q3, red448)] q1 wide448 eSub [a; b] h. Qed.
Lemma addsub448_2w_ok1 a b h : length a = 32%nat -> length b = 32%nat -> is_red448 (el2q h a) -> is_red448 (el2q h b) -> 
  cq (fe448 (el2q h (fst (addsub448_2w st a b)))) (fe448 (el2q h a) + fe448 (el2q h b)) /\ is_mid448 (el2q h (fst (addsub448_2w st a b))).
Proof. intros. duo chkq2_addsub1 v448_2w_addsub [(q1, red448); (q2, red448)] q1 mid448 eAdd [a; b] h. Qed.
Lemma addsub448_2w_ok2 a b h : length a = 32%nat -> length b = 32%nat -> is_red448 (el2q h a) -> is_red448 (el2q h b) -> 
  cq (fe448 (el2q h (snd (addsub448_2w st a b)))) (fe448 (el2q h a) - fe448 (el2q h b)) /\ is_wide448 (el2q h (snd (addsub448_2w st a b))).
Proof. intros. duo chkq2_addsub2 v448_2w_addsub [(q1, red448); (q2, red448)] q2 wide448 eSub [a; b] h. Qed.
Lemma naddsub448_2w_ok1 a b h : length a = 32%nat -> length b = 32%nat -> arr_ok low448 (el2q h a) -> arr_ok low448 (el2q h b) -> 
  cq (fe448 (el2q h (fst (naddsub448_2w st a b)))) (0 - fe448 (el2q h a) - fe448 (el2q h b)) /\ is_wide448 (el2q h (fst (naddsub448_2w st a b))).
Proof. intros. duo chkq2_naddsub1 v448_2w_naddsub [(q3, low448); (q4, low448)] q1 wide448 eNegAdd [a; b] h. Qed.
Lemma naddsub448_2w_ok2 a b h : length a = 32%nat -> length b = 32%nat -> is_red448 (el2q h a) -> is_red448 (el2q h b) -> 
  cq (fe448 (el2q h (snd (naddsub448_2w st a b)))) (0 - fe448 (el2q h a) + fe448 (el2q h b)) /\ is_wide448 (el2q h (snd (naddsub448_2w st a b))).
Proof. intros. duo chkq2_naddsub2 v448_2w_naddsub [(q3, red448); (q4, red448)] q2 wide448 eRsub [a; b] h. Qed.
Lemma intmul448_2w_ok a b h : length a = 32%nat -> length b = 32%nat -> is_mid448 (el2q h a) -> is_mid448 (el2q h b) -> 
  cq (fe448 (el2q h (intmul448_2w st a b))) (fe448 (el2q h a) * fe448 (el2q h b)) /\ is_big448 (el2q h (intmul448_2w st a b)).
Proof. intros. duo chkq2_intmul v448_2w_intmul_karat [(q2, mid448); (q3, mid448)] q1 big448 eMul [a; b] h. Qed.
Lemma intmul448_2w_wr a b h : length a = 32%nat -> length b = 32%nat -> is_wide448 (el2q h a) -> is_red448 (el2q h b) -> 
  cq (fe448 (el2q h (intmul448_2w st a b))) (fe448 (el2q h a) * fe448 (el2q h b)) /\ is_big448 (el2q h (intmul448_2w st a b)).
Proof. intros. duo chkq2_intmul v448_2w_intmul_karat [(q2, wide448); (q3, red448)] q1 big448 eMul [a; b] h. Qed.
Lemma intmul448_2w_rw a b h : length a = 32%nat -> length b = 32%nat -> is_red448 (el2q h a) -> is_wide448 (el2q h b) -> 
  cq (fe448 (el2q h (intmul448_2w st a b))) (fe448 (el2q h a) * fe448 (el2q h b)) /\ is_big448 (el2q h (intmul448_2w st a b)).
Proof. intros. duo chkq2_intmul v448_2w_intmul_karat [(q2, red448); (q3, wide448)] q1 big448 eMul [a; b] h. Qed.
Lemma compress448_2w_ok a h : length a = 32%nat -> is_big448 (el2q h a) -> 
  cq (fe448 (el2q h (compress448_2w st a))) (fe448 (el2q h a)) /\ is_red448 (el2q h (compress448_2w st a)).
Proof. intros. duo chkq2_compress v448_2w_compress [(q1, big448)] q1 red448 eIn [a] h. Qed.
Lemma intsqr448_2w_ok a h : length a = 32%nat -> is_mid448 (el2q h a) -> 
  cq (fe448 (el2q h (intsqr448_2w st a))) (fe448 (el2q h a) * fe448 (el2q h a)) /\ is_big448 (el2q h (intsqr448_2w st a)).
Proof. intros. duo chkq2_intsqr v448_2w_intsqr_karat [(q1, mid448)] q1 big448 eSqr [a] h. Qed.
Lemma compress2448_2w_ok1 a b h : length a = 32%nat -> length b = 32%nat -> is_big448 (el2q h a) -> is_big448 (el2q h b) -> 
  cq (fe448 (el2q h (fst (compress2448_2w st a b)))) (fe448 (el2q h a)) /\ is_red448 (el2q h (fst (compress2448_2w st a b))).
Proof. intros. duo chkq2_compress21 v448_2w_compress2 [(q1, big448); (q2, big448)] q1 red448 eIn [a; b] h. Qed.
Lemma compress2448_2w_ok2 a b h : length a = 32%nat -> length b = 32%nat -> is_big448 (el2q h a) -> is_big448 (el2q h b) -> 
  cq (fe448 (el2q h (snd (compress2448_2w st a b)))) (fe448 (el2q h b)) /\ is_red448 (el2q h (snd (compress2448_2w st a b))).
Proof. intros. duo chkq2_compress22 v448_2w_compress2 [(q1, big448); (q2, big448)] q2 red448 eIn1 [a; b] h. Qed.
Lemma compressfast448_2w_red a h : length a = 32%nat -> is_wide448 (el2q h a) -> 
  cq (fe448 (el2q h (compressfast448_2w st a))) (fe448 (el2q h a)) /\ is_red448 (el2q h (compressfast448_2w st a)).
Proof. intros. duo chkq2_compressfast v448_2w_compressfast [(q1, wide448)] q1 red448 eIn [a] h. Qed.
Lemma mul448_2w_ok a b h : length a = 32%nat -> length b = 32%nat -> is_mid448 (el2q h a) -> is_mid448 (el2q h b) ->
  cq (fe448 (el2q h (mul448_2w st a b))) (fe448 (el2q h a) * fe448 (el2q h b)) /\ is_red448 (el2q h (mul448_2w st a b)).
Proof.
  intros La Lb Ha Hb. destruct (intmul448_2w_ok a b h La Lb Ha Hb) as [C B].
  destruct (compress448_2w_ok _ h (call_length _ _ _ _ _) B) as [C' B'].
  exact (conj (cq_trans _ _ _ C' C) B').
Qed.
Lemma mul448_2w_wr a b h : length a = 32%nat -> length b = 32%nat -> is_wide448 (el2q h a) -> is_red448 (el2q h b) ->
  cq (fe448 (el2q h (mul448_2w st a b))) (fe448 (el2q h a) * fe448 (el2q h b)) /\ is_red448 (el2q h (mul448_2w st a b)).
Proof.
  intros La Lb Ha Hb. destruct (intmul448_2w_wr a b h La Lb Ha Hb) as [C B].
  destruct (compress448_2w_ok _ h (call_length _ _ _ _ _) B) as [C' B'].
  exact (conj (cq_trans _ _ _ C' C) B').
Qed.
Lemma mul448_2w_rw a b h : length a = 32%nat -> length b = 32%nat -> is_red448 (el2q h a) -> is_wide448 (el2q h b) ->
  cq (fe448 (el2q h (mul448_2w st a b))) (fe448 (el2q h a) * fe448 (el2q h b)) /\ is_red448 (el2q h (mul448_2w st a b)).
Proof.
  intros La Lb Ha Hb. destruct (intmul448_2w_rw a b h La Lb Ha Hb) as [C B].
  destruct (compress448_2w_ok _ h (call_length _ _ _ _ _) B) as [C' B'].
  exact (conj (cq_trans _ _ _ C' C) B').
Qed.
Lemma sqr448_2w_ok a h : length a = 32%nat -> is_mid448 (el2q h a) ->
  cq (fe448 (el2q h (sqr448_2w st a))) (fe448 (el2q h a) * fe448 (el2q h a)) /\ is_red448 (el2q h (sqr448_2w st a)).
Proof.
  intros La Ha. destruct (intsqr448_2w_ok a h La Ha) as [C B].
  destruct (compress448_2w_ok _ h (call_length _ _ _ _ _) B) as [C' B'].
  exact (conj (cq_trans _ _ _ C' C) B').
Qed.
End Two.

(** ** Four elements side by side *)
Notation el4q j := (pick (ix4 j) 16).
Lemma chkq4_add : quad_check v448_4w_add [q2; q3] q1 16 = true. Proof. vmt. Qed.
Lemma chkq4_sub : quad_check v448_4w_sub [q2; q3] q1 16 = true. Proof. vmt. Qed.
Lemma chkq4_addsub1 : quad_check v448_4w_addsub [q3; q4] q1 16 = true. Proof. vmt. Qed.
Lemma chkq4_addsub2 : quad_check v448_4w_addsub [q3; q4] q2 16 = true. Proof. vmt. Qed.
Lemma chkq4_addsublar1 : quad_check v448_4w_addsublar [q1; q2] q1 16 = true. Proof. vmt. Qed.
Lemma chkq4_addsublar2 : quad_check v448_4w_addsublar [q1; q2] q2 16 = true. Proof. vmt. Qed.
Lemma chkq4_intmul : quad_check v448_4w_intmul_karat [q2; q3] q1 16 = true. Proof. vmt. Qed.
Lemma chkq4_intsqr : quad_check v448_4w_intsqr_karat [q1] q1 16 = true. Proof. vmt. Qed.
Lemma chkq4_compress : quad_check v448_4w_compress [q1] q1 16 = true. Proof. vmt. Qed.
Lemma chkq4_compress21 : quad_check v448_4w_compress2 [q1; q2] q1 16 = true. Proof. vmt. Qed.
Lemma chkq4_compress22 : quad_check v448_4w_compress2 [q1; q2] q2 16 = true. Proof. vmt. Qed.
Lemma chkq4_compressfast : quad_check v448_4w_compressfast [q1] q1 16 = true. Proof. vmt. Qed.
Lemma chkq4_ncf1 : quad_check v448_4w_new_compressfast2 [q1; q2] q1 16 = true. Proof. vmt. Qed.
Lemma chkq4_ncf2 : quad_check v448_4w_new_compressfast2 [q1; q2] q2 16 = true. Proof. vmt. Qed.
Section Four.
Variable st : store.
Ltac quad chk prog xs out ob e ins j := do_quad chk prog wt448 xs out ob Q e ins st 16%nat j.
Variable j : nat.
Hypothesis Hj : (j < 4)%nat.
Lemma add448_4w_ok a b : length a = 64%nat -> length b = 64%nat -> is_red448 (el4q j a) -> is_red448 (el4q j b) -> 
  cq (fe448 (el4q j (add448_4w st a b))) (fe448 (el4q j a) + fe448 (el4q j b)) /\ is_mid448 (el4q j (add448_4w st a b)).
Proof. intros. quad chkq4_add v448_4w_add [(q2, red448); (q3, red448)] q1 mid448 eAdd [a; b] j. Qed.
Lemma sub448_4w_ok a b : length a = 64%nat -> length b = 64%nat -> is_red448 (el4q j a) -> is_red448 (el4q j b) -> 
  cq (fe448 (el4q j (sub448_4w st a b))) (fe448 (el4q j a) - fe448 (el4q j b)) /\ is_wide448 (el4q j (sub448_4w st a b)).
Proof. intros. quad chkq4_sub v448_4w_sub [(q2, red448); (q3, red448)] q1 wide448 eSub [a; b] j. Qed.
Lemma addsub448_4w_ok1 a b : length a = 64%nat -> length b = 64%nat -> is_red448 (el4q j a) -> is_red448 (el4q j b) -> 
  cq (fe448 (el4q j (fst (addsub448_4w st a b)))) (fe448 (el4q j a) + fe448 (el4q j b)) /\ is_mid448 (el4q j (fst (addsub448_4w st a b))).
Proof. intros. quad chkq4_addsub1 v448_4w_addsub [(q3, red448); (q4, red448)] q1 mid448 eAdd [a; b] j. Qed.
Lemma addsub448_4w_ok2 a b : length a = 64%nat -> length b = 64%nat -> is_red448 (el4q j a) -> is_red448 (el4q j b) -> 
  cq (fe448 (el4q j (snd (addsub448_4w st a b)))) (fe448 (el4q j a) - fe448 (el4q j b)) /\ is_wide448 (el4q j (snd (addsub448_4w st a b))).
Proof. intros. quad chkq4_addsub2 v448_4w_addsub [(q3, red448); (q4, red448)] q2 wide448 eSub [a; b] j. Qed.
Lemma intmul448_4w_ok a b : length a = 64%nat -> length b = 64%nat -> is_mid448 (el4q j a) -> is_mid448 (el4q j b) -> 
  cq (fe448 (el4q j (intmul448_4w st a b))) (fe448 (el4q j a) * fe448 (el4q j b)) /\ is_big448 (el4q j (intmul448_4w st a b)).
Proof. intros. quad chkq4_intmul v448_4w_intmul_karat [(q2, mid448); (q3, mid448)] q1 big448 eMul [a; b] j. Qed.
Lemma intmul448_4w_wr a b : length a = 64%nat -> length b = 64%nat -> is_wide448 (el4q j a) -> is_red448 (el4q j b) -> 
  cq (fe448 (el4q j (intmul448_4w st a b))) (fe448 (el4q j a) * fe448 (el4q j b)) /\ is_big448 (el4q j (intmul448_4w st a b)).
Proof. intros. quad chkq4_intmul v448_4w_intmul_karat [(q2, wide448); (q3, red448)] q1 big448 eMul [a; b] j. Qed.
Lemma intmul448_4w_rw a b : length a = 64%nat -> length b = 64%nat -> is_red448 (el4q j a) -> is_wide448 (el4q j b) -> 
  cq (fe448 (el4q j (intmul448_4w st a b))) (fe448 (el4q j a) * fe448 (el4q j b)) /\ is_big448 (el4q j (intmul448_4w st a b)).
Proof. intros. quad chkq4_intmul v448_4w_intmul_karat [(q2, red448); (q3, wide448)] q1 big448 eMul [a; b] j. Qed.
Lemma compress448_4w_ok a : length a = 64%nat -> is_big448 (el4q j a) -> 
  cq (fe448 (el4q j (compress448_4w st a))) (fe448 (el4q j a)) /\ is_red448 (el4q j (compress448_4w st a)).
Proof. intros. quad chkq4_compress v448_4w_compress [(q1, big448)] q1 red448 eIn [a] j. Qed.
Lemma intsqr448_4w_ok a : length a = 64%nat -> is_mid448 (el4q j a) -> 
  cq (fe448 (el4q j (intsqr448_4w st a))) (fe448 (el4q j a) * fe448 (el4q j a)) /\ is_big448 (el4q j (intsqr448_4w st a)).
Proof. intros. quad chkq4_intsqr v448_4w_intsqr_karat [(q1, mid448)] q1 big448 eSqr [a] j. Qed.
Lemma compress2448_4w_ok1 a b : length a = 64%nat -> length b = 64%nat -> is_big448 (el4q j a) -> is_big448 (el4q j b) -> 
  cq (fe448 (el4q j (fst (compress2448_4w st a b)))) (fe448 (el4q j a)) /\ is_red448 (el4q j (fst (compress2448_4w st a b))).
Proof. intros. quad chkq4_compress21 v448_4w_compress2 [(q1, big448); (q2, big448)] q1 red448 eIn [a; b] j. Qed.
Lemma compress2448_4w_ok2 a b : length a = 64%nat -> length b = 64%nat -> is_big448 (el4q j a) -> is_big448 (el4q j b) -> 
  cq (fe448 (el4q j (snd (compress2448_4w st a b)))) (fe448 (el4q j b)) /\ is_red448 (el4q j (snd (compress2448_4w st a b))).
Proof. intros. quad chkq4_compress22 v448_4w_compress2 [(q1, big448); (q2, big448)] q2 red448 eIn1 [a; b] j. Qed.
Lemma compressfast448_4w_red a : length a = 64%nat -> is_wide448 (el4q j a) -> 
  cq (fe448 (el4q j (compressfast448_4w st a))) (fe448 (el4q j a)) /\ is_red448 (el4q j (compressfast448_4w st a)).
Proof. intros. quad chkq4_compressfast v448_4w_compressfast [(q1, wide448)] q1 red448 eIn [a] j. Qed.
Lemma addsublar448_4w_ok1 a b : length a = 64%nat -> length b = 64%nat -> arr_ok lar448 (el4q j a) -> arr_ok lar448 (el4q j b) -> 
  cq (fe448 (el4q j (fst (addsublar448_4w st a b)))) (fe448 (el4q j a) + fe448 (el4q j b)) /\ is_big448 (el4q j (fst (addsublar448_4w st a b))).
Proof. intros. quad chkq4_addsublar1 v448_4w_addsublar [(q1, lar448); (q2, lar448)] q1 big448 eAdd [a; b] j. Qed.
Lemma addsublar448_4w_ok2 a b : length a = 64%nat -> length b = 64%nat -> arr_ok lar448 (el4q j a) -> arr_ok lar448 (el4q j b) -> 
  cq (fe448 (el4q j (snd (addsublar448_4w st a b)))) (fe448 (el4q j a) - fe448 (el4q j b)) /\ is_big448 (el4q j (snd (addsublar448_4w st a b))).
Proof. intros. quad chkq4_addsublar2 v448_4w_addsublar [(q1, lar448); (q2, lar448)] q2 big448 eSub [a; b] j. Qed.
Lemma new_compressfast2448_4w_red1 a b : length a = 64%nat -> length b = 64%nat -> is_wide448 (el4q j a) -> is_wide448 (el4q j b) -> 
  cq (fe448 (el4q j (fst (new_compressfast2448_4w st a b)))) (fe448 (el4q j a)) /\ is_red448 (el4q j (fst (new_compressfast2448_4w st a b))).
Proof. intros. quad chkq4_ncf1 v448_4w_new_compressfast2 [(q1, wide448); (q2, wide448)] q1 red448 eIn [a; b] j. Qed.
Lemma new_compressfast2448_4w_red2 a b : length a = 64%nat -> length b = 64%nat -> is_wide448 (el4q j a) -> is_wide448 (el4q j b) -> 
  cq (fe448 (el4q j (snd (new_compressfast2448_4w st a b)))) (fe448 (el4q j b)) /\ is_red448 (el4q j (snd (new_compressfast2448_4w st a b))).
Proof. intros. quad chkq4_ncf2 v448_4w_new_compressfast2 [(q1, wide448); (q2, wide448)] q2 red448 eIn1 [a; b] j. Qed.
Lemma mul448_4w_ok a b : length a = 64%nat -> length b = 64%nat -> is_mid448 (el4q j a) -> is_mid448 (el4q j b) ->
  cq (fe448 (el4q j (mul448_4w st a b))) (fe448 (el4q j a) * fe448 (el4q j b)) /\ is_red448 (el4q j (mul448_4w st a b)).
Proof.
  intros La Lb Ha Hb. destruct (intmul448_4w_ok a b La Lb Ha Hb) as [C B].
  destruct (compress448_4w_ok _ (call_length _ _ _ _ _) B) as [C' B'].
  exact (conj (cq_trans _ _ _ C' C) B').
Qed.
Lemma mul448_4w_wr a b : length a = 64%nat -> length b = 64%nat -> is_wide448 (el4q j a) -> is_red448 (el4q j b) ->
  cq (fe448 (el4q j (mul448_4w st a b))) (fe448 (el4q j a) * fe448 (el4q j b)) /\ is_red448 (el4q j (mul448_4w st a b)).
Proof.
  intros La Lb Ha Hb. destruct (intmul448_4w_wr a b La Lb Ha Hb) as [C B].
  destruct (compress448_4w_ok _ (call_length _ _ _ _ _) B) as [C' B'].
  exact (conj (cq_trans _ _ _ C' C) B').
Qed.
Lemma mul448_4w_rw a b : length a = 64%nat -> length b = 64%nat -> is_red448 (el4q j a) -> is_wide448 (el4q j b) ->
  cq (fe448 (el4q j (mul448_4w st a b))) (fe448 (el4q j a) * fe448 (el4q j b)) /\ is_red448 (el4q j (mul448_4w st a b)).
Proof.
  intros La Lb Ha Hb. destruct (intmul448_4w_rw a b La Lb Ha Hb) as [C B].
  destruct (compress448_4w_ok _ (call_length _ _ _ _ _) B) as [C' B'].
  exact (conj (cq_trans _ _ _ C' C) B').
Qed.
Lemma sqr448_4w_ok a : length a = 64%nat -> is_mid448 (el4q j a) ->
  cq (fe448 (el4q j (sqr448_4w st a))) (fe448 (el4q j a) * fe448 (el4q j a)) /\ is_red448 (el4q j (sqr448_4w st a)).
Proof.
  intros La Ha. destruct (intsqr448_4w_ok a La Ha) as [C B].
  destruct (compress448_4w_ok _ (call_length _ _ _ _ _) B) as [C' B'].
  exact (conj (cq_trans _ _ _ C' C) B').
Qed.
End Four.
