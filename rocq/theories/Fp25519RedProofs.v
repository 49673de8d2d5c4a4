(** Contracts of the reduced-radix vector arithmetic of GF(2^255-19). *)
From Coq Require Import ZArith List Bool Lia.
From Verif Require Import Uop Poly Sym Engine Check Bytes FullTac Simd Simd255 Lanes RedTac Moves
  X86 Asm25519 Fp25519Full Fp25519Red Fp25519FullProofs.
Import ListNotations.
Open Scope Z_scope.

(** Every transcription has a meaning. *)
Lemma simd255_compiles : forallb compiles
  [v255_1w_compress; v255_1w_compressfast; v255_1w_sqrn1; v255_1w_unser_limbs; v255_1w_add; v255_1w_sub;
   v255_1w_addsub; v255_1w_neg; v255_1w_intmul_sb; v255_1w_copy; v255_1w_prime; v255_1w_zero; v255_1w_naddsub;
   v255_2w_copy; v255_2w_zero; v255_2w_inter; v255_2w_deinter; v255_2w_add; v255_2w_sub; v255_2w_subadd0;
   v255_2w_subadd1; v255_2w_ngz; v255_2w_addsub; v255_2w_intmul2; v255_2w_intmul; v255_2w_intsqr;
   v255_2w_compress; v255_2w_compress2; v255_2w_compressfast; v255_2w_neg; v255_2w_naddsub;
   v255_4w_copy; v255_4w_zero; v255_4w_zip; v255_4w_unzip; v255_4w_add; v255_4w_sub; v255_4w_neg;
   v255_4w_addsub; v255_4w_addsublar; v255_4w_ngz; v255_4w_intmul_sb; v255_4w_intsqr; v255_4w_compress;
   v255_4w_compress2; v255_4w_compressfast; v255_4w_new_compressfast2] = true.
Proof. vm_compute. reflexivity. Qed.

(** Position of limb i, and limb held by word k of an element. *)
Definition lpos255 (i : nat) : Z := (51 * Z.of_nat i + 1) / 2.
Definition limb255 (k : nat) : nat := (k / 2 + 5 * (k mod 2))%nat.
Definition wt255 : list Z := Eval vm_compute in map (fun k => 2 ^ lpos255 (limb255 k)) (seq 0 10).
Notation fe255 := (wsum wt255).
(** Bounds: x for the 26-bit limbs, y for the 25-bit limbs. *)
Definition bnd255 (x y : Z) : list (Z * Z) :=
  map (fun k => (0, if Nat.even (limb255 k) then x else y)) (seq 0 10).
(** Reduced limbs, and limbs a multiplication accepts. *)
Definition red255 : list (Z * Z) := Eval vm_compute in bnd255 (2 ^ 26 + 2 ^ 13) (2 ^ 25 + 2 ^ 18).
Definition wide255 : list (Z * Z) := Eval vm_compute in bnd255 226050910 113025455.
Definition big255 : list (Z * Z) := Eval vm_compute in bnd255 (2 ^ 63 - 1) (2 ^ 63 - 1).
Definition low255 : list (Z * Z) := Eval vm_compute in bnd255 (2 ^ 26 - 19) (2 ^ 25 - 1).
Definition lar255 : list (Z * Z) := Eval vm_compute in bnd255 (2 ^ 35 * (2 ^ 26 - 19)) (2 ^ 35 * (2 ^ 25 - 1)).
Definition b56 : list (Z * Z) := Eval vm_compute in bnd255 (2 ^ 56) (2 ^ 56).
Notation is_red := (arr_ok red255).
Notation is_wide := (arr_ok wide255).
Notation is_big := (arr_ok big255).
Lemma red_wide a : is_red a -> is_wide a.
Proof. apply bounds_le_ok. vm_compute. reflexivity. Qed.
Lemma wide_big a : is_wide a -> is_big a.
Proof. apply bounds_le_ok. vm_compute. reflexivity. Qed.

Notation P := p25519.
Definition cg (x y : Z) : Prop := (x - y) mod P = 0.
Lemma cg_refl x : cg x x.
Proof. unfold cg. now rewrite Z.sub_diag. Qed.
Lemma cg_div x y : cg x y <-> (P | x - y).
Proof. unfold cg. split; intro H; [apply Z.mod_divide in H|apply Z.mod_divide]; auto; discriminate. Qed.
Lemma cg_sym x y : cg x y -> cg y x.
Proof. rewrite !cg_div. intros [k H]. exists (- k). lia. Qed.
Lemma cg_trans x y z : cg x y -> cg y z -> cg x z.
Proof. rewrite !cg_div. intros [k H] [l K]. exists (k + l). lia. Qed.
Lemma cg_mul x y u v : cg x u -> cg y v -> cg (x * y) (u * v).
Proof. rewrite !cg_div. intros [k H] [l K]. exists (k * y + u * l). nia. Qed.
Lemma cg_add x y u v : cg x u -> cg y v -> cg (x + y) (u + v).
Proof. rewrite !cg_div. intros [k H] [l K]. exists (k + l). lia. Qed.
Lemma cg_sub x y u v : cg x u -> cg y v -> cg (x - y) (u - v).
Proof. rewrite !cg_div. intros [k H] [l K]. exists (k - l). lia. Qed.

Definition eAdd := (VAdd (VIn 0) (VIn 1)).
Definition eSub := (VSub (VIn 0) (VIn 1)).
Definition eMul := (VMul (VIn 0) (VIn 1)).
Definition eSqr := (VMul (VIn 0) (VIn 0)).
Definition eNegAdd := (VSub (VSub (VK 0) (VIn 0)) (VIn 1)).
Definition eRsub := (VAdd (VSub (VK 0) (VIn 0)) (VIn 1)).
Definition eIn := (VIn 0).
Definition eIn1 := (VIn 1).
Definition eNeg := (VSub (VK 0) (VIn 0)).

(** Splitting four words into limbs. *)
Definition canon255 : list (Z * Z) := Eval vm_compute in bnd255 (2 ^ 26 - 1) (2 ^ 25 - 1).
Definition top255 : list (Z * Z) := Eval vm_compute in [(0, W - 1); (0, W - 1); (0, W - 1); (0, 2 ^ 63 - 1)].
Lemma split_1w_vc : vcq [] (slice (vcode v255_1w_unser_limbs) (larr q1 10)) [IA q2 top255 (wts 4 1)] q1 10
  (fun ins res => fe255 res = wsum (wts 4 1) (nth 0 ins [])).
Proof.
  vc_start. intros r R C _. vc_facts.
  cbv [q2 top255 wsum wt255 wts W peval term_eval mono_eval fold_right fst snd sp map nth larr ib ibnd length Pos.succ].
  lia.
Qed.

Section One.
Variable st : store.
Ltac one prog xs out ob e ins := do_one prog wt255 xs out ob P e ins st.

Lemma add_1w_ok a b : is_red a -> is_red b ->
  cg (fe255 (add_1w st a b)) (fe255 a + fe255 b) /\ is_wide (add_1w st a b).
Proof. intros. one v255_1w_add [(q2, red255); (q3, red255)] q1 wide255 eAdd [a; b]. Qed.
Lemma sub_1w_ok a b : is_red a -> is_red b ->
  cg (fe255 (sub_1w st a b)) (fe255 a - fe255 b) /\ is_wide (sub_1w st a b).
Proof. intros. one v255_1w_sub [(q2, red255); (q3, red255)] q1 wide255 eSub [a; b]. Qed.
Lemma neg_1w_ok a : is_red a -> cg (fe255 (neg_1w st a)) (0 - fe255 a) /\ is_wide (neg_1w st a).
Proof. intros. one v255_1w_neg [(q1, red255)] q1 wide255 eNeg [a]. Qed.
Lemma addsub_1w_ok1 a b : is_red a -> is_red b ->
  cg (fe255 (fst (addsub_1w st a b))) (fe255 a + fe255 b) /\ is_wide (fst (addsub_1w st a b)).
Proof. intros. one v255_1w_addsub [(q1, red255); (q2, red255)] q1 wide255 eAdd [a; b]. Qed.
Lemma addsub_1w_ok2 a b : is_red a -> is_red b ->
  cg (fe255 (snd (addsub_1w st a b))) (fe255 a - fe255 b) /\ is_wide (snd (addsub_1w st a b)).
Proof. intros. one v255_1w_addsub [(q1, red255); (q2, red255)] q2 wide255 eSub [a; b]. Qed.
Lemma intmul_1w_ok a b : is_wide a -> is_wide b ->
  cg (fe255 (intmul_1w st a b)) (fe255 a * fe255 b) /\ is_big (intmul_1w st a b).
Proof. intros. one v255_1w_intmul_sb [(q2, wide255); (q3, wide255)] q1 big255 eMul [a; b]. Qed.
Lemma compress_1w_ok a : is_big a -> cg (fe255 (compress_1w st a)) (fe255 a) /\ is_red (compress_1w st a).
Proof. intros. one v255_1w_compress [(q1, big255)] q1 red255 (VIn 0) [a]. Qed.
Lemma sqr_1w_ok a : is_wide a -> cg (fe255 (sqr_1w st a)) (fe255 a * fe255 a) /\ is_red (sqr_1w st a).
Proof. intros. one v255_1w_sqrn1 [(q1, wide255)] q1 red255 eSqr [a]. Qed.
Lemma mul_1w_ok a b : is_wide a -> is_wide b ->
  cg (fe255 (mul_1w st a b)) (fe255 a * fe255 b) /\ is_red (mul_1w st a b).
Proof.
  intros Ha Hb. destruct (intmul_1w_ok a b Ha Hb) as [C B]. destruct (compress_1w_ok _ B) as [C' B'].
  exact (conj (cg_trans _ _ _ C' C) B').
Qed.
Lemma compressfast_1w_ok a : is_big a ->
  cg (fe255 (compressfast_1w st a)) (fe255 a) /\ arr_ok (bnd255 (2 ^ 43) (2 ^ 43)) (compressfast_1w st a).
Proof. intros. one v255_1w_compressfast [(q1, big255)] q1 (bnd255 (2 ^ 43) (2 ^ 43)) (VIn 0) [a]. Qed.
(** One pass brings barely unreduced limbs back. *)
Lemma compressfast_1w_red a : is_wide a ->
  cg (fe255 (compressfast_1w st a)) (fe255 a) /\ is_red (compressfast_1w st a).
Proof. intros. one v255_1w_compressfast [(q1, wide255)] q1 red255 (VIn 0) [a]. Qed.
(** Both operands must be below P limb by limb for the first output. *)
Lemma naddsub_1w_ok1 a b : arr_ok low255 a -> arr_ok low255 b ->
  cg (fe255 (fst (naddsub_1w st a b))) (0 - fe255 a - fe255 b) /\ is_wide (fst (naddsub_1w st a b)).
Proof. intros. one v255_1w_naddsub [(q3, low255); (q4, low255)] q1 wide255 eNegAdd [a; b]. Qed.
Lemma naddsub_1w_ok2 a b : is_red a -> is_red b ->
  cg (fe255 (snd (naddsub_1w st a b))) (0 - fe255 a + fe255 b) /\ is_wide (snd (naddsub_1w st a b)).
Proof.
  intros. one v255_1w_naddsub [(q3, red255); (q4, red255)] q2 wide255 eRsub [a; b].
Qed.
Lemma prime_1w_eq : prime_1w st =
  [0x3ffffed; 0x1ffffff; 0x1ffffff; 0x3ffffff; 0x3ffffff; 0x1ffffff; 0x1ffffff; 0x3ffffff; 0x3ffffff; 0x1ffffff].
Proof.
  apply (consts_ok (vcode v255_1w_prime) [] q1
    [0x3ffffed; 0x1ffffff; 0x1ffffff; 0x3ffffff; 0x3ffffff; 0x1ffffff; 0x1ffffff; 0x3ffffff; 0x3ffffff; 0x1ffffff] st).
  vm_compute. reflexivity.
Qed.
Lemma prime_1w_ok : fe255 (prime_1w st) = P.
Proof. rewrite prime_1w_eq. vm_compute. reflexivity. Qed.
Lemma zero_1w_ok : zero_1w st = repeat 0 10.
Proof. apply (consts_ok (vcode v255_1w_zero) [] q1 (repeat 0 10) st). vm_compute. reflexivity. Qed.
Lemma copy_1w_ok a : length a = 10%nat -> copy_1w st a = a.
Proof.
  intro H. 
  pose proof (moves_ok (vcode v255_1w_copy) [(q2, 10%nat)] q1 10 (fun i => i) 0 (fun i => i) 10 [a] st) as E.
  rewrite !pick_id in E; [| exact H | apply call_length].
  apply E; [vm_compute; reflexivity|]. cbn [map length snd]. now rewrite H.
Qed.
(** Loading: the words of modp, split into limbs. *)
Lemma split_1w_ok a : arr_ok top255 a ->
  fe255 (vop2 st 10 v255_1w_unser_limbs a) = wsum (wts 4 1) a /\ arr_ok canon255 (vop2 st 10 v255_1w_unser_limbs a).
Proof.
  intro H. unfold vop2. split.
  - rewrite call_slice. refine (vcq_sound _ _ _ _ _ _ [a] st split_1w_vc eq_refl _). now repeat constructor.
  - apply (red_cong [] v255_1w_unser_limbs [IA q2 top255 (wts 4 1)] q1 (repeat 0 10) canon255 1 (VK 0) [a] st).
    + vm_compute. reflexivity.
    + now repeat constructor.
Qed.
(** Gathering reduced limbs into four words. *)
Lemma gather_1w_ok a : is_red a -> wsum (wts 4 1) (gather_1w st a) = fe255 a /\ arr_ok (wbnd 4) (gather_1w st a).
Proof.
  intro H.
  do_exact1 (code (env_of [bC; bA]) asm_ser_1w_redradix) [IA bA red255 wt255] bC
    (wts 4 1) (wbnd 4) (2 ^ 256) (VIn 0) [a] st.
Qed.
(** unser: the canonical limbs of the value of the buffer. *)
Lemma unser_1w_ok buf : bytes 32 buf ->
  fe255 (unser_1w st buf) = le_val buf mod P /\ arr_ok canon255 (unser_1w st buf).
Proof.
  intro H. destruct (words_of_ok 4 buf H) as [Hw Ew].
  destruct (modp_ok st _ Hw) as [Hm Em]. unfold unser_1w.
  assert (T : arr_ok top255 (modp st (words_of 4 buf))).
  { pose proof (Z.mod_pos_bound (val (words_of 4 buf)) P ltac:(reflexivity)) as B. rewrite <- Em in B.
    destruct Hm as [Lm Fm]. destruct (modp st (words_of 4 buf)) as [|w0 [|w1 [|w2 [|w3 [|]]]]]; try discriminate Lm.
    cbn [val] in B. repeat (apply Forall_cons_iff in Fm as [? Fm]). unfold word, W in *.
    change P with (2 ^ 255 - 19) in B. unfold top255.
    repeat apply Forall2_cons; try apply Forall2_nil; unfold inI; cbn [fst snd]; lia. }
  destruct (split_1w_ok _ T) as [E B]. split; auto.
  now rewrite E, wsum_wa, Em, Ew.
Qed.
(** ser: the canonical encoding. *)
Lemma ser_1w_ok a : is_red a -> bytes 32 (ser_1w st a) /\ le_val (ser_1w st a) = fe255 a mod P.
Proof.
  intro H. destruct (gather_1w_ok a H) as [E B]. apply arr_words in B.
  destruct (ser_ok st _ B) as [Hb Hv]. unfold ser_1w. split; auto.
  now rewrite Hv, <- E, wsum_wa.
Qed.
End One.

Lemma low_red a : arr_ok low255 a -> is_red a.
Proof. apply bounds_le_ok. vm_compute. reflexivity. Qed.
Lemma canon_red a : arr_ok canon255 a -> is_red a.
Proof. apply bounds_le_ok. vm_compute. reflexivity. Qed.
Lemma arr_len bnd a : arr_ok bnd a -> length a = length bnd.
Proof. intro H. symmetry. now apply arr_ok_length. Qed.

(** ** Two elements side by side *)
Notation el2 h := (pick (ixh h) 10).
Ltac vmt := vm_compute; reflexivity.
Lemma chk2_add : duo_check v255_2w_add [q2; q3] q1 10 = true. Proof. vmt. Qed.
Lemma chk2_sub : duo_check v255_2w_sub [q2; q3] q1 10 = true. Proof. vmt. Qed.
Lemma chk2_addsub1 : duo_check v255_2w_addsub [q1; q2] q1 10 = true. Proof. vmt. Qed.
Lemma chk2_addsub2 : duo_check v255_2w_addsub [q1; q2] q2 10 = true. Proof. vmt. Qed.
Lemma chk2_naddsub1 : duo_check v255_2w_naddsub [q3; q4] q1 10 = true. Proof. vmt. Qed.
Lemma chk2_naddsub2 : duo_check v255_2w_naddsub [q3; q4] q2 10 = true. Proof. vmt. Qed.
Lemma chk2_neg : duo_check v255_2w_neg [q1] q1 10 = true. Proof. vmt. Qed.
Lemma chk2_intmul : duo_check v255_2w_intmul [q2; q3] q1 10 = true. Proof. vmt. Qed.
Lemma chk2_intsqr : duo_check v255_2w_intsqr [q1] q1 10 = true. Proof. vmt. Qed.
Lemma chk2_compress : duo_check v255_2w_compress [q1] q1 10 = true. Proof. vmt. Qed.
Lemma chk2_compress21 : duo_check v255_2w_compress2 [q1; q2] q1 10 = true. Proof. vmt. Qed.
Lemma chk2_compress22 : duo_check v255_2w_compress2 [q1; q2] q2 10 = true. Proof. vmt. Qed.
Lemma chk2_compressfast : duo_check v255_2w_compressfast [q1] q1 10 = true. Proof. vmt. Qed.
Lemma chk2_intmul2 : duo_check v255_2w_intmul2 [q3; q4] q1 10 = true. Proof. vmt. Qed.

Section Two.
Variable st : store.
Notation l2 a := (length a = 20%nat).
Ltac duo chk prog xs out ob e ins h := do_duo chk prog wt255 xs out ob P e ins st 10%nat h.
Lemma add_2w_ok a b h : l2 a -> l2 b -> is_red (el2 h a) -> is_red (el2 h b) ->
  cg (fe255 (el2 h (add_2w st a b))) (fe255 (el2 h a) + fe255 (el2 h b)) /\ is_wide (el2 h (add_2w st a b)).
Proof. intros. duo chk2_add v255_2w_add [(q2, red255); (q3, red255)] q1 wide255 eAdd [a; b] h. Qed.
Lemma sub_2w_ok a b h : l2 a -> l2 b -> is_red (el2 h a) -> is_red (el2 h b) ->
  cg (fe255 (el2 h (sub_2w st a b))) (fe255 (el2 h a) - fe255 (el2 h b)) /\ is_wide (el2 h (sub_2w st a b)).
Proof. intros. duo chk2_sub v255_2w_sub [(q2, red255); (q3, red255)] q1 wide255 eSub [a; b] h. Qed.
Lemma addsub_2w_ok1 a b h : l2 a -> l2 b -> is_red (el2 h a) -> is_red (el2 h b) ->
  cg (fe255 (el2 h (fst (addsub_2w st a b)))) (fe255 (el2 h a) + fe255 (el2 h b)) /\ is_wide (el2 h (fst (addsub_2w st a b))).
Proof. intros. duo chk2_addsub1 v255_2w_addsub [(q1, red255); (q2, red255)] q1 wide255 eAdd [a; b] h. Qed.
Lemma addsub_2w_ok2 a b h : l2 a -> l2 b -> is_red (el2 h a) -> is_red (el2 h b) ->
  cg (fe255 (el2 h (snd (addsub_2w st a b)))) (fe255 (el2 h a) - fe255 (el2 h b)) /\ is_wide (el2 h (snd (addsub_2w st a b))).
Proof. intros. duo chk2_addsub2 v255_2w_addsub [(q1, red255); (q2, red255)] q2 wide255 eSub [a; b] h. Qed.
Lemma naddsub_2w_ok1 a b h : l2 a -> l2 b -> arr_ok low255 (el2 h a) -> arr_ok low255 (el2 h b) ->
  cg (fe255 (el2 h (fst (naddsub_2w st a b)))) (0 - fe255 (el2 h a) - fe255 (el2 h b)) /\ is_wide (el2 h (fst (naddsub_2w st a b))).
Proof. intros. duo chk2_naddsub1 v255_2w_naddsub [(q3, low255); (q4, low255)] q1 wide255 eNegAdd [a; b] h. Qed.
Lemma naddsub_2w_ok2 a b h : l2 a -> l2 b -> is_red (el2 h a) -> is_red (el2 h b) ->
  cg (fe255 (el2 h (snd (naddsub_2w st a b)))) (0 - fe255 (el2 h a) + fe255 (el2 h b)) /\ is_wide (el2 h (snd (naddsub_2w st a b))).
Proof. intros. duo chk2_naddsub2 v255_2w_naddsub [(q3, red255); (q4, red255)] q2 wide255 eRsub [a; b] h. Qed.
Lemma neg_2w_ok a h : l2 a -> is_red (el2 h a) ->
  cg (fe255 (el2 h (neg_2w st a))) (0 - fe255 (el2 h a)) /\ is_wide (el2 h (neg_2w st a)).
Proof. intros. duo chk2_neg v255_2w_neg [(q1, red255)] q1 wide255 eNeg [a] h. Qed.
Lemma intmul_2w_ok a b h : l2 a -> l2 b -> is_wide (el2 h a) -> is_wide (el2 h b) ->
  cg (fe255 (el2 h (intmul_2w st a b))) (fe255 (el2 h a) * fe255 (el2 h b)) /\ is_big (el2 h (intmul_2w st a b)).
Proof. intros. duo chk2_intmul v255_2w_intmul [(q2, wide255); (q3, wide255)] q1 big255 eMul [a; b] h. Qed.
Lemma intsqr_2w_ok a h : l2 a -> is_wide (el2 h a) ->
  cg (fe255 (el2 h (intsqr_2w st a))) (fe255 (el2 h a) * fe255 (el2 h a)) /\ is_big (el2 h (intsqr_2w st a)).
Proof. intros. duo chk2_intsqr v255_2w_intsqr [(q1, wide255)] q1 big255 eSqr [a] h. Qed.
Lemma compress_2w_ok a h : l2 a -> is_big (el2 h a) ->
  cg (fe255 (el2 h (compress_2w st a))) (fe255 (el2 h a)) /\ is_red (el2 h (compress_2w st a)).
Proof. intros. duo chk2_compress v255_2w_compress [(q1, big255)] q1 red255 eIn [a] h. Qed.
Lemma compress2_2w_ok1 a b h : l2 a -> l2 b -> is_big (el2 h a) -> is_big (el2 h b) ->
  cg (fe255 (el2 h (fst (compress2_2w st a b)))) (fe255 (el2 h a)) /\ is_red (el2 h (fst (compress2_2w st a b))).
Proof. intros. duo chk2_compress21 v255_2w_compress2 [(q1, big255); (q2, big255)] q1 red255 eIn [a; b] h. Qed.
Lemma compress2_2w_ok2 a b h : l2 a -> l2 b -> is_big (el2 h a) -> is_big (el2 h b) ->
  cg (fe255 (el2 h (snd (compress2_2w st a b)))) (fe255 (el2 h b)) /\ is_red (el2 h (snd (compress2_2w st a b))).
Proof. intros. duo chk2_compress22 v255_2w_compress2 [(q1, big255); (q2, big255)] q2 red255 eIn1 [a; b] h. Qed.
Lemma compressfast_2w_red a h : l2 a -> is_wide (el2 h a) ->
  cg (fe255 (el2 h (compressfast_2w st a))) (fe255 (el2 h a)) /\ is_red (el2 h (compressfast_2w st a)).
Proof. intros. duo chk2_compressfast v255_2w_compressfast [(q1, wide255)] q1 red255 eIn [a] h. Qed.
Lemma mul_2w_ok a b h : l2 a -> l2 b -> is_wide (el2 h a) -> is_wide (el2 h b) ->
  cg (fe255 (el2 h (mul_2w st a b))) (fe255 (el2 h a) * fe255 (el2 h b)) /\ is_red (el2 h (mul_2w st a b)).
Proof.
  intros La Lb Ha Hb. destruct (intmul_2w_ok a b h La Lb Ha Hb) as [C B].
  destruct (compress_2w_ok _ h (call_length _ _ _ _ _) B) as [C' B'].
  exact (conj (cg_trans _ _ _ C' C) B').
Qed.
Lemma sqr_2w_ok a h : l2 a -> is_wide (el2 h a) ->
  cg (fe255 (el2 h (sqr_2w st a))) (fe255 (el2 h a) * fe255 (el2 h a)) /\ is_red (el2 h (sqr_2w st a)).
Proof.
  intros La Ha. destruct (intsqr_2w_ok a h La Ha) as [C B].
  destruct (compress_2w_ok _ h (call_length _ _ _ _ _) B) as [C' B'].
  exact (conj (cg_trans _ _ _ C' C) B').
Qed.
End Two.

(** ** Four elements side by side *)
Notation el4 j := (pick (ix4 j) 10).
Lemma chk4_add : quad_check v255_4w_add [q2; q3] q1 10 = true. Proof. vmt. Qed.
Lemma chk4_sub : quad_check v255_4w_sub [q2; q3] q1 10 = true. Proof. vmt. Qed.
Lemma chk4_neg : quad_check v255_4w_neg [q1] q1 10 = true. Proof. vmt. Qed.
Lemma chk4_addsub1 : quad_check v255_4w_addsub [q3; q4] q1 10 = true. Proof. vmt. Qed.
Lemma chk4_addsub2 : quad_check v255_4w_addsub [q3; q4] q2 10 = true. Proof. vmt. Qed.
Lemma chk4_addsublar1 : quad_check v255_4w_addsublar [q1; q2] q1 10 = true. Proof. vmt. Qed.
Lemma chk4_addsublar2 : quad_check v255_4w_addsublar [q1; q2] q2 10 = true. Proof. vmt. Qed.
Lemma chk4_intmul : quad_check v255_4w_intmul_sb [q2; q3] q1 10 = true. Proof. vmt. Qed.
Lemma chk4_intsqr : quad_check v255_4w_intsqr [q1] q1 10 = true. Proof. vmt. Qed.
Lemma chk4_compress : quad_check v255_4w_compress [q1] q1 10 = true. Proof. vmt. Qed.
Lemma chk4_compress21 : quad_check v255_4w_compress2 [q1; q2] q1 10 = true. Proof. vmt. Qed.
Lemma chk4_compress22 : quad_check v255_4w_compress2 [q1; q2] q2 10 = true. Proof. vmt. Qed.
Lemma chk4_compressfast : quad_check v255_4w_compressfast [q1] q1 10 = true. Proof. vmt. Qed.
Lemma chk4_new_compressfast21 : quad_check v255_4w_new_compressfast2 [q1; q2] q1 10 = true. Proof. vmt. Qed.
Lemma chk4_new_compressfast22 : quad_check v255_4w_new_compressfast2 [q1; q2] q2 10 = true. Proof. vmt. Qed.

Section Four.
Variable st : store.
Notation l4 a := (length a = 40%nat).
Ltac quad chk prog xs out ob e ins j := do_quad chk prog wt255 xs out ob P e ins st 10%nat j.
Variable j : nat.
Hypothesis Hj : (j < 4)%nat.
Lemma add_4w_ok a b : l4 a -> l4 b -> is_red (el4 j a) -> is_red (el4 j b) ->
  cg (fe255 (el4 j (add_4w st a b))) (fe255 (el4 j a) + fe255 (el4 j b)) /\ is_wide (el4 j (add_4w st a b)).
Proof. intros. quad chk4_add v255_4w_add [(q2, red255); (q3, red255)] q1 wide255 eAdd [a; b] j. Qed.
Lemma sub_4w_ok a b : l4 a -> l4 b -> is_red (el4 j a) -> is_red (el4 j b) ->
  cg (fe255 (el4 j (sub_4w st a b))) (fe255 (el4 j a) - fe255 (el4 j b)) /\ is_wide (el4 j (sub_4w st a b)).
Proof. intros. quad chk4_sub v255_4w_sub [(q2, red255); (q3, red255)] q1 wide255 eSub [a; b] j. Qed.
Lemma neg_4w_ok a : l4 a -> is_red (el4 j a) ->
  cg (fe255 (el4 j (neg_4w st a))) (0 - fe255 (el4 j a)) /\ is_wide (el4 j (neg_4w st a)).
Proof. intros. quad chk4_neg v255_4w_neg [(q1, red255)] q1 wide255 eNeg [a] j. Qed.
Lemma addsub_4w_ok1 a b : l4 a -> l4 b -> is_red (el4 j a) -> is_red (el4 j b) ->
  cg (fe255 (el4 j (fst (addsub_4w st a b)))) (fe255 (el4 j a) + fe255 (el4 j b)) /\ is_wide (el4 j (fst (addsub_4w st a b))).
Proof. intros. quad chk4_addsub1 v255_4w_addsub [(q3, red255); (q4, red255)] q1 wide255 eAdd [a; b] j. Qed.
Lemma addsub_4w_ok2 a b : l4 a -> l4 b -> is_red (el4 j a) -> is_red (el4 j b) ->
  cg (fe255 (el4 j (snd (addsub_4w st a b)))) (fe255 (el4 j a) - fe255 (el4 j b)) /\ is_wide (el4 j (snd (addsub_4w st a b))).
Proof. intros. quad chk4_addsub2 v255_4w_addsub [(q3, red255); (q4, red255)] q2 wide255 eSub [a; b] j. Qed.
Lemma intmul_4w_ok a b : l4 a -> l4 b -> is_wide (el4 j a) -> is_wide (el4 j b) ->
  cg (fe255 (el4 j (intmul_4w st a b))) (fe255 (el4 j a) * fe255 (el4 j b)) /\ is_big (el4 j (intmul_4w st a b)).
Proof. intros. quad chk4_intmul v255_4w_intmul_sb [(q2, wide255); (q3, wide255)] q1 big255 eMul [a; b] j. Qed.
Lemma intsqr_4w_ok a : l4 a -> is_wide (el4 j a) ->
  cg (fe255 (el4 j (intsqr_4w st a))) (fe255 (el4 j a) * fe255 (el4 j a)) /\ is_big (el4 j (intsqr_4w st a)).
Proof. intros. quad chk4_intsqr v255_4w_intsqr [(q1, wide255)] q1 big255 eSqr [a] j. Qed.
Lemma compress_4w_ok a : l4 a -> is_big (el4 j a) ->
  cg (fe255 (el4 j (compress_4w st a))) (fe255 (el4 j a)) /\ is_red (el4 j (compress_4w st a)).
Proof. intros. quad chk4_compress v255_4w_compress [(q1, big255)] q1 red255 eIn [a] j. Qed.
Lemma compress2_4w_ok1 a b : l4 a -> l4 b -> is_big (el4 j a) -> is_big (el4 j b) ->
  cg (fe255 (el4 j (fst (compress2_4w st a b)))) (fe255 (el4 j a)) /\ is_red (el4 j (fst (compress2_4w st a b))).
Proof. intros. quad chk4_compress21 v255_4w_compress2 [(q1, big255); (q2, big255)] q1 red255 eIn [a; b] j. Qed.
Lemma compress2_4w_ok2 a b : l4 a -> l4 b -> is_big (el4 j a) -> is_big (el4 j b) ->
  cg (fe255 (el4 j (snd (compress2_4w st a b)))) (fe255 (el4 j b)) /\ is_red (el4 j (snd (compress2_4w st a b))).
Proof. intros. quad chk4_compress22 v255_4w_compress2 [(q1, big255); (q2, big255)] q2 red255 eIn1 [a; b] j. Qed.
Lemma mul_4w_ok a b : l4 a -> l4 b -> is_wide (el4 j a) -> is_wide (el4 j b) ->
  cg (fe255 (el4 j (mul_4w st a b))) (fe255 (el4 j a) * fe255 (el4 j b)) /\ is_red (el4 j (mul_4w st a b)).
Proof.
  intros La Lb Ha Hb. destruct (intmul_4w_ok a b La Lb Ha Hb) as [C B].
  destruct (compress_4w_ok _ (call_length _ _ _ _ _) B) as [C' B'].
  exact (conj (cg_trans _ _ _ C' C) B').
Qed.
Lemma sqr_4w_ok a : l4 a -> is_wide (el4 j a) ->
  cg (fe255 (el4 j (sqr_4w st a))) (fe255 (el4 j a) * fe255 (el4 j a)) /\ is_red (el4 j (sqr_4w st a)).
Proof.
  intros La Ha. destruct (intsqr_4w_ok a La Ha) as [C B].
  destruct (compress_4w_ok _ (call_length _ _ _ _ _) B) as [C' B'].
  exact (conj (cg_trans _ _ _ C' C) B').
Qed.
Lemma addsublar_4w_ok1 a b : l4 a -> l4 b -> arr_ok lar255 (el4 j a) -> arr_ok lar255 (el4 j b) ->
  cg (fe255 (el4 j (fst (addsublar_4w st a b)))) (fe255 (el4 j a) + fe255 (el4 j b)) /\ is_big (el4 j (fst (addsublar_4w st a b))).
Proof. intros. quad chk4_addsublar1 v255_4w_addsublar [(q1, lar255); (q2, lar255)] q1 big255 eAdd [a; b] j. Qed.
Lemma addsublar_4w_ok2 a b : l4 a -> l4 b -> arr_ok lar255 (el4 j a) -> arr_ok lar255 (el4 j b) ->
  cg (fe255 (el4 j (snd (addsublar_4w st a b)))) (fe255 (el4 j a) - fe255 (el4 j b)) /\ is_big (el4 j (snd (addsublar_4w st a b))).
Proof. intros. quad chk4_addsublar2 v255_4w_addsublar [(q1, lar255); (q2, lar255)] q2 big255 eSub [a; b] j. Qed.
Lemma compressfast_4w_red a : l4 a -> is_wide (el4 j a) ->
  cg (fe255 (el4 j (compressfast_4w st a))) (fe255 (el4 j a)) /\ is_red (el4 j (compressfast_4w st a)).
Proof. intros. quad chk4_compressfast v255_4w_compressfast [(q1, wide255)] q1 red255 eIn [a] j. Qed.
Lemma compressfast_4w_wide a : l4 a -> arr_ok b56 (el4 j a) ->
  cg (fe255 (el4 j (compressfast_4w st a))) (fe255 (el4 j a)) /\ is_wide (el4 j (compressfast_4w st a)).
Proof. intros. quad chk4_compressfast v255_4w_compressfast [(q1, b56)] q1 wide255 eIn [a] j. Qed.
Lemma new_compressfast2_4w_red1 a b : l4 a -> l4 b -> is_wide (el4 j a) -> is_wide (el4 j b) ->
  cg (fe255 (el4 j (fst (new_compressfast2_4w st a b)))) (fe255 (el4 j a)) /\ is_red (el4 j (fst (new_compressfast2_4w st a b))).
Proof. intros. quad chk4_new_compressfast21 v255_4w_new_compressfast2 [(q1, wide255); (q2, wide255)] q1 red255 eIn [a; b] j. Qed.
Lemma new_compressfast2_4w_red2 a b : l4 a -> l4 b -> is_wide (el4 j a) -> is_wide (el4 j b) ->
  cg (fe255 (el4 j (snd (new_compressfast2_4w st a b)))) (fe255 (el4 j b)) /\ is_red (el4 j (snd (new_compressfast2_4w st a b))).
Proof. intros. quad chk4_new_compressfast22 v255_4w_new_compressfast2 [(q1, wide255); (q2, wide255)] q2 red255 eIn1 [a; b] j. Qed.
End Four.

(** ** Operations mixing the elements *)
Definition mix2 (b0 b1 : list (Z * Z)) : list (Z * Z) :=
  flat_map (fun i => [nth (2 * i) b0 (0, 0); nth (2 * i + 1) b0 (0, 0); nth (2 * i) b1 (0, 0); nth (2 * i + 1) b1 (0, 0)]) (seq 0 5).
Definition owt2 (h : bool) : list Z :=
  flat_map (fun i => if h then [0; 0; nth (2 * i) wt255 0; nth (2 * i + 1) wt255 0]
                     else [nth (2 * i) wt255 0; nth (2 * i + 1) wt255 0; 0; 0]) (seq 0 5).
Definition ix2 (k : nat) (h : bool) : list nat := map (fun i => (20 * k + ixh h i)%nat) (seq 0 10).
Definition e2 (k : nat) (h : bool) : vexp := elin wt255 (ix2 k h).
Ltac list20 a H := do 20 (destruct a as [|? a]; [discriminate H|]); destruct a; [|discriminate H].
Lemma owt2_ok h a : length a = 20%nat -> wsum (owt2 h) a = fe255 (el2 h a).
Proof. intro H. list20 a H. destruct h; cbv [owt2 pick ixh wsum map flat_map app seq nth Nat.div Nat.modulo Nat.divmod fst snd Nat.mul Nat.add Nat.sub wt255]; ring. Qed.
Lemma e2_ok0 h a b : length a = 20%nat -> vden (a ++ b) (e2 0 h) = fe255 (el2 h a).
Proof.
  intro H. unfold e2. rewrite elin_ok. f_equal. unfold ix2, pick. rewrite map_map. apply map_ext_in. intros i Hi.
  rewrite app_nth1; auto. apply in_seq in Hi. rewrite H. unfold ixh.
  pose proof (Nat.mod_upper_bound i 2 ltac:(lia)). assert (i / 2 < 5)%nat by (apply Nat.div_lt_upper_bound; lia).
  destruct h; lia.
Qed.
Lemma e2_ok1 h a b c : length a = 20%nat -> length b = 20%nat -> vden (a ++ b ++ c) (e2 1 h) = fe255 (el2 h b).
Proof.
  intros H Hb. unfold e2. rewrite elin_ok. f_equal. unfold ix2, pick. rewrite map_map. apply map_ext_in. intros i Hi.
  rewrite app_nth2 by lia. replace (20 * 1 + ixh h i - length a)%nat with (ixh h i) by lia.
  rewrite app_nth1; auto. apply in_seq in Hi. rewrite Hb. unfold ixh.
  pose proof (Nat.mod_upper_bound i 2 ltac:(lia)). assert (i / 2 < 5)%nat by (apply Nat.div_lt_upper_bound; lia).
  destruct h; lia.
Qed.
Lemma f2_inv {A B} (R : A -> B -> Prop) x y l l' : Forall2 R (x :: l) (y :: l') -> R x y /\ Forall2 R l l'.
Proof. intro H. inversion H; auto. Qed.
Lemma mix2_ok b0 b1 a : length b0 = 10%nat -> length b1 = 10%nat -> length a = 20%nat ->
  arr_ok (mix2 b0 b1) a <-> arr_ok b0 (el2 false a) /\ arr_ok b1 (el2 true a).
Proof.
  intros H0 H1 H. list20 a H.
  do 10 (destruct b0 as [|? b0]; [discriminate H0|]); destruct b0; [|discriminate H0].
  do 10 (destruct b1 as [|? b1]; [discriminate H1|]); destruct b1; [|discriminate H1].
  cbv [mix2 pick ixh map flat_map app seq nth Nat.div Nat.modulo Nat.divmod fst snd Nat.mul Nat.add Nat.sub].
  unfold arr_ok. split.
  - intro F. repeat (apply f2_inv in F as [? F]).
    split; repeat (apply Forall2_cons; [assumption|]); apply Forall2_nil.
  - intros [F G]. repeat (apply f2_inv in F as [? F]). repeat (apply f2_inv in G as [? G]).
    repeat (apply Forall2_cons; [assumption|]); apply Forall2_nil.
Qed.

Section Mix2.
Variable st : store.
Notation l2 a := (length a = 20%nat).
(** From the checker on both halves to the statement on one half. *)
Lemma mix2_one prog b0 b1 hs obnd0 obnd1 e h a : length b0 = 10%nat -> length b1 = 10%nat ->
  length obnd0 = 10%nat -> length obnd1 = 10%nat ->
  cong_check hs (slice (vcode prog) (larr q1 20)) (flat_ins [(q2, mix2 b0 b1)]) q1 (owt2 h) (mix2 obnd0 obnd1) P e = true ->
  l2 a -> arr_ok b0 (el2 false a) -> arr_ok b1 (el2 true a) ->
  cg (fe255 (el2 h (vop2 st 20 prog a))) (vden (a ++ []) e) /\
  arr_ok obnd0 (el2 false (vop2 st 20 prog a)) /\ arr_ok obnd1 (el2 true (vop2 st 20 prog a)).
Proof.
  intros L0 L1 L2 L3 C La H0 H1.
  assert (W : length (owt2 h) = 20%nat) by (destruct h; reflexivity).
  pose proof (mixed_cong hs prog [(q2, mix2 b0 b1)] q1 (owt2 h) (mix2 obnd0 obnd1) P e [a] st) as M.
  cbv zeta in M. rewrite W in M. specialize (M C).
  assert (F : Forall2 (fun x ws => arr_ok (snd x) ws) [(q2, mix2 b0 b1)] [a]).
  { apply Forall2_cons; [|apply Forall2_nil]. cbn [snd]. apply (proj2 (mix2_ok b0 b1 a L0 L1 La)). split; assumption. }
  specialize (M F). destruct M as [M1 M2]. cbn [map fst combine] in M1, M2.
  fold (vop2 st 20 prog a) in M1, M2. 
  assert (L : l2 (vop2 st 20 prog a)) by apply call_length.
  apply mix2_ok in M2; auto. rewrite owt2_ok in M1 by auto. split; auto. 
Qed.
Lemma mix2_two prog out b0 b1 c0 c1 hs obnd0 obnd1 e h a b : length b0 = 10%nat -> length b1 = 10%nat ->
  length c0 = 10%nat -> length c1 = 10%nat -> length obnd0 = 10%nat -> length obnd1 = 10%nat ->
  cong_check hs (slice (vcode prog) (larr out 20)) (flat_ins [(q3, mix2 b0 b1); (q4, mix2 c0 c1)]) out (owt2 h) (mix2 obnd0 obnd1) P e = true ->
  l2 a -> l2 b -> arr_ok b0 (el2 false a) -> arr_ok b1 (el2 true a) -> arr_ok c0 (el2 false b) -> arr_ok c1 (el2 true b) ->
  let r := call (vcode prog) [(q3, a); (q4, b)] out 20 st in
  cg (fe255 (el2 h r)) (vden (a ++ b ++ []) e) /\ arr_ok obnd0 (el2 false r) /\ arr_ok obnd1 (el2 true r).
Proof.
  intros L0 L1 L2 L3 L4 L5 C La Lb H0 H1 H2 H3 r.
  assert (W : length (owt2 h) = 20%nat) by (destruct h; reflexivity).
  pose proof (mixed_cong hs prog [(q3, mix2 b0 b1); (q4, mix2 c0 c1)] out (owt2 h) (mix2 obnd0 obnd1) P e [a; b] st) as M.
  cbv zeta in M. rewrite W in M. specialize (M C).
  assert (F : Forall2 (fun x ws => arr_ok (snd x) ws) [(q3, mix2 b0 b1); (q4, mix2 c0 c1)] [a; b]).
  { apply Forall2_cons; [|apply Forall2_cons; [|apply Forall2_nil]]; cbn [snd];
    [apply (proj2 (mix2_ok b0 b1 a L0 L1 La))|apply (proj2 (mix2_ok c0 c1 b L2 L3 Lb))]; split; assumption. }
  specialize (M F). destruct M as [M1 M2]. cbn [map fst combine] in M1, M2.
  fold r in M1, M2.
  assert (L : l2 r) by apply call_length.
  apply mix2_ok in M2; auto. rewrite owt2_ok in M1 by auto. split; auto.
Qed.
Ltac mix prog b0 b1 o0 o1 e h a :=
  let hs := eval vm_compute in (hs_of true (slice (vcode prog) (larr q1 20)) (flat_ins [(q2, mix2 b0 b1)])) in
  refine (mix2_one prog b0 b1 hs o0 o1 e h a eq_refl eq_refl eq_refl eq_refl _ _ _ _);
  [vm_cast_no_check (eq_refl true)|assumption|assumption|assumption].
(** subadd: differences in the low half (X - Y, or Y - X when permuted), sums in the high half *)
Lemma subadd_2w_ok perm a : l2 a -> is_red (el2 false a) -> is_red (el2 true a) ->
  let r := subadd_2w st perm a in
  cg (fe255 (el2 false r)) (if perm then fe255 (el2 true a) - fe255 (el2 false a) else fe255 (el2 false a) - fe255 (el2 true a)) /\
  cg (fe255 (el2 true r)) (fe255 (el2 false a) + fe255 (el2 true a)) /\
  is_wide (el2 false r) /\ is_wide (el2 true r).
Proof.
  intros La H0 H1 r. unfold r, subadd_2w. destruct perm.
  - assert (A : cg (fe255 (el2 false (vop2 st 20 v255_2w_subadd1 a))) (vden (a ++ []) (VSub (e2 0 true) (e2 0 false))) /\
      is_wide (el2 false (vop2 st 20 v255_2w_subadd1 a)) /\ is_wide (el2 true (vop2 st 20 v255_2w_subadd1 a)))
      by mix v255_2w_subadd1 red255 red255 wide255 wide255 (VSub (e2 0 true) (e2 0 false)) false a.
    assert (B : cg (fe255 (el2 true (vop2 st 20 v255_2w_subadd1 a))) (vden (a ++ []) (VAdd (e2 0 false) (e2 0 true))) /\
      is_wide (el2 false (vop2 st 20 v255_2w_subadd1 a)) /\ is_wide (el2 true (vop2 st 20 v255_2w_subadd1 a)))
      by mix v255_2w_subadd1 red255 red255 wide255 wide255 (VAdd (e2 0 false) (e2 0 true)) true a.
    cbn [vden] in A, B. rewrite !e2_ok0 in A, B by auto. tauto.
  - assert (A : cg (fe255 (el2 false (vop2 st 20 v255_2w_subadd0 a))) (vden (a ++ []) (VSub (e2 0 false) (e2 0 true))) /\
      is_wide (el2 false (vop2 st 20 v255_2w_subadd0 a)) /\ is_wide (el2 true (vop2 st 20 v255_2w_subadd0 a)))
      by mix v255_2w_subadd0 red255 red255 wide255 wide255 (VSub (e2 0 false) (e2 0 true)) false a.
    assert (B : cg (fe255 (el2 true (vop2 st 20 v255_2w_subadd0 a))) (vden (a ++ []) (VAdd (e2 0 false) (e2 0 true))) /\
      is_wide (el2 false (vop2 st 20 v255_2w_subadd0 a)) /\ is_wide (el2 true (vop2 st 20 v255_2w_subadd0 a)))
      by mix v255_2w_subadd0 red255 red255 wide255 wide255 (VAdd (e2 0 false) (e2 0 true)) true a.
    cbn [vden] in A, B. rewrite !e2_ok0 in A, B by auto. tauto.
Qed.
(** ngz: negates the low half, keeps the high half *)
Lemma ngz_2w_ok a : l2 a -> is_red (el2 false a) -> is_red (el2 true a) ->
  let r := ngz_2w st a in
  cg (fe255 (el2 false r)) (0 - fe255 (el2 false a)) /\ cg (fe255 (el2 true r)) (fe255 (el2 true a)) /\
  is_wide (el2 false r) /\ is_red (el2 true r).
Proof.
  intros La H0 H1 r. unfold r, ngz_2w.
  assert (A : cg (fe255 (el2 false (vop2 st 20 v255_2w_ngz a))) (vden (a ++ []) (VSub (VK 0) (e2 0 false))) /\
      is_wide (el2 false (vop2 st 20 v255_2w_ngz a)) /\ is_red (el2 true (vop2 st 20 v255_2w_ngz a)))
      by mix v255_2w_ngz red255 red255 wide255 red255 (VSub (VK 0) (e2 0 false)) false a.
  assert (B : cg (fe255 (el2 true (vop2 st 20 v255_2w_ngz a))) (vden (a ++ []) (e2 0 true)) /\
      is_wide (el2 false (vop2 st 20 v255_2w_ngz a)) /\ is_red (el2 true (vop2 st 20 v255_2w_ngz a)))
      by mix v255_2w_ngz red255 red255 wide255 red255 (e2 0 true) true a.
  cbn [vden] in A. rewrite !e2_ok0 in A, B by auto. tauto.
Qed.
(** intmul2 (d, c, a, b): d = a b half by half, c = swapped a times b *)
Lemma intmul2_2w_ok1 a b h : l2 a -> l2 b -> is_wide (el2 h a) -> is_wide (el2 h b) ->
  cg (fe255 (el2 h (fst (intmul2_2w st a b)))) (fe255 (el2 h a) * fe255 (el2 h b)) /\ is_big (el2 h (fst (intmul2_2w st a b))).
Proof. intros. do_duo chk2_intmul2 v255_2w_intmul2 wt255 [(q3, wide255); (q4, wide255)] q1 big255 P eMul [a; b] st 10%nat h. Qed.
Lemma intmul2_2w_ok2 a b h : l2 a -> l2 b -> is_wide (el2 false a) -> is_wide (el2 true a) -> is_wide (el2 false b) -> is_wide (el2 true b) ->
  let r := snd (intmul2_2w st a b) in
  cg (fe255 (el2 h r)) (fe255 (el2 (negb h) a) * fe255 (el2 h b)) /\ is_big (el2 false r) /\ is_big (el2 true r).
Proof.
  intros La Lb H0 H1 H2 H3 r. unfold r, intmul2_2w, vout2. cbn [snd].
  assert (A : cg (fe255 (el2 h (call (vcode v255_2w_intmul2) [(q3, a); (q4, b)] q2 20 st))) (vden (a ++ b ++ []) (VMul (e2 0 (negb h)) (e2 1 h))) /\
    is_big (el2 false (call (vcode v255_2w_intmul2) [(q3, a); (q4, b)] q2 20 st)) /\ is_big (el2 true (call (vcode v255_2w_intmul2) [(q3, a); (q4, b)] q2 20 st))).
  { destruct h; [set (h := true)|set (h := false)];
    let hs := eval vm_compute in (hs_of true (slice (vcode v255_2w_intmul2) (larr q2 20)) (flat_ins [(q3, mix2 wide255 wide255); (q4, mix2 wide255 wide255)])) in
    refine (mix2_two v255_2w_intmul2 q2 wide255 wide255 wide255 wide255 hs big255 big255 (VMul (e2 0 (negb h)) (e2 1 h)) h a b
      eq_refl eq_refl eq_refl eq_refl eq_refl eq_refl _ La Lb H0 H1 H2 H3); vm_cast_no_check (eq_refl true). }
  cbn [vden] in A. rewrite e2_ok0, e2_ok1 in A by auto. exact A.
Qed.
End Mix2.

(** 4-way ngz: lanes 0 and 1 are exchanged, lane 2 is negated, lane 3 kept. *)
Definition mix4 (bs : list (list (Z * Z))) : list (Z * Z) :=
  flat_map (fun i => map (fun b => nth i b (0, 0)) bs) (seq 0 10).
Definition owt4 (j : nat) : list Z :=
  flat_map (fun i => map (fun k => if Nat.eqb k j then nth i wt255 0 else 0) (seq 0 4)) (seq 0 10).
Definition e4 (j : nat) : vexp := elin wt255 (map (ix4 j) (seq 0 10)).
Lemma owt4_ok j a : (j < 4)%nat -> length a = 40%nat -> wsum (owt4 j) a = fe255 (el4 j a).
Proof.
  intros Hj H. do 40 (destruct a as [|? a]; [discriminate H|]); destruct a; [|discriminate H].
  do 4 (destruct j as [|j];
    [cbv [owt4 pick ix4 wsum map flat_map app seq nth Nat.eqb Nat.mul Nat.add wt255]; ring|]). lia.
Qed.
Lemma e4_ok j a b : (j < 4)%nat -> length a = 40%nat -> vden (a ++ b) (e4 j) = fe255 (el4 j a).
Proof.
  intros Hj H. unfold e4. rewrite elin_ok. f_equal. unfold pick. rewrite map_map. apply map_ext_in. intros i Hi.
  rewrite app_nth1; auto. apply in_seq in Hi. rewrite H. unfold ix4. lia.
Qed.
Lemma mix4_ok b0 b1 b2 b3 a : length b0 = 10%nat -> length b1 = 10%nat -> length b2 = 10%nat -> length b3 = 10%nat ->
  length a = 40%nat ->
  arr_ok (mix4 [b0; b1; b2; b3]) a <->
  arr_ok b0 (el4 0 a) /\ arr_ok b1 (el4 1 a) /\ arr_ok b2 (el4 2 a) /\ arr_ok b3 (el4 3 a).
Proof.
  intros H0 H1 H2 H3 H. do 40 (destruct a as [|? a]; [discriminate H|]); destruct a; [|discriminate H].
  do 10 (destruct b0 as [|? b0]; [discriminate H0|]); destruct b0; [|discriminate H0].
  do 10 (destruct b1 as [|? b1]; [discriminate H1|]); destruct b1; [|discriminate H1].
  do 10 (destruct b2 as [|? b2]; [discriminate H2|]); destruct b2; [|discriminate H2].
  do 10 (destruct b3 as [|? b3]; [discriminate H3|]); destruct b3; [|discriminate H3].
  cbv [mix4 pick ix4 map flat_map app seq nth Nat.mul Nat.add]. unfold arr_ok. clear. split.
  - intro F. repeat (apply f2_inv in F as [? F]).
    repeat split; repeat (apply Forall2_cons; [assumption|]); apply Forall2_nil.
  - intros (F0 & F1 & F2 & F3).
    repeat (apply f2_inv in F0 as [? F0]); repeat (apply f2_inv in F1 as [? F1]);
    repeat (apply f2_inv in F2 as [? F2]); repeat (apply f2_inv in F3 as [? F3]).
    repeat (apply Forall2_cons; [assumption|]); apply Forall2_nil.
Qed.
Section Mix4.
Variable st : store.
Lemma ngz_4w_ok a : length a = 40%nat -> (forall j, (j < 4)%nat -> is_red (el4 j a)) ->
  let r := ngz_4w st a in
  cg (fe255 (el4 0 r)) (fe255 (el4 1 a)) /\ cg (fe255 (el4 1 r)) (fe255 (el4 0 a)) /\
  cg (fe255 (el4 2 r)) (0 - fe255 (el4 2 a)) /\ cg (fe255 (el4 3 r)) (fe255 (el4 3 a)) /\
  is_red (el4 0 r) /\ is_red (el4 1 r) /\ is_wide (el4 2 r) /\ is_red (el4 3 r).
Proof.
  intros La H r.
  assert (F : Forall2 (fun x ws => arr_ok (snd x) ws) [(q2, mix4 [red255; red255; red255; red255])] [a]).
  { apply Forall2_cons; [|apply Forall2_nil]. cbn [snd]. apply mix4_ok; auto. repeat split; apply H; lia. }
  assert (L : length r = 40%nat) by apply call_length.
  let go j e := 
    let hs := eval vm_compute in (hs_of true (slice (vcode v255_4w_ngz) (larr q1 40)) (flat_ins [(q2, mix4 [red255; red255; red255; red255])])) in
    assert (cg (wsum (owt4 j) r) (vden (a ++ []) e) /\ arr_ok (mix4 [red255; red255; wide255; red255]) r)
      by (apply (mixed_cong hs v255_4w_ngz [(q2, mix4 [red255; red255; red255; red255])] q1 (owt4 j)
            (mix4 [red255; red255; wide255; red255]) P e [a] st); [vm_cast_no_check (eq_refl true)|exact F]) in
  go 0%nat (e4 1); go 1%nat (e4 0); go 2%nat (VSub (VK 0) (e4 2)); go 3%nat (e4 3).
  destruct H0 as [A0 B], H1 as [A1 _], H2 as [A2 _], H3 as [A3 _].
  cbn [vden] in A2. rewrite owt4_ok, e4_ok in A0, A1, A2, A3 by (assumption || lia).
  apply mix4_ok in B as (B0 & B1 & B2 & B3); try reflexivity; auto 10.
Qed.
End Mix4.
