(** X25519 and X448 shared-secret computation, /repo/src/ladder255.c and ladder448.c. *)
From Coq Require Import ZArith List Bool.
From Verif Require Import Uop Engine Bytes X86 Asm25519 Fp25519Full Simd Simd255 Fp25519Red Fp448Red Scalar.
Import ListNotations.
Open Scope Z_scope.

(** The bits of the key visited by the loops "for (i = n-1; i >= 0; i--) while (j >= 0)
    { (key[i] >> j) & 1; j--; } j = 63", the first j being [top]. *)
Definition key_bits (n top : nat) (key : list Z) : list Z :=
  flat_map (fun i => map (fun j => Z.land (nth i key 0 / 2 ^ Z.of_nat j) 1)
    (rev (seq 0 (if Nat.eqb i (n - 1) then S top else 64)))) (rev (seq 0 n)).

Section X64.
Variable st0 : store.
Variable k : cpu.
(** select_cmov_x64, ladder255.c:97-118 *)
Definition select_cmov_x64 (bit : Z) (px py : list Z) : list Z :=
  call (code (env_of [bA; bB; bD]) asm_select_cmov_x64) [(bA, px); (bB, py); (bD, [bit])] bA 4 st0.
(** add (B, B, X2), :451: the first operand is also the output *)
Definition add_to (a b : list Z) : list Z :=
  call (code (env_of [bA; bA; bB]) (if adx k then asm_add_adx else asm_add_adc)) [(bA, a); (bB, b)] bA 4 st0.
Definition lo {A} (n : nat) (l : list A) := firstn n l.
Definition hi {A} (n : nat) (l : list A) := skipn n l.
(** One iteration of the main loop of x25519_shared_x64, :422-459.  X2, Z2, X3, Z3
    are Qx, Qz, Px, Pz; the arrays A|B, D|C, DA|CB, X3|Z3, X2|Z2 are contiguous. *)
Definition step_x64 (X1 : list Z) (s : list Z * list Z * list Z * list Z * Z) (bit : Z) :=
  let '(X2, Z2, X3, Z3, prev) := s in
  let swap := Z.lxor bit prev in
  let A := add st0 k X2 Z2 in
  let B := sub st0 X2 Z2 in
  let C := add st0 k X3 Z3 in
  let D := sub st0 X3 Z3 in
  let DACB := reduce2 st0 k (intmul2 st0 k (A ++ B) (D ++ C)) in
  let A := select_cmov_x64 swap A C in
  let B := select_cmov_x64 swap B D in
  let AB := reduce2 st0 k (intsqr2 st0 k (A ++ B)) in
  let X3 := add st0 k (lo 4 DACB) (hi 4 DACB) in
  let Z3 := sub st0 (lo 4 DACB) (hi 4 DACB) in
  let X3Z3 := reduce2 st0 k (intsqr2 st0 k (X3 ++ Z3)) in
  let A := lo 4 AB in
  let B := hi 4 AB in
  let X2 := copy B in
  let Z2 := sub st0 A B in
  let B := mula24 st0 k Z2 in
  let B := add_to B X2 in
  let X2Z2 := reduce2 st0 k (intmul2 st0 k (X2 ++ Z2) (A ++ B)) in
  let Z3 := mul st0 k (hi 4 X3Z3) X1 in
  (lo 4 X2Z2, hi 4 X2Z2, lo 4 X3Z3, Z3, bit).
(** x25519_shared_x64, :361-468: the 32 bytes written to shared_secret (the
    return value is always 0); key and public key are copied before use. *)
Definition mask_top (session : list Z) : list Z := firstn 31 session ++ [Z.land (nth 31 session 0) 127].
Definition x25519_shared_x64 (session_key secret_key : list Z) : list Z :=
  let secret := clamp_bytes255 secret_key in
  let session := mask_top session_key in
  let X1 := words_of 4 session in
  let '(Qx, Qz, _, _, _) :=
    fold_left (step_x64 X1) (key_bits 4 62 (words_of 4 secret)) ([1; 0; 0; 0], zero, X1, [1; 0; 0; 0], 0) in
  ser st0 (mul st0 k Qx (inv st0 k Qz)).
End X64.

(** ** Vector code: functions on the 4-word vectors of an array *)
Fixpoint vmap (f : list Z -> list Z) (a : list Z) : list Z :=
  match a with x0 :: x1 :: x2 :: x3 :: a => f [x0; x1; x2; x3] ++ vmap f a | _ => [] end.
Fixpoint vmap2 (f : list Z -> list Z -> list Z) (a b : list Z) : list Z :=
  match a, b with
  | x0 :: x1 :: x2 :: x3 :: a, y0 :: y1 :: y2 :: y3 :: b => f [x0; x1; x2; x3] [y0; y1; y2; y3] ++ vmap2 f a b
  | _, _ => []
  end.
(** PERM64(x, 0x4E), _mm256_permute4x64_epi64: the words 2, 3, 0, 1 *)
Definition perm64_4E (v : list Z) : list Z := map (fun i => nth i v 0) [2; 3; 0; 1]%nat.
(** BLEND32(x, y, 0xF0), _mm256_blend_epi32: dwords 4-7 from y *)
Definition blend_F0 (v w : list Z) : list Z := firstn 2 v ++ skipn 2 w.
(** PERMV128(x, idx), _mm256_permutevar8x32_epi32 (simd_avx2.h:92); idx is given as its eight dwords *)
Definition dwords (v : list Z) : list Z := flat_map (fun w => [w mod 2 ^ 32; w / 2 ^ 32]) v.
Fixpoint undwords (l : list Z) : list Z :=
  match l with a :: b :: l => (a + 2 ^ 32 * b) :: undwords l | _ => [] end.
Definition permutevar8x32 (idx v : list Z) : list Z :=
  undwords (map (fun i => nth (Z.to_nat (i mod 8)) (dwords v) 0) idx).
(** maskbit0 and maskbit1, ladder255.c:170-173, ladder448.c:165-168 (SWAP_METHOD is PERMUTATION, faz_ecdh_avx2.h:54) *)
Definition maskbit0 (swap : Z) : list Z :=
  map (fun i => Z.lxor i ((swap mod 2 ^ 32 * 4) mod 2 ^ 32)) [0; 1; 2; 3; 4; 5; 6; 7].
Definition maskbit1 (swap : Z) : list Z := skipn 4 (maskbit0 swap) ++ firstn 4 (maskbit0 swap).
(** t2[0] = OR(t2[0], SET64(0,1,0,0)) and the initial value of QzPz *)
Definition or_word2 (a : list Z) : list Z := firstn 2 a ++ Z.lor (nth 2 a 0) 1 :: skipn 3 a.
(** t2 = t0 + (2P - t1), t1 = t2 * a24 + t0 for every vector, ladder255.c:230-235, ladder448.c:228-233:
    t0 and t1 are the arrays at q3 and q4, the new t2 and t1 those at q1 and q2. *)
Definition fe_prog (twop : list (list Z)) (a24 : Z) : list vinstr :=
  flat_map (fun sv : nat * list Z => let (s, v) := sv in let o b := la b (4 * s) in
    [VBin OSub 4 (o 8192%positive) (VC v) (VL (o q4)); VBin OAdd 4 (o q1) (VL (o q3)) (VL (o 8192%positive));
     VBin OMul32 4 (o 9216%positive) (VL (o q1)) (VC [a24; a24; a24; a24]); VBin OAdd 4 (o q2) (VL (o 9216%positive)) (VL (o q3))])
    (combine (seq 0 (length twop)) twop).
(** CONST_2P_2P_Element_2w_Fp25519, ladder255.c:119-125 *)
Definition two_p_255 : list (list Z) := [
  [0x7ffffda; 0x3fffffe; 0x7ffffda; 0x3fffffe]; [0x3fffffe; 0x7fffffe; 0x3fffffe; 0x7fffffe];
  [0x7fffffe; 0x3fffffe; 0x7fffffe; 0x3fffffe]; [0x3fffffe; 0x7fffffe; 0x3fffffe; 0x7fffffe];
  [0x7fffffe; 0x3fffffe; 0x7fffffe; 0x3fffffe]].
Definition fe_prog255 : list vinstr := Eval vm_compute in fe_prog two_p_255 121665.
(** CONST_2P_2P_H0H8, eltfp448_2w_redradix.c:95-104 *)
Definition two_p_448 : list (list Z) := [
  [0x1ffffffe; 0x3ffffffc; 0x1ffffffe; 0x3ffffffc]; [0x1ffffffe; 0x1ffffffc; 0x1ffffffe; 0x1ffffffc];
  [0x1ffffffe; 0x1ffffffe; 0x1ffffffe; 0x1ffffffe]; [0x1ffffffe; 0x1ffffffe; 0x1ffffffe; 0x1ffffffe];
  [0x1ffffffe; 0x1ffffffe; 0x1ffffffe; 0x1ffffffe]; [0x1ffffffe; 0x1ffffffe; 0x1ffffffe; 0x1ffffffe];
  [0x1ffffffe; 0x1ffffffe; 0x1ffffffe; 0x1ffffffe]; [0x1ffffffe; 0x1ffffffe; 0x1ffffffe; 0x1ffffffe]].
Definition fe_prog448 : list vinstr := Eval vm_compute in fe_prog two_p_448 39081.

Section AVX2.
Variable st0 : store.
Variable k : cpu.
(** One iteration of step_ladder_x25519, ladder255.c:148-242. *)
Definition step_ladder_x25519 (X1 : list Z) (s : list Z * list Z * Z) (bit : Z) : list Z * list Z * Z :=
  let '(X2X3, Z2Z3, prev) := s in
  let swap := Z.lxor bit prev in
  let '(X2X3, Z2Z3) := addsub_2w st0 X2X3 Z2Z3 in
  let Z2Z3 := vmap perm64_4E Z2Z3 in
  let t0 := compress_2w st0 (intmul_2w st0 X2X3 Z2Z3) in
  let t1 := vmap perm64_4E t0 in
  let X2X3 := vmap (permutevar8x32 (maskbit0 swap)) X2X3 in
  let Z2Z3 := vmap (permutevar8x32 (maskbit1 swap)) Z2Z3 in
  let '(t1, t0) := addsub_2w st0 t1 t0 in
  let t0 := vmap2 blend_F0 X2X3 t0 in
  let t1 := vmap2 blend_F0 Z2Z3 t1 in
  let t0 := intsqr_2w st0 t0 in
  let t1 := intsqr_2w st0 t1 in
  let '(t0, t1) := compress2_2w st0 t0 t1 in
  let t2 := or_word2 (vmap2 blend_F0 t0 (repeat 0 20)) in
  let X2X3 := compress_2w st0 (intmul_2w st0 t2 t1) in
  let t2 := vout1 st0 20 fe_prog255 t0 t1 in
  let t1 := vout2 st0 20 fe_prog255 t0 t1 in
  let t2 := vmap2 blend_F0 t2 t0 in
  let t1 := vmap2 blend_F0 t1 X1 in
  let t1 := compressfast_2w st0 t1 in
  let Z2Z3 := compress_2w st0 (intmul_2w st0 t2 t1) in
  (X2X3, Z2Z3, bit).
(** x25519_shared_avx2, ladder255.c:249-299 *)
Definition x25519_shared_avx2 (session_key secret_key : list Z) : list Z :=
  let secret := clamp_bytes255 secret_key in
  let session := mask_top session_key in
  let X1 := unser_1w st0 session in
  let QzPz := or_word2 (repeat 0 20) in
  let QxPx := inter_2w st0 X1 X1 in
  let '(QxPx, QzPz, _) :=
    fold_left (step_ladder_x25519 (copy_2w st0 QxPx)) (key_bits 4 62 (words_of 4 secret)) (QxPx, QzPz, 0) in
  let XX := fst (deinter_2w st0 QxPx) in
  let ZZ := fst (deinter_2w st0 QzPz) in
  let X := words_of 4 (ser_1w st0 XX) in
  let Z := words_of 4 (ser_1w st0 ZZ) in
  ser st0 (mul st0 k X (inv st0 k Z)).

(** One iteration of step_ladder_x448, ladder448.c:142-240. *)
Definition step_ladder_x448 (X1 : list Z) (s : list Z * list Z * Z) (bit : Z) : list Z * list Z * Z :=
  let '(X2X3, Z2Z3, prev) := s in
  let swap := Z.lxor bit prev in
  let '(X2X3, Z2Z3) := addsub448_2w st0 X2X3 Z2Z3 in
  let Z2Z3 := vmap perm64_4E Z2Z3 in
  let t0 := compress448_2w st0 (intmul448_2w st0 X2X3 Z2Z3) in
  let t1 := vmap perm64_4E t0 in
  let X2X3 := vmap (permutevar8x32 (maskbit0 swap)) X2X3 in
  let Z2Z3 := vmap (permutevar8x32 (maskbit1 swap)) Z2Z3 in
  let '(t1, t0) := addsub448_2w st0 t1 t0 in
  let t0 := vmap2 blend_F0 X2X3 t0 in
  let t1 := vmap2 blend_F0 Z2Z3 t1 in
  let t0 := compressfast448_2w st0 t0 in
  let t1 := compressfast448_2w st0 t1 in
  let t0 := intsqr448_2w st0 t0 in
  let t1 := intsqr448_2w st0 t1 in
  let '(t0, t1) := compress2448_2w st0 t0 t1 in
  let t2 := or_word2 (vmap2 blend_F0 t0 (repeat 0 32)) in
  let X2X3 := compress448_2w st0 (intmul448_2w st0 t2 t1) in
  let t2 := vout1 st0 32 fe_prog448 t0 t1 in
  let t1 := vout2 st0 32 fe_prog448 t0 t1 in
  let t2 := vmap2 blend_F0 t2 t0 in
  let t1 := vmap2 blend_F0 t1 X1 in
  let t1 := compressfast448_2w st0 t1 in
  let Z2Z3 := compress448_2w st0 (intmul448_2w st0 t2 t1) in
  (X2X3, Z2Z3, bit).
(** The clamping of x448_shared_avx2, ladder448.c:266-269 *)
Definition clamp_bytes448 (key : list Z) : list Z :=
  Z.land (nth 0 key 0) 252 :: firstn 54 (skipn 1 key) ++ [Z.lor (nth 55 key 0) 128].
(** x448_shared_avx2, ladder448.c:254-293, up to the affine coordinate in X *)
Definition x448_affine (session_key secret_key : list Z) : list Z :=
  let secret := clamp_bytes448 secret_key in
  let X1 := unser448_1w st0 session_key in
  let QzPz := or_word2 (repeat 0 32) in
  let QxPx := inter448_2w st0 X1 X1 in
  let '(QxPx, QzPz, _) :=
    fold_left (step_ladder_x448 (copy448_2w st0 QxPx)) (key_bits 7 63 (words_of 7 secret)) (QxPx, QzPz, 0) in
  let X := fst (deinter448_2w st0 QxPx) in
  let Z := fst (deinter448_2w st0 QzPz) in
  mul448_1w st0 X (inv448_1w st0 Z).
Definition x448_shared_avx2 (session_key secret_key : list Z) : list Z := ser448_1w st0 (x448_affine session_key secret_key).
End AVX2.
