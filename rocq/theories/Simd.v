(** The AVX2/SSE intrinsics of /repo/include/simd_avx2.h (lines 45-99) as
    operations on 64-bit lanes.  A vector of n lanes (n = 4 for __m256i, 2 for
    __m128i, 1 for a uint64_t variable) occupies n consecutive locations, lane
    0 first; vectors stored to memory keep this order.

    Every instruction is given by one micro-operation per lane.  All lanes are
    read before any lane is written ([vstep]).  [vcomp] is the sequential list
    of these micro-operations; it is defined only when no lane written early is
    read late, and then computes the same store ([vcomp_sound]).

    Simplification: _mm256_shuffle_epi32 and _mm256_blend_epi32 act on 32-bit
    halves; they are supported for immediates that keep the halves of a 64-bit
    lane together (every use in the modelled files), otherwise [vuops] is None. *)
From Coq Require Import ZArith List Bool Lia.
From Verif Require Import Uop.
Import ListNotations.
Open Scope Z_scope.

Inductive vopd := VL (l : loc) | VC (ws : list Z).
Inductive vop := OAdd | OSub | OMul32 | OAnd | OOr | OXor | OAndn.
Inductive vinstr :=
| VBin (op : vop) (n : nat) (d : loc) (a b : vopd)
| VMov (n : nat) (d : loc) (a : vopd)
| VShr (n : nat) (k : Z) (d : loc) (a : vopd)           (* srli_epi64 *)
| VShl (n : nat) (k : Z) (d : loc) (a : vopd)           (* slli_epi64 *)
| VShrv (ks : list Z) (d : loc) (a : vopd)              (* srlv_epi64 *)
| VShlv (ks : list Z) (d : loc) (a : vopd)              (* sllv_epi64 *)
| VSrl8 (n : nat) (d : loc) (a : vopd)                  (* srli_si256(.,8) *)
| VShuf32 (n : nat) (imm : Z) (d : loc) (a : vopd)      (* shuffle_epi32 *)
| VPerm64 (imm : Z) (d : loc) (a : vopd)                (* permute4x64_epi64 *)
| VPerm128 (imm : Z) (d : loc) (a b : vopd)             (* permute2x128_si256 *)
| VBlend32 (n : nat) (imm : Z) (d : loc) (a b : vopd)   (* blend_epi32 *)
| VUnpkl (n : nat) (d : loc) (a b : vopd)               (* unpacklo_epi64 *)
| VUnpkh (n : nat) (d : loc) (a b : vopd)               (* unpackhi_epi64 *)
| VShufpd (n : nat) (imm : Z) (d : loc) (a b : vopd)    (* shuffle_pd *)
| VInsr (imm : Z) (d : loc) (a b : vopd).               (* inserti128_si256 *)
Arguments VL l%positive.
Arguments VC ws%Z.
Arguments VBin op n%nat d%positive a b.
Arguments VMov n%nat d%positive a.
Arguments VShr n%nat k%Z d%positive a.
Arguments VShl n%nat k%Z d%positive a.
Arguments VShrv ks%Z d%positive a.
Arguments VShlv ks%Z d%positive a.
Arguments VSrl8 n%nat d%positive a.
Arguments VShuf32 n%nat imm%Z d%positive a.
Arguments VPerm64 imm%Z d%positive a.
Arguments VPerm128 imm%Z d%positive a b.
Arguments VBlend32 n%nat imm%Z d%positive a b.
Arguments VUnpkl n%nat d%positive a b.
Arguments VUnpkh n%nat d%positive a b.
Arguments VShufpd n%nat imm%Z d%positive a b.
Arguments VInsr imm%Z d%positive a b.

Fixpoint la (l : loc) (i : nat) : loc := match i with O => l | S i => la (Pos.succ l) i end.
(** Lane i of an operand. *)
Definition ln (o : vopd) (i : nat) : opd :=
  match o with VL l => L (la l i) | VC ws => I (nth i ws 0) end.
Definition lanes (n : nat) (f : nat -> uop) : list uop := map f (seq 0 n).

Definition bin (op : vop) (d : loc) (a b : opd) : uop :=
  match op with
  | OAdd => UAddW d a b | OSub => USubW d a b | OMul32 => UMul32 d a b
  | OAnd => UAnd d a b | OOr => UOr d a b | OXor => UXor d a b | OAndn => UAndn d a b
  end.
(** Bits k, k+1 of an immediate. *)
Definition bits2 (imm k : Z) : Z := (imm / 2 ^ k) mod 4.
Definition bit1 (imm k : Z) : Z := (imm / 2 ^ k) mod 2.
(** Per-lane variable shifts give 0 for counts of 64 or more. *)
Definition shv (right : bool) (d : loc) (a : opd) (k : Z) : uop :=
  if 64 <=? k then UMov d (I 0) else if right then UShr d a k else UShl d a k.
(** 64-bit lane selected for half h of a 128-bit block by a 32-bit shuffle. *)
Definition shuf_sel (imm : Z) (h : Z) : option nat :=
  let x := bits2 imm (4 * h) in
  let y := bits2 imm (4 * h + 2) in
  if (x mod 2 =? 0) && (y =? x + 1) then Some (Z.to_nat (x / 2)) else None.
Definition blend_sel (imm : Z) (i : Z) : option bool :=
  let x := bit1 imm (2 * i) in
  let y := bit1 imm (2 * i + 1) in
  if x =? y then Some (x =? 1) else None.
Fixpoint sequence {A} (l : list (option A)) : option (list A) :=
  match l with
  | [] => Some []
  | Some x :: l => match sequence l with Some l => Some (x :: l) | None => None end
  | None :: _ => None
  end.
(** Source of 128-bit half h of permute2x128. *)
Definition perm128_src (imm h : Z) (a b : vopd) (i : nat) : opd :=
  let c := (imm / 2 ^ (4 * h)) mod 16 in
  if 8 <=? c then I 0
  else match c mod 4 with
       | 0 => ln a i | 1 => ln a (2 + i) | 2 => ln b i | _ => ln b (2 + i)
       end.

Definition vuops (i : vinstr) : option (list uop) :=
  match i with
  | VBin op n d a b => Some (lanes n (fun i => bin op (la d i) (ln a i) (ln b i)))
  | VMov n d a => Some (lanes n (fun i => UMov (la d i) (ln a i)))
  | VShr n k d a => Some (lanes n (fun i => shv true (la d i) (ln a i) k))
  | VShl n k d a => Some (lanes n (fun i => shv false (la d i) (ln a i) k))
  | VShrv ks d a => Some (lanes (length ks) (fun i => shv true (la d i) (ln a i) (nth i ks 0)))
  | VShlv ks d a => Some (lanes (length ks) (fun i => shv false (la d i) (ln a i) (nth i ks 0)))
  | VSrl8 n d a => Some (lanes n (fun i => UMov (la d i) (if Nat.even i then ln a (S i) else I 0)))
  | VShuf32 n imm d a =>
      match shuf_sel imm 0, shuf_sel imm 1 with
      | Some x, Some y =>
          Some (lanes n (fun i => UMov (la d i)
                  (if Nat.even i then ln a (i + x) else ln a (i - 1 + y))))
      | _, _ => None
      end
  | VPerm64 imm d a =>
      Some (lanes 4 (fun i => UMov (la d i) (ln a (Z.to_nat (bits2 imm (2 * Z.of_nat i))))))
  | VPerm128 imm d a b =>
      Some (lanes 4 (fun i => UMov (la d i)
              (if Nat.ltb i 2 then perm128_src imm 0 a b i else perm128_src imm 1 a b (i - 2))))
  | VBlend32 n imm d a b =>
      sequence (map (fun i => match blend_sel imm (Z.of_nat i) with
                              | Some true => Some (UMov (la d i) (ln b i))
                              | Some false => Some (UMov (la d i) (ln a i))
                              | None => None
                              end) (seq 0 n))
  | VUnpkl n d a b => Some (lanes n (fun i => UMov (la d i) (if Nat.even i then ln a i else ln b (i - 1))))
  | VUnpkh n d a b => Some (lanes n (fun i => UMov (la d i) (if Nat.even i then ln a (i + 1) else ln b i)))
  | VShufpd n imm d a b =>
      Some (lanes n (fun i => UMov (la d i)
              (if Nat.even i then ln a (i + Z.to_nat (bit1 imm (Z.of_nat i)))
               else ln b (i - 1 + Z.to_nat (bit1 imm (Z.of_nat i))))))
  | VInsr imm d a b =>
      Some (lanes 4 (fun i => UMov (la d i)
              (if Z.of_nat i / 2 =? imm mod 2 then ln b (Nat.modulo i 2) else ln a i)))
  end.

(** Destination, sources and value of the micro-operations used for lanes. *)
Definition udst (u : uop) : loc :=
  match u with
  | UMov d _ | UAdd d _ _ _ _ | USub d _ _ _ _ | UAddW d _ _ | USubW d _ _ | UMul _ d _ _
  | UIMul d _ _ _ | UMul32 d _ _ | UShr d _ _ | UShl d _ _ | UAnd d _ _ | UOr d _ _ | UXor d _ _
  | UAndn d _ _ | USel d _ _ _ | UEqz d _ => d
  end.
Definition osrc (o : opd) : list loc := match o with L l => [l] | I _ => [] end.
Definition usrc (u : uop) : list loc :=
  match u with
  | UMov _ a | UShr _ a _ | UShl _ a _ | UEqz _ a => osrc a
  | UAddW _ a b | USubW _ a b | UMul _ _ a b | UIMul _ _ a b | UMul32 _ a b | UAnd _ a b | UOr _ a b
  | UXor _ a b | UAndn _ a b => osrc a ++ osrc b
  | UAdd _ _ a b c | USub _ _ a b c | USel _ a b c => osrc a ++ osrc b ++ osrc c
  end.
(** Micro-operations with a single destination. *)
Definition usimple (u : uop) : bool :=
  match u with UAdd _ _ _ _ _ | USub _ _ _ _ _ | UMul _ _ _ _ | UIMul _ _ _ _ => false | _ => true end.
Definition uval (u : uop) (s : store) : Z := get (step u s) (udst u).

Definition vstep (i : vinstr) (s : store) : option store :=
  match vuops i with
  | Some us => Some (fold_left (fun t u => set (udst u) (uval u s) t) us s)
  | None => None
  end.
Fixpoint vrun (p : list vinstr) (s : store) : option store :=
  match p with
  | [] => Some s
  | i :: p => match vstep i s with Some s => vrun p s | None => None end
  end.

(** No lane written by an earlier micro-operation is read by a later one. *)
Definition memp (l : loc) (ls : list loc) : bool := existsb (Pos.eqb l) ls.
Fixpoint hazard_free (written : list loc) (us : list uop) : bool :=
  match us with
  | [] => true
  | u :: us => usimple u && negb (existsb (fun l => memp l written) (usrc u)) && hazard_free (udst u :: written) us
  end.
Definition vcomp1 (i : vinstr) : option (list uop) :=
  match vuops i with
  | Some us => if hazard_free [] us then Some us else None
  | None => None
  end.
Fixpoint vcomp (p : list vinstr) : option (list uop) :=
  match p with
  | [] => Some []
  | i :: p => match vcomp1 i, vcomp p with Some a, Some b => Some (a ++ b) | _, _ => None end
  end.

Lemma ev_agree s t o : (forall l, In l (osrc o) -> get s l = get t l) -> ev s o = ev t o.
Proof. destruct o; cbn [ev osrc In]; auto. Qed.
Lemma memp_In l ls : memp l ls = true <-> In l ls.
Proof.
  unfold memp. rewrite existsb_exists. split.
  - intros (x & H & E%Pos.eqb_eq). now subst.
  - intro H. exists l. split; auto. apply Pos.eqb_refl.
Qed.
Lemma step_simple u s : usimple u = true -> step u s = set (udst u) (uval u s) s.
Proof.
  destruct u; cbn [usimple]; try discriminate; intros _; unfold uval; cbn [step udst]; now rewrite get_set_same.
Qed.
Lemma uval_agree u s t : usimple u = true -> (forall l, In l (usrc u) -> get s l = get t l) -> uval u s = uval u t.
Proof.
  intros U H. destruct u; cbn [usimple] in U; try discriminate; unfold uval; cbn [step udst]; rewrite !get_set_same;
  cbn [usrc] in H;
  repeat match goal with |- context [ev s ?a] => rewrite (ev_agree s t a) by (intros l Hl; apply H; rewrite ?in_app_iff; tauto) end;
  reflexivity.
Qed.
Lemma hazard_free_run us : forall written s t,
  hazard_free written us = true -> (forall l, ~ In l written -> get t l = get s l) ->
  run us t = fold_left (fun t u => set (udst u) (uval u s) t) us t.
Proof.
  induction us as [|u us IH]; intros written s t H A; cbn [run fold_left]; auto.
  cbn [hazard_free] in H. apply andb_prop in H as [H H2]. apply andb_prop in H as [U H1].
  apply negb_true_iff in H1.
  assert (E : uval u t = uval u s).
  { apply uval_agree; auto. intros l Hl. apply A. intro I. enough (F : existsb (fun l => memp l written) (usrc u) = true) by congruence.
    apply existsb_exists. exists l. split; auto. now apply memp_In. }
  rewrite step_simple, E by auto. apply (IH (udst u :: written)); auto.
  intros l N. cbn [In] in N. rewrite get_set_other by tauto. apply A. tauto.
Qed.
(** Sequential micro-operations implement the parallel vector instructions. *)
Theorem vcomp_sound p : forall q s, vcomp p = Some q -> vrun p s = Some (run q s).
Proof.
  induction p as [|i p IH]; intros q s E; cbn [vcomp vrun] in *.
  - injection E as <-. reflexivity.
  - unfold vcomp1 in E. unfold vstep. destruct (vuops i) as [us|]; [|discriminate].
    destruct (hazard_free [] us) eqn:F; [|discriminate].
    destruct (vcomp p) as [b|] eqn:G; [|discriminate]. injection E as <-.
    rewrite run_app, <- (hazard_free_run us [] s s) by (auto; cbn; tauto). now apply IH.
Qed.

(** Code of a vector program ([] when it does not compile, which is excluded
    for every transcribed program by simd255_compiles in Fp25519RedProofs.v and
    simd448_compiles in Fp448RedProofs.v). *)
Definition vcode (p : list vinstr) : list uop := match vcomp p with Some q => q | None => [] end.
Definition compiles (p : list vinstr) : bool := match vcomp p with Some _ => true | None => false end.
Lemma vcode_sound p s : compiles p = true -> vrun p s = Some (run (vcode p) s).
Proof. unfold compiles, vcode. destruct (vcomp p) eqn:E; [intros _|discriminate]. now apply vcomp_sound. Qed.
