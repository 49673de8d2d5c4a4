(** Micro-operations on 64-bit words.

    The x86-64 instructions of the inline assembly blocks and the lanes of the
    AVX2 intrinsics used in /repo/src are given meaning by short lists of
    micro-operations (see X86.v and Simd.v).  A store maps locations
    (registers, flags, 64-bit memory words, vector lanes) to integers. *)
From Coq Require Import ZArith List Bool.
From Coq Require Export FMapPositive.
Import ListNotations.
Open Scope Z_scope.

(** The machine word modulus. *)
Definition W : Z := 18446744073709551616. (* 2^64 *)
Definition W32 : Z := 4294967296.         (* 2^32 *)

Definition loc := positive.
Definition store := PositiveMap.t Z.

(** A location never written holds 0; theorems quantify over the initial
    store, so nothing is assumed about uninitialised memory. *)
Definition get (s : store) (l : loc) : Z :=
  match PositiveMap.find l s with Some v => v | None => 0 end.
Definition set (l : loc) (v : Z) (s : store) : store := PositiveMap.add l v s.

Inductive opd := L (l : loc) | I (z : Z).

Definition ev (s : store) (o : opd) : Z :=
  match o with L l => get s l | I z => z end.

(** Value of a word read as a signed two's complement number. *)
Definition sgn64 (x : Z) : Z := if x <? 9223372036854775808 then x else x - W.

Inductive uop :=
| UMov (d : loc) (a : opd)
| UAdd (d c : loc) (a b ci : opd)   (* d = (a+b+ci) mod 2^64, c = carry out  *)
| USub (d c : loc) (a b bi : opd)   (* d = (a-b-bi) mod 2^64, c = borrow out *)
| UAddW (d : loc) (a b : opd)       (* (a+b) mod 2^64, no carry output       *)
| USubW (d : loc) (a b : opd)       (* (a-b) mod 2^64, no borrow output      *)
| UMul (hi lo : loc) (a b : opd)    (* full 64x64 -> 128 product             *)
| UIMul (d c : loc) (a b : opd)     (* signed product mod 2^64, c = overflow *)
| UMul32 (d : loc) (a b : opd)      (* product of the low 32-bit halves      *)
| UShr (d : loc) (a : opd) (k : Z)
| UShl (d : loc) (a : opd) (k : Z)
| UAnd (d : loc) (a b : opd)
| UOr (d : loc) (a b : opd)
| UXor (d : loc) (a b : opd)
| UAndn (d : loc) (a b : opd)       (* (not a) and b                         *)
| USel (d : loc) (c a b : opd)      (* if c = 0 then a else b                *)
| UEqz (d : loc) (a : opd).         (* 1 if a = 0 else 0                     *)

Definition step (u : uop) (s : store) : store :=
  match u with
  | UMov d a => set d (ev s a) s
  | UAdd d c a b ci =>
      let v := ev s a + ev s b + ev s ci in
      set d (v mod W) (set c (v / W) s)
  | USub d c a b bi =>
      let v := ev s a - ev s b - ev s bi in
      set d (v mod W) (set c (- (v / W)) s)
  | UAddW d a b => set d ((ev s a + ev s b) mod W) s
  | USubW d a b => set d ((ev s a - ev s b) mod W) s
  | UMul hi lo a b =>
      let v := ev s a * ev s b in
      set hi (v / W) (set lo (v mod W) s)
  | UIMul d c a b =>
      let v := sgn64 (ev s a) * sgn64 (ev s b) in
      set d (v mod W)
        (set c (if (- 9223372036854775808 <=? v) && (v <? 9223372036854775808) then 0 else 1) s)
  | UMul32 d a b => set d ((ev s a mod W32) * (ev s b mod W32)) s
  | UShr d a k => set d (ev s a / 2 ^ k) s
  | UShl d a k => set d ((ev s a * 2 ^ k) mod W) s
  | UAnd d a b => set d (Z.land (ev s a) (ev s b)) s
  | UOr d a b => set d (Z.lor (ev s a) (ev s b)) s
  | UXor d a b => set d (Z.lxor (ev s a) (ev s b)) s
  | UAndn d a b => set d (Z.land (W - 1 - ev s a) (ev s b)) s
  | USel d c a b => set d (if ev s c =? 0 then ev s a else ev s b) s
  | UEqz d a => set d (if ev s a =? 0 then 1 else 0) s
  end.

Fixpoint run (p : list uop) (s : store) : store :=
  match p with
  | [] => s
  | u :: p => run p (step u s)
  end.

(** Reading and writing consecutive words. *)
Fixpoint rd (base : loc) (n : nat) (s : store) : list Z :=
  match n with
  | O => []
  | S n => get s base :: rd (Pos.succ base) n s
  end.
Fixpoint wr (base : loc) (ws : list Z) (s : store) : store :=
  match ws with
  | [] => s
  | w :: ws => wr (Pos.succ base) ws (set base w s)
  end.

Lemma get_set_same l v s : get (set l v s) l = v.
Proof. unfold get, set. now rewrite PositiveMap.gss. Qed.
Lemma get_set_other l l' v s : l <> l' -> get (set l v s) l' = get s l'.
Proof. intro H. unfold get, set. rewrite PositiveMap.gso; auto. Qed.

Lemma run_app p q s : run (p ++ q) s = run q (run p s).
Proof. revert s. induction p; simpl; auto. Qed.
