(** Verification tools for the full-radix arithmetic, and exponentiation chains. *)
From Coq Require Import ZArith List Bool Lia.
From Verif Require Import Uop Poly Sym X86 Engine Check Alias Bytes Fp25519Full Fp448Full.
Import ListNotations.
Open Scope Z_scope.

Definition wa (n : nat) (b : loc) : iarr := IA b (wbnd n) (wts n 1).

Lemma iok_wa n b ws : words n ws -> iok (wa n b) ws.
Proof. intro H. unfold iok, wa; cbn [ibnd]. now apply arr_words. Qed.
Lemma wsum_wa n ws : words n ws -> wsum (wts n 1) ws = val ws.
Proof. intros [H _]. rewrite wsum_wts by auto. lia. Qed.

(** Arrays of 64-bit words at given bases. *)
Definition was (bs : list (loc * nat)) : list iarr := map (fun x => wa (snd x) (fst x)) bs.
Definition wins (bs : list (loc * nat)) (ins : list (list Z)) : Prop := Forall2 (fun b ws => words (snd b) ws) bs ins.
Lemma iok_was bs ins : wins bs ins -> Forall2 iok (was bs) ins.
Proof. induction 1; cbn [was map]; constructor; auto. now apply iok_wa. Qed.
Lemma iplace_was bs ins : wins bs ins -> iplace (was bs) ins = combine (map fst bs) ins.
Proof. induction 1 as [|x y bs ins H _ IH]; cbn [was map iplace combine]; auto. unfold was in IH. now rewrite IH. Qed.
Lemma ivals_was bs ins : wins bs ins -> ivals (was bs) ins = map val ins.
Proof.
  induction 1 as [|x y bs ins H _ IH]; cbn [was map ivals wa iwt]; auto.
  unfold was in IH. rewrite IH. f_equal. now apply wsum_wa.
Qed.

Lemma congz hs bs out m p e zs ins prog st :
  congz_check hs prog (was bs) out (wts m 1) (wbnd m) p e zs = true -> zvc hs prog (was bs) out m zs ->
  wins bs ins ->
  let res := call prog (combine (map fst bs) ins) out m st in
  words m res /\ (val res - vden (map val ins) e) mod p = 0.
Proof.
  intros H Z Ha res. 
  rewrite <- (wts_length m 1) in Z.
  destruct (congz_check_sound _ _ _ _ _ _ _ _ _ _ st H Z (iok_was _ _ Ha)) as [C B].
  rewrite wts_length, iplace_was in C, B by auto. fold res in C, B.
  apply arr_words in B. split; auto. now rewrite wsum_wa, ivals_was in C by auto.
Qed.
Lemma congn hs bs out m p e ins prog st :
  cong_check hs prog (was bs) out (wts m 1) (wbnd m) p e = true ->
  wins bs ins ->
  let res := call prog (combine (map fst bs) ins) out m st in
  words m res /\ (val res - vden (map val ins) e) mod p = 0.
Proof.
  intros H Ha res.
  destruct (cong_check_sound _ _ _ _ _ _ _ _ _ st H (iok_was _ _ Ha)) as [C B].
  rewrite wts_length, iplace_was in C, B by auto. fold res in C, B.
  apply arr_words in B. split; auto. now rewrite wsum_wa, ivals_was in C by auto.
Qed.
Lemma wsum_bound m : forall ws, arr_ok (wbnd m) ws -> 0 <= wsum (wts m 1) ws < W ^ Z.of_nat m.
Proof. intros ws H. apply arr_words in H. rewrite wsum_wa by auto. now apply val_bound. Qed.
Lemma exact_ hs bs out m e ins prog st :
  exact_check hs prog (was bs) out (wts m 1) (wbnd m) (W ^ Z.of_nat m) e = true ->
  wins bs ins ->
  let res := call prog (combine (map fst bs) ins) out m st in
  words m res /\ val res = vden (map val ins) e.
Proof.
  intros H Ha res.
  destruct (exact_check_sound _ _ _ _ _ _ _ _ _ st H (iok_was _ _ Ha) (wsum_bound m)) as [C B].
  rewrite wts_length, iplace_was in C, B by auto. fold res in C, B.
  apply arr_words in B. split; auto. now rewrite wsum_wa, ivals_was in C by auto.
Qed.

(** The quotients that must vanish for a congruence to hold. *)
Definition resid (hs : list nat) (prog : list uop) (xs : list iarr) (out : loc) (m : nat) (p : Z) (e : vexp) : list atom :=
  match summary hs prog (pre_ins (ipre xs)) out m with
  | Some (l, _, _) => flat_map (fun t => if snd t mod p =? 0 then [] else fst t)
      (psub (wsump (wts m 1) l) (vpoly (map ipoly xs) e))
  | None => []
  end.
Ltac solve_zvc := vc_start; let r := fresh in let R := fresh in let C := fresh in
  intros r R C; vc_facts; repeat constructor; lia.
Ltac wins_tac := unfold wins; repeat (apply Forall2_cons; [assumption|]); apply Forall2_nil.
(** [do_congz bs ins p e]: the program's output is congruent to [e]. *)
Definition hs_of (strict : bool) (prog : list uop) (xs : list iarr) : list nat :=
  hints strict prog (init (pre_ins (ipre xs))).
Ltac do_congz' strict bs ins p e :=
  match goal with |- words ?m (call ?prog _ ?out _ ?st) /\ _ =>
    let hs := eval vm_compute in (hs_of strict prog (was bs)) in
    let zs := eval vm_compute in (resid hs prog (was bs) out m p e) in
    lazymatch zs with
    | [] => apply (congn hs bs out m p e ins prog st); [vm_cast_no_check (eq_refl true) | wins_tac]
    | _ => apply (congz hs bs out m p e zs ins prog st);
      [vm_cast_no_check (eq_refl true) | solve_zvc | wins_tac]
    end end.
Ltac do_congz bs ins p e := do_congz' true bs ins p e.
Ltac do_exact bs ins e :=
  match goal with |- words ?m (call ?prog _ ?out _ ?st) /\ _ =>
    let hs := eval vm_compute in (hs_of false prog (was bs)) in
    apply (exact_ hs bs out m e ins prog st);
      [vm_cast_no_check (eq_refl true) | wins_tac] end.

Lemma rd_app st n m : forall b, rd b (n + S m) st = rd b n st ++ rd (Pos.add b (Pos.of_succ_nat n) - 1)%positive (S m) st.
Proof.
  induction n; intro b; cbn [rd Nat.add app].
  - replace (Pos.add b (Pos.of_succ_nat 0) - 1)%positive with b by (cbn [Pos.of_succ_nat]; lia). reflexivity.
  - rewrite IHn.
    replace (Pos.succ b + Pos.of_succ_nat n - 1)%positive with (b + Pos.of_succ_nat (S n) - 1)%positive; [reflexivity|].
    change (Pos.of_succ_nat (S n)) with (Pos.succ (Pos.of_succ_nat n)).
    generalize (Pos.of_succ_nat n). unfold loc in *. intro. lia.
Qed.
Lemma rd_split st n m b : rd b (n + S m) st = rd b n st ++ rd (Pos.add b (Pos.of_succ_nat n) - 1)%positive (S m) st ->
  firstn n (rd b (n + S m) st) = rd b n st /\
  skipn n (rd b (n + S m) st) = rd (Pos.add b (Pos.of_succ_nat n) - 1)%positive (S m) st.
Proof.
  intros ->. assert (L : length (rd b n st) = n) by (clear; revert b; induction n; intro; cbn [rd length]; auto).
  generalize dependent (rd b n st). intros l L. subst n. split.
  - now rewrite firstn_app, firstn_all, Nat.sub_diag, app_nil_r.
  - now rewrite skipn_app, skipn_all, Nat.sub_diag.
Qed.
Lemma words_split n m ws : words (n + m) ws -> words n (firstn n ws) /\ words m (skipn n ws).
Proof.
  intros [L F]. repeat split.
  - rewrite firstn_length. lia.
  - rewrite <- (firstn_skipn n ws) in F. now apply Forall_app in F.
  - rewrite skipn_length. lia.
  - rewrite <- (firstn_skipn n ws) in F. now apply Forall_app in F.
Qed.
Lemma firstn_call prog ins out n m st :
  firstn n (call prog ins out (n + S m) st) = call prog ins out n st.
Proof. unfold call. apply (rd_split _ n m), rd_app. Qed.
Lemma skipn_call prog ins out n m st :
  skipn n (call prog ins out (n + S m) st) = call prog ins (Pos.add out (Pos.of_succ_nat n) - 1)%positive (S m) st.
Proof. unfold call. apply (rd_split _ n m), rd_app. Qed.

Lemma mod_cong p x y : p <> 0 -> (x - y) mod p = 0 -> x mod p = y mod p.
Proof.
  intros Hp H. replace x with (y + (x - y)) by ring. rewrite Z.add_mod, H, Z.add_0_r, Z.mod_mod by auto. reflexivity.
Qed.

(** ** Exponentiation chains *)
Section Chain.
  Context {E : Type} (rep : E -> Z -> Prop) (p : Z) (mulE : E -> E -> E) (sqrE : E -> E).
  Hypothesis Hmul : forall a b x y, rep a x -> rep b y -> rep (mulE a b) (x * y).
  Hypothesis Hsqr : forall a x, rep a x -> rep (sqrE a) (x * x).
  Lemma rep_mul_pow x a b e f : 0 <= e -> 0 <= f -> rep a (x ^ e) -> rep b (x ^ f) -> rep (mulE a b) (x ^ (e + f)).
  Proof. intros. rewrite Z.pow_add_r by auto. now apply Hmul. Qed.
  Lemma rep_sqr_pow x a e : 0 <= e -> rep a (x ^ e) -> rep (sqrE a) (x ^ (2 * e)).
  Proof. intros. replace (2 * e) with (e + e) by ring. rewrite Z.pow_add_r by auto. now apply Hsqr. Qed.
  Lemma rep_sqrn_pow x n a e : 0 <= e -> rep a (x ^ e) -> rep (sqrn sqrE n a) (x ^ (2 ^ Z.of_nat n * e)).
  Proof.
    intros He Ha. unfold sqrn. induction n as [|n IH].
    - cbn [Nat.iter]. now rewrite Z.mul_1_l.
    - change (Nat.iter (S n) sqrE a) with (sqrE (Nat.iter n sqrE a)).
      rewrite Nat2Z.inj_succ, Z.pow_succ_r, <- Z.mul_assoc by lia.
      apply rep_sqr_pow; auto. apply Z.mul_nonneg_nonneg; auto. apply Z.pow_nonneg. lia.
  Qed.
  Ltac chain_tac x Ha :=
    rewrite <- (Z.pow_1_r x) in Ha; cbv zeta;
    repeat match goal with
    | |- context [sqrn sqrE ?n ?v] => is_var v;
        match goal with H : rep v (x ^ ?e) |- _ =>
          let G := fresh in let t := fresh "t" in
          assert (G := rep_sqrn_pow x n v e ltac:(vm_compute; discriminate) H);
          let e' := eval vm_compute in (2 ^ Z.of_nat n * e) in
          change (2 ^ Z.of_nat n * e) with e' in G;
          set (t := sqrn sqrE n v) in *; clearbody t end
    | |- context [sqrE ?v] => is_var v;
        match goal with H : rep v (x ^ ?e) |- _ =>
          let G := fresh in let t := fresh "t" in
          assert (G := rep_sqr_pow x v e ltac:(vm_compute; discriminate) H);
          let e' := eval vm_compute in (2 * e) in
          change (2 * e) with e' in G;
          set (t := sqrE v) in *; clearbody t end
    | |- context [mulE ?u ?v] => is_var u; is_var v;
        match goal with H : rep u (x ^ ?e), H' : rep v (x ^ ?f) |- _ =>
          let G := fresh in let t := fresh "t" in
          assert (G := rep_mul_pow x u v e f ltac:(vm_compute; discriminate) ltac:(vm_compute; discriminate) H H');
          let e' := eval vm_compute in (e + f) in change (e + f) with e' in G;
          set (t := mulE u v) in *; clearbody t end
    end;
    match goal with H : rep ?t (x ^ ?e) |- rep ?t (x ^ ?f) =>
      replace f with e by (vm_compute; reflexivity); exact H end.
  Lemma inv_chain_ok a x : rep a x -> rep (inv_chain mulE sqrE a) (x ^ (2 ^ 255 - 21)).
  Proof. intro Ha. unfold inv_chain, inv_chain_gen. chain_tac x Ha. Qed.
  Lemma pow_p58_ok a x : rep a x -> rep (pow_p58_chain mulE sqrE a) (x ^ (2 ^ 252 - 3)).
  Proof. intro Ha. unfold pow_p58_chain. chain_tac x Ha. Qed.
  Lemma inv448_chain_ok a x : rep a x -> rep (inv448_chain mulE sqrE a) (x ^ (2 ^ 448 - 2 ^ 224 - 3)).
  Proof. intro Ha. unfold inv448_chain, invsqrt448_chain. chain_tac x Ha. Qed.
  Lemma invsqrt448_chain_ok a x : rep a x -> rep (invsqrt448_chain mulE sqrE a) (x ^ (2 ^ 446 - 2 ^ 222 - 1)).
  Proof. intro Ha. unfold invsqrt448_chain. chain_tac x Ha. Qed.
End Chain.
