(** From the contracts of the vector code to the specification vocabulary. *)
From Coq Require Import ZArith List Bool Lia.
From Verif Require Import Uop Poly Sym Engine Check Bytes FullTac Simd Simd255 Simd448 Lanes RedTac Moves
  X86 Asm25519 Asm448 Fp25519Full Fp448Full Fp25519Red Fp448Red Fp25519FullProofs Fp448FullProofs Fp25519RedProofs Fp25519RedMore
  Fp25519RedRoot Fp448RedProofs Fp448RedMore Fp448RedRoot FullMore Spec SpecVec.
Import ListNotations.
Open Scope Z_scope.
Local Opaque call.

(** ** Limbs *)
Lemma below_gen n (f : nat -> Z) : forall m a, Forall2 inI (map (fun k => (0, f k)) (seq m n)) a <->
  length a = n /\ forall k, (k < n)%nat -> 0 <= nth k a 0 <= f (m + k)%nat.
Proof.
  induction n as [|n IH]; intros m a; cbn [seq map].
  - split.
    + intro H. inversion H. split; [reflexivity|lia].
    + intros [L _]. destruct a; [apply Forall2_nil|discriminate L].
  - split.
    + intro H. destruct a as [|x a]; [inversion H|]. apply f2_inv in H as [Hx H]. apply IH in H as [L H].
      split; [cbn [length]; now rewrite L|]. intros [|k] Hk; cbn [nth].
      * rewrite Nat.add_0_r. exact Hx.
      * replace (m + S k)%nat with (S m + k)%nat by lia. apply H. lia.
    + intros [L H]. destruct a as [|x a]; [discriminate L|]. apply Forall2_cons.
      * specialize (H 0%nat ltac:(lia)). cbn [nth] in H. rewrite Nat.add_0_r in H. exact H.
      * apply IH. split; [now injection L|]. intros k Hk. specialize (H (S k) ltac:(lia)). cbn [nth] in H.
        replace (S m + k)%nat with (m + S k)%nat by lia. exact H.
Qed.
Lemma below_ok n f b a : b = map (fun k => (0, f (limb_index n k))) (seq 0 n) -> arr_ok b a <-> limbs_below n f a.
Proof. intros ->. unfold arr_ok, limbs_below. apply (below_gen n (fun k => f (limb_index n k)) 0). Qed.
Lemma red255_below : red255 = map (fun k => (0, reduced255 (limb_index 10 k))) (seq 0 10). Proof. vm_compute. reflexivity. Qed.
Lemma canon255_below : canon255 = map (fun k => (0, canonical255 (limb_index 10 k))) (seq 0 10). Proof. vm_compute. reflexivity. Qed.
Lemma wide255_below : wide255 = map (fun k => (0, unreduced255 (limb_index 10 k))) (seq 0 10). Proof. vm_compute. reflexivity. Qed.
Lemma big255_below : big255 = map (fun k => (0, double255 (limb_index 10 k))) (seq 0 10). Proof. vm_compute. reflexivity. Qed.
Lemma canon448_below : canon448 = map (fun k => (0, canonical448 (limb_index 16 k))) (seq 0 16). Proof. vm_compute. reflexivity. Qed.
Lemma red448_below : red448 = map (fun k => (0, reduced448 (limb_index 16 k))) (seq 0 16). Proof. vm_compute. reflexivity. Qed.
Lemma mid448_below : mid448 = map (fun k => (0, summed448 (limb_index 16 k))) (seq 0 16). Proof. vm_compute. reflexivity. Qed.
Lemma wide448_below : wide448 = map (fun k => (0, differed448 (limb_index 16 k))) (seq 0 16). Proof. vm_compute. reflexivity. Qed.
Lemma big448_below : big448 = map (fun k => (0, double448 (limb_index 16 k))) (seq 0 16). Proof. vm_compute. reflexivity. Qed.

(** ** Values *)
Lemma value_gen (g : nat -> Z) n : forall m a, length a = n ->
  wsum (map g (seq m n)) a = fold_right Z.add 0 (map (fun k => g (m + k)%nat * nth k a 0) (seq 0 n)).
Proof.
  induction n as [|n IH]; intros m a L; destruct a as [|x a]; try discriminate L; [reflexivity|].
  injection L as L. cbn [seq map wsum fold_right nth]. rewrite Nat.add_0_r. f_equal. rewrite (IH (S m) a L).
  f_equal. rewrite <- seq_shift, map_map. apply map_ext. intro k. cbn [nth]. f_equal. f_equal. lia.
Qed.
Lemma value255_ok a : length a = 10%nat -> value255 a = fe255 a.
Proof.
  intro L. unfold value255, value. change wt255 with (map (fun k => 2 ^ pos255 (limb_index 10 k)) (seq 0 10)).
  symmetry. exact (value_gen _ 10 0 a L).
Qed.
Lemma value448_ok a : length a = 16%nat -> value448 a = fe448 a.
Proof.
  intro L. unfold value448, value. change wt448 with (map (fun k => 2 ^ pos448 (limb_index 16 k)) (seq 0 16)).
  symmetry. exact (value_gen _ 16 0 a L).
Qed.

(** ** Lanes *)
Lemma lane1 n j a : length a = n -> lane 1 n j a = a.
Proof. intro L. unfold lane. cbn [word_index]. exact (pick_id n a L). Qed.
Definition hf (j : nat) : bool := Nat.eqb j 1.
Lemma lane2 n j a : (j < 2)%nat -> lane 2 n j a = pick (ixh (hf j)) n a.
Proof.
  intro Hj. unfold lane, pick. apply map_ext. intro k. cbn [word_index]. f_equal. unfold ixh, hf.
  destruct j as [|[|j]]; [| |lia]; cbn [Nat.eqb]; lia.
Qed.
Lemma lane4 n j a : lane 4 n j a = pick (ix4 j) n a.
Proof. reflexivity. Qed.
Lemma lane_length w n j a : length (lane w n j a) = n.
Proof. unfold lane. now rewrite map_length, seq_length. Qed.

Lemma cg_eqm x y : cg x y -> eqm P25519 x y.
Proof. intro H. apply mod_cong in H; [exact H|discriminate]. Qed.
Lemma cq_eqm x y : cq x y -> eqm P448 x y.
Proof. intro H. apply mod_cong in H; [exact H|discriminate]. Qed.

(** ** Contracts, generically in the field *)
Section Gen.
  Variables (n : nat) (pos : nat -> Z) (p : Z) (wt : list Z).
  Hypothesis Hv : forall a, length a = n -> value n pos a = wsum wt a.
  Variables (b1 b2 bo : list (Z * Z)) (f1 f2 g : nat -> Z).
  Hypothesis E1 : b1 = map (fun k => (0, f1 (limb_index n k))) (seq 0 n).
  Hypothesis E2 : b2 = map (fun k => (0, f2 (limb_index n k))) (seq 0 n).
  Hypothesis Eo : bo = map (fun k => (0, g (limb_index n k))) (seq 0 n).
  Let ev x y := (x - y) mod p = 0.
  Hypothesis Hp : p <> 0.
  Lemma ev_eqm x y : ev x y -> eqm p x y.
  Proof. intro H. exact (mod_cong _ _ _ Hp H). Qed.

  Lemma one_1 f op : (forall a, arr_ok b1 a -> ev (wsum wt (op a)) (f (wsum wt a)) /\ arr_ok bo (op a)) ->
    computes1 1 n pos p f1 g f op.
  Proof.
    intros H a [La Ha]. rewrite Nat.mul_1_l in La. specialize (Ha 0%nat ltac:(lia)). rewrite (lane1 n 0 a La) in Ha.
    destruct (H a (proj2 (below_ok _ _ _ _ E1) Ha)) as [V B].
    apply (below_ok _ _ _ _ Eo) in B as B'. pose proof (proj1 B') as L.
    split.
    - split; [now rewrite Nat.mul_1_l|]. intros j Hj. rewrite (lane1 n j _ L). exact B'.
    - intros j Hj. rewrite (lane1 n j _ L), (lane1 n j _ La), (Hv _ L), (Hv _ La). apply ev_eqm, V.
  Qed.
  Lemma two_1 f op : (forall a b, arr_ok b1 a -> arr_ok b2 b -> ev (wsum wt (op a b)) (f (wsum wt a) (wsum wt b)) /\ arr_ok bo (op a b)) ->
    computes2 1 n pos p f1 f2 g f op.
  Proof.
    intros H a b [La Ha] [Lb Hb]. rewrite Nat.mul_1_l in La, Lb. specialize (Ha 0%nat ltac:(lia)). specialize (Hb 0%nat ltac:(lia)).
    rewrite (lane1 n 0 a La) in Ha. rewrite (lane1 n 0 b Lb) in Hb.
    destruct (H a b (proj2 (below_ok _ _ _ _ E1) Ha) (proj2 (below_ok _ _ _ _ E2) Hb)) as [V B].
    apply (below_ok _ _ _ _ Eo) in B as B'. pose proof (proj1 B') as L.
    split.
    - split; [now rewrite Nat.mul_1_l|]. intros j Hj. rewrite (lane1 n j _ L). exact B'.
    - intros j Hj. rewrite (lane1 n j _ L), (lane1 n j _ La), (lane1 n j _ Lb), (Hv _ L), (Hv _ La), (Hv _ Lb). apply ev_eqm, V.
  Qed.
  Lemma one_2 f op : (forall a, length (op a) = (2 * n)%nat) ->
    (forall a h, length a = (2 * n)%nat -> arr_ok b1 (pick (ixh h) n a) ->
      ev (wsum wt (pick (ixh h) n (op a))) (f (wsum wt (pick (ixh h) n a))) /\ arr_ok bo (pick (ixh h) n (op a))) ->
    computes1 2 n pos p f1 g f op.
  Proof.
    intros L H a [La Ha].
    assert (X : forall j, (j < 2)%nat -> ev (wsum wt (lane 2 n j (op a))) (f (wsum wt (lane 2 n j a))) /\ limbs_below n g (lane 2 n j (op a))).
    { intros j Hj. specialize (Ha j Hj). rewrite !(lane2 n j _ Hj) in *.
      destruct (H a (hf j) La (proj2 (below_ok _ _ _ _ E1) Ha)) as [V B].
      split; [exact V|]. apply (below_ok _ _ _ _ Eo), B. }
    split.
    - split; [apply L|]. intros j Hj. apply X, Hj.
    - intros j Hj. rewrite !Hv by apply lane_length. apply ev_eqm, X, Hj.
  Qed.
  Lemma two_2 f op : (forall a b, length (op a b) = (2 * n)%nat) ->
    (forall a b h, length a = (2 * n)%nat -> length b = (2 * n)%nat -> arr_ok b1 (pick (ixh h) n a) -> arr_ok b2 (pick (ixh h) n b) ->
      ev (wsum wt (pick (ixh h) n (op a b))) (f (wsum wt (pick (ixh h) n a)) (wsum wt (pick (ixh h) n b))) /\ arr_ok bo (pick (ixh h) n (op a b))) ->
    computes2 2 n pos p f1 f2 g f op.
  Proof.
    intros L H a b [La Ha] [Lb Hb].
    assert (X : forall j, (j < 2)%nat -> ev (wsum wt (lane 2 n j (op a b))) (f (wsum wt (lane 2 n j a)) (wsum wt (lane 2 n j b))) /\ limbs_below n g (lane 2 n j (op a b))).
    { intros j Hj. specialize (Ha j Hj). specialize (Hb j Hj). rewrite !(lane2 n j _ Hj) in *.
      destruct (H a b (hf j) La Lb (proj2 (below_ok _ _ _ _ E1) Ha) (proj2 (below_ok _ _ _ _ E2) Hb)) as [V B].
      split; [exact V|]. apply (below_ok _ _ _ _ Eo), B. }
    split.
    - split; [apply L|]. intros j Hj. apply X, Hj.
    - intros j Hj. rewrite !Hv by apply lane_length. apply ev_eqm, X, Hj.
  Qed.
  Lemma one_4 f op : (forall a, length (op a) = (4 * n)%nat) ->
    (forall j, (j < 4)%nat -> forall a, length a = (4 * n)%nat -> arr_ok b1 (pick (ix4 j) n a) ->
      ev (wsum wt (pick (ix4 j) n (op a))) (f (wsum wt (pick (ix4 j) n a))) /\ arr_ok bo (pick (ix4 j) n (op a))) ->
    computes1 4 n pos p f1 g f op.
  Proof.
    intros L H a [La Ha].
    assert (X : forall j, (j < 4)%nat -> ev (wsum wt (lane 4 n j (op a))) (f (wsum wt (lane 4 n j a))) /\ limbs_below n g (lane 4 n j (op a))).
    { intros j Hj. specialize (Ha j Hj).
      destruct (H j Hj a La (proj2 (below_ok _ _ _ _ E1) Ha)) as [V B].
      split; [exact V|]. apply (below_ok _ _ _ _ Eo), B. }
    split.
    - split; [apply L|]. intros j Hj. apply X, Hj.
    - intros j Hj. rewrite !Hv by apply lane_length. apply ev_eqm, X, Hj.
  Qed.
  Lemma two_4 f op : (forall a b, length (op a b) = (4 * n)%nat) ->
    (forall j, (j < 4)%nat -> forall a b, length a = (4 * n)%nat -> length b = (4 * n)%nat -> arr_ok b1 (pick (ix4 j) n a) -> arr_ok b2 (pick (ix4 j) n b) ->
      ev (wsum wt (pick (ix4 j) n (op a b))) (f (wsum wt (pick (ix4 j) n a)) (wsum wt (pick (ix4 j) n b))) /\ arr_ok bo (pick (ix4 j) n (op a b))) ->
    computes2 4 n pos p f1 f2 g f op.
  Proof.
    intros L H a b [La Ha] [Lb Hb].
    assert (X : forall j, (j < 4)%nat -> ev (wsum wt (lane 4 n j (op a b))) (f (wsum wt (lane 4 n j a)) (wsum wt (lane 4 n j b))) /\ limbs_below n g (lane 4 n j (op a b))).
    { intros j Hj. specialize (Ha j Hj). specialize (Hb j Hj).
      destruct (H j Hj a b La Lb (proj2 (below_ok _ _ _ _ E1) Ha) (proj2 (below_ok _ _ _ _ E2) Hb)) as [V B].
      split; [exact V|]. apply (below_ok _ _ _ _ Eo), B. }
    split.
    - split; [apply L|]. intros j Hj. apply X, Hj.
    - intros j Hj. rewrite !Hv by apply lane_length. apply ev_eqm, X, Hj.
  Qed.
End Gen.
(** From the lane checks to independence of the lanes. *)
Lemma lw1_2 n prog B st st' : duo_check prog [B] B n = true ->
  lanewise1 2 n (fun a => call (vcode prog) [(B, a)] B (2 * n) st) (fun a => call (vcode prog) [(B, a)] B (2 * n) st').
Proof.
  intros C a a' j j' La La' Hj Hj' E. rewrite !lane2 in * by assumption.
  apply (duo_lanes prog [B] B n [a] [a'] st st' (hf j) (hf j') C).
  - apply Forall2_cons; [exact La|apply Forall2_nil].
  - apply Forall2_cons; [exact La'|apply Forall2_nil].
  - cbn [map]. now rewrite E.
Qed.
Lemma lw2_2 n prog B1 B2 o st st' : duo_check prog [B1; B2] o n = true ->
  lanewise2 2 n (fun a b => call (vcode prog) [(B1, a); (B2, b)] o (2 * n) st) (fun a b => call (vcode prog) [(B1, a); (B2, b)] o (2 * n) st').
Proof.
  intros C a b a' b' j j' La Lb La' Lb' Hj Hj' E F. rewrite !lane2 in * by assumption.
  apply (duo_lanes prog [B1; B2] o n [a; b] [a'; b'] st st' (hf j) (hf j') C).
  - apply Forall2_cons; [exact La|]. apply Forall2_cons; [exact Lb|apply Forall2_nil].
  - apply Forall2_cons; [exact La'|]. apply Forall2_cons; [exact Lb'|apply Forall2_nil].
  - cbn [map]. now rewrite E, F.
Qed.
Lemma lw1_4 n prog B st st' : quad_check prog [B] B n = true ->
  lanewise1 4 n (fun a => call (vcode prog) [(B, a)] B (4 * n) st) (fun a => call (vcode prog) [(B, a)] B (4 * n) st').
Proof.
  intros C a a' j j' La La' Hj Hj' E. rewrite !lane4 in *.
  apply (quad_lanes prog [B] B n [a] [a'] st st' j j' C Hj Hj').
  - apply Forall2_cons; [exact La|apply Forall2_nil].
  - apply Forall2_cons; [exact La'|apply Forall2_nil].
  - cbn [map]. now rewrite E.
Qed.
Lemma lw2_4 n prog B1 B2 o st st' : quad_check prog [B1; B2] o n = true ->
  lanewise2 4 n (fun a b => call (vcode prog) [(B1, a); (B2, b)] o (4 * n) st) (fun a b => call (vcode prog) [(B1, a); (B2, b)] o (4 * n) st').
Proof.
  intros C a b a' b' j j' La Lb La' Lb' Hj Hj' E F. rewrite !lane4 in *.
  apply (quad_lanes prog [B1; B2] o n [a; b] [a'; b'] st st' j j' C Hj Hj').
  - apply Forall2_cons; [exact La|]. apply Forall2_cons; [exact Lb|apply Forall2_nil].
  - apply Forall2_cons; [exact La'|]. apply Forall2_cons; [exact Lb'|apply Forall2_nil].
  - cbn [map]. now rewrite E, F.
Qed.
Lemma lw_comp1 w n op op' u u' : lanewise1 w n op op' -> lanewise1 w n u u' ->
  (forall a, length (op a) = (w * n)%nat) -> (forall a, length (op' a) = (w * n)%nat) ->
  lanewise1 w n (fun a => u (op a)) (fun a => u' (op' a)).
Proof. intros H K L L' a a' j j' La La' Hj Hj' E. apply K; [apply L|apply L'|exact Hj|exact Hj'|]. now apply H. Qed.
Lemma lw_comp2 w n op op' u u' : lanewise2 w n op op' -> lanewise1 w n u u' ->
  (forall a b, length (op a b) = (w * n)%nat) -> (forall a b, length (op' a b) = (w * n)%nat) ->
  lanewise2 w n (fun a b => u (op a b)) (fun a b => u' (op' a b)).
Proof. intros H K L L' a b a' b' j j' La Lb La' Lb' Hj Hj' E F. apply K; [apply L|apply L'|exact Hj|exact Hj'|]. now apply H. Qed.

(** ** Programs of any length *)
Scheme rexp_ind2 := Induction for rexp Sort Prop with wexp_ind2 := Induction for wexp Sort Prop.
Combined Scheme rwexp_ind from rexp_ind2, wexp_ind2.
Section Chain.
  Variables (w n : nat) (pos : nat -> Z) (p : Z) (r u : nat -> Z) (o : ops).
  Hypothesis Hp : p <> 0.
  Hypothesis ru : forall i, r i <= u i.
  Hypothesis Hadd : computes2 w n pos p r r u Z.add (o_add o).
  Hypothesis Hsub : computes2 w n pos p r r u Z.sub (o_sub o).
  Hypothesis Hneg : computes1 w n pos p r u Z.opp (o_neg o).
  Hypothesis Hmul : computes2 w n pos p u u r Z.mul (o_mul o).
  Hypothesis Hsqr : computes1 w n pos p u r (fun x => x ^ 2) (o_sqr o).
  Hypothesis Hcarry : computes1 w n pos p u r (fun x => x) (o_carry o).
  Let v j a := value n pos (lane w n j a).
  Lemma lanes_ru a : lanes w n r a -> lanes w n u a.
  Proof.
    intros [L H]. split; [exact L|]. intros j Hj. destruct (H j Hj) as [L' K]. split; [exact L'|].
    intros k Hk. specialize (K k Hk). specialize (ru (limb_index n k)). lia.
  Qed.
  Lemma eqm_op2 (x y x' y' : Z) : eqm p x x' -> eqm p y y' ->
    eqm p (x + y) (x' + y') /\ eqm p (x - y) (x' - y') /\ eqm p (x * y) (x' * y').
  Proof.
    unfold eqm. intros E F.
    split; [rewrite Zplus_mod, E, F, <- Zplus_mod; reflexivity|].
    split; [rewrite Zminus_mod, E, F, <- Zminus_mod; reflexivity|].
    rewrite Zmult_mod, E, F, <- Zmult_mod. reflexivity.
  Qed.
  Lemma chain_ok :
    (forall e, rleaves (lanes w n r) e -> lanes w n r (rrun o e) /\ forall j, (j < w)%nat -> eqm p (v j (rrun o e)) (rmeaning (v j) e)) /\
    (forall e, wleaves (lanes w n r) e -> lanes w n u (wrun o e) /\ forall j, (j < w)%nat -> eqm p (v j (wrun o e)) (wmeaning (v j) e)).
  Proof.
    apply rwexp_ind; cbn [rleaves wleaves rrun wrun rmeaning wmeaning].
    - intros a H. split; [exact H|]. intros j Hj. reflexivity.
    - intros x Hx y Hy [Lx Ly]. destruct (Hx Lx) as [Bx Vx]. destruct (Hy Ly) as [By Vy].
      destruct (Hmul _ _ Bx By) as [B V]. split; [exact B|]. intros j Hj. refine (eq_trans (V j Hj) _).
      exact (proj2 (proj2 (eqm_op2 _ _ _ _ (Vx j Hj) (Vy j Hj)))).
    - intros x Hx Lx. destruct (Hx Lx) as [Bx Vx]. destruct (Hsqr _ Bx) as [B V]. split; [exact B|]. intros j Hj. refine (eq_trans (V j Hj) _).
      rewrite !Z.pow_2_r. exact (proj2 (proj2 (eqm_op2 _ _ _ _ (Vx j Hj) (Vx j Hj)))).
    - intros x Hx Lx. destruct (Hx Lx) as [Bx Vx]. destruct (Hcarry _ Bx) as [B V]. split; [exact B|]. intros j Hj. refine (eq_trans (V j Hj) _). exact (Vx j Hj).
    - intros x Hx Lx. destruct (Hx Lx) as [Bx Vx]. split; [exact (lanes_ru _ Bx)|exact Vx].
    - intros x Hx y Hy [Lx Ly]. destruct (Hx Lx) as [Bx Vx]. destruct (Hy Ly) as [By Vy].
      destruct (Hadd _ _ Bx By) as [B V]. split; [exact B|]. intros j Hj. refine (eq_trans (V j Hj) _).
      exact (proj1 (eqm_op2 _ _ _ _ (Vx j Hj) (Vy j Hj))).
    - intros x Hx y Hy [Lx Ly]. destruct (Hx Lx) as [Bx Vx]. destruct (Hy Ly) as [By Vy].
      destruct (Hsub _ _ Bx By) as [B V]. split; [exact B|]. intros j Hj. refine (eq_trans (V j Hj) _).
      exact (proj1 (proj2 (eqm_op2 _ _ _ _ (Vx j Hj) (Vy j Hj)))).
    - intros x Hx Lx. destruct (Hx Lx) as [Bx Vx]. destruct (Hneg _ Bx) as [B V]. split; [exact B|]. intros j Hj. refine (eq_trans (V j Hj) _).
      rewrite <- !Z.sub_0_l. exact (proj1 (proj2 (eqm_op2 0 _ 0 _ eq_refl (Vx j Hj)))).
  Qed.
End Chain.
