(** Programs that only move words (interleaving, copying). *)
From Coq Require Import ZArith List Bool Lia.
From Verif Require Import Uop Engine Simd Lanes.
Import ListNotations.
Open Scope Z_scope.

Definition mlook (m : PositiveMap.t opd) (l : loc) : opd :=
  match PositiveMap.find l m with Some o => o | None => L l end.
(** Where the content of each location comes from. *)
Fixpoint mvs (p : list uop) (m : PositiveMap.t opd) : option (PositiveMap.t opd) :=
  match p with
  | [] => Some m
  | UMov d (L s) :: p => mvs p (PositiveMap.add d (mlook m s) m)
  | UMov d (I z) :: p => mvs p (PositiveMap.add d (I z) m)
  | _ => None
  end.
Lemma mvs_sound p : forall m m' st s, mvs p m = Some m' -> (forall l, get s l = ev st (mlook m l)) ->
  forall l, get (run p s) l = ev st (mlook m' l).
Proof.
  induction p as [|u p IH]; intros m m' st s H A l; cbn [mvs run] in *.
  - injection H as <-. auto.
  - destruct u; try discriminate.
    destruct a as [s0|z].
    + eapply IH; [exact H|]. intro k. cbn [step ev]. unfold mlook at 1.
      destruct (Pos.eq_dec k d) as [->|N].
      * rewrite PositiveMap.gss, get_set_same. apply A.
      * rewrite PositiveMap.gso, get_set_other by auto. apply A.
    + eapply IH; [exact H|]. intro k. cbn [step ev]. unfold mlook at 1.
      destruct (Pos.eq_dec k d) as [->|N].
      * rewrite PositiveMap.gss, get_set_same. reflexivity.
      * rewrite PositiveMap.gso, get_set_other by auto. apply A.
Qed.

(** Output words [oix i] are the words [iix i] of the k-th input, for i < n. *)
Definition moves_check (p : list uop) (ins : list (loc * nat)) (out : loc) (nout : nat)
  (oix : nat -> nat) (k : nat) (iix : nat -> nat) (n : nat) : bool :=
  disjoint ins &&
  match nth_error ins k, mvs (slice p (map (fun i => la out (oix i)) (seq 0 n))) (PositiveMap.empty _) with
  | Some (B, len), Some m =>
      forallb (fun i => Nat.ltb (oix i) nout && Nat.ltb (iix i) len &&
        opd_eqb (mlook m (la out (oix i))) (L (la B (iix i)))) (seq 0 n)
  | _, _ => false
  end.
Theorem moves_ok p ins out nout oix k iix n xs st :
  moves_check p ins out nout oix k iix n = true -> map (@length Z) xs = map snd ins ->
  pick oix n (call p (combine (map fst ins) xs) out nout st) = pick iix n (nth k xs []).
Proof.
  intros H Hl. unfold moves_check in H. apply andb_prop in H as [D H].
  destruct (nth_error ins k) as [[B len]|] eqn:Ek; [|discriminate].
  destruct (mvs _ _) as [m|] eqn:M; [|discriminate].
  rewrite forallb_forall in H. unfold pick. apply map_ext_in. intros i Hi. specialize (H i Hi).
  apply andb_prop in H as [H H3]. apply andb_prop in H as [H1 H2].
  apply Nat.ltb_lt in H1, H2. apply opd_eqb_eq in H3.
  unfold call. set (S := wrs _ st). rewrite rd_nth by auto.
  rewrite (slice_sound p (map (fun i => la out (oix i)) (seq 0 n))) by now apply (in_map (fun i => la out (oix i))).
  rewrite (mvs_sound _ _ _ S S M) by (intro l; unfold mlook; now rewrite PositiveMap.gempty).
  rewrite H3. cbn [ev].
  assert (C1 : map (fun x => (fst x, length (snd x))) (combine (map fst ins) xs) = ins).
  { clear - Hl. revert xs Hl; induction ins as [|[a b] ins IH]; intros [|y xs] Hl; try discriminate; auto.
    cbn [map combine fst snd] in *. injection Hl as Hy Hl. rewrite IH by auto. now rewrite Hy. }
  pose proof (rd_wrs (combine (map fst ins) xs) st) as R. rewrite C1 in R. specialize (R D). fold S in R.
  assert (E : nth_error (combine (map fst ins) xs) k = Some (B, nth k xs []) /\ length (nth k xs []) = len).
  { clear - Hl Ek. revert k xs Hl Ek; induction ins as [|[a b] ins IH]; intros k xs Hl Ek; [destruct k; discriminate|].
    destruct xs as [|y xs]; [discriminate|]. cbn [map] in Hl. injection Hl as Hy Hl.
    destruct k as [|k]; cbn [nth_error map combine nth] in *.
    - injection Ek as -> ->. auto.
    - now apply IH. }
  destruct E as [E1 E2]. rewrite Forall_forall in R. specialize (R _ (nth_error_In _ _ E1)). cbn [fst snd] in R.
  rewrite <- (rd_nth B len S) by auto. rewrite <- E2, R. reflexivity.
Qed.
Lemma pick_id n xs : length xs = n -> pick (fun i => i) n xs = xs.
Proof.
  intros <-. unfold pick. induction xs as [|x xs IH]; cbn [length seq map]; auto.
  f_equal. rewrite <- seq_shift, map_map. exact IH.
Qed.
(** Programs that store constants. *)
Fixpoint opds_eqb (a b : list opd) : bool :=
  match a, b with [], [] => true | x :: a, y :: b => opd_eqb x y && opds_eqb a b | _, _ => false end.
Lemma opds_eqb_eq a : forall b, opds_eqb a b = true -> a = b.
Proof.
  induction a as [|x a IH]; intros [|y b] H; try discriminate; auto.
  cbn [opds_eqb] in H. apply andb_prop in H as [H1 H2]. apply opd_eqb_eq in H1. apply IH in H2. congruence.
Qed.
Definition consts_check (p : list uop) (out : loc) (zs : list Z) : bool :=
  match mvs (slice p (larr out (length zs))) (PositiveMap.empty _) with
  | Some m => opds_eqb (map (mlook m) (larr out (length zs))) (map I zs)
  | None => false
  end.
Theorem consts_ok p ins out zs st : consts_check p out zs = true -> call p ins out (length zs) st = zs.
Proof.
  unfold consts_check. intro H. rewrite call_slice. unfold call. set (S := wrs ins st).
  destruct (mvs _ _) as [m|] eqn:M; [|discriminate]. apply opds_eqb_eq in H.
  assert (E : rd out (length zs) (run (slice p (larr out (length zs))) S) = map (ev S) (map (mlook m) (larr out (length zs)))).
  { rewrite rd_map, larr_la, !map_map. apply map_ext. intro i.
    rewrite <- larr_la. apply (mvs_sound _ _ _ S S M). intro l. unfold mlook. now rewrite PositiveMap.gempty. }
  rewrite E, H, map_map. cbn [ev]. apply map_id.
Qed.
